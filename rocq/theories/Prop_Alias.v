(** Prop_Alias.v -- C18: the receiver of an in-place method may be any of its operands.

    [returns c a h z n]: started in memory [h], the call [c] returns [a]; the variable [z] then holds the
    number [n], every other variable that existed before the call is unchanged, and all variables that
    existed still exist.  In every theorem the pointers [z], [x], [y], [m] are arbitrary live variables:
    any of them may be equal.  The numbers on the right are read from the memory before the call. *)
From Verif Require Import Base U256 U256Facts U256Z U256Bits U256Shift U256Div U256DivFacts U256DivSpec U256Exp U256Mod U256ModSpec Alias AliasFacts Prop_U256.
Ltac Zify.zify_post_hook ::= idtac.

(** the number stored in variable [p] *)
Definition num (h : mem) (p : ptr) : Z :=
  match nth_error h p with Some v => toZ v | None => 0 end.
Definition live (h : mem) (p : ptr) : Prop := (p < length h)%nat.
Definition returns {A} (c : cmd A) (a : A) (h : mem) (z : ptr) (n : Z) : Prop :=
  exists h', c h = Ok (a, h') /\ (length h <= length h')%nat /\ num h' z = n /\
    (forall p, live h p -> p <> z -> nth_error h' p = nth_error h p) /\
    (forall p v, live h p -> nth_error h' p = Some v -> wf v).

Lemma num_cell h p : live h p -> num h p = toZ (cell h p).
Proof. intros H. unfold num, cell. rewrite (nth_error_nth' h Clear H). reflexivity. Qed.
Lemma wf_cell h p : Forall wf h -> live h p -> wf (cell h p).
Proof. intros F H. rewrite Forall_forall in F. apply F. unfold cell. apply nth_In, H. Qed.
Lemma nth_error_setn h z p v : p <> z -> nth_error (setn h z v) p = nth_error h p.
Proof. revert z p; induction h as [|a h IH]; intros [|z] [|p] H; cbn; auto; congruence. Qed.
Lemma sets_returns {A} (c : cmd A) h z v (a : A) n : Forall wf h -> live h z ->
  sets c h z v a -> wf v /\ toZ v = n -> returns c a h z n.
Proof.
  intros F Hz [g E] [Hv Hn]. exists (setn h z v ++ g). split; [exact E|]. split; [len|].
  unfold live in *. split; [|split].
  - rewrite num_cell by (unfold live; len). rewrite cell_app1, cell_setn_eq by len. exact Hn.
  - intros p Hp N. rewrite nth_error_app1 by len. apply nth_error_setn, N.
  - intros p w Hp Hw. destruct (Nat.eq_dec p z) as [->|N].
    + rewrite (nth_error_nth' (setn h z v ++ g) Clear) in Hw by len. injection Hw as <-.
      change (nth z (setn h z v ++ g) Clear) with (cell (setn h z v ++ g) z).
      rewrite cell_app1, cell_setn_eq by len. exact Hv.
    + rewrite nth_error_app1, nth_error_setn in Hw by (assumption || len).
      rewrite Forall_forall in F. apply F. apply (nth_error_In _ _ Hw).
Qed.
Ltac ret := apply sets_returns; [assumption|assumption|..].

Section C18.
Variable h : mem.
Variables z x y : ptr.
Hypothesis F : Forall wf h.
Hypothesis Hz : live h z.
Hypothesis Hx : live h x.
Hypothesis Hy : live h y.

Lemma alias_add_sub :
  returns (mAdd z x y) tt h z ((num h x + num h y) mod T256) /\
  returns (mSub z x y) tt h z ((num h x - num h y) mod T256) /\
  returns (mAddOverflow z x y) (T256 <=? num h x + num h y) h z ((num h x + num h y) mod T256) /\
  returns (mSubOverflow z x y) (num h x <? num h y) h z ((num h x - num h y) mod T256) /\
  returns (mNeg z x) tt h z ((- num h x) mod T256).
Proof.
  rewrite (num_cell h x Hx), (num_cell h y Hy).
  pose proof (wf_cell h x F Hx) as Wx. pose proof (wf_cell h y F Hy) as Wy.
  destruct (AddOverflow_spec _ _ Wx Wy) as (Wa & Ta & Oa).
  destruct (SubOverflow_spec _ _ Wx Wy) as (Ws & Ts & Os).
  repeat apply conj.
  - eapply sets_returns; try assumption; [apply sets_of, mAdd_ok; assumption|]. apply Add_spec; assumption.
  - eapply sets_returns; try assumption; [apply sets_of, mSub_ok; assumption|]. apply Sub_spec; assumption.
  - eapply sets_returns; try assumption; [apply sets_of; rewrite <- Oa; apply mAddOverflow_ok; assumption|]. auto.
  - eapply sets_returns; try assumption; [apply sets_of; rewrite <- Os; apply mSubOverflow_ok; assumption|]. auto.
  - eapply sets_returns; try assumption; [apply mNeg_ok; assumption|]. apply Neg_spec; assumption.
Qed.

Lemma alias_word n : 0 <= n < W ->
  returns (mAddUint64 z x n) tt h z ((num h x + n) mod T256) /\
  returns (mSubUint64 z x n) tt h z ((num h x - n) mod T256).
Proof.
  intros Hn. rewrite (num_cell h x Hx). pose proof (wf_cell h x F Hx) as Wx.
  split.
  - eapply sets_returns; try assumption; [apply sets_of, mAddUint64_ok; assumption|]. apply AddUint64_spec; assumption.
  - eapply sets_returns; try assumption; [apply sets_of, mSubUint64_ok; assumption|]. apply SubUint64_spec; assumption.
Qed.

Lemma alias_mul :
  returns (mMul z x y) tt h z ((num h x * num h y) mod T256) /\
  returns (mMulOverflow z x y) (T256 <=? num h x * num h y) h z ((num h x * num h y) mod T256) /\
  returns (msquared z) tt h z ((num h z * num h z) mod T256) /\
  returns (mExp z x y) tt h z ((num h x ^ num h y) mod T256).
Proof.
  rewrite (num_cell h x Hx), (num_cell h y Hy), (num_cell h z Hz).
  pose proof (wf_cell h x F Hx) as Wx. pose proof (wf_cell h y F Hy) as Wy. pose proof (wf_cell h z F Hz) as Wz.
  destruct (MulOverflow_spec _ _ Wx Wy) as (Wm & Tm & Om).
  repeat apply conj.
  - eapply sets_returns; try assumption; [apply mMul_ok; assumption|]. apply Mul_spec; assumption.
  - eapply sets_returns; try assumption; [apply sets_of; rewrite <- Om; apply mMulOverflow_ok; try assumption|].
    + apply (Umul_length_spec _ _ Wx Wy).
    + auto.
  - eapply sets_returns; try assumption; [apply msquared_ok; assumption|]. apply squared_spec; assumption.
  - eapply sets_returns; try assumption; [apply mExp_ok; assumption|]. apply Exp_spec; assumption.
Qed.

Lemma alias_div :
  returns (mDiv z x y) tt h z (if num h y =? 0 then 0 else num h x / num h y) /\
  returns (mMod z x y) tt h z (if num h y =? 0 then 0 else num h x mod num h y) /\
  returns (mSDiv z x y) tt h z
    ((if num h y =? 0 then 0 else Z.quot (sgn256 (num h x)) (sgn256 (num h y))) mod T256) /\
  returns (mSMod z x y) tt h z
    ((if num h y =? 0 then 0 else Z.rem (sgn256 (num h x)) (sgn256 (num h y))) mod T256).
Proof.
  rewrite (num_cell h x Hx), (num_cell h y Hy).
  pose proof (wf_cell h x F Hx) as Wx. pose proof (wf_cell h y F Hy) as Wy.
  destruct (Div0_spec _ _ Wx Wy) as (v1 & E1 & T1). destruct (Mod_spec _ _ Wx Wy) as (v2 & E2 & T2).
  destruct (SDiv_spec _ _ Wx Wy) as (v3 & E3 & T3). destruct (SMod_spec _ _ Wx Wy) as (v4 & E4 & T4).
  repeat apply conj.
  - eapply sets_returns; try assumption; [apply mDiv_ok; eassumption|exact T1].
  - eapply sets_returns; try assumption; [apply mMod_ok; eassumption|exact T2].
  - eapply sets_returns; try assumption; [apply mSDiv_ok; eassumption|exact T3].
  - eapply sets_returns; try assumption; [apply mSMod_ok; eassumption|exact T4].
Qed.

Lemma alias_bits :
  returns (mAnd z x y) tt h z (Z.land (num h x) (num h y)) /\
  returns (mOr z x y) tt h z (Z.lor (num h x) (num h y)) /\
  returns (mXor z x y) tt h z (Z.lxor (num h x) (num h y)) /\
  returns (mNot z x) tt h z (T256 - 1 - num h x) /\
  returns (mSet z x) tt h z (num h x) /\
  returns (mAbs z x) tt h z (Z.abs (sgn256 (num h x)) mod T256) /\
  returns (mByte z y) tt h z
    (if num h y <? 32 then (num h z / 2 ^ (8 * (31 - num h y))) mod 256 else 0) /\
  returns (mExtendSign z x y) tt h z
    (if num h y <? 32 then sext (8 * (num h y + 1)) (num h x) mod T256 else num h x).
Proof.
  rewrite (num_cell h x Hx), (num_cell h y Hy), (num_cell h z Hz).
  pose proof (wf_cell h x F Hx) as Wx. pose proof (wf_cell h y F Hy) as Wy. pose proof (wf_cell h z F Hz) as Wz.
  destruct (Byte_spec _ _ Wz Wy) as (v1 & E1 & T1). destruct (ExtendSign_spec _ _ Wx Wy) as (v2 & E2 & T2).
  repeat apply conj.
  - eapply sets_returns; try assumption; [apply sets_of, mAnd_ok; assumption|]. apply And_spec; assumption.
  - eapply sets_returns; try assumption; [apply sets_of, mOr_ok; assumption|]. apply Or_spec; assumption.
  - eapply sets_returns; try assumption; [apply sets_of, mXor_ok; assumption|]. apply Xor_spec; assumption.
  - eapply sets_returns; try assumption; [apply sets_of, mNot_ok; assumption|]. apply Not_spec; assumption.
  - eapply sets_returns; try assumption; [apply sets_of, mSet_ok; assumption|]. auto.
  - eapply sets_returns; try assumption; [apply mAbs_ok; assumption|]. apply Abs_spec; assumption.
  - eapply sets_returns; try assumption; [apply sets_of, mByte_ok; eassumption|exact T1].
  - eapply sets_returns; try assumption; [apply mExtendSign_ok; eassumption|exact T2].
Qed.

Lemma alias_shift n : 0 <= n ->
  returns (mLsh z x n) tt h z ((num h x * 2 ^ n) mod T256) /\
  returns (mRsh z x n) tt h z (num h x / 2 ^ n) /\
  returns (mSRsh z x n) tt h z ((sgn256 (num h x) / 2 ^ n) mod T256).
Proof.
  intros Hn. rewrite (num_cell h x Hx). pose proof (wf_cell h x F Hx) as Wx.
  destruct (SRsh_spec _ _ Wx Hn) as (v & E & T).
  repeat apply conj.
  - eapply sets_returns; try assumption; [apply sets_of, mLsh_ok; assumption|]. apply Lsh_spec; assumption.
  - eapply sets_returns; try assumption; [apply sets_of, mRsh_ok; assumption|]. apply Rsh_spec; assumption.
  - eapply sets_returns; try assumption; [apply sets_of, mSRsh_ok; eassumption|exact T].
Qed.

Lemma alias_addmod m : live h m ->
  returns (mAddMod z x y m) tt h z (if num h m =? 0 then 0 else (num h x + num h y) mod num h m).
Proof.
  intros Hm. rewrite (num_cell h x Hx), (num_cell h y Hy), (num_cell h m Hm).
  destruct (AddMod_spec _ _ _ (wf_cell h x F Hx) (wf_cell h y F Hy) (wf_cell h m F Hm)) as (v & E & T).
  eapply sets_returns; try assumption; [apply mAddMod_ok; eassumption|exact T].
Qed.

Lemma alias_mulmod m : live h m ->
  returns (mMulMod z x y m) tt h z (if num h m =? 0 then 0 else (num h x * num h y) mod num h m) /\
  (forall mu, Reciprocal (cell h m) = Ok mu ->
   returns (mMulModWithReciprocal z x y m mu) tt h z (if num h m =? 0 then 0 else (num h x * num h y) mod num h m)).
Proof.
  intros Hm. rewrite (num_cell h x Hx), (num_cell h y Hy), (num_cell h m Hm).
  destruct (MulMod_spec _ _ _ (wf_cell h x F Hx) (wf_cell h y F Hy) (wf_cell h m F Hm)) as (v & E & T).
  split.
  - eapply sets_returns; try assumption; [apply mMulMod_ok; eassumption|exact T].
  - intros mu Emu. eapply sets_returns; try assumption; [apply mMulModWithReciprocal_ok with (v := v); try assumption|exact T].
    rewrite <- E. unfold MulModWithReciprocal, MulMod. rewrite Emu. reflexivity.
Qed.

Lemma alias_sqrt fuel : (130 <= fuel)%nat ->
  exists r, returns (mSqrt fuel z x) tt h z r /\ 0 <= r /\ r * r <= num h x < (r + 1) * (r + 1).
Proof.
  intros Hf. rewrite (num_cell h x Hx).
  destruct (Sqrt_floor_spec fuel _ (wf_cell h x F Hx) Hf) as (v & E & Wv & T).
  exists (toZ v). split; [|split; [apply toZ_range, Wv|exact T]].
  eapply sets_returns; try assumption; [apply mSqrt_ok; eassumption|auto].
Qed.
End C18.

Theorem C18_add_sub h z x y : Forall wf h -> live h z -> live h x -> live h y ->
  returns (mAdd z x y) tt h z ((num h x + num h y) mod T256) /\
  returns (mSub z x y) tt h z ((num h x - num h y) mod T256) /\
  returns (mAddOverflow z x y) (T256 <=? num h x + num h y) h z ((num h x + num h y) mod T256) /\
  returns (mSubOverflow z x y) (num h x <? num h y) h z ((num h x - num h y) mod T256) /\
  returns (mNeg z x) tt h z ((- num h x) mod T256).
Proof. exact (alias_add_sub h z x y). Qed.
Print Assumptions C18_add_sub.
Theorem C18_word_operand h z x n : Forall wf h -> live h z -> live h x -> 0 <= n < W ->
  returns (mAddUint64 z x n) tt h z ((num h x + n) mod T256) /\
  returns (mSubUint64 z x n) tt h z ((num h x - n) mod T256).
Proof. exact (fun F Hz Hx => alias_word h z x F Hz Hx n). Qed.
Print Assumptions C18_word_operand.
Theorem C18_mul h z x y : Forall wf h -> live h z -> live h x -> live h y ->
  returns (mMul z x y) tt h z ((num h x * num h y) mod T256) /\
  returns (mMulOverflow z x y) (T256 <=? num h x * num h y) h z ((num h x * num h y) mod T256) /\
  returns (msquared z) tt h z ((num h z * num h z) mod T256) /\
  returns (mExp z x y) tt h z ((num h x ^ num h y) mod T256).
Proof. exact (alias_mul h z x y). Qed.
Print Assumptions C18_mul.
Theorem C18_div h z x y : Forall wf h -> live h z -> live h x -> live h y ->
  returns (mDiv z x y) tt h z (if num h y =? 0 then 0 else num h x / num h y) /\
  returns (mMod z x y) tt h z (if num h y =? 0 then 0 else num h x mod num h y) /\
  returns (mSDiv z x y) tt h z
    ((if num h y =? 0 then 0 else Z.quot (sgn256 (num h x)) (sgn256 (num h y))) mod T256) /\
  returns (mSMod z x y) tt h z
    ((if num h y =? 0 then 0 else Z.rem (sgn256 (num h x)) (sgn256 (num h y))) mod T256).
Proof. exact (alias_div h z x y). Qed.
Print Assumptions C18_div.
Theorem C18_bits h z x y : Forall wf h -> live h z -> live h x -> live h y ->
  returns (mAnd z x y) tt h z (Z.land (num h x) (num h y)) /\
  returns (mOr z x y) tt h z (Z.lor (num h x) (num h y)) /\
  returns (mXor z x y) tt h z (Z.lxor (num h x) (num h y)) /\
  returns (mNot z x) tt h z (T256 - 1 - num h x) /\
  returns (mSet z x) tt h z (num h x) /\
  returns (mAbs z x) tt h z (Z.abs (sgn256 (num h x)) mod T256) /\
  returns (mByte z y) tt h z
    (if num h y <? 32 then (num h z / 2 ^ (8 * (31 - num h y))) mod 256 else 0) /\
  returns (mExtendSign z x y) tt h z
    (if num h y <? 32 then sext (8 * (num h y + 1)) (num h x) mod T256 else num h x).
Proof. exact (alias_bits h z x y). Qed.
Print Assumptions C18_bits.
Theorem C18_shift h z x n : Forall wf h -> live h z -> live h x -> 0 <= n ->
  returns (mLsh z x n) tt h z ((num h x * 2 ^ n) mod T256) /\
  returns (mRsh z x n) tt h z (num h x / 2 ^ n) /\
  returns (mSRsh z x n) tt h z ((sgn256 (num h x) / 2 ^ n) mod T256).
Proof. exact (fun F Hz Hx => alias_shift h z x F Hz Hx n). Qed.
Print Assumptions C18_shift.
Theorem C18_addmod h z x y m : Forall wf h -> live h z -> live h x -> live h y -> live h m ->
  returns (mAddMod z x y m) tt h z (if num h m =? 0 then 0 else (num h x + num h y) mod num h m).
Proof. exact (fun F Hz Hx Hy => alias_addmod h z x y F Hz Hx Hy m). Qed.
Print Assumptions C18_addmod.
Theorem C18_mulmod h z x y m : Forall wf h -> live h z -> live h x -> live h y -> live h m ->
  returns (mMulMod z x y m) tt h z (if num h m =? 0 then 0 else (num h x * num h y) mod num h m) /\
  (forall mu, Reciprocal (cell h m) = Ok mu ->
   returns (mMulModWithReciprocal z x y m mu) tt h z (if num h m =? 0 then 0 else (num h x * num h y) mod num h m)).
Proof. exact (fun F Hz Hx Hy => alias_mulmod h z x y F Hz Hx Hy m). Qed.
Print Assumptions C18_mulmod.
Theorem C18_sqrt h z x fuel : Forall wf h -> live h z -> live h x -> (130 <= fuel)%nat ->
  exists r, returns (mSqrt fuel z x) tt h z r /\ 0 <= r /\ r * r <= num h x < (r + 1) * (r + 1).
Proof. exact (fun F Hz Hx => alias_sqrt h z x F Hz Hx fuel). Qed.
Print Assumptions C18_sqrt.

(** All three pointers equal; the modulus is the receiver; receiver of a shift is its operand. *)
Definition h1 : mem := [mkInt 7 0 (W - 1) 3; mkInt (W - 1) 1 0 0; x1].
Example C18_case_hyps : Forall wf h1 /\ live h1 0%nat /\ live h1 2%nat.
Proof.
  split; [|split; unfold live; cbn; lia].
  repeat constructor; unfold is_w; cbn; lia.
Qed.
Example C18_case_mul : exists g, mMul 1%nat 1%nat 1%nat h1 = Ok (tt, [mkInt 7 0 (W - 1) 3; mkInt 1 (W - 4) 3 0; x1] ++ g).
Proof. eexists. vm_compute. reflexivity. Qed.
Example C18_case_addmod : exists g, mAddMod 1%nat 2%nat 0%nat 1%nat h1 = Ok (tt, [mkInt 7 0 (W - 1) 3; ofZ ((toZ x1 + toZ (mkInt 7 0 (W - 1) 3)) mod toZ (mkInt (W - 1) 1 0 0)); x1] ++ g).
Proof. eexists. vm_compute. reflexivity. Qed.
Example C18_case_sdiv : exists g, mSDiv 2%nat 2%nat 2%nat h1 = Ok (tt, [mkInt 7 0 (W - 1) 3; mkInt (W - 1) 1 0 0; mkInt 1 0 0 0] ++ g).
Proof. eexists. vm_compute. reflexivity. Qed.
Example C18_case_mulmod : exists g, mMulMod 0%nat 2%nat 0%nat 0%nat h1 = Ok (tt, [mkInt 0 0 0 0; mkInt (W - 1) 1 0 0; x1] ++ g).
Proof. eexists. vm_compute. reflexivity. Qed.
