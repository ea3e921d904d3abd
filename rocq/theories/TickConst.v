(** TickConst.v -- the twenty constants of GetSqrtRatioAtTick (/repo/lib/tickmath/tickmath.go:81-160)
    are the correctly rounded powers sqrt(1/1.0001)^(2^i) * 2^128. *)
From Verif Require Import Base TickMath.
Ltac Zify.zify_post_hook ::= idtac.

(** lower and upper bounds of sqrt(10000/10001)^(2^i) scaled by 2^256, by repeated squaring *)
Definition P256 : Z := Eval vm_compute in 2 ^ 256.
Definition lo0 : Z := Eval vm_compute in Z.sqrt (2 ^ 512 * 10000 / 10001).
Fixpoint lo (i : nat) : Z := match i with O => lo0 | S k => let x := lo k in (x * x) / P256 end.
Fixpoint hi (i : nat) : Z := match i with O => lo0 + 1 | S k => let x := hi k in (x * x) / P256 + 1 end.

Lemma pow_S2 b i : 0 <= i -> b ^ (2 ^ (i + 1)) = b ^ (2 ^ i) * b ^ (2 ^ i).
Proof.
  intros. rewrite (Z.add_comm i 1), Z.pow_add_r by lia. change (2 ^ 1) with 2.
  rewrite <- Z.pow_add_r by (apply Z.pow_nonneg; lia). f_equal. lia.
Qed.

Lemma sq_lo L A B P M : 0 < P -> 0 <= L -> 0 <= A -> 0 <= B -> M * P <= L * L -> 0 <= M ->
  L * L * A <= P * P * B -> M * M * (A * A) <= P * P * (B * B).
Proof.
  intros HP HL HA HB HM HM0 H.
  assert (P * P * (M * M * (A * A)) <= P * P * (P * P * (B * B))).
  { assert (Q1 : 0 <= L * L * A) by (apply Z.mul_nonneg_nonneg; [apply Z.mul_nonneg_nonneg|]; assumption).
    assert (Q2 : 0 <= M * P * A) by (apply Z.mul_nonneg_nonneg; [apply Z.mul_nonneg_nonneg; lia|assumption]).
    assert (Q3 : M * P * A <= L * L * A) by (apply Z.mul_le_mono_nonneg_r; assumption).
    replace (P * P * (M * M * (A * A))) with ((M * P * A) * (M * P * A)) by ring.
    replace (P * P * (P * P * (B * B))) with ((P * P * B) * (P * P * B)) by ring.
    apply Z.mul_le_mono_nonneg; lia. }
  apply Z.mul_le_mono_pos_l with (p := P * P); [apply Z.mul_pos_pos; assumption|assumption].
Qed.

Lemma sq_hi L A B P M : 0 < P -> 0 <= L -> 0 <= A -> 0 <= B -> L * L <= M * P -> 0 <= M ->
  P * P * B <= L * L * A -> P * P * (B * B) <= M * M * (A * A).
Proof.
  intros HP HL HA HB HM HM0 H.
  assert (P * P * (P * P * (B * B)) <= P * P * (M * M * (A * A))).
  { assert (Q1 : 0 <= P * P * B) by (apply Z.mul_nonneg_nonneg; [apply Z.mul_nonneg_nonneg|]; lia).
    assert (Q3 : L * L * A <= M * P * A) by (apply Z.mul_le_mono_nonneg_r; assumption).
    replace (P * P * (M * M * (A * A))) with ((M * P * A) * (M * P * A)) by ring.
    replace (P * P * (P * P * (B * B))) with ((P * P * B) * (P * P * B)) by ring.
    apply Z.mul_le_mono_nonneg; lia. }
  apply Z.mul_le_mono_pos_l with (p := P * P); [apply Z.mul_pos_pos; assumption|assumption].
Qed.

Lemma lo_nonneg i : 0 <= lo i.
Proof.
  induction i as [|k IH]; [unfold lo, lo0; lia|]. cbn [lo]; cbv zeta. apply Z.div_pos; [|unfold P256; lia].
  apply Z.mul_nonneg_nonneg; assumption.
Qed.
Lemma hi_nonneg i : 0 <= hi i.
Proof.
  induction i as [|k IH]; [unfold hi, lo0; lia|]. cbn [hi]; cbv zeta.
  assert (0 <= hi k * hi k / P256); [|lia]. apply Z.div_pos; [|unfold P256; lia].
  apply Z.mul_nonneg_nonneg; assumption.
Qed.
Lemma pow_nn b i : 0 <= b -> 0 <= b ^ (2 ^ i). Proof. intros. apply Z.pow_nonneg. assumption. Qed.

Lemma bounds i :
  lo i * lo i * 10001 ^ (2 ^ Z.of_nat i) <= P256 * P256 * 10000 ^ (2 ^ Z.of_nat i) /\
  P256 * P256 * 10000 ^ (2 ^ Z.of_nat i) <= hi i * hi i * 10001 ^ (2 ^ Z.of_nat i).
Proof.
  induction i as [|k [IH1 IH2]].
  - split; apply Z.leb_le; vm_compute; reflexivity.
  - rewrite Nat2Z.inj_succ. unfold Z.succ. rewrite !pow_S2 by lia. cbn [lo hi]; cbv zeta. split.
    + eapply sq_lo; [unfold P256; lia|apply (lo_nonneg k)|apply pow_nn; lia|apply pow_nn; lia| | |exact IH1].
      * rewrite Z.mul_comm. apply Z.mul_div_le. unfold P256; lia.
      * apply (lo_nonneg (S k)).
    + eapply sq_hi; [unfold P256; lia|apply (hi_nonneg k)|apply pow_nn; lia|apply pow_nn; lia| | |exact IH2].
      * assert (E : 0 < P256) by (unfold P256; lia).
        pose proof (Z.mul_succ_div_gt (hi k * hi k) P256 E). lia.
      * apply (hi_nonneg (S k)).
Qed.

Definition constants : list Z := c0 :: map snd factors.

Fixpoint checks (l : list Z) (a b : Z) : bool :=
  match l with
  | [] => true
  | f :: l => ((2 * f - 1) * P256 <? 2 * 2 ^ 128 * a) && (2 * 2 ^ 128 * b <? (2 * f + 1) * P256) && (0 <? f) &&
              checks l (a * a / P256) (b * b / P256 + 1)
  end.
Lemma checks_nth l : forall k i f, checks l (lo k) (hi k) = true -> nth_error l i = Some f ->
  ((2 * f - 1) * P256 <? 2 * 2 ^ 128 * lo (k + i)) && (2 * 2 ^ 128 * hi (k + i) <? (2 * f + 1) * P256) && (0 <? f) = true.
Proof.
  induction l as [|g l IH]; intros k i f C E; [now destruct i|]. cbn [checks] in C. apply andb_prop in C. destruct C as [C1 C2].
  destruct i as [|i]; [injection E as ->; rewrite Nat.add_0_r; exact C1|].
  rewrite Nat.add_succ_r. apply (IH (S k)); [exact C2|exact E].
Qed.
Lemma constants_checked : checks constants (lo 0) (hi 0) = true.
Proof. vm_compute. reflexivity. Qed.

Lemma constants_rounded i f : nth_error constants i = Some f ->
  (2 * f - 1) * (2 * f - 1) * 10001 ^ (2 ^ Z.of_nat i) < 4 * 2 ^ 256 * 10000 ^ (2 ^ Z.of_nat i) /\
  4 * 2 ^ 256 * 10000 ^ (2 ^ Z.of_nat i) < (2 * f + 1) * (2 * f + 1) * 10001 ^ (2 ^ Z.of_nat i).
Proof.
  intros E.
  pose proof (checks_nth constants 0 i f constants_checked E) as C. rewrite Nat.add_0_l in C.
  apply andb_prop in C. destruct C as [C C3]. apply andb_prop in C. destruct C as [C1 C2].
  apply Z.ltb_lt in C1, C2, C3.
  destruct (bounds i) as [B1 B2].
  pose proof (lo_nonneg i) as HL. pose proof (hi_nonneg i) as HH.
  assert (HA : 0 < 10001 ^ (2 ^ Z.of_nat i)) by (apply Z.pow_pos_nonneg; [lia|apply Z.pow_nonneg; lia]).
  revert B1 B2 C1 C2 HA. generalize (10001 ^ (2 ^ Z.of_nat i)) (10000 ^ (2 ^ Z.of_nat i)).
  clear E. intros A B B1 B2 C1 C2 HA.
  assert (HP : 0 < P256) by (unfold P256; lia).
  change (2 ^ 256) with (2 ^ 128 * 2 ^ 128). revert C1 C2. assert (HS : 0 < 2 ^ 128) by lia. revert HS. generalize (2 ^ 128). intros S HS C1 C2.
  revert B1 B2 C1 C2 HL HH. generalize (lo i) (hi i). intros L H B1 B2 C1 C2 HL HH.
  revert HP B1 B2 C1 C2. generalize P256. intros P HP B1 B2 C1 C2.
  split.
  - apply Z.mul_lt_mono_pos_l with (p := P * P); [apply Z.mul_pos_pos; assumption|].
    apply Z.lt_le_trans with (2 * S * L * (2 * S * L) * A).
    + replace (P * P * ((2 * f - 1) * (2 * f - 1) * A)) with ((2 * f - 1) * P * ((2 * f - 1) * P) * A) by ring.
      apply Z.mul_lt_mono_pos_r; [assumption|].
      assert (0 <= (2 * f - 1) * P) by (apply Z.mul_nonneg_nonneg; lia).
      apply Z.mul_lt_mono_nonneg; lia.
    + replace (2 * S * L * (2 * S * L) * A) with (4 * (S * S) * (L * L * A)) by ring.
      replace (P * P * (4 * (S * S) * B)) with (4 * (S * S) * (P * P * B)) by ring.
      apply Z.mul_le_mono_nonneg_l; [|assumption]. assert (0 < S * S) by (apply Z.mul_pos_pos; assumption). lia.
  - apply Z.mul_lt_mono_pos_l with (p := P * P); [apply Z.mul_pos_pos; assumption|].
    apply Z.le_lt_trans with (2 * S * H * (2 * S * H) * A).
    + replace (2 * S * H * (2 * S * H) * A) with (4 * (S * S) * (H * H * A)) by ring.
      replace (P * P * (4 * (S * S) * B)) with (4 * (S * S) * (P * P * B)) by ring.
      apply Z.mul_le_mono_nonneg_l; [|assumption]. assert (0 < S * S) by (apply Z.mul_pos_pos; assumption). lia.
    + replace (P * P * ((2 * f + 1) * (2 * f + 1) * A)) with ((2 * f + 1) * P * ((2 * f + 1) * P) * A) by ring.
      apply Z.mul_lt_mono_pos_r; [assumption|].
      assert (0 <= 2 * S * H) by (apply Z.mul_nonneg_nonneg; lia).
      apply Z.mul_lt_mono_nonneg; lia.
Qed.
