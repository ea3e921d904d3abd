(** AliasFacts.v -- every in-place method of Alias.v leaves in its receiver the value that the
    value-level model computes from the operands as they were before the call, and changes no other
    variable, whatever pointers coincide. *)
From Verif Require Import Base U256 U256Div U256Mod Alias.
Ltac Zify.zify_post_hook ::= idtac.

Definition cell (h : mem) (p : ptr) : Int := nth p h Clear.
(** the call returns [a]; afterwards [z] holds [v], all other variables are unchanged, and [g] are
    variables the call allocated *)
Definition sets {A} (c : cmd A) (h : mem) (z : ptr) (v : Int) (a : A) : Prop :=
  exists g, c h = Ok (a, setn h z v ++ g).

Lemma length_setn h z v : length (setn h z v) = length h.
Proof. revert z; induction h as [|a h IH]; intros [|z]; cbn; auto. Qed.
Lemma cell_setn_eq h z v : (z < length h)%nat -> cell (setn h z v) z = v.
Proof. revert z; induction h as [|a h IH]; intros [|z] H; cbn in *; auto; try lia. apply IH; lia. Qed.
Lemma cell_setn_ne h z p v : p <> z -> cell (setn h z v) p = cell h p.
Proof.
  unfold cell. revert z p; induction h as [|a h IH]; intros [|z] [|p] H; cbn in *; auto; try lia.
Qed.
Lemma cell_app1 h g p : (p < length h)%nat -> cell (h ++ g) p = cell h p.
Proof. intros H. unfold cell. apply app_nth1; exact H. Qed.
Lemma cell_last h g v : cell (h ++ v :: g) (length h) = v.
Proof. unfold cell. rewrite app_nth2 by lia. rewrite Nat.sub_diag. reflexivity. Qed.
Lemma setn_setn h z v w : setn (setn h z v) z w = setn h z w.
Proof. revert z; induction h as [|a h IH]; intros [|z]; cbn; f_equal; auto. Qed.
Lemma setn_cell h z : setn h z (cell h z) = h.
Proof. unfold cell. revert z; induction h as [|a h IH]; intros [|z]; cbn; f_equal; auto. Qed.
Lemma setn_app1 h g z v : (z < length h)%nat -> setn (h ++ g) z v = setn h z v ++ g.
Proof. revert z; induction h as [|a h IH]; intros [|z] H; cbn in *; try lia; f_equal; auto. apply IH; lia. Qed.
Lemma setn_last h g v w : setn (h ++ v :: g) (length h) w = h ++ w :: g.
Proof. induction h as [|a h IH]; cbn; f_equal; auto. Qed.

Lemma ldI_ok h p : (p < length h)%nat -> ldI p h = Ok (cell h p, h).
Proof. intros H. unfold ldI, cell. rewrite (nth_error_nth' h Clear H). reflexivity. Qed.
Lemma stI_ok h p v : (p < length h)%nat -> stI p v h = Ok (tt, setn h p v).
Proof. intros H. unfold stI. destruct (Nat.ltb_spec p (length h)); [reflexivity | lia]. Qed.
Lemma rd_ok h p i : (p < length h)%nat -> rd p i h = Ok (getl (cell h p) i, h).
Proof. intros H. unfold rd, cbind. rewrite ldI_ok by exact H. reflexivity. Qed.
Lemma wr_ok h p i w : (p < length h)%nat -> wr p i w h = Ok (tt, setn h p (setl (cell h p) i w)).
Proof. intros H. unfold wr, cbind. rewrite ldI_ok by exact H. apply stI_ok, H. Qed.
Lemma cbind_Ok {A B} (c : cmd A) (f : A -> cmd B) h a h' : c h = Ok (a, h') -> cbind c f h = f a h'.
Proof. intros H. unfold cbind. rewrite H. reflexivity. Qed.

Ltac len :=
  repeat match goal with H : (_ < length _)%nat |- _ => progress (rewrite ?app_length, ?length_setn in H) end;
  repeat match goal with H : (_ <= _ < length _)%nat |- _ => progress (rewrite ?app_length, ?length_setn in H) end;
  rewrite ?app_length, ?length_setn; cbn [length] in *; lia.
Ltac cells :=
  repeat (first [ rewrite cell_setn_eq by len | rewrite cell_setn_ne by congruence | rewrite setn_setn
                | rewrite cell_app1 by len | rewrite cell_last | rewrite setn_last | rewrite setn_app1 by len ]).
Ltac step :=
  first [ erewrite cbind_Ok by (first [apply rd_ok | apply wr_ok | apply ldI_ok | apply stI_ok]; len)
        | rewrite rd_ok by len | rewrite wr_ok by len | rewrite ldI_ok by len | rewrite stI_ok by len ];
  cells; cbn [getl setl l0 l1 l2 l3 setn].
Ltac go := repeat step.

Lemma wr4_ok h z a b c d : (z < length h)%nat -> wr4 z a b c d h = Ok (tt, setn h z (mkInt d c b a)).
Proof. intros H. unfold wr4. go. reflexivity. Qed.
Ltac split_alias :=
  repeat match goal with
    | |- context [cell (setn _ ?z _) ?p] =>
        lazymatch goal with
        | _ : p <> z |- _ => fail
        | _ => destruct (Nat.eq_dec p z); [subst p|]
        end
    end.

Section Ops.
Variable h : mem.
Variables z x y : ptr.
Hypothesis Hz : (z < length h)%nat.
Hypothesis Hx : (x < length h)%nat.
Hypothesis Hy : (y < length h)%nat.

Lemma mSetUint64_ok v : mSetUint64 z v h = Ok (tt, setn h z (SetUint64 v)).
Proof using Hz. apply wr4_ok, Hz. Qed.
Lemma mClear_ok : mClear z h = Ok (tt, setn h z Clear).
Proof using Hz. apply wr4_ok, Hz. Qed.
Lemma mSetOne_ok : mSetOne z h = Ok (tt, setn h z SetOne).
Proof using Hz. apply wr4_ok, Hz. Qed.
Lemma mSetAllOne_ok : mSetAllOne z h = Ok (tt, setn h z SetAllOne).
Proof using Hz. apply wr4_ok, Hz. Qed.
Lemma mSet_ok : mSet z x h = Ok (tt, setn h z (cell h x)).
Proof using Hz Hx. clear Hy. unfold mSet. go. reflexivity. Qed.

Lemma addStep_ok i c : addStep z x y i c h =
  Ok (snd (add64 (getl (cell h x) i) (getl (cell h y) i) c),
      setn h z (setl (cell h z) i (fst (add64 (getl (cell h x) i) (getl (cell h y) i) c)))).
Proof. unfold addStep. go. destruct (add64 _ _ _) as [s k]. go. reflexivity. Qed.
Lemma subStep_ok i c : subStep z x y i c h =
  Ok (snd (sub64 (getl (cell h x) i) (getl (cell h y) i) c),
      setn h z (setl (cell h z) i (fst (sub64 (getl (cell h x) i) (getl (cell h y) i) c)))).
Proof. unfold subStep. go. destruct (sub64 _ _ _) as [s k]. go. reflexivity. Qed.
Lemma addStepW_ok w i c : addStepW z x w i c h =
  Ok (snd (add64 (getl (cell h x) i) w c), setn h z (setl (cell h z) i (fst (add64 (getl (cell h x) i) w c)))).
Proof using Hz Hx. clear Hy. unfold addStepW. go. destruct (add64 _ _ _) as [s k]. go. reflexivity. Qed.
Lemma subStepW_ok w i c : subStepW z x w i c h =
  Ok (snd (sub64 (getl (cell h x) i) w c), setn h z (setl (cell h z) i (fst (sub64 (getl (cell h x) i) w c)))).
Proof using Hz Hx. clear Hy. unfold subStepW. go. destruct (sub64 _ _ _) as [s k]. go. reflexivity. Qed.
End Ops.

Ltac addgo := repeat (erewrite cbind_Ok by (apply addStep_ok; len); cells; cbn [getl setl l0 l1 l2 l3]).
Ltac subgo := repeat (erewrite cbind_Ok by (apply subStep_ok; len); cells; cbn [getl setl l0 l1 l2 l3]).
Ltac addWgo := repeat (erewrite cbind_Ok by (apply addStepW_ok; len); cells; cbn [getl setl l0 l1 l2 l3]).
Ltac subWgo := repeat (erewrite cbind_Ok by (apply subStepW_ok; len); cells; cbn [getl setl l0 l1 l2 l3]).

Section Arith.
Variable h : mem.
Variables z x y : ptr.
Hypothesis Hz : (z < length h)%nat.
Hypothesis Hx : (x < length h)%nat.
Hypothesis Hy : (y < length h)%nat.

Lemma mAdd_ok : mAdd z x y h = Ok (tt, setn h z (Add (cell h x) (cell h y))).
Proof.
  unfold mAdd, Add.
  destruct (Nat.eq_dec x z) as [->|]; destruct (Nat.eq_dec y z) as [->|]; addgo; reflexivity.
Qed.
Lemma mAddOverflow_ok : mAddOverflow z x y h =
  Ok (snd (AddOverflow (cell h x) (cell h y)), setn h z (fst (AddOverflow (cell h x) (cell h y)))).
Proof.
  unfold mAddOverflow, AddOverflow.
  destruct (Nat.eq_dec x z) as [->|]; destruct (Nat.eq_dec y z) as [->|]; addgo; reflexivity.
Qed.
Lemma mSub_ok : mSub z x y h = Ok (tt, setn h z (Sub (cell h x) (cell h y))).
Proof.
  unfold mSub, Sub.
  destruct (Nat.eq_dec x z) as [->|]; destruct (Nat.eq_dec y z) as [->|]; subgo; reflexivity.
Qed.
Lemma mSubOverflow_ok : mSubOverflow z x y h =
  Ok (snd (SubOverflow (cell h x) (cell h y)), setn h z (fst (SubOverflow (cell h x) (cell h y)))).
Proof.
  unfold mSubOverflow, SubOverflow.
  destruct (Nat.eq_dec x z) as [->|]; destruct (Nat.eq_dec y z) as [->|]; subgo; reflexivity.
Qed.
Lemma mAddUint64_ok w : mAddUint64 z x w h = Ok (tt, setn h z (AddUint64 (cell h x) w)).
Proof using Hz Hx. clear Hy.
  unfold mAddUint64, AddUint64.
  destruct (Nat.eq_dec x z) as [->|]; addWgo; reflexivity.
Qed.
Lemma mSubUint64_ok w : mSubUint64 z x w h = Ok (tt, setn h z (SubUint64 (cell h x) w)).
Proof using Hz Hx. clear Hy.
  unfold mSubUint64, SubUint64.
  destruct (Nat.eq_dec x z) as [->|]; subWgo; reflexivity.
Qed.
End Arith.

(** *** shifts and bitwise operations *)
Section Shift.
Variable h : mem.
Variables z x : ptr.
Hypothesis Hz : (z < length h)%nat.
Hypothesis Hx : (x < length h)%nat.

Lemma mlsh64_ok : mlsh64 z x h = Ok (tt, setn h z (lsh64 (cell h x))).
Proof. unfold mlsh64. go. apply wr4_ok, Hz. Qed.
Lemma mlsh128_ok : mlsh128 z x h = Ok (tt, setn h z (lsh128 (cell h x))).
Proof. unfold mlsh128. go. apply wr4_ok, Hz. Qed.
Lemma mlsh192_ok : mlsh192 z x h = Ok (tt, setn h z (lsh192 (cell h x))).
Proof. unfold mlsh192. go. apply wr4_ok, Hz. Qed.
Lemma mrsh64_ok : mrsh64 z x h = Ok (tt, setn h z (rsh64 (cell h x))).
Proof. unfold mrsh64. go. apply wr4_ok, Hz. Qed.
Lemma mrsh128_ok : mrsh128 z x h = Ok (tt, setn h z (rsh128 (cell h x))).
Proof. unfold mrsh128. go. apply wr4_ok, Hz. Qed.
Lemma mrsh192_ok : mrsh192 z x h = Ok (tt, setn h z (rsh192 (cell h x))).
Proof. unfold mrsh192. go. apply wr4_ok, Hz. Qed.
Lemma msrsh64_ok : msrsh64 z x h = Ok (tt, setn h z (srsh64 (cell h x))).
Proof. unfold msrsh64. go. apply wr4_ok, Hz. Qed.
Lemma msrsh128_ok : msrsh128 z x h = Ok (tt, setn h z (srsh128 (cell h x))).
Proof. unfold msrsh128. go. apply wr4_ok, Hz. Qed.
Lemma msrsh192_ok : msrsh192 z x h = Ok (tt, setn h z (srsh192 (cell h x))).
Proof. unfold msrsh192. go. apply wr4_ok, Hz. Qed.
Lemma orShl_ok i n a : orShl z i n a h = Ok (tt, setn h z (setl (cell h z) i (Z.lor (wshl (getl (cell h z) i) n) a))).
Proof using Hz. clear Hx. unfold orShl. go. reflexivity. Qed.
Lemma orShr_ok i n a : orShr z i n a h = Ok (tt, setn h z (setl (cell h z) i (Z.lor (wshr (getl (cell h z) i) n) a))).
Proof using Hz. clear Hx. unfold orShr. go. reflexivity. Qed.
Lemma srStep_ok i n a : srStep z i n a h =
  Ok (wshl (getl (cell h z) i) (64 - n), setn h z (setl (cell h z) i (Z.lor (wshr (getl (cell h z) i) n) a))).
Proof using Hz. clear Hx. unfold srStep. go. reflexivity. Qed.
Lemma mNot_ok : mNot z x h = Ok (tt, setn h z (Not (cell h x))).
Proof. unfold mNot. go. apply wr4_ok, Hz. Qed.
End Shift.

Ltac shgo := repeat first [
    erewrite cbind_Ok by (first [apply mlsh64_ok | apply mlsh128_ok | apply mlsh192_ok | apply mrsh64_ok | apply mrsh128_ok
      | apply mrsh192_ok | apply msrsh64_ok | apply msrsh128_ok | apply msrsh192_ok | apply mSet_ok | apply orShl_ok | apply orShr_ok | apply srStep_ok]; len);
      cells; cbn [getl setl l0 l1 l2 l3]
    | rewrite orShl_ok by len; cells; cbn [getl setl l0 l1 l2 l3]
    | rewrite orShr_ok by len; cells; cbn [getl setl l0 l1 l2 l3] | step ].

Section Shift2.
Variable h : mem.
Variables z x : ptr.
Hypothesis Hz : (z < length h)%nat.
Hypothesis Hx : (x < length h)%nat.

Lemma mLsh_ok n : mLsh z x n h = Ok (tt, setn h z (Lsh (cell h x) n)).
Proof.
  unfold mLsh, Lsh, lsh_sh64, lsh_sh128, lsh_sh192.
  destruct (Z.land n 63 =? 0).
  - destruct (n =? 0); [apply mSet_ok; assumption|].
    destruct (n =? 64); [apply mlsh64_ok; assumption|].
    destruct (n =? 128); [apply mlsh128_ok; assumption|].
    destruct (n =? 192); [apply mlsh192_ok; assumption|]. apply mClear_ok; assumption.
  - destruct (192 <? n).
    + destruct (256 <? n); [apply mClear_ok; assumption|]. shgo. reflexivity.
    + destruct (128 <? n); [shgo; reflexivity|].
      destruct (64 <? n); shgo; reflexivity.
Qed.
Lemma mRsh_ok n : mRsh z x n h = Ok (tt, setn h z (Rsh (cell h x) n)).
Proof.
  unfold mRsh, Rsh, rsh_sh64, rsh_sh128, rsh_sh192.
  destruct (Z.land n 63 =? 0).
  - destruct (n =? 0); [apply mSet_ok; assumption|].
    destruct (n =? 64); [apply mrsh64_ok; assumption|].
    destruct (n =? 128); [apply mrsh128_ok; assumption|].
    destruct (n =? 192); [apply mrsh192_ok; assumption|]. apply mClear_ok; assumption.
  - destruct (192 <? n).
    + destruct (256 <? n); [apply mClear_ok; assumption|]. shgo. reflexivity.
    + destruct (128 <? n); [shgo; reflexivity|].
      destruct (64 <? n); shgo; reflexivity.
Qed.
Lemma mSRsh_ok n v : SRsh (cell h x) n = Ok v -> mSRsh z x n h = Ok (tt, setn h z v).
Proof.
  unfold mSRsh, SRsh, srsh_sh64, srsh_sh128, srsh_sh192. intros E.
  erewrite cbind_Ok by (apply ldI_ok; len).
  destruct (isBitSet (cell h x) 255) as [neg| |]; cbn [bind] in E; try discriminate.
  erewrite cbind_Ok by reflexivity.
  apply (f_equal (fun r => match r with Ok a => a | _ => v end)) in E. subst v.
  destruct neg; cbn [negb]; [|apply mRsh_ok].
  destruct (n mod 64 =? 0).
  - destruct (n =? 0); [apply mSet_ok; assumption|].
    destruct (n =? 64); [apply msrsh64_ok; assumption|].
    destruct (n =? 128); [apply msrsh128_ok; assumption|].
    destruct (n =? 192); [apply msrsh192_ok; assumption|]. apply mSetAllOne_ok; assumption.
  - destruct (192 <? n).
    + destruct (256 <? n); [apply mSetAllOne_ok; assumption|]. shgo. reflexivity.
    + destruct (128 <? n); [shgo; reflexivity|].
      destruct (64 <? n); shgo; reflexivity.
Qed.
End Shift2.

Section Bits.
Variable h : mem.
Variables z x y : ptr.
Hypothesis Hz : (z < length h)%nat.
Hypothesis Hx : (x < length h)%nat.
Hypothesis Hy : (y < length h)%nat.

Lemma bitStep_ok f i : bitStep f z x y i h =
  Ok (tt, setn h z (setl (cell h z) i (f (getl (cell h x) i) (getl (cell h y) i)))).
Proof. unfold bitStep. go. reflexivity. Qed.
End Bits.
Ltac bitgo := repeat first [ erewrite cbind_Ok by (apply bitStep_ok; len); cells; cbn [getl setl l0 l1 l2 l3]
  | rewrite bitStep_ok by len; cells; cbn [getl setl l0 l1 l2 l3] ].
Section Bits2.
Variable h : mem.
Variables z x y : ptr.
Hypothesis Hz : (z < length h)%nat.
Hypothesis Hx : (x < length h)%nat.
Hypothesis Hy : (y < length h)%nat.
Lemma mbit_ok f : mbit f z x y h =
  Ok (tt, setn h z (mkInt (f (l0 (cell h x)) (l0 (cell h y))) (f (l1 (cell h x)) (l1 (cell h y)))
                          (f (l2 (cell h x)) (l2 (cell h y))) (f (l3 (cell h x)) (l3 (cell h y))))).
Proof.
  unfold mbit.
  destruct (Nat.eq_dec x z) as [->|]; destruct (Nat.eq_dec y z) as [->|]; bitgo; reflexivity.
Qed.
Lemma mOr_ok : mOr z x y h = Ok (tt, setn h z (Or (cell h x) (cell h y))).
Proof. apply mbit_ok. Qed.
Lemma mAnd_ok : mAnd z x y h = Ok (tt, setn h z (And (cell h x) (cell h y))).
Proof. apply mbit_ok. Qed.
Lemma mXor_ok : mXor z x y h = Ok (tt, setn h z (Xor (cell h x) (cell h y))).
Proof. apply mbit_ok. Qed.
Lemma mByte_ok v : Byte (cell h z) (cell h y) = Ok v -> mByte z y h = Ok (tt, setn h z v).
Proof using Hz Hy. clear Hx.
  unfold mByte, Byte. intros E. erewrite cbind_Ok by (apply ldI_ok; len).
  destruct (Uint64WithOverflow (cell h y)) as [k o].
  destruct (negb o); [|injection E as <-; apply mClear_ok; exact Hz].
  destruct (k <? 32); [|injection E as <-; apply mClear_ok; exact Hz].
  erewrite cbind_Ok by (apply ldI_ok; len).
  destruct (limb (cell h z) (4 - 1 - k / 8)) as [w| |]; cbn [bind] in E; try discriminate.
  erewrite cbind_Ok by reflexivity.
  apply (f_equal (fun r => match r with Ok a => a | _ => v end)) in E. subst v.
  go. reflexivity.
Qed.
End Bits2.

(** *** methods that allocate *)
Lemma sets_ext {A} (c : cmd A) h g z v (a : A) g' : (z < length h)%nat ->
  c (h ++ g) = Ok (a, setn (h ++ g) z v ++ g') -> c (h ++ g) = Ok (a, setn h z v ++ (g ++ g')).
Proof. intros H E. rewrite E, setn_app1, <- app_assoc by exact H. reflexivity. Qed.
Lemma sets_of {A} (c : cmd A) h z v (a : A) : c h = Ok (a, setn h z v) -> sets c h z v a.
Proof. intros E. exists []. rewrite app_nil_r. exact E. Qed.
(** a call that leaves [v] in [z], followed by one that leaves [w] there *)
Lemma sets_seq {A B} (c : cmd A) (f : A -> cmd B) h z v w a b : (z < length h)%nat ->
  sets c h z v a ->
  (forall g, sets (f a) (setn h z v ++ g) z w b) ->
  sets (cbind c f) h z w b.
Proof.
  intros Hz [g E] F. destruct (F g) as [g' E'].
  exists (g ++ g'). rewrite (cbind_Ok _ _ _ _ _ E), E'.
  rewrite setn_app1, setn_setn, <- app_assoc by len. reflexivity.
Qed.
(** a call in a memory with extra variables at the end *)
Lemma sets_app {A} (c : cmd A) h g z v (a : A) : (z < length h)%nat ->
  sets c (h ++ g) z v a -> exists g', c (h ++ g) = Ok (a, setn h z v ++ g').
Proof. intros Hz [g' E]. exists (g ++ g'). apply sets_ext; assumption. Qed.

Section Alloc.
Variable h : mem.
Variables z x y : ptr.
Hypothesis Hz : (z < length h)%nat.
Hypothesis Hx : (x < length h)%nat.
Hypothesis Hy : (y < length h)%nat.

Lemma set_new v : mSet z (length h) (h ++ [v]) = Ok (tt, setn h z v ++ [v]).
Proof using Hz. clear Hx Hy. rewrite mSet_ok by len. cells. reflexivity. Qed.
Lemma new_set v : sets (let! t := new v in mSet z t) h z v tt.
Proof using Hz. exists [v]. erewrite cbind_Ok by reflexivity. apply set_new. Qed.

Lemma mMul_ok : sets (mMul z x y) h z (Mul (cell h x) (cell h y)) tt.
Proof.
  unfold mMul, sets. eexists. do 2 (erewrite cbind_Ok by (apply ldI_ok; len)).
  erewrite cbind_Ok by reflexivity. apply set_new.
Qed.
Lemma msquared_ok : sets (msquared z) h z (squared (cell h z)) tt.
Proof using Hz.
  clear Hx Hy. unfold msquared, sets. eexists. erewrite cbind_Ok by (apply ldI_ok; len).
  erewrite cbind_Ok by reflexivity. apply set_new.
Qed.
Lemma mMulOverflow_ok : length (Umul (cell h x) (cell h y)) = 8%nat ->
  mMulOverflow z x y h =
  Ok (snd (MulOverflow (cell h x) (cell h y)), setn h z (fst (MulOverflow (cell h x) (cell h y)))).
Proof.
  intros L. unfold mMulOverflow, MulOverflow. do 2 (erewrite cbind_Ok by (apply ldI_ok; len)).
  destruct (Umul (cell h x) (cell h y)) as [|p0 [|p1 [|p2 [|p3 [|p4 [|p5 [|p6 [|p7 [|]]]]]]]]]; try discriminate.
  go. reflexivity.
Qed.
Lemma mNeg_ok : sets (mNeg z x) h z (Neg (cell h x)) tt.
Proof using Hz Hx.
  clear Hy. exists [Clear]. unfold mNeg. erewrite cbind_Ok by reflexivity.
  rewrite mSub_ok by len. cells. reflexivity.
Qed.
Lemma mAbs_ok : sets (mAbs z x) h z (Abs (cell h x)) tt.
Proof using Hz Hx.
  clear Hy. unfold mAbs, Abs, sets. erewrite cbind_Ok by (apply rd_ok; len). cbn [getl].
  destruct (l3 (cell h x) <? 9223372036854775808).
  - exists []. rewrite app_nil_r. apply mSet_ok; assumption.
  - apply mNeg_ok.
Qed.

Lemma mDiv_ok v : Div (cell h x) (cell h y) = Ok v -> sets (mDiv z x y) h z v tt.
Proof.
  unfold mDiv, Div. intros E.
  assert (S : forall c : cmd unit, c h = Ok (tt, setn h z v) -> sets c h z v tt) by (intros; apply sets_of; assumption).
  unfold sets. do 2 (erewrite cbind_Ok by (apply ldI_ok; len)).
  destruct (IsZero (cell h y) || Gt (cell h y) (cell h x)).
  { injection E as <-. apply S, mClear_ok, Hz. }
  destruct (Eq (cell h x) (cell h y)). { injection E as <-. apply S, mSetOne_ok, Hz. }
  destruct (IsUint64 (cell h x)).
  { do 2 (erewrite cbind_Ok by (apply rd_ok; len)). cbn [getl].
    destruct (l0 (cell h y) =? 0); [discriminate|]. injection E as <-. apply S, mSetUint64_ok, Hz. }
  destruct (Udivrem [0; 0; 0; 0] (limbs (cell h x)) (cell h y)) as [qr| |]; cbn [bind] in E; try discriminate.
  apply (f_equal (fun r => match r with Ok a => a | _ => v end)) in E. subst v.
  erewrite cbind_Ok by reflexivity. apply new_set.
Qed.
Lemma mMod_ok v : Mod (cell h x) (cell h y) = Ok v -> sets (mMod z x y) h z v tt.
Proof.
  unfold mMod, Mod. intros E.
  assert (S : forall c : cmd unit, c h = Ok (tt, setn h z v) -> sets c h z v tt) by (intros; apply sets_of; assumption).
  unfold sets. do 2 (erewrite cbind_Ok by (apply ldI_ok; len)).
  destruct (IsZero (cell h x) || IsZero (cell h y)). { injection E as <-. apply S, mClear_ok, Hz. }
  cbv zeta in E |- *.
  destruct (Cmp (cell h x) (cell h y) =? -1).
  { injection E as <-. apply S. apply mSet_ok; assumption. }
  destruct (Cmp (cell h x) (cell h y) =? 0). { injection E as <-. apply S, mClear_ok, Hz. }
  destruct (IsUint64 (cell h x)).
  { do 2 (erewrite cbind_Ok by (apply rd_ok; len)). cbn [getl].
    destruct (l0 (cell h y) =? 0); [discriminate|]. injection E as <-. apply S, mSetUint64_ok, Hz. }
  destruct (Udivrem [0; 0; 0; 0] (limbs (cell h x)) (cell h y)) as [qr| |]; cbn [bind] in E; try discriminate.
  apply (f_equal (fun r => match r with Ok a => a | _ => v end)) in E. subst v.
  erewrite cbind_Ok by reflexivity. apply new_set.
Qed.
End Alloc.

(** [x = new(Int).Neg(x)] *)
Lemma negnew h p : (p < length h)%nat -> exists g,
  (let! t := new Clear in let! _ := mNeg t p in cret t) h = Ok (length h, h ++ Neg (cell h p) :: g).
Proof.
  intros Hp. erewrite cbind_Ok by reflexivity.
  destruct (mNeg_ok (h ++ [Clear]) (length h) p ltac:(len) ltac:(len)) as [g E].
  exists g. erewrite cbind_Ok by exact E. cells. rewrite <- app_assoc. reflexivity.
Qed.
Lemma negnew_if (b : bool) h p : (p < length h)%nat -> exists t g,
  (if b then let! t := new Clear in let! _ := mNeg t p in cret t else cret p) h = Ok (t, h ++ g) /\
  (t < length (h ++ g))%nat /\ cell (h ++ g) t = if b then Neg (cell h p) else cell h p.
Proof.
  intros Hp. destruct b.
  - destruct (negnew h p Hp) as [g E]. exists (length h), (Neg (cell h p) :: g).
    split; [exact E|]. split; [len|]. apply cell_last.
  - exists p, []. rewrite app_nil_r. split; [reflexivity|]. auto.
Qed.

Section Signed.
Variable h : mem.
Variables z x y : ptr.
Hypothesis Hz : (z < length h)%nat.
Hypothesis Hx : (x < length h)%nat.
Hypothesis Hy : (y < length h)%nat.

Lemma mSMod_ok v : SMod (cell h x) (cell h y) = Ok v -> sets (mSMod z x y) h z v tt.
Proof.
  unfold mSMod, SMod. cbv zeta. intros E.
  unfold sets. do 2 (erewrite cbind_Ok by (apply ldI_ok; len)). cbv zeta.
  destruct (negnew_if (Sign (cell h x) =? -1) h x Hx) as (t & g & E1 & L1 & C1).
  erewrite cbind_Ok by exact E1.
  destruct (negnew_if (Sign (cell h y) =? -1) (h ++ g) y ltac:(len)) as (u & g2 & E2 & L2 & C2).
  erewrite cbind_Ok by exact E2. rewrite (cell_app1 h g y Hy) in C2.
  assert (C1' : cell ((h ++ g) ++ g2) t = if Sign (cell h x) =? -1 then Neg (cell h x) else cell h x)
    by (rewrite cell_app1 by exact L1; exact C1).
  destruct (Mod _ _) as [m| |] eqn:EM in E; cbn [bind] in E; try discriminate.
  apply (f_equal (fun r => match r with Ok a => a | _ => v end)) in E. subst v.
  destruct (mMod_ok ((h ++ g) ++ g2) z t u ltac:(len) ltac:(len) ltac:(len) m ltac:(rewrite C1', C2; exact EM)) as [g3 E3].
  erewrite cbind_Ok by exact E3.
  rewrite <- app_assoc, setn_app1, <- !app_assoc by len.
  destruct (Sign (cell h x) =? -1).
  - set (G := g ++ _). destruct (mNeg_ok (setn h z m ++ G) z z ltac:(len) ltac:(len)) as [g4 E4].
    rewrite E4. rewrite setn_app1, setn_setn by len. exists (G ++ g4). rewrite app_assoc. cells. reflexivity.
  - eexists. reflexivity.
Qed.

Lemma mSDiv_ok v : SDiv (cell h x) (cell h y) = Ok v -> sets (mSDiv z x y) h z v tt.
Proof.
  unfold mSDiv, SDiv. intros E.
  unfold sets. do 2 (erewrite cbind_Ok by (apply ldI_ok; len)).
  assert (N : forall m G, exists g', mNeg z z (setn h z m ++ G) = Ok (tt, setn h z (Neg m) ++ g')).
  { intros m G. destruct (mNeg_ok (setn h z m ++ G) z z ltac:(len) ltac:(len)) as [g4 E4].
    rewrite E4. rewrite setn_app1, setn_setn by len. exists (G ++ g4). rewrite app_assoc. cells. reflexivity. }
  assert (NN : forall p, (p < length h)%nat -> forall g1, exists g,
    (let! t := new Clear in let! _ := mNeg t p in cret t) (h ++ g1) = Ok (length (h ++ g1), h ++ g1 ++ Neg (cell h p) :: g)).
  { intros p Hp g1. destruct (negnew (h ++ g1) p ltac:(len)) as [g E4].
    exists g. rewrite E4. rewrite cell_app1 by exact Hp. rewrite <- app_assoc. reflexivity. }
  assert (R : forall (p : ptr) (f : ptr -> cmd unit) k, (let! t := new Clear in let! _ := mNeg t p in f t) k =
     (let! t := (let! t := new Clear in let! _ := mNeg t p in cret t) in f t) k).
  { intros p f k. unfold cbind. destruct (new Clear k) as [[t k']| |]; auto. destruct (mNeg t p k') as [[? ?]| |]; reflexivity. }
  destruct (0 <? Sign (cell h x)); [destruct (0 <? Sign (cell h y))|destruct (Sign (cell h y) <? 0)].
  - apply mDiv_ok; assumption.
  - destruct (Div (cell h x) (Neg (cell h y))) as [m| |] eqn:ED; cbn [bind] in E; try discriminate.
    apply (f_equal (fun r => match r with Ok a => a | _ => v end)) in E. subst v.
    rewrite R. destruct (NN y Hy []) as [g1 E1]. rewrite app_nil_r in E1. cbn [app] in E1.
    erewrite cbind_Ok by exact E1.
    destruct (mDiv_ok (h ++ Neg (cell h y) :: g1) z x (length h) ltac:(len) ltac:(len) ltac:(len) m) as [g2 E2].
    { rewrite cell_last, cell_app1 by exact Hx. exact ED. }
    erewrite cbind_Ok by exact E2. rewrite setn_app1, <- app_assoc by exact Hz. apply N.
  - rewrite R. destruct (NN x Hx []) as [g1 E1]. rewrite app_nil_r in E1. cbn [app] in E1.
    erewrite cbind_Ok by exact E1. rewrite R.
    destruct (NN y Hy (Neg (cell h x) :: g1)) as [g2 E2]. erewrite cbind_Ok by exact E2.
    destruct (mDiv_ok (h ++ (Neg (cell h x) :: g1) ++ Neg (cell h y) :: g2) z (length h)
       (length (h ++ Neg (cell h x) :: g1)) ltac:(len) ltac:(len) ltac:(len) v) as [g3 E3].
    { rewrite app_assoc, cell_last, <- app_assoc. cbn [app]. rewrite cell_last. exact E. }
    rewrite E3. rewrite setn_app1, <- app_assoc by exact Hz. eexists. reflexivity.
  - destruct (Div (Neg (cell h x)) (cell h y)) as [m| |] eqn:ED; cbn [bind] in E; try discriminate.
    apply (f_equal (fun r => match r with Ok a => a | _ => v end)) in E. subst v.
    rewrite R. destruct (NN x Hx []) as [g1 E1]. rewrite app_nil_r in E1. cbn [app] in E1.
    erewrite cbind_Ok by exact E1.
    destruct (mDiv_ok (h ++ Neg (cell h x) :: g1) z (length h) y ltac:(len) ltac:(len) ltac:(len) m) as [g2 E2].
    { rewrite cell_last, cell_app1 by exact Hy. exact ED. }
    erewrite cbind_Ok by exact E2. rewrite setn_app1, <- app_assoc by exact Hz. apply N.
Qed.
End Signed.

Lemma setn_app2 h g p v : (length h <= p)%nat -> setn (h ++ g) p v = h ++ setn g (p - length h) v.
Proof.
  revert p. induction h as [|a h IH]; intros p H; cbn [length app] in *; [rewrite Nat.sub_0_r; reflexivity|].
  destruct p as [|p]; [lia|]. cbn. rewrite IH by lia. reflexivity.
Qed.
Lemma cell_snd h g a v : cell (h ++ a :: v :: g) (S (length h)) = v.
Proof. unfold cell. rewrite app_nth2 by lia. rewrite Nat.sub_succ_l, Nat.sub_diag by lia. reflexivity. Qed.
Lemma setn_snd h g a v w : setn (h ++ a :: v :: g) (S (length h)) w = h ++ a :: w :: g.
Proof. rewrite setn_app2 by lia. rewrite Nat.sub_succ_l, Nat.sub_diag by lia. reflexivity. Qed.
Ltac cells2 := repeat (first [rewrite cell_snd | rewrite setn_snd | progress cells]).
Ltac call L := erewrite cbind_Ok by (apply L; len); cells2.

Section AddMod.
Variable h : mem.
Variables z x y m : ptr.
Hypothesis Hz : (z < length h)%nat.
Hypothesis Hx : (x < length h)%nat.
Hypothesis Hy : (y < length h)%nat.
Hypothesis Hm : (m < length h)%nat.

Lemma clone_if : exists m' g, (if (z =? m)%nat then mClone m else cret m) h = Ok (m', h ++ g) /\
  (m' < length (h ++ g))%nat /\ m' <> z /\ cell (h ++ g) m' = cell h m.
Proof using Hz Hm.
  clear Hx Hy. destruct (Nat.eqb_spec z m) as [->|N].
  - exists (length h), [cell h m]. unfold mClone. erewrite cbind_Ok by (apply ldI_ok; len).
    split; [reflexivity|]. split; [len|]. split; [lia|]. apply cell_last.
  - exists m, []. rewrite app_nil_r. auto.
Qed.
Lemma if_set (b : bool) k s p : (s < length k)%nat -> (p < length k)%nat ->
  (if b then mSet s p else cret tt) k = Ok (tt, setn k s (if b then cell k p else cell k s)).
Proof. intros Hs Hp. destruct b; [apply mSet_ok; assumption|]. rewrite setn_cell. reflexivity. Qed.
Lemma if_sub (b : bool) k s p : (s < length k)%nat -> (p < length k)%nat ->
  (if b then mSub s s p else cret tt) k = Ok (tt, setn k s (if b then Sub (cell k s) (cell k p) else cell k s)).
Proof. intros Hs Hp. destruct b; [apply mSub_ok; assumption|]. rewrite setn_cell. reflexivity. Qed.

Lemma mAddMod_ok v : AddMod (cell h x) (cell h y) (cell h m) = Ok v -> sets (mAddMod z x y m) h z v tt.
Proof.
  unfold mAddMod, AddMod, sets. intros E.
  do 3 (erewrite cbind_Ok by (apply ldI_ok; len)).
  destruct (negb (l3 (cell h m) =? 0) && (l3 (cell h x) <=? l3 (cell h m)) && (l3 (cell h y) <=? l3 (cell h m))).
  { apply (f_equal (fun r => match r with Ok a => a | _ => v end)) in E. subst v.
    do 2 (erewrite cbind_Ok by reflexivity). rewrite <- app_assoc. cbn [app].
    replace (length (h ++ [Clear])) with (S (length h)) by (rewrite app_length; cbn [length]; lia).
    call mSet_ok. call mSubOverflow_ok. call if_set. call mSet_ok. call mSubOverflow_ok. call if_set.
    call mAddOverflow_ok. call if_sub. call mSet_ok. call mSubOverflow_ok. call if_set.
    rewrite mSet_ok by len. cells2.
    destruct (SubOverflow (cell h x) (cell h m)) as [d1 o1]; cbn [fst snd].
    destruct (SubOverflow (cell h y) (cell h m)) as [d2 o2]; cbn [fst snd].
    destruct (AddOverflow (if o1 then cell h x else d1) (if o2 then cell h y else d2)) as [a3 o3]; cbn [fst snd].
    destruct (SubOverflow (if o3 then Sub a3 (cell h m) else a3) (cell h m)) as [d4 o4]; cbn [fst snd].
    eexists. reflexivity. }
  destruct (IsZero (cell h m)).
  { injection E as <-. apply sets_of. apply mClear_ok, Hz. }
  destruct clone_if as (m' & g & E1 & L1 & N1 & C1). erewrite cbind_Ok by exact E1.
  erewrite cbind_Ok by (apply mAddOverflow_ok; len). rewrite !cell_app1 by len.
  destruct (AddOverflow (cell h x) (cell h y)) as [s o]; cbn [fst snd].
  assert (C2 : cell (setn (h ++ g) z s) m' = cell h m) by (rewrite cell_setn_ne by exact N1; exact C1).
  assert (C3 : cell (setn (h ++ g) z s) z = s) by (apply cell_setn_eq; len).
  assert (LS : length (setn (h ++ g) z s) = length (h ++ g)) by apply length_setn.
  assert (FS : forall w, setn (setn (h ++ g) z s) z w = setn h z w ++ g) by (intros w; rewrite setn_setn; apply setn_app1, Hz).
  set (k := setn (h ++ g) z s) in *. clearbody k.
  assert (Hz2 : (z < length k)%nat) by (rewrite LS; len).
  assert (Hm2 : (m' < length k)%nat) by (rewrite LS; exact L1).
  destruct o.
  - do 2 (erewrite cbind_Ok by (apply ldI_ok; assumption)). rewrite C2, C3.
    destruct (Udivrem [0; 0; 0; 0; 0] (limbs s ++ [1]) (cell h m)) as [qr| |]; cbn [bind] in E; try discriminate.
    apply (f_equal (fun r => match r with Ok a => a | _ => v end)) in E. subst v.
    erewrite cbind_Ok by reflexivity.
    destruct (new_set k z Hz2 (snd qr)) as [g' E']. rewrite E', FS, <- app_assoc. eexists. reflexivity.
  - rewrite <- C2, <- C3 in E.
    destruct (mMod_ok k z z m' Hz2 Hz2 Hm2 v E) as [g' E']. rewrite E', FS, <- app_assoc. eexists. reflexivity.
Qed.
End AddMod.

(** *** MulMod *)
Section MulMod.
Variables (h : mem) (z x y m : ptr).
Hypothesis (Hz : (z < length h)%nat) (Hx : (x < length h)%nat) (Hy : (y < length h)%nat) (Hm : (m < length h)%nat).
Lemma mmulmod_small_ok p v : mulmod_small p (cell h m) = Ok v -> sets (mmulmod_small z m p) h z v tt.
Proof using Hz Hm.
  clear Hx Hy. unfold mmulmod_small, mulmod_small. intros E.
  destruct p as [|p0 [|p1 [|p2 [|p3 [|p4 [|p5 [|p6 [|p7 [|? ?]]]]]]]]]; try discriminate E.
  unfold sets. do 2 (erewrite cbind_Ok by reflexivity). rewrite <- app_assoc. cbn [app].
  set (k := h ++ [mkInt p0 p1 p2 p3; mkInt p4 p5 p6 p7]).
  assert (Lk : length k = S (S (length h))) by (unfold k; len).
  assert (E1 : cell k (length h) = mkInt p0 p1 p2 p3).
  { unfold k, cell. rewrite app_nth2, Nat.sub_diag by lia. reflexivity. }
  assert (E2 : cell k (length (h ++ [mkInt p0 p1 p2 p3])) = mkInt p4 p5 p6 p7).
  { unfold k, cell. rewrite app_length. cbn [length]. rewrite app_nth2 by lia.
    replace (length h + 1 - length h)%nat with 1%nat by lia. reflexivity. }
  assert (E3 : cell k m = cell h m) by (unfold k; apply cell_app1; exact Hm).
  assert (FS : forall w, setn k z w = setn h z w ++ [mkInt p0 p1 p2 p3; mkInt p4 p5 p6 p7]) by (intros w; apply setn_app1, Hz).
  erewrite cbind_Ok by (apply ldI_ok; rewrite Lk; len). rewrite E2.
  clearbody k.
  destruct (IsZero (mkInt p4 p5 p6 p7)).
  - rewrite <- E1, <- E3 in E.
    destruct (mMod_ok k z (length h) m ltac:(lia) ltac:(lia) ltac:(lia) v E) as [g' E']. rewrite E', FS, <- app_assoc. eexists. reflexivity.
  - erewrite cbind_Ok by (apply ldI_ok; lia). rewrite E3.
    destruct (Udivrem [0; 0; 0; 0; 0; 0; 0; 0] [p0; p1; p2; p3; p4; p5; p6; p7] (cell h m)) as [qr| |]; cbn [bind] in E; try discriminate.
    apply (f_equal (fun r => match r with Ok a => a | _ => v end)) in E. subst v.
    erewrite cbind_Ok by reflexivity.
    destruct (new_set k z ltac:(lia) (snd qr)) as [g' E']. rewrite E', FS, <- app_assoc. eexists. reflexivity.
Qed.
Lemma mMulMod_ok v : MulMod (cell h x) (cell h y) (cell h m) = Ok v -> sets (mMulMod z x y m) h z v tt.
Proof.
  unfold mMulMod, MulMod. intros E. unfold sets. do 3 (erewrite cbind_Ok by (apply ldI_ok; len)).
  destruct (IsZero (cell h x) || IsZero (cell h y) || IsZero (cell h m)).
  { injection E as <-. apply sets_of. apply mClear_ok, Hz. }
  cbv zeta in E |- *.
  destruct (negb (l3 (cell h m) =? 0)).
  - destruct (Reciprocal (cell h m)) as [mu| |]; cbn [bind] in E; try discriminate.
    erewrite cbind_Ok by reflexivity. rewrite E. erewrite cbind_Ok by reflexivity. apply new_set; assumption.
  - apply mmulmod_small_ok; assumption.
Qed.
Lemma mMulModWithReciprocal_ok mu v : MulModWithReciprocal (cell h x) (cell h y) (cell h m) mu = Ok v ->
  sets (mMulModWithReciprocal z x y m mu) h z v tt.
Proof.
  unfold mMulModWithReciprocal, MulModWithReciprocal. intros E. unfold sets. do 3 (erewrite cbind_Ok by (apply ldI_ok; len)).
  destruct (IsZero (cell h x) || IsZero (cell h y) || IsZero (cell h m)).
  { injection E as <-. apply sets_of. apply mClear_ok, Hz. }
  cbv zeta in E |- *.
  destruct (negb (l3 (cell h m) =? 0)).
  - rewrite E. erewrite cbind_Ok by reflexivity. apply new_set; assumption.
  - apply mmulmod_small_ok; assumption.
Qed.
End MulMod.

(** *** Exp *)
Lemma mexp_loop_ok h n : forall w r m g, exists g',
  mexp_loop n (length h) (S (length h)) w (h ++ r :: m :: g) =
  Ok (tt, h ++ fst (exp_loop n w (r, m)) :: snd (exp_loop n w (r, m)) :: g').
Proof.
  induction n as [|n IH]; intros w r m g; cbn [mexp_loop exp_loop].
  - exists g. reflexivity.
  - assert (M : exists g1, (if Z.land w 1 =? 1 then mMul (length h) (length h) (S (length h)) else cret tt) (h ++ r :: m :: g)
        = Ok (tt, h ++ (if Z.land w 1 =? 1 then Mul r m else r) :: m :: g1)).
    { destruct (Z.land w 1 =? 1); [|eexists; reflexivity].
      destruct (mMul_ok (h ++ r :: m :: g) (length h) (length h) (S (length h)) ltac:(len) ltac:(len) ltac:(len)) as [g1 E1].
      exists (g ++ g1). rewrite E1. cells2. rewrite <- app_assoc. reflexivity. }
    destruct M as [g1 E1]. erewrite cbind_Ok by exact E1. unfold exp_step.
    set (r' := if Z.land w 1 =? 1 then Mul r m else r).
    destruct (msquared_ok (h ++ r' :: m :: g1) (S (length h)) ltac:(len)) as [g2 E2].
    erewrite cbind_Ok by exact E2. cells2. rewrite <- app_assoc. cbn [app]. apply IH.
Qed.

Lemma mExp_ok h z b e : (z < length h)%nat -> (b < length h)%nat -> (e < length h)%nat ->
  sets (mExp z b e) h z (Exp (cell h b) (cell h e)) tt.
Proof.
  intros Hz Hb He. unfold mExp, Exp, sets. cbv zeta.
  erewrite cbind_Ok by reflexivity. erewrite cbind_Ok by (apply ldI_ok; len). cells.
  erewrite cbind_Ok by reflexivity. rewrite <- app_assoc. cbn [app].
  replace (length (h ++ [mkInt 1 0 0 0])) with (S (length h)) by (rewrite app_length; cbn [length]; lia).
  erewrite cbind_Ok by (apply ldI_ok; len). cells.
  assert (L : forall i n r m g (f : cmd unit) r' m', exp_loop n (getl (cell h e) i) (r, m) = (r', m') ->
     exists g', (let! w := rd e i in let! _ := mexp_loop n (length h) (S (length h)) w in f) (h ++ r :: m :: g) =
       f (h ++ r' :: m' :: g')).
  { intros i n r m g f r' m' E. destruct (mexp_loop_ok h n (getl (cell h e) i) r m g) as [g' E'].
    exists g'. erewrite cbind_Ok by (apply rd_ok; len). cells. erewrite cbind_Ok by exact E'. rewrite E. reflexivity. }
  set (bl := BitLen (cell h e)).
  change (mkInt 1 0 0 0) with SetOne.
  destruct (exp_loop (Z.to_nat (Z.min bl 64 - 0)) (l0 (cell h e)) (SetOne, cell h b)) as [r1 m1] eqn:E1.
  destruct (exp_loop (Z.to_nat (Z.min bl 128 - 64)) (l1 (cell h e)) (r1, m1)) as [r2 m2] eqn:E2.
  destruct (exp_loop (Z.to_nat (Z.min bl 192 - 128)) (l2 (cell h e)) (r2, m2)) as [r3 m3] eqn:E3.
  destruct (exp_loop (Z.to_nat (Z.min bl 256 - 192)) (l3 (cell h e)) (r3, m3)) as [r4 m4] eqn:E4.
  edestruct (L I0) as [g1 F1]; [exact E1|]. rewrite F1. clear F1.
  edestruct (L I1) as [g2 F2]; [exact E2|]. rewrite F2. clear F2.
  edestruct (L I2) as [g3 F3]; [exact E3|]. rewrite F3. clear F3.
  edestruct (L I3) as [g4 F4]; [exact E4|]. rewrite F4. clear F4.
  rewrite mSet_ok by len. cells. eexists. reflexivity.
Qed.

(** *** ExtendSign *)
Lemma mExtendSign_ok h z x b v : (z < length h)%nat -> (x < length h)%nat -> (b < length h)%nat ->
  ExtendSign (cell h x) (cell h b) = Ok v -> sets (mExtendSign z x b) h z v tt.
Proof.
  intros Hz Hx Hb. unfold mExtendSign, ExtendSign, sets. intros E.
  erewrite cbind_Ok by (apply ldI_ok; len).
  destruct (GtUint64 (cell h b) 31).
  { injection E as <-. apply sets_of, mSet_ok; assumption. }
  erewrite cbind_Ok by (apply rd_ok; len). cbn [getl].
  cbv zeta in E |- *. set (bit := wadd (wmul (l0 (cell h b)) 8) 7) in *.
  erewrite cbind_Ok by reflexivity.
  call mSetOne_ok. call mLsh_ok. call mSubUint64_ok.
  erewrite cbind_Ok by (apply ldI_ok; len). cells.
  destruct (isBitSet (cell h x) bit) as [s| |]; cbn [bind] in E; try discriminate.
  erewrite cbind_Ok by reflexivity.
  apply (f_equal (fun r => match r with Ok a => a | _ => v end)) in E. subst v.
  destruct s.
  - call mNot_ok. rewrite mOr_ok by len. cells2. eexists. reflexivity.
  - rewrite mAnd_ok by len. cells2. eexists. reflexivity.
Qed.

(** *** Sqrt *)
Lemma mrsh1_ok h z : (z < length h)%nat -> mrsh1 z h = Ok (tt, setn h z (rsh1 (cell h z))).
Proof. intros Hz. unfold mrsh1. shgo. reflexivity. Qed.

Lemma msqrt_loop_ok h z x : (z < length h)%nat -> (x < length h)%nat ->
  forall f g z1 z2 v, z1 <> z2 -> (length h <= z1 < length (h ++ g))%nat -> (length h <= z2 < length (h ++ g))%nat ->
  sqrt_loop f (cell h x) (cell (h ++ g) z1) = Ok v ->
  exists g', msqrt_loop f z x z1 z2 (h ++ g) = Ok (tt, setn h z v ++ g').
Proof.
  intros Hz Hx. induction f as [|f IH]; intros g z1 z2 v N L1 L2 E; cbn [sqrt_loop msqrt_loop] in *; [discriminate|].
  destruct (Div (cell h x) (cell (h ++ g) z1)) as [q| |] eqn:ED; cbn [bind] in E; try discriminate.
  rewrite <- (cell_app1 h g x Hx) in ED.
  destruct (mDiv_ok (h ++ g) z2 x z1 ltac:(len) ltac:(len) ltac:(len) q ED) as [g1 E1].
  erewrite cbind_Ok by exact E1.
  set (k := h ++ g) in *. assert (Lk : (length h <= length k)%nat) by (unfold k; len).
  erewrite cbind_Ok by (apply mAdd_ok; len). cells.
  erewrite cbind_Ok by (apply mrsh1_ok; len). cells.
  erewrite cbind_Ok by (apply ldI_ok; len). cells.
  erewrite cbind_Ok by (apply ldI_ok; len). cells.
  cbv zeta in E. set (w := rsh1 (Add q (cell k z1))) in *.
  destruct (0 <=? Cmp w (cell k z1)).
  - injection E as <-. rewrite mSet_ok by len.
    rewrite (cell_app1 _ g1 z1) by len. rewrite cell_setn_ne by exact N.
    unfold k at 1. rewrite (setn_app2 h g z2) by lia. rewrite <- app_assoc, setn_app1 by exact Hz. eexists. reflexivity.
  - unfold k. rewrite (setn_app2 h g z2) by lia. rewrite <- app_assoc.
    apply IH; [congruence| | |].
    + split; [lia|]. rewrite app_length, app_length, length_setn. unfold k in L2. rewrite app_length in L2. lia.
    + split; [lia|]. rewrite app_length, app_length, length_setn. unfold k in L1. rewrite app_length in L1. lia.
    + rewrite app_assoc, <- setn_app2 by lia. fold k. rewrite cell_app1 by len. rewrite cell_setn_eq by lia. exact E.
Qed.

Lemma mSqrt_ok h z x fuel v : (z < length h)%nat -> (x < length h)%nat ->
  Sqrt fuel (cell h x) = Ok v -> sets (mSqrt fuel z x) h z v tt.
Proof.
  intros Hz Hx. unfold mSqrt, Sqrt, sets. intros E.
  erewrite cbind_Ok by (apply ldI_ok; len).
  destruct (LtUint64 (cell h x) 2).
  { injection E as <-. apply sets_of, mSet_ok; assumption. }
  do 2 (erewrite cbind_Ok by reflexivity). rewrite <- app_assoc. cbn [app].
  replace (length (h ++ [mkInt 1 0 0 0])) with (S (length h)) by (rewrite app_length; cbn [length]; lia).
  call mLsh_ok.
  apply msqrt_loop_ok; try assumption; try lia; try len.
  rewrite cell_last. exact E.
Qed.
