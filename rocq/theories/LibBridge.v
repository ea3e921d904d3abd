(** LibBridge.v -- the integer-level operations of U256Z.v are the limb-level functions of
    /repo/uint256. *)
From Verif Require Import Base U256 BitFacts U256Facts U256Shift U256Bits U256Div U256DivFacts U256Udivrem U256DivSpec U256Z.
From Coq Require Import ZifyBool.
Ltac Zify.zify_post_hook ::= Z.div_mod_to_equations.

(** * MulDiv and MulDivRoundingUp on limbs *)
(** fullmath.go:23-33.  [var q [5]uint64]; the result is the first four words. *)
Definition MulDivL (a b denominator : Int) : res Int :=
  if IsZero a || IsZero b then Ok (SetUint64 0)
  else
    do qr <- Udivrem [0; 0; 0; 0; 0] (Umul a b) denominator;
    Ok (of_words (firstn 4 (fst qr))).

(** fullmath.go:8-21 *)
Definition MulDivRoundingUpL (a b denominator : Int) : res Int :=
  if IsZero a || IsZero b then Ok (SetUint64 0)
  else
    do qr <- Udivrem [0; 0; 0; 0; 0] (Umul a b) denominator;
    let result := of_words (firstn 4 (fst qr)) in
    Ok (if negb (IsZero (snd qr)) then Add result SetOne else result).

Definition rmap {A B} (f : A -> B) (r : res A) : res B :=
  match r with Ok a => Ok (f a) | Panic => Panic | OutOfFuel => OutOfFuel end.

Lemma words_bounds v : 0 < v -> 1 <= words v /\ W ^ (words v - 1) <= v < W ^ words v.
Proof.
  intros Hv. unfold words. replace (v =? 0) with false by lia.
  pose proof (Z.log2_spec v Hv) as [H1 H2]. pose proof (Z.log2_nonneg v).
  set (k := Z.log2 v) in *. clearbody k. assert (0 <= k / 64) by (apply Z.div_pos; lia). split; [lia|].
  assert (E : forall n, 0 <= n -> W ^ n = 2 ^ (64 * n)) by (intros n Hn; rewrite Z.pow_mul_r by lia; reflexivity).
  rewrite !E by lia. split.
  - eapply Z.le_trans; [|exact H1]. apply Z.pow_le_mono_r; lia.
  - eapply Z.lt_le_trans; [exact H2|]. apply Z.pow_le_mono_r; lia.
Qed.

Lemma words_siglen l : Forall is_w l -> words (lval l) = Z.of_nat (siglen l).
Proof.
  intros H. pose proof (lval_range l H). destruct (Z.eq_dec (lval l) 0) as [e|ne].
  { rewrite e. apply siglen_zero in e; auto. rewrite e. reflexivity. }
  destruct (words_bounds (lval l) ltac:(lia)) as [H1 [H2 H3]].
  pose proof (siglen_bounds l H ne) as [H4 H5].
  destruct (Z.lt_trichotomy (words (lval l)) (Z.of_nat (siglen l))) as [C|[C|C]]; [exfalso|assumption|exfalso].
  - assert (W ^ words (lval l) <= W ^ (Z.of_nat (siglen l) - 1)) by (apply Z.pow_le_mono_r; lia). lia.
  - assert (W ^ Z.of_nat (siglen l) <= W ^ (words (lval l) - 1)) by (apply Z.pow_le_mono_r; lia). lia.
Qed.

Lemma Udivrem_quot5 a b d : wf a -> wf b -> wf d ->
  if udivrem5_ok (toZ a * toZ b) (toZ d) then
    exists q r, Udivrem [0;0;0;0;0] (Umul a b) d = Ok (q, r) /\ wf (of_words (firstn 4 q)) /\ wf r /\
      toZ (of_words (firstn 4 q)) = (toZ a * toZ b / toZ d) mod T256 /\ toZ r = (toZ a * toZ b) mod toZ d
  else Udivrem [0;0;0;0;0] (Umul a b) d = Panic.
Proof.
  intros Ha Hb Hd. destruct (Umul_length_spec a b Ha Hb) as (L & F & V).
  pose proof (Udivrem_spec [0;0;0;0;0] (Umul a b) d F Hd) as H.
  pose proof (words_siglen _ F) as W1. pose proof (words_siglen _ (limbs_wf d Hd)) as W2.
  rewrite V in W1. rewrite limbs_toZ in W2.
  assert (E : Udivrem_fits [0;0;0;0;0] (Umul a b) d = udivrem5_ok (toZ a * toZ b) (toZ d)).
  { unfold Udivrem_fits, udivrem5_ok. rewrite W1, W2. cbn [length].
    pose proof (siglen_zero _ F) as Z1. pose proof (siglen_zero _ (limbs_wf d Hd)) as Z2.
    rewrite V in Z1. rewrite limbs_toZ in Z2.
    set (su := siglen (Umul a b)) in *. set (sd := siglen (limbs d)) in *.
    set (p := toZ a * toZ b) in *. clearbody su sd p. clear - Z1 Z2. lia. }
  rewrite E in H. destruct (udivrem5_ok (toZ a * toZ b) (toZ d)); [|assumption].
  destruct H as (Qs & rem & EU & LQ & FQ & Wr & Hval & Hlt).
  exists (Qs ++ skipn (length Qs) [0;0;0;0;0]), rem. split; [assumption|].
  assert (LQ5 : (length Qs <= 5)%nat).
  { unfold Udivrem_fits in E. cbn [length] in E. lia. }
  assert (Ez : skipn (length Qs) [0;0;0;0;0] = repeat 0 (5 - length Qs)).
  { destruct (length Qs) as [|[|[|[|[|[|]]]]]]; try reflexivity; lia. }
  rewrite Ez.
  set (q := Qs ++ repeat 0 (5 - length Qs)).
  assert (Fq : Forall is_w q).
  { apply Forall_app; split; [assumption|]. apply Forall_forall. intros z Hz. apply repeat_spec in Hz. subst. auto. }
  assert (Lq : length q = 5%nat) by (unfold q; rewrite app_length, repeat_length; lia).
  assert (Vq : lval q = toZ a * toZ b / toZ d).
  { unfold q. rewrite lval_zeros_app. pose proof (toZ_range rem Wr). apply Z.div_unique_pos with (r := toZ rem); lia. }
  destruct q as [|q0 [|q1 [|q2 [|q3 [|q4 [|]]]]]]; try discriminate. cbn [firstn].
  destruct (of_words_spec [q0;q1;q2;q3]) as [A B]; [|cbn; lia|].
  { apply (Forall_app is_w [q0;q1;q2;q3] [q4]) in Fq. tauto. }
  pose proof (lval_range [q0;q1;q2;q3]) as R4.
  split; [assumption|]. split; [assumption|]. pose proof (toZ_range rem Wr). split.
  - rewrite B, <- Vq. apply Z.mod_unique_pos with (q := q4).
    + rewrite <- B. now apply toZ_range.
    + cbn [lval]. lia.
  - apply Z.mod_unique_pos with (q := lval Qs); lia.
Qed.

Theorem MulDivL_spec a b d : wf a -> wf b -> wf d ->
  MulDivL a b d = rmap ofZ (MulDiv (toZ a) (toZ b) (toZ d)).
Proof.
  intros Ha Hb Hd. unfold MulDivL, MulDiv. rewrite !IsZero_spec by assumption.
  destruct ((toZ a =? 0) || (toZ b =? 0)); [reflexivity|].
  pose proof (Udivrem_quot5 a b d Ha Hb Hd) as H. destruct (udivrem5_ok _ _).
  - destruct H as (q & r & E & A & B & C & D). rewrite E. cbn [bind fst rmap]. f_equal. rewrite <- C.
    symmetry. now apply ofZ_toZ.
  - rewrite H. reflexivity.
Qed.

Theorem MulDivRoundingUpL_spec a b d : wf a -> wf b -> wf d ->
  MulDivRoundingUpL a b d = rmap ofZ (MulDivRoundingUp (toZ a) (toZ b) (toZ d)).
Proof.
  intros Ha Hb Hd. unfold MulDivRoundingUpL, MulDivRoundingUp. rewrite !IsZero_spec by assumption.
  destruct ((toZ a =? 0) || (toZ b =? 0)); [reflexivity|].
  pose proof (Udivrem_quot5 a b d Ha Hb Hd) as H. destruct (udivrem5_ok _ _).
  - destruct H as (q & r & E & A & B & C & D). rewrite E. cbn [bind fst snd rmap]. f_equal. rewrite <- C.
    rewrite IsZero_spec by assumption. rewrite D.
    destruct (negb ((toZ a * toZ b) mod toZ d =? 0)).
    + destruct SetOne_spec as [S1 S2]. destruct (Add_spec (of_words (firstn 4 q)) SetOne A S1) as [P Q].
      rewrite S2 in Q. unfold uadd. rewrite <- Q. symmetry. now apply ofZ_toZ.
    + symmetry. now apply ofZ_toZ.
  - rewrite H. reflexivity.
Qed.

(** * The other operations *)
Theorem ops_bridge x y n : wf x -> wf y -> 0 <= n ->
  toZ (Add x y) = uadd (toZ x) (toZ y) /\ toZ (Sub x y) = usub (toZ x) (toZ y) /\
  toZ (Mul x y) = umul (toZ x) (toZ y) /\ toZ (Neg x) = uneg (toZ x) /\
  (exists z, Div x y = Ok z /\ wf z /\ toZ z = udiv (toZ x) (toZ y)) /\
  toZ (Lsh x n) = ulsh (toZ x) n /\ toZ (Rsh x n) = ursh (toZ x) n /\ Sign x = usign (toZ x).
Proof.
  intros Hx Hy Hn. split; [apply Add_spec; auto|]. split; [apply Sub_spec; auto|]. split; [apply Mul_spec; auto|].
  split; [apply Neg_spec; auto|]. split; [apply Div0_spec; auto|]. split; [apply Lsh_spec; auto|].
  split; [apply Rsh_spec; auto|]. rewrite Sign_spec by assumption. unfold usign, sgn256.
  pose proof (toZ_range x Hx). destruct (toZ x =? 0) eqn:E; destruct (toZ x <? T255) eqn:E1; lia.
Qed.
