(** U256DivSpec.v -- Div, Mod, SDiv, SMod, AddMod and Sqrt compute the intended integer operations. *)
From Verif Require Import Base U256 BitFacts U256Facts U256Shift U256Bits U256Div U256DivFacts U256Udivrem.
From Coq Require Import ZifyBool.
Ltac Zify.zify_post_hook ::= Z.div_mod_to_equations.

Lemma siglen_mono a b : Forall is_w a -> Forall is_w b -> lval a <= lval b -> (siglen a <= siglen b)%nat.
Proof.
  intros Ha Hb H. pose proof (lval_range a Ha).
  destruct (Z.eq_dec (lval a) 0) as [e|n]. { apply siglen_zero in e; auto. lia. }
  pose proof (siglen_bounds a Ha n) as [H1 _]. pose proof (siglen_bounds b Hb ltac:(lia)) as [_ H2].
  destruct (Nat.le_gt_cases (siglen a) (siglen b)) as [|Hgt]; [assumption|exfalso].
  assert (W ^ Z.of_nat (siglen b) <= W ^ (Z.of_nat (siglen a) - 1)) by (apply Z.pow_le_mono_r; lia). lia.
Qed.

Lemma lval_zeros_app l n : lval (l ++ repeat 0 n) = lval l.
Proof. rewrite lval_app, lval_zeros. lia. Qed.

(** Udivrem on a four-word dividend not smaller than the divisor. *)
Lemma Udivrem_4 x y : wf x -> wf y -> 0 < toZ y <= toZ x ->
  exists q r, Udivrem [0;0;0;0] (limbs x) y = Ok (q, r) /\ wf (of_words q) /\ wf r /\
    toZ (of_words q) = toZ x / toZ y /\ toZ r = toZ x mod toZ y.
Proof.
  intros Hx Hy Hle. pose proof (limbs_wf x Hx) as Fx. pose proof (limbs_wf y Hy) as Fy.
  assert (M : (siglen (limbs y) <= siglen (limbs x))%nat) by (apply siglen_mono; auto; rewrite !limbs_toZ; lia).
  pose proof (siglen_le (limbs x)) as L. change (length (limbs x)) with 4%nat in L.
  assert (Z1 : siglen (limbs y) <> 0%nat) by (intros e; apply siglen_zero in e; auto; rewrite limbs_toZ in e; lia).
  pose proof (Udivrem_spec [0;0;0;0] (limbs x) y Fx Hy) as H.
  assert (HF : Udivrem_fits [0;0;0;0] (limbs x) y = true).
  { unfold Udivrem_fits. cbn [length]. lia. }
  rewrite HF in H. destruct H as (Qs & rem & E & HL & FQ & Hr & Hval & Hlt). rewrite E.
  exists (Qs ++ skipn (length Qs) [0;0;0;0]), rem. split; [reflexivity|].
  assert (LQ : (length Qs <= 4)%nat) by lia.
  assert (Ez : skipn (length Qs) [0;0;0;0] = repeat 0 (4 - length Qs)).
  { destruct (length Qs) as [|[|[|[|[|]]]]]; try reflexivity; lia. }
  rewrite Ez.
  destruct (of_words_spec (Qs ++ repeat 0 (4 - length Qs))) as [W1 T1].
  { apply Forall_app; split; [assumption|]. apply Forall_forall. intros z Hz. apply repeat_spec in Hz. subst. auto. }
  { rewrite app_length, repeat_length. lia. }
  rewrite lval_zeros_app in T1. rewrite limbs_toZ in Hval. pose proof (toZ_range rem Hr).
  split; [assumption|]. split; [assumption|]. rewrite T1. split.
  - apply Z.div_unique_pos with (r := toZ rem); lia.
  - apply Z.mod_unique_pos with (q := lval Qs); lia.
Qed.

Lemma Clear_spec : wf Clear /\ toZ Clear = 0. Proof. split; [unfold wf, Clear; cbn; auto|reflexivity]. Qed.
Lemma SetOne_spec : wf SetOne /\ toZ SetOne = 1.
Proof. split; [unfold wf, SetOne, is_w; cbn [l0 l1 l2 l3]; lia|reflexivity]. Qed.
Lemma SetUint64_spec v : is_w v -> wf (SetUint64 v) /\ toZ (SetUint64 v) = v.
Proof. intros H. split; [unfold wf, SetUint64; cbn [l0 l1 l2 l3]; auto|unfold toZ, SetUint64; cbn [l0 l1 l2 l3]; lia]. Qed.
Lemma toZ_small x : wf x -> toZ x < W -> toZ x = l0 x.
Proof. unfold wf, is_w, toZ. lia. Qed.

Theorem Div_spec x y : wf x -> wf y -> exists z, Div x y = Ok z /\ wf z /\ toZ z = toZ x / toZ y.
Proof.
  intros Hx Hy. pose proof (toZ_range x Hx) as Rx. pose proof (toZ_range y Hy) as Ry. unfold Div.
  rewrite IsZero_spec, Gt_spec, Eq_spec, IsUint64_spec by assumption.
  destruct (toZ y =? 0) eqn:E0.
  { exists Clear. destruct Clear_spec as [A B]. replace (toZ y) with 0 by lia. rewrite Zdiv_0_r. auto. }
  destruct (toZ x <? toZ y) eqn:E1; cbn [orb].
  { exists Clear. destruct Clear_spec as [A B]. rewrite Z.div_small by lia. auto. }
  destruct (toZ x =? toZ y) eqn:E2.
  { exists SetOne. destruct SetOne_spec as [A B]. replace (toZ x) with (toZ y) by lia. rewrite Z_div_same by lia. auto. }
  destruct (toZ x <? W) eqn:E3.
  { pose proof (toZ_small x Hx ltac:(lia)) as Ex. pose proof (toZ_small y Hy ltac:(lia)) as Ey. rewrite Ex, Ey. replace (l0 y =? 0) with false by lia.
    destruct (SetUint64_spec (l0 x / l0 y)) as [A B]; [|eauto].
    unfold is_w. split; [apply Z.div_pos; lia|]. apply Z.le_lt_trans with (l0 x); [apply Z.div_le_upper_bound; nia|lia]. }
  destruct (Udivrem_4 x y Hx Hy ltac:(lia)) as (q & r & E & A & B & C & D). rewrite E. cbn [bind fst]. eauto.
Qed.

Definition mod0 (a b : Z) : Z := if b =? 0 then 0 else a mod b.
Theorem Mod_spec x y : wf x -> wf y -> exists z, Mod x y = Ok z /\ wf z /\ toZ z = if toZ y =? 0 then 0 else toZ x mod toZ y.
Proof.
  intros Hx Hy. pose proof (toZ_range x Hx) as Rx. pose proof (toZ_range y Hy) as Ry. unfold Mod.
  rewrite !IsZero_spec, Cmp_spec, IsUint64_spec by assumption.
  destruct (toZ x =? 0) eqn:E0; cbn [orb].
  { exists Clear. destruct Clear_spec as [A B]. replace (toZ x) with 0 by lia. 
    rewrite Zmod_0_l. destruct (toZ y =? 0); auto. }
  destruct (toZ y =? 0) eqn:E1; cbn [orb].
  { exists Clear. destruct Clear_spec as [A B]. auto. }
  destruct (Z.compare_spec (toZ x) (toZ y)) as [C|C|C].
  - change (0 =? -1) with false. change (0 =? 0) with true. cbn iota.
    exists Clear. destruct Clear_spec as [A B]. rewrite C, Z_mod_same by lia. auto.
  - change (-1 =? -1) with true. cbn iota. exists x. rewrite Z.mod_small by lia. auto.
  - change (1 =? -1) with false. change (1 =? 0) with false. cbn iota.
    destruct (toZ x <? W) eqn:E3.
    { pose proof (toZ_small x Hx ltac:(lia)) as Ex. pose proof (toZ_small y Hy ltac:(lia)) as Ey. rewrite Ex, Ey. replace (l0 y =? 0) with false by lia.
      destruct (SetUint64_spec (l0 x mod l0 y)) as [A B]; [|eauto].
      pose proof (Z.mod_pos_bound (l0 x) (l0 y) ltac:(lia)). unfold is_w. lia. }
    destruct (Udivrem_4 x y Hx Hy ltac:(lia)) as (q & r & E & A & B & Cq & D). rewrite E. cbn [bind snd]. eauto.
Qed.

(** ** Signed division *)
Lemma Neg_sgn x : wf x -> sgn256 (toZ x) < 0 -> wf (Neg x) /\ toZ (Neg x) = - sgn256 (toZ x).
Proof.
  intros Hx H. destruct (Neg_spec x Hx) as [A B]. split; [assumption|]. rewrite B.
  pose proof (toZ_range x Hx). unfold sgn256 in *. destruct (toZ x <? T255) eqn:E; lia.
Qed.
Lemma Neg_to_mod z v : wf z -> toZ z = v -> wf (Neg z) /\ toZ (Neg z) = (- v) mod T256.
Proof. intros Hz <-. now apply Neg_spec. Qed.
Lemma quot_neg_l a b : 0 < a -> 0 < b -> Z.quot (- a) b = - (a / b).
Proof. intros. rewrite Z.quot_opp_l by lia. rewrite Z.quot_div_nonneg by lia. reflexivity. Qed.
Lemma quot_neg_r a b : 0 < a -> 0 < b -> Z.quot a (- b) = - (a / b).
Proof. intros. rewrite Z.quot_opp_r by lia. rewrite Z.quot_div_nonneg by lia. reflexivity. Qed.

Lemma sgn256_pos v : 0 <= v < T256 -> 0 <= sgn256 v -> sgn256 v = v.
Proof. unfold sgn256. intros. destruct (v <? T255) eqn:E; lia. Qed.
Lemma sgn256_zero v : 0 <= v < T256 -> (sgn256 v = 0 <-> v = 0).
Proof. unfold sgn256. intros. destruct (v <? T255) eqn:E; lia. Qed.

Theorem SDiv_spec n d : wf n -> wf d -> exists z, SDiv n d = Ok z /\ wf z /\
  toZ z = (if toZ d =? 0 then 0 else Z.quot (sgn256 (toZ n)) (sgn256 (toZ d))) mod T256.
Proof.
  intros Hn Hd. unfold SDiv. rewrite !Sign_spec by assumption.
  pose proof (toZ_range n Hn) as Rn. pose proof (toZ_range d Hd) as Rd.
  pose proof (sgn256_range _ Rn) as Sn. pose proof (sgn256_range _ Rd) as Sd.
  pose proof (sgn256_zero _ Rn) as Zn. pose proof (sgn256_zero _ Rd) as Zd.
  pose proof (sgn256_pos _ Rn) as Pn. pose proof (sgn256_pos _ Rd) as Pd.
  destruct (Z.ltb_spec 0 (Z.sgn (sgn256 (toZ n)))) as [H|H].
  - assert (0 < sgn256 (toZ n)) by lia. specialize (Pn ltac:(lia)).
    destruct (Z.ltb_spec 0 (Z.sgn (sgn256 (toZ d)))) as [H'|H'].
    + assert (0 < sgn256 (toZ d)) by lia. specialize (Pd ltac:(lia)).
      destruct (Div_spec n d Hn Hd) as (z & E & Wz & V). exists z. split; [assumption|]. split; [assumption|].
      replace (toZ d =? 0) with false by lia. rewrite Z.quot_div_nonneg by lia. rewrite Pn, Pd, V.
      rewrite Z.mod_small; [reflexivity|]. rewrite <- V. now apply toZ_range.
    + destruct (Z.eq_dec (sgn256 (toZ d)) 0) as [e|ne].
      { assert (Ed : toZ d = 0) by lia. destruct (Neg_spec d Hd) as [WN VN]. rewrite Ed in VN.
        change (- 0 mod T256) with 0 in VN.
        destruct (Div_spec n (Neg d) Hn WN) as (z & E & Wz & V). rewrite E. cbn [bind].
        rewrite VN, Zdiv_0_r in V. destruct (Neg_spec z Wz) as [A B]. rewrite V in B. rewrite Ed. cbn [Z.eqb].
        exists (Neg z). split; [reflexivity|]. split; [assumption|]. rewrite B. reflexivity. }
      destruct (Neg_sgn d Hd ltac:(lia)) as [WN VN].
      destruct (Div_spec n (Neg d) Hn WN) as (z & E & Wz & V). rewrite E. cbn [bind].
      destruct (Neg_spec z Wz) as [A B]. exists (Neg z). split; [reflexivity|]. split; [assumption|].
      rewrite B, V, VN. replace (toZ d =? 0) with false by lia.
      rewrite <- (Z.opp_involutive (sgn256 (toZ d))) at 2. rewrite quot_neg_r by lia. now rewrite Pn.
  - destruct (Z.ltb_spec (Z.sgn (sgn256 (toZ d))) 0) as [H'|H'].
    + destruct (Neg_sgn d Hd ltac:(lia)) as [WN VN]. replace (toZ d =? 0) with false by lia.
      destruct (Z.eq_dec (sgn256 (toZ n)) 0) as [e|ne].
      { assert (En : toZ n = 0) by lia. destruct (Neg_spec n Hn) as [WNn VNn]. rewrite En in VNn.
        change (- 0 mod T256) with 0 in VNn.
        destruct (Div_spec (Neg n) (Neg d) WNn WN) as (z & E & Wz & V). rewrite E.
        exists z. split; [reflexivity|]. split; [assumption|]. rewrite V, VNn, e. rewrite Zdiv_0_l. 
        rewrite Z.quot_0_l by lia. reflexivity. }
      destruct (Neg_sgn n Hn ltac:(lia)) as [WNn VNn].
      destruct (Div_spec (Neg n) (Neg d) WNn WN) as (z & E & Wz & V). rewrite E.
      exists z. split; [reflexivity|]. split; [assumption|]. 
      pose proof (toZ_range z Wz) as Rz. rewrite V in Rz |- *.
      rewrite <- (Z.opp_involutive (sgn256 (toZ n))) , <- (Z.opp_involutive (sgn256 (toZ d))).
      rewrite Z.quot_opp_opp by lia. rewrite Z.quot_div_nonneg by lia. rewrite <- VN, <- VNn.
      symmetry. apply Z.mod_small. assumption.
    + destruct (Z.eq_dec (sgn256 (toZ n)) 0) as [e|ne].
      { assert (En : toZ n = 0) by lia. destruct (Neg_spec n Hn) as [WNn VNn]. rewrite En in VNn.
        change (- 0 mod T256) with 0 in VNn.
        destruct (Div_spec (Neg n) d WNn Hd) as (z & E & Wz & V). rewrite E. cbn [bind].
        destruct (Neg_spec z Wz) as [A B]. exists (Neg z). split; [reflexivity|]. split; [assumption|].
        rewrite B, V, VNn, e, Zdiv_0_l. destruct (toZ d =? 0) eqn:Ed; [reflexivity|].
        rewrite Z.quot_0_l by lia. reflexivity. }
      destruct (Neg_sgn n Hn ltac:(lia)) as [WNn VNn].
      destruct (Div_spec (Neg n) d WNn Hd) as (z & E & Wz & V). rewrite E. cbn [bind].
      destruct (Neg_spec z Wz) as [A B]. exists (Neg z). split; [reflexivity|]. split; [assumption|].
      rewrite B, V, VNn. destruct (toZ d =? 0) eqn:Ed.
      { replace (toZ d) with 0 by lia. rewrite Zdiv_0_r. reflexivity. }
      specialize (Pd ltac:(lia)). rewrite Pd.
      rewrite <- (Z.opp_involutive (sgn256 (toZ n))) at 2. rewrite quot_neg_l by lia. reflexivity.
Qed.

Theorem SMod_spec x y : wf x -> wf y -> exists z, SMod x y = Ok z /\ wf z /\
  toZ z = (if toZ y =? 0 then 0 else Z.rem (sgn256 (toZ x)) (sgn256 (toZ y))) mod T256.
Proof.
  intros Hx Hy. unfold SMod. rewrite !Sign_spec by assumption.
  pose proof (toZ_range x Hx) as Rx. pose proof (toZ_range y Hy) as Ry.
  pose proof (sgn256_range _ Rx) as Sx. pose proof (sgn256_range _ Ry) as Sy.
  pose proof (sgn256_zero _ Ry) as Zy.
  assert (A : forall w, wf w -> wf (if Z.sgn (sgn256 (toZ w)) =? -1 then Neg w else w) /\
     toZ (if Z.sgn (sgn256 (toZ w)) =? -1 then Neg w else w) = Z.abs (sgn256 (toZ w))).
  { intros w Hw. pose proof (toZ_range w Hw) as Rw. destruct (Z.sgn (sgn256 (toZ w)) =? -1) eqn:E.
    - destruct (Neg_sgn w Hw ltac:(lia)) as [P Q]. split; [assumption|]. lia.
    - split; [assumption|]. rewrite <- (sgn256_pos (toZ w)) at 1 by lia. lia. }
  destruct (A x Hx) as [Wx Vx]. destruct (A y Hy) as [Wy Vy].
  set (x' := if Z.sgn (sgn256 (toZ x)) =? -1 then Neg x else x) in *.
  set (y' := if Z.sgn (sgn256 (toZ y)) =? -1 then Neg y else y) in *.
  destruct (Mod_spec x' y' Wx Wy) as (z & E & Wz & V). rewrite E. cbn [bind].
  pose proof (toZ_range z Wz) as Rz.
  rewrite Vx, Vy in V. 
  replace (Z.abs (sgn256 (toZ y)) =? 0) with (toZ y =? 0) in V by lia.
  assert (Hrem : toZ y <> 0 -> Z.rem (sgn256 (toZ x)) (sgn256 (toZ y)) = if Z.sgn (sgn256 (toZ x)) =? -1 then - toZ z else toZ z).
  { intros Hy0. replace (toZ y =? 0) with false in V by lia.
    assert (Hy1 : sgn256 (toZ y) <> 0) by lia.
    pose proof (Z.rem_abs (sgn256 (toZ x)) (sgn256 (toZ y)) Hy1) as Ha.
    rewrite Z.rem_mod_nonneg in Ha by lia. rewrite <- V in Ha.
    pose proof (Z.rem_sign_nz (sgn256 (toZ x)) (sgn256 (toZ y)) Hy1) as Hs.
    destruct (Z.sgn (sgn256 (toZ x)) =? -1) eqn:Es; lia. }
  destruct (Z.sgn (sgn256 (toZ x)) =? -1) eqn:Es.
  - destruct (Neg_spec z Wz) as [P Q]. exists (Neg z). split; [reflexivity|]. split; [assumption|].
    rewrite Q. destruct (toZ y =? 0) eqn:Ey; [rewrite V; reflexivity|]. rewrite Hrem by lia. reflexivity.
  - exists z. split; [reflexivity|]. split; [assumption|]. 
    destruct (toZ y =? 0) eqn:Ey; [rewrite V; reflexivity|]. rewrite Hrem by lia. 
    symmetry; apply Z.mod_small; assumption.
Qed.

(** ** AddMod *)
Lemma top_word_bound x m : wf x -> wf m -> l3 m <> 0 -> l3 x <= l3 m -> toZ x < 2 * toZ m.
Proof. unfold wf, is_w, toZ. lia. Qed.

Lemma sub_once x m : wf x -> wf m -> toZ x < 2 * toZ m ->
  let r := (let '(d, o) := SubOverflow x m in if o then x else d) in wf r /\ toZ r = toZ x mod toZ m.
Proof.
  intros Hx Hm H. destruct (SubOverflow_spec x m Hx Hm) as (A & B & C).
  destruct (SubOverflow x m) as [d o]. cbn [fst snd] in *. rewrite C. pose proof (toZ_range x Hx). pose proof (toZ_range m Hm).
  destruct (toZ x <? toZ m) eqn:E; split; auto.
  - rewrite Z.mod_small; lia.
  - rewrite B. apply Z.mod_unique_pos with (q := 1); [lia|]. rewrite Z.mod_small by lia. lia.
Qed.

Lemma Udivrem_5 z m : wf z -> wf m -> 0 < toZ m ->
  exists q r, Udivrem [0;0;0;0;0] (limbs z ++ [1]) m = Ok (q, r) /\ wf r /\ toZ r = (toZ z + T256) mod toZ m.
Proof.
  intros Hz Hm H0. assert (Fu : Forall is_w (limbs z ++ [1])).
  { apply Forall_app; split; [now apply limbs_wf|]. constructor; [unfold is_w; lia|constructor]. }
  assert (Es : siglen (limbs z ++ [1]) = 5%nat) by (reflexivity).
  pose proof (limbs_wf m Hm) as Fm.
  assert (Z1 : siglen (limbs m) <> 0%nat) by (intros e; apply siglen_zero in e; auto; rewrite limbs_toZ in e; lia).
  pose proof (siglen_le (limbs m)) as L. change (length (limbs m)) with 4%nat in L.
  pose proof (Udivrem_spec [0;0;0;0;0] (limbs z ++ [1]) m Fu Hm) as H.
  replace (Udivrem_fits [0;0;0;0;0] (limbs z ++ [1]) m) with true in H
   by (symmetry; unfold Udivrem_fits; rewrite Es; cbn [length]; lia).
  destruct H as (Qs & rem & E & HL & FQ & Hr & Hval & Hlt). rewrite E. do 2 eexists. split; [reflexivity|].
  split; [assumption|]. pose proof (toZ_range rem Hr).
  apply Z.mod_unique_pos with (q := lval Qs); [lia|].
  rewrite <- Hval, lval_app, limbs_toZ. change (W ^ Z.of_nat (length (limbs z))) with T256. cbn [lval]. lia.
Qed.

Theorem AddMod_spec x y m : wf x -> wf y -> wf m -> exists z, AddMod x y m = Ok z /\ wf z /\
  toZ z = if toZ m =? 0 then 0 else (toZ x + toZ y) mod toZ m.
Proof.
  intros Hx Hy Hm. unfold AddMod. pose proof (toZ_range m Hm) as Rm.
  pose proof (toZ_range x Hx) as Rx. pose proof (toZ_range y Hy) as Ry.
  destruct (negb (l3 m =? 0) && (l3 x <=? l3 m) && (l3 y <=? l3 m)) eqn:E.
  - assert (toZ m <> 0) by (unfold wf, is_w, toZ in *; lia).
    replace (toZ m =? 0) with false by lia.
    pose proof (top_word_bound x m Hx Hm ltac:(lia) ltac:(lia)) as Bx.
    pose proof (top_word_bound y m Hy Hm ltac:(lia) ltac:(lia)) as By. clear E.
    destruct (sub_once x m Hx Hm Bx) as [Ws Vs]. destruct (sub_once y m Hy Hm By) as [Wt Vt].
    set (s := let '(d, o) := SubOverflow x m in if o then x else d) in *.
    set (t := let '(d, o) := SubOverflow y m in if o then y else d) in *. clearbody s t. cbv zeta.
    pose proof (Z.mod_pos_bound (toZ x) (toZ m) ltac:(lia)).
    pose proof (Z.mod_pos_bound (toZ y) (toZ m) ltac:(lia)).
    destruct (AddOverflow_spec s t Ws Wt) as (A & B & C). destruct (AddOverflow s t) as [a o]. cbn [fst snd] in *.
    rewrite C. clear C.
    assert (Hs : exists r, (if T256 <=? toZ s + toZ t then Sub a m else a) = r /\ wf r /\ toZ r < 2 * toZ m /\
       toZ r mod toZ m = (toZ x + toZ y) mod toZ m).
    { assert (EM : (toZ x + toZ y) mod toZ m = (toZ s + toZ t) mod toZ m).
      { rewrite Vs, Vt. rewrite <- Zplus_mod. reflexivity. }
      destruct (T256 <=? toZ s + toZ t) eqn:Eo.
      - destruct (Sub_spec a m A Hm) as [P Q]. exists (Sub a m). split; [reflexivity|]. split; [assumption|].
        assert (toZ (Sub a m) = toZ s + toZ t - toZ m).
        { rewrite Q, B. symmetry. 
          assert (Eq : (toZ s + toZ t) mod T256 = toZ s + toZ t - T256).
          { symmetry. apply Z.mod_unique_pos with (q := 1); lia. }
          rewrite Eq. apply Z.mod_unique_pos with (q := -1); lia. }
        split; [lia|]. rewrite H2, EM. 
        rewrite <- (Z_mod_plus_full (toZ s + toZ t - toZ m) 1 (toZ m)). f_equal. lia.
      - exists a. split; [reflexivity|]. split; [assumption|]. rewrite B, Z.mod_small by lia. split; [lia|auto]. }
    destruct Hs as (r & Er & Wr & Br & Mr). rewrite Er.
    destruct (sub_once r m Wr Hm Br) as [Wd Vd]. eexists. split; [reflexivity|]. split; [exact Wd|]. now rewrite Vd.
  - clear E. rewrite IsZero_spec by assumption. destruct (toZ m =? 0) eqn:E0.
    { exists Clear. destruct Clear_spec; auto. }
    destruct (AddOverflow_spec x y Hx Hy) as (A & B & C). destruct (AddOverflow x y) as [a o]. cbn [fst snd] in *.
    rewrite C. destruct (T256 <=? toZ x + toZ y) eqn:Eo.
    + destruct (Udivrem_5 a m A Hm ltac:(lia)) as (q & r & E & Wr & V). rewrite E. cbn [bind snd].
      exists r. split; [reflexivity|]. split; [assumption|]. rewrite V, B. f_equal.
      assert (Eq : (toZ x + toZ y) mod T256 = toZ x + toZ y - T256).
      { symmetry. apply Z.mod_unique_pos with (q := 1); lia. } lia.
    + destruct (Mod_spec a m A Hm) as (z & E & Wz & V). exists z. split; [assumption|]. split; [assumption|].
      rewrite V, E0, B, (Z.mod_small (toZ x + toZ y)) by lia. reflexivity.
Qed.

(** ** Sqrt *)
Lemma rsh1_Rsh z : rsh1 z = Rsh z 1.
Proof. reflexivity. Qed.

Lemma newton_lower x z : 0 < z -> 0 <= x -> Z.sqrt x <= (x / z + z) / 2.
Proof.
  intros Hz Hx. pose proof (Z.sqrt_spec x Hx) as [H1 _]. pose proof (Z.sqrt_nonneg x). set (s := Z.sqrt x) in *. clearbody s.
  pose proof (Z.div_mod x z ltac:(lia)) as E. pose proof (Z.mod_pos_bound x z ltac:(lia)) as M.
  set (q := x / z) in *. set (r := x mod z) in *. clearbody q r.
  assert (2 * s <= q + z); [|lia].
  apply Z.nlt_ge. intros C. assert (Hc : q + 1 <= 2 * s - z) by lia.
  assert (z * (q + 1) <= z * (2 * s - z)) by (apply Z.mul_le_mono_nonneg_l; lia).
  assert (0 <= (s - z) * (s - z)) by apply Z.square_nonneg. nia.
Qed.

Lemma newton_upper x z : 0 <= x -> Z.sqrt x < z -> x / z <= Z.sqrt x.
Proof.
  intros Hx Hz. pose proof (Z.sqrt_spec x Hx) as [_ H2]. pose proof (Z.sqrt_nonneg x). set (s := Z.sqrt x) in *. clearbody s.
  assert (x < z * (s + 1)).
  { eapply Z.lt_le_trans; [exact H2|]. unfold Z.succ. apply Z.mul_le_mono_nonneg_r; lia. }
  assert (x / z < s + 1); [|lia]. apply Z.div_lt_upper_bound; lia.
Qed.

Lemma sqrt_loop_spec x : wf x -> 1 <= toZ x -> forall fuel z, wf z -> Z.sqrt (toZ x) <= toZ z -> toZ z <= 2 ^ 128 ->
  toZ z - Z.sqrt (toZ x) < 2 ^ (Z.of_nat fuel - 1) ->
  exists r, sqrt_loop fuel x z = Ok r /\ wf r /\ toZ r = Z.sqrt (toZ x).
Proof.
  intros Hx H1. pose proof (toZ_range x Hx) as Rx.
  assert (Hs1 : 1 <= Z.sqrt (toZ x)) by (change 1 with (Z.sqrt 1); apply Z.sqrt_le_mono; lia).
  assert (Hdb : forall z, Z.sqrt (toZ x) <= z -> toZ x / z <= 2 ^ 130).
  { intros z Hz. apply Z.le_trans with (Z.sqrt (toZ x) + 2).
    - pose proof (Z.sqrt_spec (toZ x) ltac:(lia)) as [_ H2]. set (s := Z.sqrt (toZ x)) in *. 
      assert (toZ x / z < s + 3); [|lia]. apply Z.div_lt_upper_bound; [lia|].
      eapply Z.lt_le_trans; [exact H2|]. apply Z.le_trans with (s * (s + 3)); [nia|]. apply Z.mul_le_mono_nonneg_r; lia.
    - assert (Z.sqrt (toZ x) <= 2 ^ 128). { change (2 ^ 128) with (Z.sqrt (T256)). apply Z.sqrt_le_mono; lia. } 
      change (2 ^ 130) with (4 * 2 ^ 128). lia. }
  induction fuel as [|f IH]; intros z Hz Hlo Hhi Hf.
  { change (2 ^ (Z.of_nat 0 - 1)) with 0 in Hf. lia. }
  cbn [sqrt_loop]. destruct (Div_spec x z Hx Hz) as (q & E & Wq & Vq). rewrite E. cbn [bind].
  pose proof (Hdb (toZ z) Hlo) as Hq. pose proof (Z.div_pos (toZ x) (toZ z) ltac:(lia) ltac:(lia)) as Hq0.
  destruct (Add_spec q z Wq Hz) as [Wa Va]. rewrite Vq in Va.
  rewrite Z.mod_small in Va by (change (2 ^ 130) with (4 * 2 ^ 128) in Hq; change (2 ^ 128) with 340282366920938463463374607431768211456 in *; lia).
  rewrite rsh1_Rsh. destruct (Rsh_spec (Add q z) 1 Wa ltac:(lia)) as [Wr Vr]. rewrite Va in Vr. change (2 ^ 1) with 2 in Vr.
  set (z2 := Rsh (Add q z) 1) in *. clearbody z2.
  pose proof (newton_lower (toZ x) (toZ z) ltac:(lia) ltac:(lia)) as NL. rewrite <- Vr in NL.
  rewrite Cmp_spec by assumption.
  destruct (Z.eq_dec (toZ z) (Z.sqrt (toZ x))) as [e|ne].
  { assert (0 <=? match toZ z2 ?= toZ z with Datatypes.Lt => -1 | Datatypes.Eq => 0 | Datatypes.Gt => 1 end = true) as ->.
    { destruct (Z.compare_spec (toZ z2) (toZ z)); lia. }
    exists z. auto. }
  pose proof (newton_upper (toZ x) (toZ z) ltac:(lia) ltac:(lia)) as NU.
  set (s := Z.sqrt (toZ x)) in *. set (qq := toZ x / toZ z) in *. clearbody s qq.
  assert (Hlt : toZ z2 < toZ z) by (rewrite Vr; apply Z.div_lt_upper_bound; lia).
  apply Z.compare_lt_iff in Hlt as ->. change (0 <=? -1) with false. cbn iota.
  assert (Hz2 : 2 * toZ z2 <= s + toZ z) by (rewrite Vr; pose proof (Z.mul_div_le (qq + toZ z) 2 ltac:(lia)); lia).
  apply IH; auto; try lia.
  replace (Z.of_nat (S f) - 1) with (Z.of_nat f) in Hf by lia.
  destruct f as [|f]. { change (2 ^ Z.of_nat 0) with 1 in Hf. lia. }
  replace (Z.of_nat (S f)) with (Z.succ (Z.of_nat f)) in Hf by lia. rewrite Z.pow_succ_r in Hf by lia.
  replace (Z.of_nat (S f) - 1) with (Z.of_nat f) by lia. lia.
Qed.

Theorem Sqrt_spec fuel x : wf x -> (130 <= fuel)%nat -> exists r, Sqrt fuel x = Ok r /\ wf r /\ toZ r = Z.sqrt (toZ x).
Proof.
  intros Hx Hf. unfold Sqrt. rewrite LtUint64_spec by (auto; unfold is_w; lia).
  pose proof (toZ_range x Hx) as Rx.
  destruct (toZ x <? 2) eqn:E.
  { exists x. split; [reflexivity|]. split; [assumption|].
    assert (C : toZ x = 0 \/ toZ x = 1) by lia. destruct C as [-> | ->]; reflexivity. }
  destruct (BitLen_spec x Hx) as (Hb & Hlt & Hge & _). specialize (Hge ltac:(lia)).
  set (b := BitLen x) in *. clearbody b. set (h := (b + 1) / 2). assert (Hh : b <= 2 * h /\ 0 <= h <= 128) by lia.
  clearbody h. destruct SetOne_spec as [W1 V1].
  destruct (Lsh_spec SetOne h W1 ltac:(lia)) as [Wl Vl]. rewrite V1, Z.mul_1_l in Vl.
  assert (Hh2 : 2 ^ h <= 2 ^ 128) by (apply Z.pow_le_mono_r; lia).
  rewrite Z.mod_small in Vl by (split; [apply Z.pow_nonneg; lia|]; change (2 ^ 128) with 340282366920938463463374607431768211456 in *; lia).
  assert (Hsq : Z.sqrt (toZ x) < 2 ^ h).
  { apply Z.sqrt_lt_square; [lia|apply Z.pow_nonneg; lia|]. rewrite <- Z.pow_add_r by lia. 
    eapply Z.lt_le_trans; [exact Hlt|]. apply Z.pow_le_mono_r; lia. }
  pose proof (Z.sqrt_nonneg (toZ x)).
  apply sqrt_loop_spec; auto; try lia; rewrite Vl; try lia.
  eapply Z.lt_le_trans with (2 ^ 129). { change (2 ^ 129) with (2 * 2 ^ 128). lia. }
  apply Z.pow_le_mono_r; lia.
Qed.

(** ** Restatements used by the property files *)
Lemma Umul_length_spec x y : wf x -> wf y ->
  length (Umul x y) = 8%nat /\ Forall is_w (Umul x y) /\ lval (Umul x y) = toZ x * toZ y.
Proof.
  intros Hx Hy. destruct (Umul_spec x y Hx Hy) as (p0 & p1 & p2 & p3 & p4 & p5 & p6 & p7 & E & F & V).
  split; [rewrite E; reflexivity|auto].
Qed.

Lemma Div0_spec x y : wf x -> wf y -> exists z, Div x y = Ok z /\ wf z /\ toZ z = if toZ y =? 0 then 0 else toZ x / toZ y.
Proof.
  intros Hx Hy. destruct (Div_spec x y Hx Hy) as (z & E & Wz & V). exists z. split; [assumption|]. split; [assumption|].
  rewrite V. destruct (toZ y =? 0) eqn:E0; [|reflexivity]. replace (toZ y) with 0 by lia. apply Zdiv_0_r.
Qed.

(** Number of significant words of a value: 0 for 0, otherwise the k with W^(k-1) <= v < W^k. *)
Definition words_of (k : nat) (v : Z) : Prop :=
  if v =? 0 then k = 0%nat else W ^ (Z.of_nat k - 1) <= v < W ^ Z.of_nat k.

Lemma words_of_unique v a b : words_of a v -> words_of b v -> a = b.
Proof.
  unfold words_of. destruct (v =? 0); [intros -> ->; reflexivity|]. intros [A1 A2] [B1 B2].
  destruct (Nat.lt_trichotomy a b) as [H|[H|H]]; [exfalso| assumption |exfalso].
  - assert (W ^ Z.of_nat a <= W ^ (Z.of_nat b - 1)) by (apply Z.pow_le_mono_r; lia). lia.
  - assert (W ^ Z.of_nat b <= W ^ (Z.of_nat a - 1)) by (apply Z.pow_le_mono_r; lia). lia.
Qed.
Lemma words_of_siglen l : Forall is_w l -> words_of (siglen l) (lval l).
Proof.
  intros H. unfold words_of. destruct (lval l =? 0) eqn:E.
  - apply siglen_zero; auto. lia.
  - apply siglen_bounds; auto. lia.
Qed.

Theorem Udivrem_exact quot u d nu nd : Forall is_w u -> wf d ->
  words_of nu (lval u) -> words_of nd (toZ d) ->
  ((nd <> 0 /\ nu <> 0 /\ nu < 9 /\ nd <= nu + 1 /\ nu + 1 - nd <= length quot)%nat ->
   exists Qs rem, Udivrem quot u d = Ok (Qs ++ skipn (length Qs) quot, rem) /\
      length Qs = (nu + 1 - nd)%nat /\ Forall is_w Qs /\ wf rem /\
      lval Qs = lval u / toZ d /\ toZ rem = lval u mod toZ d) /\
  (~ (nd <> 0 /\ nu <> 0 /\ nu < 9 /\ nd <= nu + 1 /\ nu + 1 - nd <= length quot)%nat ->
   Udivrem quot u d = Panic).
Proof.
  intros Fu Wd Hu Hd. rewrite <- limbs_toZ in Hd.
  pose proof (words_of_siglen u Fu) as Su. pose proof (words_of_siglen (limbs d) (limbs_wf d Wd)) as Sd.
  rewrite (words_of_unique _ _ _ Hu Su), (words_of_unique _ _ _ Hd Sd). clear Hu Hd Su Sd nu nd.
  pose proof (Udivrem_spec quot u d Fu Wd) as H.
  assert (EF : Udivrem_fits quot u d = true <-> (siglen (limbs d) <> 0 /\ siglen u <> 0 /\ siglen u < 9 /\
    siglen (limbs d) <= siglen u + 1 /\ siglen u + 1 - siglen (limbs d) <= length quot)%nat).
  { unfold Udivrem_fits. lia. }
  destruct (Udivrem_fits quot u d); split; intros HF; try (exfalso; apply HF; now apply EF); try (now apply EF in HF).
  - destruct H as (Qs & rem & E & HL & FQ & Hr & Hval & Hlt). exists Qs, rem. pose proof (toZ_range rem Hr).
    refine (conj E (conj _ (conj FQ (conj Hr (conj _ _))))); [lia| |].
    + apply Z.div_unique_pos with (r := toZ rem); lia.
    + apply Z.mod_unique_pos with (q := lval Qs); lia.
  - assumption.
Qed.

Theorem Sqrt_floor_spec fuel x : wf x -> (130 <= fuel)%nat ->
  exists r, Sqrt fuel x = Ok r /\ wf r /\ toZ r * toZ r <= toZ x < (toZ r + 1) * (toZ r + 1).
Proof.
  intros Hx Hf. destruct (Sqrt_spec fuel x Hx Hf) as (r & E & Wr & V). exists r. split; [assumption|]. split; [assumption|].
  rewrite V. pose proof (toZ_range x Hx). apply Z.sqrt_spec. lia.
Qed.

Lemma BitLen_least x : wf x -> 0 <= BitLen x <= 256 /\ (forall n, 0 <= n -> (toZ x < 2 ^ n <-> BitLen x <= n)).
Proof.
  intros Hx. destruct (BitLen_spec x Hx) as (Ha & Hb & Hc & Hd). split; [assumption|].
  pose proof (toZ_range x Hx).
  intros n Hn. split; intros H'.
  - destruct (Z.eq_dec (toZ x) 0) as [e|ne]; [rewrite Hd; auto; lia|]. specialize (Hc ne).
    apply Z.nlt_ge. intros C. assert (2 ^ n <= 2 ^ (BitLen x - 1)) by (apply Z.pow_le_mono_r; lia). lia.
  - eapply Z.lt_le_trans; [exact Hb|]. apply Z.pow_le_mono_r; lia.
Qed.
Lemma ByteLen_least x : wf x -> ByteLen x = (BitLen x + 7) / 8 /\ 0 <= ByteLen x <= 32 /\
  (forall n, 0 <= n -> (toZ x < 256 ^ n <-> ByteLen x <= n)).
Proof.
  intros Hx. destruct (ByteLen_spec x Hx) as (Ha & Hb & Hc & Hd).
  split; [reflexivity|]. split; [assumption|]. pose proof (toZ_range x Hx).
  intros n Hn. split; intros H'.
  - destruct (Z.eq_dec (toZ x) 0) as [e|ne]; [rewrite Hd; auto; lia|]. specialize (Hc ne).
    apply Z.nlt_ge. intros C. assert (256 ^ n <= 256 ^ (ByteLen x - 1)) by (apply Z.pow_le_mono_r; lia). lia.
  - eapply Z.lt_le_trans; [exact Hb|]. apply Z.pow_le_mono_r; lia.
Qed.
