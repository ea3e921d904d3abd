(** Float64Facts.v -- Round, Ceil and Floor compute the exact integer roundings. *)
From Verif Require Import Base Float64.
From Coq Require Import Floats.SpecFloat Zpower ZifyBool.
Ltac Zify.zify_post_hook ::= idtac.

(** * Digits *)
Lemma digits_log2 p : Zdigits2 (Zpos p) = Z.log2 (Zpos p) + 1.
Proof.
  assert (H : forall p, digits2_pos p = Pos.size p) by (induction p0; cbn; congruence).
  cbn [Zdigits2]. rewrite H. destruct p; cbn; lia.
Qed.
Lemma digits_unique m k : 0 <= k -> 2 ^ k <= m < 2 ^ (k + 1) -> Zdigits2 m = k + 1.
Proof.
  intros Hk Hm. pose proof (Z.pow_pos_nonneg 2 k ltac:(lia) Hk). destruct m as [|p|p]; try lia.
  rewrite digits_log2. f_equal. apply Z.log2_unique; lia.
Qed.
Lemma fexp_big e : -1000 <= e -> fexp 53 1024 e = e - 53.
Proof. intros H. unfold fexp, emin. lia. Qed.

(** * Shifting *)
Fixpoint niter {A} (n : nat) (f : A -> A) (x : A) : A := match n with O => x | S n' => niter n' f (f x) end.
Lemma niter_add {A} (f : A -> A) n : forall m x, niter n f (niter m f x) = niter (m + n) f x.
Proof. intros m. induction m as [|m IH]; intros x; cbn [niter Nat.add]; [reflexivity|apply IH]. Qed.
Lemma iter_pos_nat {A} (f : A -> A) p : forall x, iter_pos f p x = niter (Pos.to_nat p) f x.
Proof.
  induction p; intros x; cbn [iter_pos].
  - rewrite !IHp. change (f x) with (niter 1 f x). rewrite !niter_add. f_equal. lia.
  - rewrite !IHp, niter_add. f_equal. lia.
  - reflexivity.
Qed.
Lemma shr_1_exact m : 0 <= m -> shr_1 {| shr_m := 2 * m; shr_r := false; shr_s := false |} =
  {| shr_m := m; shr_r := false; shr_s := false |}.
Proof. intros Hm. destruct m; [reflexivity|reflexivity|lia]. Qed.
Lemma shr_exact n m e : 0 <= n -> 0 <= m ->
  shr {| shr_m := m * 2 ^ n; shr_r := false; shr_s := false |} e n =
  ({| shr_m := m; shr_r := false; shr_s := false |}, e + n).
Proof.
  intros Hn Hm. destruct n as [|p|p]; [|clear Hn|lia].
  - cbn [shr]. change (2 ^ 0) with 1. now rewrite Z.mul_1_r, Z.add_0_r.
  - unfold shr. f_equal. rewrite iter_pos_nat.
    replace (Zpos p) with (Z.of_nat (Pos.to_nat p)) by lia.
    induction (Pos.to_nat p) as [|k IH]; [cbn [niter Z.of_nat]; change (2 ^ 0) with 1; now rewrite Z.mul_1_r|].
    rewrite Nat2Z.inj_succ, Z.pow_succ_r by lia.
    replace (m * (2 * 2 ^ Z.of_nat k)) with (2 * (m * 2 ^ Z.of_nat k)) by ring.
    cbn [niter]. rewrite shr_1_exact; [exact IH|].
    apply Z.mul_nonneg_nonneg; [assumption|]. apply Z.pow_nonneg. lia.
Qed.
Lemma shr_none r e n : n <= 0 -> shr r e n = (r, e).
Proof. intros H. destruct n; [reflexivity|lia|reflexivity]. Qed.

(** * Exact results *)
Lemma round_exact sx P t e : 0 < P < 2 ^ 53 -> 0 <= t -> 2 ^ 52 <= P * 2 ^ t -> t <= 200 -> -900 <= e <= 500 ->
  exists m j, binary_round_aux 53 1024 sx (P * 2 ^ t) e loc_Exact = S754_finite sx m (e + j) /\
    0 <= j /\ Zpos m * 2 ^ j = P * 2 ^ t /\ 2 ^ 52 <= Zpos m < 2 ^ 53.
Proof.
  intros HP Ht Hq Ht2 He. set (k := Z.log2 P).
  assert (Hk : 2 ^ k <= P < 2 ^ (k + 1)) by (apply Z.log2_spec; lia).
  assert (Hk0 : 0 <= k) by apply Z.log2_nonneg.
  assert (Hk1 : k <= 52). { destruct (Z.le_gt_cases k 52); [assumption|]. pose proof (Z.pow_le_mono_r 2 53 k). lia. }
  set (j := k + t - 52).
  assert (P2 : 0 < 2 ^ t) by (apply Z.pow_pos_nonneg; lia).
  assert (Hj : 0 <= j).
  { destruct (Z.le_gt_cases 0 j); [assumption|].
    assert (P * 2 ^ t < 2 ^ (k + 1) * 2 ^ t) by (apply Z.mul_lt_mono_pos_r; lia).
    rewrite <- Z.pow_add_r in H0 by lia. pose proof (Z.pow_le_mono_r 2 (k + 1 + t) 52). lia. }
  assert (Hjt : j <= t) by lia.
  set (m := P * 2 ^ (t - j)).
  assert (Em : P * 2 ^ t = m * 2 ^ j).
  { unfold m. rewrite <- Z.mul_assoc, <- Z.pow_add_r by lia. f_equal. f_equal. lia. }
  assert (Hm : 2 ^ 52 <= m < 2 ^ 53).
  { unfold m. assert (0 < 2 ^ (t - j)) by (apply Z.pow_pos_nonneg; lia).
    assert (2 ^ k * 2 ^ (t - j) <= P * 2 ^ (t - j)) by (apply Z.mul_le_mono_nonneg_r; lia).
    assert (P * 2 ^ (t - j) < 2 ^ (k + 1) * 2 ^ (t - j)) by (apply Z.mul_lt_mono_pos_r; lia).
    rewrite <- Z.pow_add_r in H0, H1 by lia.
    replace (k + (t - j)) with 52 in H0 by lia. replace (k + 1 + (t - j)) with 53 in H1 by lia. lia. }
  assert (PJ : 0 < 2 ^ j) by (apply Z.pow_pos_nonneg; lia).
  assert (Dq : Zdigits2 (m * 2 ^ j) = 52 + j + 1).
  { apply digits_unique; [lia|]. replace (52 + j + 1) with (53 + j) by lia. rewrite !Z.pow_add_r by lia. split.
    - apply Z.mul_le_mono_nonneg_r; lia.
    - apply Z.mul_lt_mono_pos_r; lia. }
  assert (Dm : Zdigits2 m = 53) by (apply (digits_unique m 52); lia).
  clearbody m k j. destruct m as [|pm|pm]; try lia.
  exists pm, j. rewrite Em. split; [|lia].
  unfold binary_round_aux, shr_fexp. rewrite Dq, fexp_big by lia.
  replace (52 + j + 1 + e - 53 - e) with j by lia. cbn [shr_record_of_loc]. rewrite shr_exact by lia.
  cbn [shr_m loc_of_shr_record round_nearest_even].
  rewrite Dm, fexp_big by lia. rewrite shr_none by lia. cbn [shr_m shr_record_of_loc].
  replace (e + j <=? 1024 - 53) with true by lia. reflexivity.
Qed.

Definition neg (s : bool) (v : Z) : Z := if s then - v else v.
Lemma of_int_exact s p : Zpos p < 2 ^ 53 -> exists m e,
  f64_of_int (neg s (Zpos p)) = S754_finite s m e /\ -52 <= e <= 0 /\ Zpos m = Zpos p * 2 ^ (- e) /\ 2 ^ 52 <= Zpos m < 2 ^ 53.
Proof.
  intros Hp. unfold f64_of_int.
  assert (B : binary_normalize 53 1024 (neg s (Zpos p)) 0 false = binary_round 53 1024 s p 0) by (destruct s; reflexivity).
  rewrite B. clear B. unfold binary_round. change (Zpos (digits2_pos p)) with (Zdigits2 (Zpos p)).
  rewrite digits_log2. set (k := Z.log2 (Zpos p)).
  assert (Hk : 2 ^ k <= Zpos p < 2 ^ (k + 1)) by (apply Z.log2_spec; lia).
  assert (Hk0 : 0 <= k) by apply Z.log2_nonneg.
  assert (Hk1 : k <= 52). { destruct (Z.le_gt_cases k 52); [assumption|]. pose proof (Z.pow_le_mono_r 2 53 k). lia. }
  rewrite fexp_big by lia.
  assert (S : shl_align p 0 (k + 1 + 0 - 53) = (Z.to_pos (Zpos p * 2 ^ (52 - k)), k - 52)).
  { unfold shl_align. destruct (k + 1 + 0 - 53 - 0) eqn:E.
    - assert (k = 52) by lia. rewrite H. cbn. f_equal. lia.
    - lia.
    - f_equal; [|lia]. apply Pos2Z.inj. rewrite shift_pos_correct, Z2Pos.id.
      + change (Zpower_pos 2 p0) with (2 ^ Zpos p0). replace (Zpos p0) with (52 - k) by lia. ring.
      + apply Z.mul_pos_pos; [lia|]. apply Z.pow_pos_nonneg; lia. }
  rewrite S.
  assert (Q : 2 ^ 52 <= Zpos p * 2 ^ (52 - k) < 2 ^ 53).
  { assert (0 < 2 ^ (52 - k)) by (apply Z.pow_pos_nonneg; lia).
    assert (2 ^ k * 2 ^ (52 - k) <= Zpos p * 2 ^ (52 - k)) by (apply Z.mul_le_mono_nonneg_r; lia).
    assert (Zpos p * 2 ^ (52 - k) < 2 ^ (k + 1) * 2 ^ (52 - k)) by (apply Z.mul_lt_mono_pos_r; lia).
    rewrite <- Z.pow_add_r in H0, H1 by lia.
    replace (k + (52 - k)) with 52 in H0 by lia. replace (k + 1 + (52 - k)) with 53 in H1 by lia. lia. }
  rewrite Z2Pos.id by lia.
  destruct (round_exact s (Zpos p) (52 - k) (k - 52)) as (m & j & E & Hj & Em & Hm); try lia.
  rewrite E. assert (j = 0).
  { destruct (Z.eq_dec j 0); [assumption|]. pose proof (Z.pow_le_mono_r 2 1 j ltac:(lia) ltac:(lia)).
    assert (2 ^ 52 * 2 <= Zpos m * 2 ^ j) by (apply Z.mul_le_mono_nonneg; lia). lia. }
  subst j. change (2 ^ 0) with 1 in Em. exists m, (k - 52).
  split; [f_equal; lia|]. split; [lia|]. replace (- (k - 52)) with (52 - k) by lia. lia.
Qed.

(** * The quotient is rounded to the nearest *)
Definition loc_ok (l : location) (d r : Z) : Prop :=
  match l with
  | loc_Exact => r = 0
  | loc_Inexact Lt => 0 < r /\ 2 * r < d
  | loc_Inexact Eq => 0 < r /\ 2 * r = d
  | loc_Inexact Gt => 0 < r /\ d < 2 * r
  end.
Lemma new_location_ok d r : 0 < d -> 0 <= r < d -> loc_ok (new_location d r) d r.
Proof.
  intros Hd Hr. unfold new_location. destruct (Z.even d) eqn:Ev.
  - unfold new_location_even. destruct (Zeq_bool r 0) eqn:E; [now apply Zeq_bool_eq in E|].
    apply Zeq_bool_neq in E. destruct (Z.compare_spec (2 * r) d); cbn [loc_ok]; lia.
  - unfold new_location_odd. destruct (Zeq_bool r 0) eqn:E; [now apply Zeq_bool_eq in E|].
    apply Zeq_bool_neq in E. destruct (Z.compare_spec (2 * r + 1) d); cbn [loc_ok]; try lia.
    assert (2 * r <> d); [|lia]. intros C. rewrite <- C, Z.even_mul in Ev. discriminate.
Qed.

Lemma round_norm sx m e : 2 ^ 52 <= m <= 2 ^ 53 -> -900 <= e <= 500 ->
  exists p j, (let '(mrs, e2) := shr_fexp 53 1024 m e loc_Exact in
    match shr_m mrs with
    | Z0 => S754_zero sx
    | Zpos q => if e2 <=? 1024 - 53 then S754_finite sx q e2 else S754_infinity sx
    | Zneg _ => S754_nan
    end) = S754_finite sx p (e + j) /\ 0 <= j <= 1 /\ Zpos p * 2 ^ j = m /\ 2 ^ 52 <= Zpos p < 2 ^ 53.
Proof.
  intros Hm He. unfold shr_fexp. cbn [shr_record_of_loc]. destruct (Z.eq_dec m (2 ^ 53)) as [->|Hn].
  - rewrite (digits_unique (2 ^ 53) 53) by lia. rewrite fexp_big by lia.
    replace (53 + 1 + e - 53 - e) with 1 by lia. change (2 ^ 53) with (2 ^ 52 * 2 ^ 1) at 1.
    rewrite shr_exact by lia. cbn [shr_m]. change (2 ^ 52) with (Zpos (Z.to_pos (2 ^ 52))) at 1.
    replace (e + 1 <=? 1024 - 53) with true by lia. exists (Z.to_pos (2 ^ 52)), 1.
    split; [reflexivity|]. rewrite Z2Pos.id by lia. lia.
  - rewrite (digits_unique m 52) by lia. rewrite fexp_big by lia. rewrite shr_none by lia. cbn [shr_m].
    destruct m as [|p|p]; try lia. replace (e <=? 1024 - 53) with true by lia. exists p, 0.
    rewrite Z.add_0_r. split; [reflexivity|]. change (2 ^ 0) with 1. lia.
Qed.

Lemma round_core sx q e l d r : 0 < d -> 0 <= r < d -> loc_ok l d r -> 2 ^ 52 <= q < 2 ^ 54 -> -900 <= e <= 400 ->
  exists m j, binary_round_aux 53 1024 sx q e l = S754_finite sx m (e + j) /\ 0 <= j <= 2 /\
    2 ^ 52 <= Zpos m < 2 ^ 53 /\ 2 * Z.abs (Zpos m * 2 ^ j * d - (q * d + r)) <= 2 ^ j * d.
Proof.
  intros Hd Hr Hl Hq He. unfold binary_round_aux. unfold shr_fexp at 1.
  destruct (Z.lt_ge_cases q (2 ^ 53)) as [Q|Q].
  - rewrite (digits_unique q 52) by lia. rewrite fexp_big by lia. rewrite shr_none by lia.
    assert (E : loc_of_shr_record (shr_record_of_loc q l) = l) by (destruct l as [|[]]; reflexivity).
    assert (E2 : shr_m (shr_record_of_loc q l) = q) by (destruct l as [|[]]; reflexivity).
    rewrite E, E2. set (m1 := round_nearest_even q l).
    assert (Hm1 : 2 ^ 52 <= m1 <= 2 ^ 53 /\ 2 * Z.abs (m1 * d - (q * d + r)) <= d).
    { unfold m1. destruct l as [|[]]; cbn [loc_ok round_nearest_even] in *; try (split; lia).
      destruct (Z.even q); split; lia. }
    clearbody m1. destruct (round_norm sx m1 e) as (p & j & Ep & Hj & Em & Hp); try lia.
    exists p, j. split; [exact Ep|]. split; [lia|]. split; [lia|]. rewrite Em.
    assert (1 <= 2 ^ j) by (pose proof (Z.pow_pos_nonneg 2 j); lia).
    assert (1 * d <= 2 ^ j * d) by (apply Z.mul_le_mono_nonneg_r; lia). lia.
  - rewrite (digits_unique q 53) by lia. rewrite fexp_big by lia.
    replace (53 + 1 + e - 53 - e) with 1 by lia. change (shr (shr_record_of_loc q l) e 1) with (shr_1 (shr_record_of_loc q l), e + 1).
    set (h := Z.div2 q). pose proof (Z.div2_odd q) as D. fold h in D.
    set (s := match l with loc_Exact => false | _ => true end).
    assert (E : shr_1 (shr_record_of_loc q l) = {| shr_m := h; shr_r := Z.odd q; shr_s := s |}).
    { unfold h, s. destruct q as [|[]|]; try lia; destruct l as [|[]]; reflexivity. }
    rewrite E. cbn [shr_m]. set (m1 := round_nearest_even h _).
    assert (Hs : if s then 0 < r else r = 0) by (unfold s; destruct l as [|[]]; cbn [loc_ok] in Hl; lia).
    assert (Hm1 : 2 ^ 52 <= m1 <= 2 ^ 53 /\ 2 * Z.abs (m1 * 2 * d - (q * d + r)) <= 2 * d).
    { unfold m1. clearbody s h. destruct (Z.odd q) eqn:O; cbn [Z.b2z] in D; subst q; destruct s;
      cbn [loc_of_shr_record round_nearest_even]; try (split; lia).
      destruct (Z.even h); split; lia. }
    clearbody m1. destruct (round_norm sx m1 (e + 1)) as (p & j & Ep & Hj & Em & Hp); try lia.
    exists p, (1 + j). split; [rewrite Ep; f_equal; lia|]. split; [lia|]. split; [lia|].
    rewrite Z.pow_add_r by lia. change (2 ^ 1) with 2.
    replace (Zpos p * (2 * 2 ^ j)) with (m1 * 2) by (rewrite <- Em; ring).
    assert (1 <= 2 ^ j) by (pose proof (Z.pow_pos_nonneg 2 j); lia).
    assert (1 * (2 * d) <= 2 ^ j * (2 * d)) by (apply Z.mul_le_mono_nonneg_r; lia). lia.
Qed.

Lemma div_near s n u : Zpos n < 2 ^ 51 -> Zpos u <= 2 ^ 51 ->
  exists m k, f64_div (f64_of_int (neg s (Zpos n))) (f64_of_int (Zpos u)) = S754_finite s m (- k) /\ 1 <= k <= 200 /\
    2 * Z.abs (Zpos m * Zpos u - Zpos n * 2 ^ k) <= Zpos u /\ Zpos u < 2 ^ k.
Proof.
  intros Hn Hu.
  destruct (of_int_exact s n) as (m1 & e1 & E1 & R1 & V1 & B1); [lia|].
  destruct (of_int_exact false u) as (m2 & e2 & E2 & R2 & V2 & B2); [lia|].
  change (neg false (Zpos u)) with (Zpos u) in E2. rewrite E1, E2. unfold f64_div, SFdiv, SFdiv_core_binary.
  rewrite (digits_unique (Zpos m1) 52), (digits_unique (Zpos m2) 52) by lia.
  rewrite fexp_big by lia.
  replace (Z.min (52 + 1 + e1 - (52 + 1 + e2) - 53) (e1 - e2)) with (e1 - e2 - 53) by lia.
  replace (e1 - e2 - (e1 - e2 - 53)) with 53 by lia. cbv iota. rewrite Z.shiftl_mul_pow2 by lia.
  destruct (Z.div_eucl (Zpos m1 * 2 ^ 53) (Zpos m2)) as [q r] eqn:Eq.
  pose proof (Z_div_mod (Zpos m1 * 2 ^ 53) (Zpos m2) ltac:(lia)) as D. rewrite Eq in D. destruct D as [D Hr].
  assert (Hq : 2 ^ 52 <= q < 2 ^ 54).
  { split.
    - destruct (Z.le_gt_cases (2 ^ 52) q); [assumption|].
      assert (Zpos m2 * q <= Zpos m2 * (2 ^ 52 - 1)) by (apply Z.mul_le_mono_nonneg_l; lia). lia.
    - destruct (Z.le_gt_cases (2 ^ 54) q); [|assumption].
      assert (Zpos m2 * 2 ^ 54 <= Zpos m2 * q) by (apply Z.mul_le_mono_nonneg_l; lia). lia. }
  rewrite xorb_false_r.
  destruct (round_core s q (e1 - e2 - 53) (new_location (Zpos m2) r) (Zpos m2) r) as (m & j & E & Hj & Hm & Hb);
    [lia|lia|apply new_location_ok; lia|assumption|lia|].
  rewrite E. exists m, (- (e1 - e2 - 53 + j)).
  split; [f_equal; lia|].
  replace (q * Zpos m2 + r) with (Zpos m1 * 2 ^ 53) in Hb by lia.
  assert (P1 : 0 < 2 ^ (- e2)) by (apply Z.pow_pos_nonneg; lia).
  assert (PJ : 0 < 2 ^ j) by (apply Z.pow_pos_nonneg; lia).
  (* scale to the integers n, u *)
  set (k := - (e1 - e2 - 53 + j)) in *.
  assert (Hk' : -1 <= k) by lia.
  assert (Eqk : 2 ^ 1 * (2 ^ (- e1) * 2 ^ 53) = 2 ^ (- e2) * 2 ^ j * 2 ^ (k + 1)) by
    (rewrite <- !Z.pow_add_r by lia; f_equal; lia).
  assert (Hb' : 2 * Z.abs (Zpos m * Zpos u * 2 - Zpos n * 2 ^ (k + 1)) <= Zpos u * 2).
  { apply Z.mul_le_mono_pos_l with (p := 2 ^ (- e2) * 2 ^ j); [apply Z.mul_pos_pos; assumption|].
    rewrite V1, V2 in Hb.
    set (X := Zpos m * 2 ^ j * (Zpos u * 2 ^ (- e2)) - Zpos n * 2 ^ (- e1) * 2 ^ 53) in *.
    set (Y := Zpos m * Zpos u * 2 - Zpos n * 2 ^ (k + 1)).
    assert (HXY : 2 * X = 2 ^ (- e2) * 2 ^ j * Y).
    { unfold X, Y.
      replace (2 * (Zpos m * 2 ^ j * (Zpos u * 2 ^ (- e2)) - Zpos n * 2 ^ (- e1) * 2 ^ 53))
        with (2 * (Zpos m * 2 ^ j * (Zpos u * 2 ^ (- e2))) - Zpos n * (2 ^ 1 * (2 ^ (- e1) * 2 ^ 53))) by ring.
      rewrite Eqk. ring. }
    assert (HA : 2 ^ (- e2) * 2 ^ j * Z.abs Y = 2 * Z.abs X).
    { replace (2 * Z.abs X) with (Z.abs (2 * X)) by lia. rewrite HXY, Z.abs_mul. f_equal. symmetry. apply Z.abs_eq.
      apply Z.mul_nonneg_nonneg; lia. }
    replace (2 ^ (- e2) * 2 ^ j * (Zpos u * 2)) with (2 * (2 ^ j * (Zpos u * 2 ^ (- e2)))) by ring.
    clearbody X Y. lia. }
  assert (Hu2 : Zpos u * 2 < 2 ^ (k + 1)).
  { assert (2 ^ 52 * Zpos u <= Zpos m * Zpos u) by (apply Z.mul_le_mono_nonneg_r; lia).
    assert (PK : 0 < 2 ^ (k + 1)) by (apply Z.pow_pos_nonneg; lia).
    assert (Zpos n * 2 ^ (k + 1) <= (2 ^ 51 - 1) * 2 ^ (k + 1)) by (apply Z.mul_le_mono_nonneg_r; lia). lia. }
  assert (Hk1 : 1 <= k).
  { destruct (Z.le_gt_cases 1 k); [assumption|]. pose proof (Z.pow_le_mono_r 2 (k + 1) 1). lia. }
  rewrite Z.pow_add_r in Hb', Hu2 by lia. change (2 ^ 1) with 2 in *. split; [lia|]. split; lia.
Qed.

(** * From the rounded quotient to the exact roundings *)
Section near.
  Variables (m n u k : Z).
  Hypothesis (Hk : 1 <= k) (Hu : 0 < u < 2 ^ k) (Hn : 0 <= n)
    (Hb : 2 * Z.abs (m * u - n * 2 ^ k) <= u).

  Lemma near_between q : q * u < n -> q * 2 ^ k < m.
  Proof.
    intros H. destruct (Z.lt_ge_cases (q * 2 ^ k) m) as [|C]; [assumption|exfalso].
    assert ((q * u + 1) * 2 ^ k <= n * 2 ^ k) by (apply Z.mul_le_mono_nonneg_r; lia).
    assert (m * u <= q * 2 ^ k * u) by (apply Z.mul_le_mono_nonneg_r; lia). lia.
  Qed.
  Lemma near_between' q : n < q * u -> m < q * 2 ^ k.
  Proof.
    intros H. destruct (Z.lt_ge_cases m (q * 2 ^ k)) as [|C]; [assumption|exfalso].
    assert ((n + 1) * 2 ^ k <= q * u * 2 ^ k) by (apply Z.mul_le_mono_nonneg_r; lia).
    assert (q * 2 ^ k * u <= m * u) by (apply Z.mul_le_mono_nonneg_r; lia). lia.
  Qed.
  Lemma near_exact q : n = q * u -> m = q * 2 ^ k.
  Proof.
    intros ->. destruct (Z.lt_trichotomy m (q * 2 ^ k)) as [C|[C|C]]; [exfalso|assumption|exfalso].
    - assert ((m + 1) * u <= q * 2 ^ k * u) by (apply Z.mul_le_mono_nonneg_r; lia). lia.
    - assert ((q * 2 ^ k + 1) * u <= m * u) by (apply Z.mul_le_mono_nonneg_r; lia). lia.
  Qed.
  (** half-integer thresholds *)
  Lemma half_between q : (2 * q + 1) * u < 2 * n -> (2 * q + 1) * 2 ^ k < 2 * m.
  Proof.
    intros H. destruct (Z.lt_ge_cases ((2 * q + 1) * 2 ^ k) (2 * m)) as [|C]; [assumption|exfalso].
    assert (((2 * q + 1) * u + 1) * 2 ^ k <= 2 * n * 2 ^ k) by (apply Z.mul_le_mono_nonneg_r; lia).
    assert (2 * m * u <= (2 * q + 1) * 2 ^ k * u) by (apply Z.mul_le_mono_nonneg_r; lia). lia.
  Qed.
  Lemma half_between' q : 2 * n < (2 * q + 1) * u -> 2 * m < (2 * q + 1) * 2 ^ k.
  Proof.
    intros H. destruct (Z.lt_ge_cases (2 * m) ((2 * q + 1) * 2 ^ k)) as [|C]; [assumption|exfalso].
    assert ((2 * n + 1) * 2 ^ k <= (2 * q + 1) * u * 2 ^ k) by (apply Z.mul_le_mono_nonneg_r; lia).
    assert ((2 * q + 1) * 2 ^ k * u <= 2 * m * u) by (apply Z.mul_le_mono_nonneg_r; lia). lia.
  Qed.
  Lemma half_exact q : 2 * n = (2 * q + 1) * u -> 2 * m = (2 * q + 1) * 2 ^ k.
  Proof.
    intros H. replace (2 ^ k) with (2 * 2 ^ (k - 1)) in * by (rewrite <- Z.pow_succ_r by lia; f_equal; lia).
    assert (Hb' : 2 * Z.abs (2 * (m * u) - 2 * n * (2 * 2 ^ (k - 1))) <= 2 * u) by lia.
    rewrite H in Hb'.
    set (h := 2 ^ (k - 1)) in *. clearbody h.
    destruct (Z.lt_trichotomy m ((2 * q + 1) * h)) as [C|[C|C]]; [exfalso|lia|exfalso].
    - assert ((m + 1) * u <= (2 * q + 1) * h * u) by (apply Z.mul_le_mono_nonneg_r; lia). lia.
    - assert (((2 * q + 1) * h + 1) * u <= m * u) by (apply Z.mul_le_mono_nonneg_r; lia). lia.
  Qed.

  Lemma near_floor : m / 2 ^ k = n / u.
  Proof.
    symmetry. pose proof (Z.div_mod n u ltac:(lia)) as D. pose proof (Z.mod_pos_bound n u ltac:(lia)) as M.
    set (q := n / u) in *. set (r := n mod u) in *. clearbody q r.
    apply Z.div_unique with (r := m - 2 ^ k * q); [left|lia].
    pose proof (near_between' (q + 1) ltac:(lia)). destruct (Z.eq_dec r 0) as [->|].
    - pose proof (near_exact q ltac:(lia)). lia.
    - pose proof (near_between q ltac:(lia)). lia.
  Qed.
  Lemma near_ceil : (m + 2 ^ k - 1) / 2 ^ k = (n + u - 1) / u.
  Proof.
    symmetry. pose proof (Z.div_mod (n + u - 1) u ltac:(lia)) as D. pose proof (Z.mod_pos_bound (n + u - 1) u ltac:(lia)) as M.
    set (q := (n + u - 1) / u) in *. set (r := (n + u - 1) mod u) in *. clearbody q r.
    apply Z.div_unique with (r := m + 2 ^ k - 1 - 2 ^ k * q); [left|lia].
    pose proof (near_between (q - 1) ltac:(lia)). destruct (Z.eq_dec r (u - 1)) as [->|].
    - pose proof (near_exact q ltac:(lia)). lia.
    - pose proof (near_between' q ltac:(lia)). lia.
  Qed.
  Lemma near_round : (2 * m + 2 ^ k) / (2 * 2 ^ k) = (2 * n + u) / (2 * u).
  Proof.
    symmetry. pose proof (Z.div_mod (2 * n + u) (2 * u) ltac:(lia)) as D.
    pose proof (Z.mod_pos_bound (2 * n + u) (2 * u) ltac:(lia)) as M.
    set (q := (2 * n + u) / (2 * u)) in *. set (r := (2 * n + u) mod (2 * u)) in *. clearbody q r.
    apply Z.div_unique with (r := 2 * m + 2 ^ k - 2 * 2 ^ k * q); [left|lia].
    pose proof (half_between' q ltac:(lia)). destruct (Z.eq_dec r 0) as [->|].
    - pose proof (half_exact (q - 1) ltac:(lia)). lia.
    - pose proof (half_between (q - 1) ltac:(lia)). lia.
  Qed.
End near.

Lemma mul_back s r u : 0 <= r -> 0 < u < 2 ^ 53 -> r * u < 2 ^ 53 ->
  f64_to_int (f64_mul (f64_of_int (neg s r)) (f64_of_int u)) = neg s (r * u).
Proof.
  intros Hr Hu Hru. destruct u as [|u|u]; try lia.
  destruct r as [|p|p]; [| |lia].
  - destruct (of_int_exact false u) as (m2 & e2 & E2 & _); [lia|].
    change (neg false (Zpos u)) with (Zpos u) in E2. rewrite E2. destruct s; reflexivity.
  - assert (1 * Zpos u <= Zpos p * Zpos u) by (apply Z.mul_le_mono_nonneg_r; lia).
    assert (Zpos p * 1 <= Zpos p * Zpos u) by (apply Z.mul_le_mono_nonneg_l; lia).
    destruct (of_int_exact s p) as (m1 & e1 & E1 & R1 & V1 & B1); [lia|].
    destruct (of_int_exact false u) as (m2 & e2 & E2 & R2 & V2 & B2); [lia|].
    change (neg false (Zpos u)) with (Zpos u) in E2. rewrite E1, E2. unfold f64_mul, SFmul.
    rewrite xorb_false_r, Pos2Z.inj_mul.
    assert (EQ : Zpos m1 * Zpos m2 = Zpos p * Zpos u * 2 ^ (- e1 - e2)).
    { rewrite V1, V2. replace (- e1 - e2) with (- e1 + - e2) by lia. rewrite Z.pow_add_r by lia. ring. }
    assert (2 ^ 52 * 2 ^ 52 <= Zpos m1 * Zpos m2) by (apply Z.mul_le_mono_nonneg; lia).
    rewrite EQ in *.
    destruct (round_exact s (Zpos p * Zpos u) (- e1 - e2) (e1 + e2)) as (m & j & E & Hj & Em & Hm); try lia.
    rewrite E. set (t := - e1 - e2) in *. replace (e1 + e2 + j) with (j - t) by lia.
    assert (Ht : 0 <= t) by lia.
    assert (PJ : 0 < 2 ^ j) by (apply Z.pow_pos_nonneg; lia).
    assert (PT : 0 < 2 ^ t) by (apply Z.pow_pos_nonneg; lia).
    set (P := Zpos p * Zpos u) in *. clearbody P t. unfold f64_to_int.
    assert (Ev : (if 0 <=? j - t then Zpos m * 2 ^ (j - t) else Zpos m / 2 ^ (- (j - t))) = P).
    { destruct (0 <=? j - t) eqn:C.
      - apply Z.mul_cancel_r with (2 ^ t); [lia|]. rewrite <- Em, <- Z.mul_assoc, <- Z.pow_add_r by lia.
        f_equal. f_equal. lia.
      - assert (Zpos m = P * 2 ^ (t - j)).
        { apply Z.mul_cancel_r with (2 ^ j); [lia|]. rewrite Em, <- Z.mul_assoc, <- Z.pow_add_r by lia.
          f_equal. f_equal. lia. }
        rewrite H2. replace (- (j - t)) with (t - j) by lia. apply Z.div_mul.
        pose proof (Z.pow_pos_nonneg 2 (t - j)). lia. }
    rewrite Ev. unfold neg. replace ((- 2 ^ 63 <=? (if s then - P else P)) && ((if s then - P else P) <? 2 ^ 63)) with true
      by (destruct s; lia). reflexivity.
Qed.

(** * The three functions *)
Lemma chain (F : bool -> Z -> Z -> Z) (H : Z -> Z -> Z) (s : bool) n u :
  (forall m k, 1 <= k -> Zpos u < 2 ^ k -> 2 * Z.abs (Zpos m * Zpos u - Zpos n * 2 ^ k) <= Zpos u ->
     F s (Zpos m) (2 ^ k) = neg s (H (Zpos n) (Zpos u))) ->
  0 <= H (Zpos n) (Zpos u) -> H (Zpos n) (Zpos u) * Zpos u < 2 ^ 53 -> Zpos n < 2 ^ 51 -> Zpos u <= 2 ^ 51 ->
  f64_to_int (f64_mul (f64_integral F (f64_div (f64_of_int (neg s (Zpos n))) (f64_of_int (Zpos u)))) (f64_of_int (Zpos u)))
  = neg s (H (Zpos n) (Zpos u) * Zpos u).
Proof.
  intros HF H0 H1 Hn Hu. destruct (div_near s n u Hn Hu) as (m & k & E & Hk & Hb & Hk2). rewrite E.
  unfold f64_integral. replace (0 <=? - k) with false by lia. rewrite Z.opp_involutive.
  rewrite (HF m k) by lia. apply mul_back; lia.
Qed.
Lemma zero_chain F u : Zpos u <= 2 ^ 51 ->
  f64_to_int (f64_mul (f64_integral F (f64_div (f64_of_int 0) (f64_of_int (Zpos u)))) (f64_of_int (Zpos u))) = 0.
Proof.
  intros Hu. destruct (of_int_exact false u) as (m & e & E & _); [lia|].
  change (neg false (Zpos u)) with (Zpos u) in E. rewrite E. reflexivity.
Qed.
Lemma floor_bounds n u : 0 <= n -> 0 < u -> u * (n / u) <= n < u * (n / u) + u /\ 0 <= n / u.
Proof.
  intros Hn Hu. pose proof (Z.div_mod n u ltac:(lia)). pose proof (Z.mod_pos_bound n u ltac:(lia)).
  pose proof (Z.div_pos n u ltac:(lia) ltac:(lia)). lia.
Qed.

Lemma Floor_spec x u : Z.abs x < 2 ^ 51 -> 0 < u <= 2 ^ 51 -> Floor x u mod u = 0 /\ Floor x u <= x < Floor x u + u.
Proof.
  intros Hx Hu. unfold Floor, f64_floor. set (F := fun (s : bool) (m q : Z) => _). destruct u as [|u|u]; try lia. destruct x as [|n|n].
  - rewrite zero_chain by lia. rewrite Z.mod_0_l by lia. lia.
  - pose proof (floor_bounds (Zpos n) (Zpos u) ltac:(lia) ltac:(lia)).
    pose proof (chain F (fun n u => n / u) false n u) as E. cbn [neg] in E. rewrite E; try lia; clear E.
    + rewrite Z.mod_mul by lia. lia.
    + intros m k Hk Huk Hb. unfold F. apply near_floor; lia.
  - change (Zneg n) with (- Zpos n).
    pose proof (floor_bounds (Zpos n + Zpos u - 1) (Zpos u) ltac:(lia) ltac:(lia)).
    pose proof (chain F (fun n u => (n + u - 1) / u) true n u) as E. cbn [neg] in E. rewrite E; try lia; clear E.
    + rewrite <- Z.mul_opp_l, Z.mod_mul by lia. lia.
    + intros m k Hk Huk Hb. unfold F. f_equal. apply near_ceil; lia.
Qed.
Lemma Ceil_spec x u : Z.abs x < 2 ^ 51 -> 0 < u <= 2 ^ 51 -> Ceil x u mod u = 0 /\ Ceil x u - u < x <= Ceil x u.
Proof.
  intros Hx Hu. unfold Ceil, f64_ceil. set (F := fun (s : bool) (m q : Z) => _). destruct u as [|u|u]; try lia. destruct x as [|n|n].
  - rewrite zero_chain by lia. rewrite Z.mod_0_l by lia. lia.
  - pose proof (floor_bounds (Zpos n + Zpos u - 1) (Zpos u) ltac:(lia) ltac:(lia)).
    pose proof (chain F (fun n u => (n + u - 1) / u) false n u) as E. cbn [neg] in E. rewrite E; try lia; clear E.
    + rewrite Z.mod_mul by lia. lia.
    + intros m k Hk Huk Hb. unfold F. apply near_ceil; lia.
  - change (Zneg n) with (- Zpos n).
    pose proof (floor_bounds (Zpos n) (Zpos u) ltac:(lia) ltac:(lia)).
    pose proof (chain F (fun n u => n / u) true n u) as E. cbn [neg] in E. rewrite E; try lia; clear E.
    + rewrite <- Z.mul_opp_l, Z.mod_mul by lia. lia.
    + intros m k Hk Huk Hb. unfold F. f_equal. apply near_floor; lia.
Qed.
Lemma Round_spec x u : Z.abs x < 2 ^ 51 -> 0 < u <= 2 ^ 51 ->
  Round x u mod u = 0 /\ 2 * Z.abs (Round x u - x) <= u /\
  (2 * Z.abs (Round x u - x) = u -> Z.abs x < Z.abs (Round x u)).
Proof.
  intros Hx Hu. unfold Round, f64_rnd. set (F := fun (s : bool) (m q : Z) => _). destruct u as [|u|u]; try lia. destruct x as [|n|n].
  - rewrite zero_chain by lia. rewrite Z.mod_0_l by lia. lia.
  - pose proof (floor_bounds (2 * Zpos n + Zpos u) (2 * Zpos u) ltac:(lia) ltac:(lia)).
    pose proof (chain F (fun n u => (2 * n + u) / (2 * u)) false n u) as E. cbn [neg] in E. rewrite E; try lia; clear E.
    + rewrite Z.mod_mul by lia. lia.
    + intros m k Hk Huk Hb. unfold F. apply near_round; lia.
  - change (Zneg n) with (- Zpos n).
    pose proof (floor_bounds (2 * Zpos n + Zpos u) (2 * Zpos u) ltac:(lia) ltac:(lia)).
    pose proof (chain F (fun n u => (2 * n + u) / (2 * u)) true n u) as E. cbn [neg] in E. rewrite E; try lia; clear E.
    + rewrite <- Z.mul_opp_l, Z.mod_mul by lia. lia.
    + intros m k Hk Huk Hb. unfold F. f_equal. apply near_round; lia.
Qed.
