(** TickMathFacts.v -- GetSqrtRatioAtTick is strictly increasing, and GetTickAtSqrtRatio inverts it. *)
From Verif Require Import Base U256Z FullMathFacts TickMath.
From Coq Require Import ZifyBool.
Ltac Zify.zify_post_hook ::= idtac.

(** * The product over the bits, as a recursion *)
Fixpoint run (cs : list Z) (n v : Z) : Z :=
  match cs with
  | [] => v
  | c :: cs' => run cs' (Z.div2 n) (if Z.odd n then mulShift v c else v)
  end.
Definition cs : list Z := c0 :: map snd factors.
Definition R (n : Z) : Z := run cs n (2 ^ 128).

Fixpoint mk (i : Z) (l : list Z) : list (Z * Z) :=
  match l with [] => [] | c :: l' => (2 ^ i, c) :: mk (i + 1) l' end.
Lemma factors_mk : factors = mk 1 (map snd factors). Proof. reflexivity. Qed.

Lemma land_pow2 n i : 0 <= i -> negb (Z.land n (2 ^ i) =? 0) = Z.testbit n i.
Proof.
  intros Hi. destruct (Z.testbit n i) eqn:E.
  - assert (Z.land n (2 ^ i) <> 0); [|lia]. intros C.
    assert (H : Z.testbit (Z.land n (2 ^ i)) i = false) by (rewrite C; apply Z.bits_0).
    rewrite Z.land_spec, E, Z.pow2_bits_true in H by lia. discriminate.
  - assert (Z.land n (2 ^ i) = 0); [|lia]. apply Z.bits_inj. intros k. rewrite Z.land_spec, Z.bits_0.
    rewrite Z.pow2_bits_eqb by lia. destruct (i =? k) eqn:Ek; [|now rewrite andb_false_r].
    apply Z.eqb_eq in Ek. subst k. now rewrite E.
Qed.
Lemma fold_run l : forall i n v, 0 <= i ->
  fold_left (fun ratio f => if negb (Z.land n (fst f) =? 0) then mulShift ratio (snd f) else ratio) (mk i l) v
  = run l (Z.shiftr n i) v.
Proof.
  induction l as [|c l IH]; intros i n v Hi; [reflexivity|].
  cbn [mk fold_left run fst snd]. rewrite IH by lia. rewrite land_pow2 by lia.
  f_equal; [|now rewrite <- Z.bit0_odd, Z.shiftr_spec, Z.add_0_l by lia].
  rewrite Z.div2_spec, Z.shiftr_shiftr by lia. reflexivity.
Qed.
Lemma mulShift_c0 : mulShift (2 ^ 128) c0 = c0. Proof. reflexivity. Qed.
Lemma fold_gen l fs c q n : fs = mk 1 l -> mulShift q c = c ->
  fold_left (fun ratio f => if negb (Z.land n (fst f) =? 0) then mulShift ratio (snd f) else ratio)
    fs (if negb (Z.land n 1 =? 0) then c else q) = run (c :: l) n q.
Proof.
  intros -> Hc. rewrite fold_run by lia. cbn [run]. rewrite Hc.
  pose proof (land_pow2 n 0 ltac:(lia)) as H. rewrite Z.pow_0_r in H. rewrite H.
  now rewrite Z.bit0_odd, Z.div2_spec.
Qed.
Lemma fold_R n : fold_left (fun ratio f => if negb (Z.land n (fst f) =? 0) then mulShift ratio (snd f) else ratio)
    factors (if negb (Z.land n 1 =? 0) then c0 else 0x100000000000000000000000000000000) = R n.
Proof. unfold R, cs. exact (fold_gen (map snd factors) factors c0 (2 ^ 128) n factors_mk mulShift_c0). Qed.

(** * Ranges *)
Definition fac (c : Z) : Prop := 0 <= c <= 2 ^ 128 - 1.
Lemma cs_fac : Forall fac cs.
Proof. unfold cs. cbn [map snd factors]. repeat constructor; unfold fac, c0; lia. Qed.
(** what mulShift does, tickmath.go:214-218 *)
Lemma mulShift_ops v c : mulShift v c = ursh (umul v c) 128.
Proof.
  unfold mulShift, ursh, umul. cbv zeta. rewrite Z.shiftr_div_pow2 by lia. f_equal.
  destruct ((0 <=? v * c) && (v * c <? T256)) eqn:E; [|reflexivity].
  apply andb_prop in E. destruct E as [E1 E2]. symmetry. apply Z.mod_small. revert E1 E2. generalize (v * c). intros x E1 E2. apply Z.leb_le in E1. apply Z.ltb_lt in E2. lia.
Qed.
Lemma mulShift_eq v c : 0 <= v <= 2 ^ 128 -> fac c -> mulShift v c = v * c / 2 ^ 128 /\ 0 <= mulShift v c <= 2 ^ 128.
Proof.
  unfold fac. intros Hv Hc. rewrite mulShift_ops. unfold ursh.
  assert (0 <= v * c) by (apply Z.mul_nonneg_nonneg; lia).
  assert (v * c <= 2 ^ 128 * (2 ^ 128 - 1)) by (apply Z.mul_le_mono_nonneg; lia).
  rewrite umul_small by lia. split; [reflexivity|]. split; [apply Z.div_pos; lia|].
  apply Z.div_le_upper_bound; lia.
Qed.
Lemma run_range l : forall n v, Forall fac l -> 0 <= v <= 2 ^ 128 -> 0 <= run l n v <= 2 ^ 128.
Proof.
  induction l as [|c l IH]; intros n v Hl Hv; cbn [run]; [assumption|].
  apply IH; [now apply Forall_inv_tail in Hl|]. destruct (Z.odd n); [|assumption].
  apply mulShift_eq; [assumption|now apply Forall_inv in Hl].
Qed.
Lemma R_range n : 0 <= R n <= 2 ^ 128. Proof. unfold R. assert (H : 0 <= 2 ^ 128 <= 2 ^ 128) by lia. exact (run_range cs n (2 ^ 128) cs_fac H). Qed.

(** * The same multiplications keep two values apart *)
Lemma shift_pair A B c e : 0 <= A <= 2 ^ 128 -> 0 <= B <= 2 ^ 128 -> fac c -> 0 <= e ->
  100000 * B <= 99996 * (A + e) -> 100000 * mulShift B c <= 99996 * (mulShift A c + (e + 1)).
Proof.
  intros HA HB Hc He H. destruct (mulShift_eq A c HA Hc) as [-> _]. destruct (mulShift_eq B c HB Hc) as [-> _].
  pose proof (Z.mul_div_le (B * c) (2 ^ 128) ltac:(lia)) as H1.
  pose proof (Z.mul_succ_div_gt (A * c) (2 ^ 128) ltac:(lia)) as H2.
  set (b := B * c / 2 ^ 128) in *. set (a := A * c / 2 ^ 128) in *. clearbody a b. unfold fac in Hc.
  assert (100000 * B * c <= 99996 * (A + e) * c) by (apply Z.mul_le_mono_nonneg_r; lia).
  assert (e * c <= e * 2 ^ 128) by (apply Z.mul_le_mono_nonneg_l; lia).
  lia.
Qed.
Lemma run_pair l : forall n A B e, Forall fac l -> 0 <= A <= 2 ^ 128 -> 0 <= B <= 2 ^ 128 -> 0 <= e ->
  100000 * B <= 99996 * (A + e) ->
  100000 * run l n B <= 99996 * (run l n A + (e + Z.of_nat (length l))).
Proof.
  induction l as [|c l IH]; intros n A B e Hl HA HB He H; cbn [run length].
  - cbn [Z.of_nat]. rewrite Z.add_0_r. assumption.
  - pose proof (Forall_inv Hl) as Hc. apply Forall_inv_tail in Hl.
    replace (e + Z.of_nat (S (length l))) with ((e + 1) + Z.of_nat (length l)) by lia.
    destruct (Z.odd n).
    + apply IH; [assumption|apply (mulShift_eq A c HA Hc)|apply (mulShift_eq B c HB Hc)|lia|]. now apply shift_pair.
    + apply IH; try assumption; lia.
Qed.

(** [chk l A]: each constant is below 0.99996 times the product of the smaller ones *)
Fixpoint chk (l : list Z) (A : Z) : bool :=
  match l with
  | [] => true
  | c :: l' => (100000 * c <=? 99996 * A) && chk l' (mulShift A c)
  end.
Lemma chk_cs : chk cs (2 ^ 128) = true. Proof. vm_compute. reflexivity. Qed.

Lemma mulShift_one c : fac c -> mulShift (2 ^ 128) c = c.
Proof.
  intros Hc. destruct (mulShift_eq (2 ^ 128) c ltac:(lia) Hc) as [-> _]. rewrite Z.mul_comm. apply Z.div_mul. lia.
Qed.
Lemma run_carry l : forall m A, Forall fac l -> 0 <= A <= 2 ^ 128 -> chk l A = true -> 0 <= m ->
  m + 1 < 2 ^ Z.of_nat (length l) ->
  100000 * run l (m + 1) (2 ^ 128) <= 99996 * (run l m A + Z.of_nat (length l)).
Proof.
  induction l as [|c l IH]; intros m A Hl HA Hk Hm Hb.
  - cbn [length Z.of_nat] in Hb. change (2 ^ 0) with 1 in Hb. lia.
  - cbn [chk] in Hk. apply andb_true_iff in Hk as [Hk1 Hk2].
    pose proof (Forall_inv Hl) as Hc. apply Forall_inv_tail in Hl.
    replace (2 ^ Z.of_nat (length (c :: l))) with (2 * 2 ^ Z.of_nat (length l)) in Hb
      by (cbn [length]; rewrite Nat2Z.inj_succ, Z.pow_succ_r by lia; reflexivity).
    cbn [run length]. pose proof (Z.div2_odd m) as D. destruct (Z.odd m) eqn:O; cbn [Z.b2z] in D.
    + (* the low bit carries *)
      assert (Om : Z.odd (m + 1) = false) by (rewrite Z.odd_add, O; reflexivity).
      assert (Dm : Z.div2 (m + 1) = Z.div2 m + 1).
      { pose proof (Z.div2_odd (m + 1)) as D'. rewrite Om in D'. cbn [Z.b2z] in D'. lia. }
      rewrite Om, Dm.
      assert (H := IH (Z.div2 m) (mulShift A c) Hl (proj2 (mulShift_eq A c HA Hc)) Hk2).
      assert (0 <= Z.div2 m) by lia. lia.
    + assert (Om : Z.odd (m + 1) = true) by (rewrite Z.odd_add, O; reflexivity).
      assert (Dm : Z.div2 (m + 1) = Z.div2 m).
      { pose proof (Z.div2_odd (m + 1)) as D'. rewrite Om in D'. cbn [Z.b2z] in D'. lia. }
      rewrite Om, Dm, (mulShift_one c Hc).
      assert (H := run_pair l (Z.div2 m) A c 0 Hl HA). unfold fac in Hc. lia.
Qed.

Lemma R_step n : 0 <= n < 887272 -> 100000 * R (n + 1) <= 99996 * (R n + 20).
Proof.
  intros Hn. apply (run_carry cs n (2 ^ 128) cs_fac ltac:(lia) chk_cs ltac:(lia)).
  change (2 ^ Z.of_nat (length cs)) with 1048576. lia.
Qed.
Lemma R_last : R 887272 = 18447437462383981825. Proof. vm_compute. reflexivity. Qed.
Lemma R_eq n : R n = run cs n (2 ^ 128). Proof. reflexivity. Qed.
Strategy opaque [R].
Lemma R_low n : 0 <= n <= 887272 -> R 887272 <= R n.
Proof.
  intros Hn. replace n with (887272 - Z.of_nat (Z.to_nat (887272 - n))) by lia.
  assert (Hk : Z.of_nat (Z.to_nat (887272 - n)) <= 887272) by lia.
  induction (Z.to_nat (887272 - n)) as [|k IH].
  - cbn [Z.of_nat]. rewrite Z.sub_0_r. lia.
  - specialize (IH ltac:(lia)). pose proof (R_step (887272 - Z.of_nat (S k)) ltac:(lia)) as S.
    replace (887272 - Z.of_nat (Datatypes.S k) + 1) with (887272 - Z.of_nat k) in S by lia.
    pose proof R_last. lia.
Qed.

(** * The closed form of the ratio *)
Definition ceil32 (r : Z) : Z := (r + (2 ^ 32 - 1)) / 2 ^ 32.
Definition G (n : Z) : Z := (T256 - 1) / R n.

Lemma finish r : 0 <= r < T255 ->
  (if 0 <? usign (usmod r Q32) then Ok (uadd (udiv r Q32) 1) else Ok (udiv r Q32)) = Ok (ceil32 r).
Proof.
  intros Hr. unfold usmod, usigned, Q32.
  replace (r <? T255) with true by lia. replace (2 ^ 32 <? T255) with true by (lia).
  replace (2 ^ 32 =? 0) with false by lia.
  rewrite Z.rem_mod_nonneg by lia.
  pose proof (Z.mod_pos_bound r (2 ^ 32) ltac:(lia)) as Hm.
  rewrite (Z.mod_small (r mod 2 ^ 32) T256) by (lia).
  unfold udiv. replace (2 ^ 32 =? 0) with false by lia.
  pose proof (Z.div_mod r (2 ^ 32) ltac:(lia)) as D.
  assert (0 <= r / 2 ^ 32 <= r) by (split; [apply Z.div_pos; lia|]; apply Z.div_le_upper_bound; lia).
  unfold ceil32. destruct (Z.eq_dec (r mod 2 ^ 32) 0) as [E|E].
  - rewrite E. change (0 <? usign 0) with false. cbv iota. f_equal.
    apply Z.div_unique with (r := 2 ^ 32 - 1); lia.
  - replace (0 <? usign (r mod 2 ^ 32)) with true.
    + f_equal. rewrite uadd_small by (lia).
      apply Z.div_unique with (r := r mod 2 ^ 32 - 1); lia.
    + symmetry. unfold usign. replace (r mod 2 ^ 32 =? 0) with false by lia.
      replace (r mod 2 ^ 32 <? T255) with true by (lia). reflexivity.
Qed.

Lemma R_bounds n : 0 <= n <= 887272 -> 2 ^ 64 <= R n <= 2 ^ 128.
Proof. intros Hn. pose proof (R_low n Hn). pose proof (R_range n). pose proof R_last. lia. Qed.
Lemma G_bounds n : 0 <= n <= 887272 -> 2 ^ 128 - 1 <= G n <= 2 ^ 192.
Proof.
  intros Hn. pose proof (R_bounds n Hn) as B. unfold G. split.
  - apply Z.div_le_lower_bound; [lia|]. 
    assert (R n * (2 ^ 128 - 1) <= 2 ^ 128 * (2 ^ 128 - 1)) by (apply Z.mul_le_mono_nonneg_r; lia). lia.
  - apply Z.div_le_upper_bound; [lia|].
    assert (2 ^ 64 * 2 ^ 192 <= R n * 2 ^ 192) by (apply Z.mul_le_mono_nonneg_r; lia). lia.
Qed.

Lemma ratio_nonpos n : 0 <= n <= 887272 -> getSqrtRatioAtTick (- n) = Ok (ceil32 (R n)).
Proof.
  intros Hn. unfold getSqrtRatioAtTick.
  assert (E : (if - n <? 0 then - - n else - n) = n) by (destruct (- n <? 0) eqn:?; lia).
  rewrite E. clear E. unfold MaxTick. replace (n <=? 887272) with true by lia. cbn [invariant bind].
  rewrite fold_R. replace (0 <? - n) with false by lia.
  pose proof (R_bounds n Hn). apply finish. lia.
Qed.
Lemma ratio_pos n : 0 < n <= 887272 -> getSqrtRatioAtTick n = Ok (ceil32 (G n)).
Proof.
  intros Hn. unfold getSqrtRatioAtTick. replace (n <? 0) with false by lia.
  unfold MaxTick. replace (n <=? 887272) with true by lia. cbn [invariant bind].
  rewrite fold_R. replace (0 <? n) with true by lia.
  pose proof (R_bounds n ltac:(lia)) as B. pose proof (G_bounds n ltac:(lia)).
  assert (E : udiv MaxUint256 (R n) = G n).
  { unfold udiv, G. replace (R n =? 0) with false by lia. change MaxUint256 with (T256 - 1). reflexivity. }
  rewrite E. apply finish. lia.
Qed.
Lemma ratio_zero : ceil32 (R 0) = ceil32 (G 0). Proof. vm_compute. reflexivity. Qed.

(** the ratio of a tick, as a total function *)
Definition rat (t : Z) : Z := if t <=? 0 then ceil32 (R (- t)) else ceil32 (G t).
Lemma rat_ok t : MinTick <= t <= MaxTick -> GetSqrtRatioAtTick t = Ok (rat t).
Proof.
  unfold MinTick, MaxTick. intros Ht. unfold GetSqrtRatioAtTick, ticks, TotalTicks, MinTick, MaxTick.
  replace ((0 <=? t + 887272) && (t + 887272 <? 887272 - -887272 + 1)) with true by lia.
  replace (t + 887272 + -887272) with t by lia. unfold rat. destruct (t <=? 0) eqn:E.
  - replace t with (- - t) at 1 by lia. apply ratio_nonpos. lia.
  - apply ratio_pos. lia.
Qed.
Lemma rat_panics t : ~ (MinTick <= t <= MaxTick) -> GetSqrtRatioAtTick t = Panic.
Proof.
  unfold MinTick, MaxTick. intros Ht. unfold GetSqrtRatioAtTick, ticks, TotalTicks, MinTick, MaxTick.
  replace ((0 <=? t + 887272) && (t + 887272 <? 887272 - -887272 + 1)) with false by lia. reflexivity.
Qed.

(** * Strict monotonicity *)
Lemma ceil32_lt a b : a + 2 ^ 32 <= b -> ceil32 a < ceil32 b.
Proof.
  intros H. unfold ceil32.
  assert ((a + (2 ^ 32 - 1) + 1 * 2 ^ 32) / 2 ^ 32 <= (b + (2 ^ 32 - 1)) / 2 ^ 32) by (apply Z.div_le_mono; lia).
  rewrite Z.div_add in H0 by lia. lia.
Qed.
Lemma R_gap n : 0 <= n < 887272 -> R (n + 1) + 2 ^ 32 <= R n /\ R n <= 100000 * (R n - R (n + 1)).
Proof. intros Hn. pose proof (R_step n Hn). pose proof (R_bounds n ltac:(lia)). lia. Qed.
Lemma G_gap n : 0 <= n < 887272 -> G n + 2 ^ 32 <= G (n + 1).
Proof.
  intros Hn. pose proof (R_gap n Hn) as [_ H]. pose proof (R_bounds n ltac:(lia)) as B.
  pose proof (R_bounds (n + 1) ltac:(lia)) as B1. pose proof (G_bounds n ltac:(lia)) as BG.
  unfold G at 2. apply Z.div_le_lower_bound; [lia|].
  assert (D : R n * G n <= T256 - 1) by (apply Z.mul_div_le; lia).
  set (g := G n) in *. set (r := R n) in *. set (s := R (n + 1)) in *. clearbody g r s.
  assert ((2 ^ 128 - 1) * (r - s) <= g * (r - s)) by (apply Z.mul_le_mono_nonneg_r; lia).
  assert (s * 2 ^ 32 <= r * 2 ^ 32) by (apply Z.mul_le_mono_nonneg_r; lia). lia.
Qed.
Lemma rat_step t : MinTick <= t < MaxTick -> rat t < rat (t + 1).
Proof.
  unfold MinTick, MaxTick. intros Ht. unfold rat. destruct (t + 1 <=? 0) eqn:E.
  - replace (t <=? 0) with true by lia. apply ceil32_lt.
    pose proof (R_gap (- (t + 1)) ltac:(lia)) as [H _]. replace (- (t + 1) + 1) with (- t) in H by lia. lia.
  - assert (Es : (if t <=? 0 then ceil32 (R (- t)) else ceil32 (G t)) = ceil32 (G t)).
    { destruct (t <=? 0) eqn:F; [|reflexivity]. replace t with 0 by lia. apply ratio_zero. }
    rewrite Es. apply ceil32_lt. apply G_gap. lia.
Qed.
Lemma rat_lt t u : MinTick <= t -> t < u -> u <= MaxTick -> rat t < rat u.
Proof.
  intros H1 H2 H3. replace u with (t + 1 + Z.of_nat (Z.to_nat (u - t - 1))) in * by lia.
  induction (Z.to_nat (u - t - 1)) as [|k IH].
  - cbn [Z.of_nat]. rewrite Z.add_0_r. apply rat_step. lia.
  - specialize (IH ltac:(lia) ltac:(lia)).
    pose proof (rat_step (t + 1 + Z.of_nat k) ltac:(lia)) as S.
    replace (t + 1 + Z.of_nat k + 1) with (t + 1 + Z.of_nat (Datatypes.S k)) in S by lia. lia.
Qed.
Lemma rat_le t u : MinTick <= t -> t <= u -> u <= MaxTick -> rat t <= rat u.
Proof. intros. destruct (Z.eq_dec t u) as [->|]; [lia|]. apply Z.lt_le_incl, rat_lt; lia. Qed.
Lemma rat_inj t u : MinTick <= t <= MaxTick -> MinTick <= u <= MaxTick -> rat t = rat u -> t = u.
Proof.
  intros Ht Hu E. destruct (Z.lt_trichotomy t u) as [H|[H|H]]; [|assumption|].
  - apply rat_lt in H; lia.
  - apply rat_lt in H; lia.
Qed.
Lemma rat_min : rat MinTick = MinSqrtRatio. Proof. vm_compute. reflexivity. Qed.
Lemma rat_max : rat MaxTick = MaxSqrtRatio. Proof. vm_compute. reflexivity. Qed.
Lemma rat_0 : rat 0 = 2 ^ 96. Proof. vm_compute. reflexivity. Qed.
Lemma rat_range t : MinTick <= t <= MaxTick -> MinSqrtRatio <= rat t <= MaxSqrtRatio.
Proof. intros Ht. rewrite <- rat_min, <- rat_max. split; apply rat_le; lia. Qed.

(** * The binary search *)
Lemma ticks_rat i : 0 <= i < TotalTicks -> ticks i = Ok (rat (i + MinTick)).
Proof.
  intros Hi. assert (Hr : MinTick <= i + MinTick <= MaxTick) by (unfold TotalTicks in Hi; lia).
  pose proof (rat_ok (i + MinTick) Hr) as H. unfold GetSqrtRatioAtTick in H.
  replace (i + MinTick + MaxTick) with i in H by (unfold MinTick, MaxTick; lia). exact H.
Qed.
Lemma search_ok fuel : forall price l r, 0 <= l <= r -> r < TotalTicks -> r - l < 2 ^ Z.of_nat fuel ->
  rat (l + MinTick) <= price -> (r + 1 < TotalTicks -> price < rat (r + 1 + MinTick)) ->
  exists i, searchTick (S fuel) price l r = Ok i /\ l <= i <= r /\ rat (i + MinTick) <= price /\
    (i + 1 < TotalTicks -> price < rat (i + 1 + MinTick)).
Proof.
  induction fuel as [|fuel IH]; intros price l r Hl Hr Hf Hp Hq.
  - change (2 ^ Z.of_nat 0) with 1 in Hf. assert (l = r) by lia. subst r.
    exists l. cbn [searchTick]. replace (l <? l) with false by lia. repeat split; try assumption; lia.
  - rewrite Nat2Z.inj_succ, Z.pow_succ_r in Hf by lia.
    remember (S fuel) as f. cbn [searchTick]. destruct (l <? r) eqn:E.
    2:{ assert (l = r) by lia. subst r. exists l. repeat split; try assumption; lia. }
    rewrite Z.quot_div_nonneg by lia.
    pose proof (Z.div_mod (l + r + 1) 2 ltac:(lia)) as D. pose proof (Z.mod_pos_bound (l + r + 1) 2 ltac:(lia)) as M.
    set (mid := (l + r + 1) / 2) in *. clearbody mid. rewrite ticks_rat by lia. cbn [bind].
    destruct (price <? rat (mid + MinTick)) eqn:C.
    + subst f. destruct (IH price l (mid - 1)) as (i & -> & Hi & H1 & H2); try lia.
      * intros _. replace (mid - 1 + 1 + MinTick) with (mid + MinTick) by lia. lia.
      * exists i. repeat split; try assumption; lia.
    + subst f. destruct (IH price mid r) as (i & -> & Hi & H1 & H2); try lia; try assumption.
      exists i. repeat split; try assumption; lia.
Qed.
Lemma tick_ok fuel price : (tickFuel <= fuel)%nat -> MinSqrtRatio <= price < MaxSqrtRatio ->
  exists t, GetTickAtSqrtRatioF fuel price = Ok t /\ MinTick <= t < MaxTick /\ rat t <= price < rat (t + 1).
Proof.
  intros Hf Hp. unfold GetTickAtSqrtRatioF.
  replace ((MinSqrtRatio <=? price) && (price <? MaxSqrtRatio)) with true by lia. cbn [invariant bind].
  destruct fuel as [|fuel]; [unfold tickFuel in Hf; lia|].
  assert (Hb : TotalTicks - 1 - 0 < 2 ^ Z.of_nat fuel).
  { apply Z.lt_le_trans with (2 ^ 21); [reflexivity|]. apply Z.pow_le_mono_r; [lia|]. unfold tickFuel in Hf. lia. }
  destruct (search_ok fuel price 0 (TotalTicks - 1)) as (i & -> & Hi & H1 & H2); try assumption; try lia.
  - unfold TotalTicks, MaxTick, MinTick. lia.
  - rewrite Z.add_0_l, rat_min. lia.
  - cbn [bind]. assert (i + 1 < TotalTicks).
    { destruct (Z.eq_dec i (TotalTicks - 1)) as [->|]; [|lia].
      replace (TotalTicks - 1 + MinTick) with MaxTick in H1 by (unfold TotalTicks, MaxTick, MinTick; lia).
      rewrite rat_max in H1. lia. }
    exists (i + MinTick). specialize (H2 H). replace (i + 1 + MinTick) with (i + MinTick + 1) in H2 by lia.
    split; [reflexivity|]. unfold TotalTicks in H. lia.
Qed.
Lemma tick_panics fuel price : ~ (MinSqrtRatio <= price < MaxSqrtRatio) -> GetTickAtSqrtRatioF fuel price = Panic.
Proof.
  intros H. unfold GetTickAtSqrtRatioF.
  replace ((MinSqrtRatio <=? price) && (price <? MaxSqrtRatio)) with false by lia. reflexivity.
Qed.
Lemma tick_unique p t u : MinTick <= t < MaxTick -> MinTick <= u < MaxTick ->
  rat t <= p < rat (t + 1) -> rat u <= p < rat (u + 1) -> t = u.
Proof.
  intros Ht Hu H1 H2. destruct (Z.lt_trichotomy t u) as [H|[H|H]]; [|assumption|].
  - pose proof (rat_le (t + 1) u ltac:(lia) ltac:(lia) ltac:(lia)). lia.
  - pose proof (rat_le (u + 1) t ltac:(lia) ltac:(lia) ltac:(lia)). lia.
Qed.
Lemma tick_of_rat t : MinTick <= t < MaxTick -> GetTickAtSqrtRatio (rat t) = Ok t.
Proof.
  intros Ht. pose proof (rat_step t ltac:(lia)) as S.
  pose proof (rat_le MinTick t ltac:(lia) ltac:(lia) ltac:(lia)) as A. rewrite rat_min in A.
  pose proof (rat_lt t MaxTick ltac:(lia) ltac:(lia) ltac:(lia)) as B. rewrite rat_max in B.
  destruct (tick_ok tickFuel (rat t) (le_n _) ltac:(lia)) as (u & E & Hu & Hr).
  unfold GetTickAtSqrtRatio. rewrite E. f_equal. symmetry. apply (tick_unique (rat t)); lia.
Qed.

(** * MostSignificantBit *)
Lemma msb_step x m p : 0 < x < 2 ^ (2 * p) -> 0 < p ->
  let '(x', m') := (if 2 ^ p <=? x then (ursh x p, m + p) else (x, m)) in
  0 < x' < 2 ^ p /\ m' + Z.log2 x' = m + Z.log2 x.
Proof.
  intros Hx Hp. replace (2 * p) with (p + p) in Hx by lia. rewrite Z.pow_add_r in Hx by lia.
  pose proof (Z.pow_pos_nonneg 2 p ltac:(lia) ltac:(lia)) as P.
  destruct (2 ^ p <=? x) eqn:E; [|lia]. unfold ursh. split.
  - split; [apply Z.div_str_pos; lia|]. apply Z.div_lt_upper_bound; lia.
  - rewrite <- Z.shiftr_div_pow2, Z.log2_shiftr by lia.
    assert (p <= Z.log2 x) by (rewrite <- (Z.log2_pow2 p) by lia; apply Z.log2_le_mono; lia). lia.
Qed.
Lemma msb_log2 x : 0 < x < T256 -> MostSignificantBit x = Z.log2 x.
Proof.
  intros Hx. unfold MostSignificantBit. cbn [fold_left].
  assert (H0 : 0 < x < 2 ^ (2 * 128) /\ 0 + Z.log2 x = Z.log2 x) by (split; [exact Hx|reflexivity]).
  assert (St : forall xm p q, q = 2 * p -> 0 < p -> 0 < fst xm < 2 ^ q /\ snd xm + Z.log2 (fst xm) = Z.log2 x ->
    let xm' := (let '(y, msb) := (xm : Z * Z) in if 2 ^ p <=? y then (ursh y p, msb + p) else (y, msb)) in
    0 < fst xm' < 2 ^ p /\ snd xm' + Z.log2 (fst xm') = Z.log2 x).
  { intros [y m] p q -> Hp [H1 H2]. cbn [fst snd] in *. pose proof (msb_step y m p H1 Hp) as S.
    destruct (2 ^ p <=? y); cbn [fst snd] in *; lia. }
  pose proof (St (x, 0) 128 256 eq_refl eq_refl H0) as H1. cbv zeta in H1.
  match type of H1 with 0 < fst ?a < _ /\ _ => set (x1 := a) in * end. clearbody x1.
  pose proof (St x1 64 128 eq_refl eq_refl H1) as H2. cbv zeta in H2.
  match type of H2 with 0 < fst ?a < _ /\ _ => set (x2 := a) in * end. clearbody x2.
  pose proof (St x2 32 64 eq_refl eq_refl H2) as H3. cbv zeta in H3.
  match type of H3 with 0 < fst ?a < _ /\ _ => set (x3 := a) in * end. clearbody x3.
  pose proof (St x3 16 32 eq_refl eq_refl H3) as H4. cbv zeta in H4.
  match type of H4 with 0 < fst ?a < _ /\ _ => set (x4 := a) in * end. clearbody x4.
  pose proof (St x4 8 16 eq_refl eq_refl H4) as H5. cbv zeta in H5.
  match type of H5 with 0 < fst ?a < _ /\ _ => set (x5 := a) in * end. clearbody x5.
  pose proof (St x5 4 8 eq_refl eq_refl H5) as H6. cbv zeta in H6.
  match type of H6 with 0 < fst ?a < _ /\ _ => set (x6 := a) in * end. clearbody x6.
  pose proof (St x6 2 4 eq_refl eq_refl H6) as H7. cbv zeta in H7.
  match type of H7 with 0 < fst ?a < _ /\ _ => set (x7 := a) in * end. clearbody x7.
  pose proof (St x7 1 2 eq_refl eq_refl H7) as H8. cbv zeta in H8.
  match type of H8 with 0 < fst ?a < _ /\ _ => set (x8 := a) in * end. clearbody x8.
  destruct H8 as [A B]. change (2 ^ 1) with 2 in A. replace (fst x8) with 1 in B by lia.
  change (Z.log2 1) with 0 in B. lia.
Qed.
Lemma msb_bracket x : 0 < x < 2 ^ 256 -> 2 ^ MostSignificantBit x <= x < 2 ^ (MostSignificantBit x + 1).
Proof. intros Hx. rewrite msb_log2 by exact Hx. apply Z.log2_spec. lia. Qed.
Lemma msb_zero : MostSignificantBit 0 = 0. Proof. reflexivity. Qed.
