(** PoolSlip.v -- what a swap pays out is at least what it takes, less the fee, is worth at the price it ends at, up to the
    rounding of its rounds. *)
From Coq Require Import ZifyBool String.
From Verif Require Import Base U256Z FullMathFacts SwapMath SwapMathFacts SwapStep TickMath TickMathFacts TickData TickDataFacts TickSearch Ledger Pool PoolTable PoolInv PoolSwap PoolLoop PoolHist PoolOps PoolSpec PoolLimit PoolMono PoolQuote.
Ltac Zify.zify_post_hook ::= idtac.
Open Scope Z_scope.

(** [y] paid out for [x], fee included, is no less than the price [c] allows, after taking [2k] from the payment, giving
    [k] to the output and leaving [u] of liquidity one unit of the price *)
Definition beyond (z : bool) (f c k u x y : Z) : Prop :=
  if z then (x * (MaxFee - f) - 2 * k * MaxFee) * ((c - 1) * (c - 1)) <= MaxFee * ((y + k) * (Q96 * Q96) + u * Q96)
  else (x * (MaxFee - f) - 2 * k * MaxFee) * (Q96 * Q96) <= MaxFee * ((y + k) * (c * c) + u * Q96).

Lemma beyond_add z f c k u x y k' u' x' y' : beyond z f c k u x y -> beyond z f c k' u' x' y' -> beyond z f c (k + k') (u + u') (x + x') (y + y').
Proof. unfold beyond. set (a := (c - 1) * (c - 1)). set (b := c * c). set (q := Q96 * Q96). clearbody a b q. destruct z; unfold MaxFee; lia. Qed.
Lemma beyond_more z f c k u k' u' x y : k <= k' -> u <= u' -> beyond z f c k u x y -> beyond z f c k' u' x y.
Proof.
  unfold beyond. intros Hk Hu. pose proof (Z.square_nonneg (c - 1)) as HA. pose proof (Z.square_nonneg c) as HB. set (a := (c - 1) * (c - 1)) in *. set (b := c * c) in *. clearbody a b.
  assert (k * a <= k' * a) by (apply Z.mul_le_mono_nonneg_r; lia). assert (k * b <= k' * b) by (apply Z.mul_le_mono_nonneg_r; lia). destruct z; unfold MaxFee, Q96; lia.
Qed.
Lemma beyond_nil z f c : beyond z f c 0 0 0 0.
Proof. unfold beyond. destruct z; lia. Qed.

(** a round in which [j] of the input is worth the output and [u] more *)
Lemma beyond_round (z : bool) f c u x y j P r : 0 < c -> 0 < P -> 0 <= y -> 0 <= u -> farther z P r -> farther z r c -> x * (MaxFee - f) - 2 * MaxFee <= j * MaxFee ->
  (0 <= j -> if z then j * ((r - 1) * P) <= (y + 1) * (Q96 * Q96) + u * Q96 else j * (Q96 * Q96) <= (y + 1) * (P * r) + u * Q96) -> beyond z f c 1 u x y.
Proof.
  unfold beyond, farther. intros Hc HP Hy Hu HF1 HF2 HJ H. set (v := x * (MaxFee - f) - 2 * MaxFee) in *. replace (x * (MaxFee - f) - 2 * 1 * MaxFee) with v by (unfold v; ring). clearbody v.
  destruct (Z_le_dec v 0) as [V|V].
  - destruct z.
    + assert (v * ((c - 1) * (c - 1)) <= 0) by (apply Z.mul_nonpos_nonneg; [assumption|apply Z.square_nonneg]). unfold MaxFee, Q96 in *. lia.
    + pose proof (Z.square_nonneg c). assert (0 <= (y + 1) * (c * c)) by (apply Z.mul_nonneg_nonneg; lia). unfold MaxFee, Q96 in *. lia.
  - assert (0 <= j) as J by (unfold MaxFee in *; lia). specialize (H J). destruct z.
    + assert (j * ((c - 1) * (c - 1)) <= j * ((r - 1) * P)) as K by (apply Z.mul_le_mono_nonneg_l; [lia|]; apply Z.mul_le_mono_nonneg; lia).
      pose proof (Z.square_nonneg (c - 1)) as A. set (a := (c - 1) * (c - 1)) in *. clearbody a. set (b := j * ((r - 1) * P)) in *. clearbody b.
      assert (v * a <= j * MaxFee * a) by (apply Z.mul_le_mono_nonneg_r; lia). unfold MaxFee in *. lia.
    + assert ((y + 1) * (P * r) <= (y + 1) * (c * c)) as K by (apply Z.mul_le_mono_nonneg_l; [lia|]; apply Z.mul_le_mono_nonneg; lia).
      set (b := (y + 1) * (P * r)) in *. set (d := (y + 1) * (c * c)) in *. clearbody b d. unfold MaxFee, Q96 in *. lia.
Qed.

(** a step that ends at the price [r] and takes the least fee *)
Lemma whole_beyond (z : bool) f l P r c i o e : 0 < c -> 0 < P -> 0 <= l -> 0 <= o -> 0 <= f < MaxFee -> farther z P r -> farther z r c ->
  in_ceil z l P r i -> out_floor z l P r o -> e * (MaxFee - f) < i * f + (MaxFee - f) -> beyond z f c 1 0 (i + e) o.
Proof.
  intros Hc HP Hl Ho Hf HF1 HF2 Hi Hoo He. apply (beyond_round z f c 0 (i + e) o (i - 1) P r); try assumption; [lia|lia|]. intros J. unfold in_ceil, out_floor, ceil0, ceil1, floor0, floor1, farther in *. destruct z.
  - assert ((i - 1) * ((r - 1) * P) <= (i - 1) * (r * P)) by (apply Z.mul_le_mono_nonneg_l; [lia|]; apply Z.mul_le_mono_nonneg_r; lia).
    assert (l * (P - r) * Q96 <= (o + 1) * Q96 * Q96) by (apply Z.mul_le_mono_nonneg_r; [discriminate|lia]). lia.
  - assert ((i * Q96) * Q96 <= (l * (r - P) + Q96) * Q96) by (apply Z.mul_le_mono_nonneg_r; [discriminate|lia]). lia.
Qed.
(** an output that falls short of the step by less than a unit of the price *)
Lemma short_beyond (z : bool) f l P r c i o e : 0 < c -> 0 < P -> 0 <= l -> 0 <= o -> 0 <= f < MaxFee -> farther z P r -> farther z r c ->
  in_ceil z l P r i -> (if z then l * (P - r) <= o * Q96 + l else l * Q96 * (r - 1 - P) <= o * ((r - 1) * P)) -> e * (MaxFee - f) < i * f + (MaxFee - f) -> beyond z f c 1 l (i + e) o.
Proof.
  intros Hc HP Hl Ho Hf HF1 HF2 Hi Hoo He. apply (beyond_round z f c l (i + e) o (i - 1) P r); try assumption; [lia|]. intros J. unfold in_ceil, ceil0, ceil1, farther in *. destruct z.
  - assert ((i - 1) * ((r - 1) * P) <= (i - 1) * (r * P)) by (apply Z.mul_le_mono_nonneg_l; [lia|]; apply Z.mul_le_mono_nonneg_r; lia).
    assert (l * (P - r) * Q96 <= (o * Q96 + l) * Q96) by (apply Z.mul_le_mono_nonneg_r; [discriminate|lia]). unfold Q96 in *. lia.
  - assert ((i * Q96) * Q96 <= (l * (r - P) + Q96) * Q96) by (apply Z.mul_le_mono_nonneg_r; [discriminate|lia]).
    assert (o * ((r - 1) * P) <= o * (P * r)) by (apply Z.mul_le_mono_nonneg_l; [lia|]; lia). assert (0 <= P * r) by (apply Z.mul_nonneg_nonneg; lia). unfold Q96 in *. lia.
Qed.

(** ** one step, by the branch it takes *)
Lemma input_down_part P l x r : priceR P -> liqR l -> 0 < l -> 0 <= x < T255 -> GetNextSqrtPriceFromInput P l x true = Ok r ->
  0 < r <= P /\ (x - 1) * ((r - 1) * P) <= l * Q96 * (P - r) + l * Q96.
Proof.
  intros HP Hl Hl0 Hx E. apply input_down_full in E as (_ & A2 & A3 & _); try assumption. split; [assumption|].
  assert (0 < l * Q96) as Hn by (unfold Q96; lia). unfold priceR in *. set (n := l * Q96) in *. clearbody n.
  pose proof (Z.div_mod n P ltac:(lia)) as DM. pose proof (Z.mod_pos_bound n P ltac:(lia)) as MB. set (d := n / P) in *. clearbody d.
  assert ((r - 1) * (d + x) * P <= n * P) as K1 by (apply Z.mul_le_mono_nonneg_r; lia).
  assert ((r - 1) * (n - P) <= (r - 1) * (d * P)) as K2 by (apply Z.mul_le_mono_nonneg_l; lia). lia.
Qed.
Lemma input_up_part P T l x a r : priceR P -> priceR T -> P <= T -> liqR l -> 0 <= x < 2 ^ 160 -> ceil1 l P T a -> x < a -> GetNextSqrtPriceFromInput P l x false = Ok r ->
  P <= r /\ x * Q96 <= l * (r - P) + l.
Proof.
  intros HP HT HPT Hl Hx Ha Hxa E. pose proof (input_up_target P T l x a r HP HT HPT Hl ltac:(lia) Ha Hxa E) as [_ RT].
  apply input_up in E as (u & G & Hu & Hu0 & Hl0); [|assumption|assumption|lia]. rewrite Z.mod_small in Hu by (unfold Q96; lia). unfold priceR in *.
  assert (u < T256) as HU. { apply Z.nle_gt. intros C. assert (T256 * 1 <= u * l) by (apply Z.mul_le_mono_nonneg; lia). unfold Q96 in *. lia. }
  assert (r = P + u) as ->.
  { rewrite G in *. unfold uadd in *. destruct (Z_lt_le_dec (P + u) T256) as [D|D]; [apply Z.mod_small; lia|].
    assert ((P + u) mod T256 = P + u - T256) as M by (rewrite <- (Z.mod_small (P + u - T256) T256) by lia; rewrite <- (Z_mod_plus_full (P + u - T256) 1); f_equal; lia). lia. }
  lia.
Qed.
Lemma step_beyond (z : bool) P T l rem f ex st c : priceR P -> priceR T -> farther z P T -> 0 <= l < 2 ^ 128 -> 0 <= f < MaxFee -> rem <> 0 -> remOK ex rem -> fits z ex rem ->
  ComputeSwapStep P T l rem f = Ok st -> 0 < c -> farther z (stNext st) c ->
  beyond z f c 1 0 (stIn st + stFee st) (stOut st) \/ spec ex st = left ex rem /\ beyond z f c 1 l (stIn st + stFee st) (stOut st).
Proof.
  intros HP HT HW Hl Hf R0 HR HF E Hc HC. assert (liqR l) as HlR by (unfold liqR; lia). unfold remOK, fits, spec, left in *.
  destruct (Z.eq_dec T P) as [EZ|NZ].
  { (* nowhere to go *)
    left. apply (beyond_more z f c 0 0); [lia|lia|]. assert (stIn st + stFee st = 0 /\ stOut st = 0) as [-> ->]; [|apply beyond_nil]. subst T. unfold priceR in HP.
    assert (forall x, x * (MaxFee - f) < MaxFee - f -> 0 <= x -> x = 0) as KF by (intros x Kx Kx0; destruct (Z.eq_dec x 0); [assumption|]; assert (1 * (MaxFee - f) <= x * (MaxFee - f)) by (apply Z.mul_le_mono_nonneg_r; lia); lia).
    destruct ex.
    - destruct (step_exactin P P l rem f st HP HP HlR HR ltac:(lia) E) as (A1 & A2 & A3 & A4 & A5 & A6 & _ & A8 & A9 & _). cbv zeta in *. unfold toward, in_ceil, out_floor, ceil0, floor1 in *. rewrite Z.leb_refl in *.
      assert (stNext st = P) as EN by lia. rewrite EN in *. assert (stIn st * (P * P) < 1 * (P * P)) as KI by lia. apply Z.mul_lt_mono_pos_r in KI; [|apply Z.mul_pos_pos; lia]. unfold Q96 in *.
      assert (stIn st = 0) as E0 by lia. rewrite E0 in *. specialize (A9 eq_refl ltac:(lia)). rewrite (KF (stFee st)) by lia. lia.
    - destruct HR as [|HR]; [contradiction|]. destruct (step_exactout P P l rem f st HP HP HlR HR Hf E) as (A1 & A2 & A3 & A4 & A5 & A6 & _). cbv zeta in *. unfold toward, in_ceil, out_le, ceil0 in *. rewrite Z.leb_refl in *.
      assert (stNext st = P) as EN by lia. rewrite EN in *. assert (stIn st * (P * P) < 1 * (P * P)) as KI by lia. apply Z.mul_lt_mono_pos_r in KI; [|apply Z.mul_pos_pos; lia]. unfold Q96 in *.
      assert (stIn st = 0) as E0 by lia. rewrite E0 in *. rewrite (KF (stFee st)); [lia|lia|]. apply Z.nlt_ge. intros N. assert (stFee st * (MaxFee - f) < 0) by (apply Z.mul_neg_pos; lia). lia. }
  assert ((T <=? P) = z) as EZ by (unfold farther in HW; destruct z; lia). unfold priceR in HP, HT. destruct ex.
  - destruct (step_exactin P T l rem f st HP HT HlR HR ltac:(lia) E) as (A1 & A2 & A3 & A4 & A5 & A6 & A7 & A8 & A9 & A10). destruct (step_in_next P T l rem f st HP HT HlR HR ltac:(lia) E) as (a & Ha & HB). cbv zeta in *. rewrite EZ in *.
    assert (farther z P (stNext st)) as FN by (unfold toward, farther in *; rewrite EZ in A1; destruct z; lia). assert (0 < l \/ l = 0) as Hl0 by lia.
    destruct HB as [[B1 B2]|(B1 & B2 & B3)].
    + left. specialize (A9 B2 ltac:(lia)). apply (whole_beyond z f l P (stNext st)); try assumption; lia.
    + right. specialize (A10 B3). split; [assumption|]. rewrite A10.
      assert (0 < l) as Hlp by (apply (input_guard P l _ z (stNext st)) in B2; lia).
      assert (0 <= rem < 2 ^ 236) as Hr by (specialize (HF eq_refl); destruct z; lia). rewrite less_fee_eq in B1, B2 by lia.
      pose proof (Z.div_mod (rem * (MaxFee - f)) MaxFee ltac:(discriminate)) as DM. pose proof (Z.mod_pos_bound (rem * (MaxFee - f)) MaxFee ltac:(reflexivity)) as MB. assert (0 <= rem * (MaxFee - f)) as N0 by (apply Z.mul_nonneg_nonneg; lia).
      pose proof (Z.div_pos _ MaxFee N0 ltac:(reflexivity)) as X0. set (x := rem * (MaxFee - f) / MaxFee) in *. assert (x <= rem) as XR by (apply Z.div_le_upper_bound; [reflexivity|]; unfold MaxFee in *; assert (0 <= rem * f) by (apply Z.mul_nonneg_nonneg; lia); lia). clearbody x.
      apply (beyond_round z f c l rem (stOut st) (x - 1) P (stNext st)); try assumption; try lia. intros J.
      unfold in_ceil, out_floor, floor0, floor1 in *. destruct z.
      * apply input_down_part in B2 as [_ B2]; [|exact HP|assumption|assumption|lia]. assert (l * (P - stNext st) * Q96 <= (stOut st + 1) * Q96 * Q96) by (apply Z.mul_le_mono_nonneg_r; [discriminate|lia]). lia.
      * assert (x < 2 ^ 160) as HX by (specialize (HF eq_refl); lia). apply (input_up_part P T l x a) in B2 as [_ B2]; try assumption; try lia.
        assert (x * Q96 * Q96 <= (l * (stNext st - P) + l) * Q96) by (apply Z.mul_le_mono_nonneg_r; [discriminate|lia]). unfold Q96 in *. lia.
  - destruct HR as [|HR]; [contradiction|]. destruct (step_exactout P T l rem f st HP HT HlR HR Hf E) as (A1 & A2 & A3 & A4 & A5 & A6 & A7). destruct (step_out_next P T l rem f st HP HT HlR HR Hf E) as (a & Ha & HB). cbv zeta in *. rewrite EZ in *.
    assert (farther z P (stNext st)) as FN by (unfold toward, farther in *; rewrite EZ in A1; destruct z; lia).
    destruct HB as [(B1 & B2 & B3)|(B1 & B2 & B3)].
    + left. rewrite B2, <- B3 in *. apply (whole_beyond z f l P T); try assumption; lia.
    + right. replace (rem =? 0) with false by lia. split; [assumption|]. apply (short_beyond z f l P (stNext st)); try assumption; try lia.
      unfold out_floor in Ha. set (w := T256 - rem) in *. assert (0 < w) as W0 by lia. clearbody w. rewrite B3. destruct z.
      * apply (output_down_target P T l w a) in B2 as [B2 _]; try assumption; try lia.
      * apply (output_up_exact_target P T l w a) in B2 as [B4 B2]; try assumption; try lia.
Qed.

Section Slip.
Variables (h : hist) (sp : Z) (z : bool) (limit fee : Z).
Hypothesis HH : histOK sp h.
Hypothesis Hsp : 0 < sp.
Hypothesis Hfee : 0 <= fee < MaxFee.
Hypothesis Hlim : limitOK z limit.
Variable most : Z.
Hypothesis Hmost : forall t, active h t <= most.

Lemma walk_beyond ex s s1 k st c : walk h sp z limit fee ex s s1 k st -> fits z ex (sRemaining s) -> 0 < c -> farther z (sPrice s1) c ->
  beyond z fee c 1 0 (stIn st + stFee st) (stOut st) \/ sRemaining s1 = 0 /\ beyond z fee c 1 most (stIn st + stFee st) (stOut st).
Proof.
  intros W HF Hc HC. destruct (walk_bounds _ _ _ _ _ HH Hlim _ _ _ _ _ W) as (BP & BT & Bl & BR & _). rewrite (w_price _ _ _ _ _ _ _ _ _ _ W) in HC.
  destruct (step_beyond z (sPrice s) _ (sLiquidity s) (sRemaining s) fee ex st c BP BT (w_way _ _ _ _ _ _ _ _ _ _ W) Bl Hfee (w_rem _ _ _ _ _ _ _ _ _ _ W) BR HF (w_step _ _ _ _ _ _ _ _ _ _ W) Hc HC) as [K|[K1 K2]]; [left; exact K|right].
  pose proof (w_ok _ _ _ _ _ _ _ _ _ _ W) as (_ & EL & _). pose proof (Hmost (sTick s)) as HM. rewrite <- EL in HM. split; [|exact (beyond_more _ _ _ _ _ _ _ _ _ (Z.le_refl 1) HM K2)].
  pose proof (w_left _ _ _ _ _ _ _ _ _ _ W) as L. pose proof (w_ok1 _ _ _ _ _ _ _ _ _ _ W) as (_ & _ & _ & _ & R1 & _). rewrite K1 in L. unfold left, remOK in *. destruct ex; [lia|]. destruct (sRemaining s1 =? 0) eqn:?; lia.
Qed.
(** at most [n] rounds: the amounts and their bound *)
Lemma loop_beyond ex t0 other c n : forall s s', (z = true -> noMisplaced sp limit t0 /\ sTick s <= t0) -> loopOK h sp z ex limit s -> fits z ex (sRemaining s) -> swapLoop n z ex limit fee other s = Ok s' ->
  0 < c -> farther z (sPrice s') c ->
  exists x y, trail h sp z limit fee ex s s' x y /\ y <= Z.of_nat n * 2 ^ 216 /\
    exists m, 0 <= m <= Z.of_nat n /\ beyond z fee c m most (if ex then x else y) (if ex then y else x).
Proof.
  assert (0 <= most) as HM0 by (pose proof (active_range _ _ 0 HH); pose proof (Hmost 0); lia).
  induction n as [|n IH]; intros s s' HM HO HF E Hc HC; pose proof E as E0; rewrite loop_eq in E0; destruct (running limit s) eqn:R; try discriminate.
  - injection E0 as <-. exists 0, 0. split; [now apply trail_end|]. split; [lia|]. exists 0. split; [lia|]. apply (beyond_more z fee c 0 0); [lia|lia|]. destruct ex; apply beyond_nil.
  - destruct (loop_walk h sp z limit fee HH Hsp Hfee Hlim ex t0 other n s s' HM HO R E) as (s1 & k & st & W & E' & HO1 & HM1 & HB).
    destruct (walk_facts _ _ _ _ _ HH Hfee Hlim _ _ _ _ _ W) as (F1 & F2 & _).
    assert (fits z ex (sRemaining s1)) as HF1.
    { pose proof (w_left _ _ _ _ _ _ _ _ _ _ W) as L. unfold fits, left in *. intros X. specialize (HF X). rewrite X in L, F1. destruct z; lia. }
    destruct (IH s1 s' HM1 HO1 HF1 E' Hc HC) as (x & y & TR & HY & m & Hm & HBy). pose proof (trail_facts _ _ _ _ _ HH Hfee Hlim _ _ _ _ _ TR) as (_ & _ & _ & X0 & Y0 & HL & _ & HFa).
    exists (spec ex st + x), (calc ex st + y). split; [eapply trail_round; eassumption|]. split; [lia|]. exists (1 + m). split; [lia|].
    destruct (walk_beyond ex s s1 k st c W HF Hc ltac:(exact (farther_trans _ _ _ _ HFa HC))) as [K|[K1 K2]].
    + pose proof (beyond_add _ _ _ _ _ _ _ _ _ _ _ K HBy) as K2. unfold spec, calc. destruct ex; exact K2.
    + (* nothing is left *)
      inversion TR as [s0 O0 R1 |s0 s2 s3 k0 st0 a0 c0 W0 TR0]; subst; [|exfalso; exact (w_rem _ _ _ _ _ _ _ _ _ _ W0 K1)].
      rewrite !Z.add_0_r. apply (beyond_more z fee c 1 most); [lia|lia|]. unfold spec, calc. destruct ex; exact K2.
  - injection E0 as <-. exists 0, 0. split; [now apply trail_end|]. split; [lia|]. exists 0. split; [lia|]. apply (beyond_more z fee c 0 0); [lia|lia|]. destruct ex; apply beyond_nil.
Qed.
End Slip.

Theorem swap_slip h p n (z : bool) a lim most c p1 a0 a1 : reach h p -> is_u256 a -> fits z (a <? T255) a -> (z = true -> clearWay p (effectiveLimit z lim)) -> (forall t, active h t <= most) ->
  swap n p z a lim = Ok (p1, a0, a1) -> 0 < c -> farther z (SqrtRatio p1) c -> beyond z (Fee p) c (Z.of_nat n) most (paid z a0 a1) (got z a0 a1).
Proof.
  intros R Ha HF HC HM E Hc HFa. apply reach_ok in R as HP. destruct (swap_ok_inv h p z a lim HP Ha n p1 a0 a1 E) as (HS & Hsp & Hfee & s & Es & -> & EA). destruct (start_ok h p z a lim HP Ha HS) as (HO & Hl & _).
  assert (z = true -> noMisplaced (TickSpacing p) (effectiveLimit z lim) (TickCurrent p)) as NM by (intros Ez; apply (clearWay_noMisplaced h); auto).
  set (ex := a <? T255) in *. pose proof (proj1 HP) as HH.
  pose proof (loop_allRounds h (TickSpacing p) z ex (effectiveLimit z lim) (Fee p) (otherGrowth p z) HH Hsp Hfee Hl n _ s HO Es) as Es'.
  assert (exists m, Z.of_nat m <= Z.of_nat n /\ Z.of_nat m <= Z.of_nat allRounds /\ swapLoop m z ex (effectiveLimit z lim) (Fee p) (otherGrowth p z) (startState p z a) = Ok s) as (m & M1 & M2 & Em).
  { destruct (Z_le_dec (Z.of_nat n) (Z.of_nat allRounds)); [exists n|exists allRounds]; (split; [lia|]; split; [lia|assumption]). }
  destruct (loop_beyond h (TickSpacing p) z (effectiveLimit z lim) (Fee p) HH Hsp Hfee Hl most HM ex (TickCurrent p) (otherGrowth p z) c m (startState p z a) s) as (x & y & TR & Hy & k & Hk & HB); try assumption.
  { intros Ez. split; [now apply NM|]. cbn [startState sTick]. lia. }
  destruct (trail_facts _ _ _ _ _ HH Hfee Hl ex _ _ _ _ TR) as (_ & HOs & _ & X0 & Y0 & HL & HT & _).
  destruct (loop_counts _ _ _ _ _ _ _ _ _ _ HH Hsp Hfee Hl HO ltac:(unfold is_u256; cbn; lia) Es) as [_ Hcs].
  rewrite allRounds_Z in M2. unfold MaxTick, MinTick in M2. unfold tally in HT. cbn [startState sCalculated sRemaining] in HT, HL.
  destruct HOs as (_ & _ & _ & _ & HRs & _).
  destruct (amounts_of z ex a s y a0 a1 eq_refl Ha (proj1 HS) HRs Hcs ltac:(lia) ltac:(lia) HT EA) as [A1 A2]. rewrite A1, A2.
  apply (beyond_more z (Fee p) c k most); [lia|lia|]. replace (left ex a - left ex (sRemaining s)) with x by lia. exact HB.
Qed.
