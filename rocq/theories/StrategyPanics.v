(** StrategyPanics.v -- when the strategies' own computations panic: the liquidity of a range, flat bands, and
    histories without prices. *)
From Coq Require Import String ZifyBool.
From Verif Require Import Base U256Z FullMathFacts SwapMath SwapMathFacts TickMath TickMathFacts Float64 TickData Ledger Pool PoolOps PoolInv PoolSwap PoolReturns PoolSpec Prices Client Strategy Executor.
Ltac Zify.zify_post_hook ::= idtac.
Open Scope Z_scope.

(** a division by MulDiv returns on word lengths alone; the quotient may be cut off *)
Lemma MulDiv_words a b d : 0 <= a < T256 -> 0 <= b < T256 -> 0 < d -> words d <= words (a * b) + 1 -> words (a * b) <= words d + 4 -> exists r, MulDiv a b d = Ok r.
Proof.
  intros Ha Hb Hd H1 H2. unfold MulDiv. destruct ((a =? 0) || (b =? 0)) eqn:E; [eauto|].
  assert (0 < a * b) by (apply Z.mul_pos_pos; lia). pose proof (prod_lt8 a b Ha Hb).
  assert (words (a * b) <= 8) by (apply words_spec; lia).
  replace (udivrem5_ok (a * b) d) with true; [eauto|]. unfold udivrem5_ok. lia.
Qed.
Lemma words_ge v k : 0 < v -> 0 <= k -> W ^ k <= v -> k < words v.
Proof. intros Hv Hk H. destruct (Z_lt_le_dec k (words v)) as [|C]; [assumption|]. apply words_spec in C; lia. Qed.
Lemma words_le v k : 0 <= v -> 0 <= k -> v < W ^ k -> words v <= k.
Proof. intros. now apply words_spec. Qed.

(** ** the liquidity of a range *)
Lemma liq0_returns x y m : 2 ^ 32 <= x -> x < y < 2 ^ 160 -> 0 <= m < 2 ^ 128 -> x < 2 ^ 128 \/ 2 ^ 64 <= y - x ->
  exists r, getLiquidityForAmount0 x y m = Ok r.
Proof.
  intros Hx Hy Hm Hc. unfold getLiquidityForAmount0. rewrite ordered_le by lia. rewrite usub_small by lia.
  assert (2 ^ 32 * 2 ^ 32 <= x * y) as P0 by (apply Z.mul_le_mono_nonneg; lia).
  assert (x * y < 2 ^ 160 * 2 ^ 160) as P1 by (apply Z.mul_lt_mono_nonneg; lia).
  destruct (MulDiv_returns x y Q96) as (i & Ei); [lia|lia|unfold Q96; lia|unfold Q96; lia|right; left; unfold Q96; lia|].
  rewrite Ei. cbn [bind]. apply MulDiv_floor in Ei as (Ei & Hi & Hi2); [|unfold Q96; lia..].
  destruct (Z.eq_dec m 0) as [->|Nm]; [eexists; reflexivity|]. destruct (Z.eq_dec i 0) as [->|Ni]; [unfold MulDiv; change (0 =? 0) with true; rewrite (orb_true_r (m =? 0)); eauto|].
  assert (1 * 1 <= m * i) as M0 by (apply Z.mul_le_mono_nonneg; lia).
  assert (0 < words (m * i)) as W0 by (apply words_ge; lia).
  assert (0 < words (y - x)) as W1 by (apply words_ge; lia).
  apply MulDiv_words; [lia|lia|lia| |].
  - destruct (Z_lt_le_dec (y - x) (2 ^ 128)) as [C|C].
    + assert (words (y - x) <= 2) by (apply words_le; lia). lia.
    + assert (words (y - x) <= 3) by (apply words_le; lia).
      assert (2 ^ 32 * 2 ^ 128 <= x * y) by (apply Z.mul_le_mono_nonneg; lia).
      assert (2 ^ 64 <= i) by (unfold Q96 in Hi; lia).
      assert (1 * 2 ^ 64 <= m * i) by (apply Z.mul_le_mono_nonneg; lia).
      assert (1 < words (m * i)) by (apply words_ge; lia). lia.
  - destruct Hc as [Hc|Hc].
    + assert (x * y < 2 ^ 128 * 2 ^ 160) by (apply Z.mul_lt_mono_nonneg; lia). assert (i < 2 ^ 192) by (unfold Q96 in Hi; lia).
      assert (m * i < 2 ^ 128 * 2 ^ 192) by (apply Z.mul_lt_mono_nonneg; lia).
      assert (words (m * i) <= 5) by (apply words_le; lia). lia.
    + assert (i < 2 ^ 224) by (unfold Q96 in Hi; lia).
      assert (m * i < 2 ^ 128 * 2 ^ 224) by (apply Z.mul_lt_mono_nonneg; lia).
      assert (words (m * i) <= 6) by (apply words_le; lia). assert (1 < words (y - x)) by (apply words_ge; lia). lia.
Qed.
Lemma liq1_returns x y m : 0 <= x -> x < y < 2 ^ 160 -> 0 <= m < 2 ^ 128 -> exists r, getLiquidityForAmount1 x y m = Ok r.
Proof.
  intros Hx Hy Hm. unfold getLiquidityForAmount1. rewrite ordered_le by lia. rewrite usub_small by lia.
  destruct (Z.eq_dec m 0) as [->|Nm]; [eexists; reflexivity|].
  assert (2 ^ 96 <= m * Q96) by (unfold Q96; lia). assert (m * Q96 < 2 ^ 224) by (unfold Q96; lia).
  assert (0 < words (y - x)) by (apply words_ge; lia). assert (words (y - x) <= 3) by (apply words_le; lia).
  assert (1 < words (m * Q96)) by (apply words_ge; lia). assert (words (m * Q96) <= 4) by (apply words_le; lia).
  apply MulDiv_words; unfold Q96 in *; lia.
Qed.
Lemma rat_apart l u : MinTick <= l < u -> u <= MaxTick -> rat l < 2 ^ 128 \/ 2 ^ 64 <= rat u - rat l.
Proof.
  intros Hl Hu. destruct (Z_lt_le_dec (rat l) (2 ^ 128)) as [|C]; [now left|right].
  assert (0 <= l). { apply rat_le_inv; [unfold MinTick, MaxTick; lia|lia|]. rewrite rat_0. lia. }
  pose proof (rat_gap l ltac:(lia)) as G. pose proof (rat_le (l + 1) u ltac:(lia) ltac:(lia) ltac:(lia)). pose proof (rat_lt l (l + 1) ltac:(lia) ltac:(lia) ltac:(lia)). lia.
Qed.
Lemma liquidity_ordered P l u m0 m1 : MinSqrtRatio <= P < 2 ^ 128 -> MinTick <= l < u -> u <= MaxTick -> 0 <= m0 < 2 ^ 128 -> 0 <= m1 < 2 ^ 128 ->
  exists x, GetLiquidityForAmount P (rat l) (rat u) m0 m1 = Ok x.
Proof.
  intros HP Hl Hu H0 H1. pose proof (rat_lt l u ltac:(lia) ltac:(lia) Hu) as Hr. pose proof (rat_range l ltac:(lia)) as Rl. pose proof (rat_range u ltac:(lia)) as Ru.
  unfold MinSqrtRatio, MaxSqrtRatio in *. unfold GetLiquidityForAmount. rewrite ordered_le by lia.
  destruct (P <=? rat l) eqn:C1; [|destruct (P <? rat u) eqn:C2].
  - apply liq0_returns; try lia. now apply rat_apart.
  - destruct (liq0_returns P (rat u) m0) as (x & ->); try lia. cbn [bind]. destruct (liq1_returns (rat l) P m1) as (y & ->); try lia. cbn [bind]. eauto.
  - apply liq1_returns; lia.
Qed.
Lemma liquidity_swap P a b m0 m1 : GetLiquidityForAmount P a b m0 m1 = GetLiquidityForAmount P b a m0 m1.
Proof.
  unfold GetLiquidityForAmount. replace (ordered b a) with (ordered a b); [reflexivity|]. unfold ordered.
  destruct (b <? a) eqn:E1, (a <? b) eqn:E2; try reflexivity; [lia|]. f_equal; lia.
Qed.
Lemma liquidity_flat P a m0 m1 : 2 ^ 32 <= a < 2 ^ 160 ->
  GetLiquidityForAmount P a a m0 m1 = if (P <=? a) && ((m0 =? 0) || (a <? 2 ^ 48)) || (a <? P) && (m1 =? 0) then Ok 0 else Panic.
Proof.
  intros Ha. unfold GetLiquidityForAmount. rewrite ordered_le by lia. destruct (P <=? a) eqn:C1.
  - replace (a <? P) with false by lia. cbn [andb orb]. rewrite orb_false_r. unfold getLiquidityForAmount0. rewrite ordered_le by lia. rewrite usub_small by lia. replace (a - a) with 0 by lia.
    assert (2 ^ 32 * 2 ^ 32 <= a * a) as P0 by (apply Z.mul_le_mono_nonneg; lia).
    assert (a * a < 2 ^ 160 * 2 ^ 160) as P1 by (apply Z.mul_lt_mono_nonneg; lia).
    destruct (MulDiv_returns a a Q96) as (i & Ei); [lia|lia|unfold Q96; lia|unfold Q96; lia|right; left; unfold Q96; lia|].
    rewrite Ei. cbn [bind]. apply MulDiv_floor in Ei as (_ & Hi & Hi2); [|unfold Q96; lia..].
    assert ((i =? 0) = (a <? 2 ^ 48)) as E.
    { destruct (a <? 2 ^ 48) eqn:C.
      - assert (a * a < 2 ^ 48 * 2 ^ 48) by (apply Z.mul_lt_mono_nonneg; lia). unfold Q96 in Hi. lia.
      - assert (2 ^ 48 * 2 ^ 48 <= a * a) by (apply Z.mul_le_mono_nonneg; lia). unfold Q96 in Hi. lia. }
    unfold MulDiv. rewrite E. destruct ((m0 =? 0) || (a <? 2 ^ 48)); reflexivity.
  - replace (P <? a) with false by lia. replace (a <? P) with true by lia. cbn [andb orb]. unfold getLiquidityForAmount1. rewrite ordered_le by lia. rewrite usub_small by lia. replace (a - a) with 0 by lia.
    unfold MulDiv. change (Q96 =? 0) with false. rewrite orb_false_r. destruct (m1 =? 0); reflexivity.
Qed.

Definition inRange (t : Z) : Prop := -887272 <= t <= 887272.
Lemma run_look_liquidity fuel p s l u : inRange l -> inRange u ->
  runV fuel p (liquidityFor s l u) = do x <- GetLiquidityForAmount (SqrtRatio p) (rat l) (rat u) (sAmount0 s) (sAmount1 s); Ok (p, [], x).
Proof. intros Hl Hu. unfold liquidityFor, pure, look, done. rewrite !rat_ok by (unfold inRange, MinTick, MaxTick in *; lia). reflexivity. Qed.
Lemma run_liquidity_out fuel p s l u : ~ (inRange l /\ inRange u) -> runV fuel p (liquidityFor s l u) = Panic.
Proof.
  intros N. unfold liquidityFor, pure, look, done. destruct (GetSqrtRatioAtTick l) as [a| |] eqn:El.
  - destruct (Z_le_dec (-887272) l), (Z_le_dec l 887272); try (rewrite rat_panics in El by (unfold MinTick, MaxTick; lia); discriminate).
    cbn [mbind]. rewrite rat_panics by (unfold inRange, MinTick, MaxTick in *; lia). reflexivity.
  - reflexivity.
  - destruct (Z_le_dec (-887272) l), (Z_le_dec l 887272); try (rewrite rat_panics in El by (unfold MinTick, MaxTick; lia); discriminate).
    rewrite rat_ok in El by (unfold MinTick, MaxTick; lia). discriminate.
Qed.
(** the balance that buys liquidity in a range around one price *)
Lemma liquidity_panics fuel p s l u : MinSqrtRatio <= SqrtRatio p < 2 ^ 128 -> 0 <= sAmount0 s < 2 ^ 128 -> 0 <= sAmount1 s < 2 ^ 128 ->
  runV fuel p (liquidityFor s l u) <> OutOfFuel /\
  (runV fuel p (liquidityFor s l u) = Panic <->
    ~ (inRange l /\ inRange u) \/ l = u /\ exists r, GetSqrtRatioAtTick l = Ok r /\ if SqrtRatio p <=? r then sAmount0 s <> 0 /\ 2 ^ 48 <= r else sAmount1 s <> 0).
Proof.
  intros HP H0 H1.
  destruct (Z_le_dec (-887272) l), (Z_le_dec l 887272), (Z_le_dec (-887272) u), (Z_le_dec u 887272);
    try (rewrite run_liquidity_out by (unfold inRange; lia); split; [discriminate|]; split; [intros _; left; unfold inRange; lia|reflexivity]).
  assert (inRange l) as Hl by (unfold inRange; lia). assert (inRange u) as Hu by (unfold inRange; lia). rewrite run_look_liquidity by assumption.
  assert (l <> u -> exists x, GetLiquidityForAmount (SqrtRatio p) (rat l) (rat u) (sAmount0 s) (sAmount1 s) = Ok x) as K.
  { intros N. destruct (Z_lt_le_dec l u); [apply liquidity_ordered; unfold MinTick, MaxTick; lia|]. rewrite liquidity_swap. apply liquidity_ordered; unfold MinTick, MaxTick; lia. }
  destruct (Z.eq_dec l u) as [<-|N].
  - pose proof (rat_range l ltac:(unfold MinTick, MaxTick; lia)) as R. unfold MinSqrtRatio, MaxSqrtRatio in *. rewrite liquidity_flat by lia.
    rewrite rat_ok by (unfold MinTick, MaxTick; lia).
    destruct (SqrtRatio p <=? rat l) eqn:C.
    + replace (rat l <? SqrtRatio p) with false by lia. cbn [andb]. rewrite orb_false_r. cbn [andb]. destruct ((sAmount0 s =? 0) || (rat l <? 2 ^ 48)) eqn:D; cbn [bind]; (split; [discriminate|]).
      * split; [discriminate|]. intros [X|(_ & r & Er & X)]; [tauto|]. injection Er as <-. rewrite C in X. lia.
      * split; [|reflexivity]. intros _. right. split; [reflexivity|]. exists (rat l). split; [reflexivity|]. rewrite C. lia.
    + replace (rat l <? SqrtRatio p) with true by lia. cbn [andb orb]. destruct (sAmount1 s =? 0) eqn:D; cbn [bind]; (split; [discriminate|]).
      * split; [discriminate|]. intros [X|(_ & r & Er & X)]; [tauto|]. injection Er as <-. rewrite C in X. lia.
      * split; [|reflexivity]. intros _. right. split; [reflexivity|]. exists (rat l). split; [reflexivity|]. rewrite C. lia.
  - destruct (K N) as (x & ->). cbn [bind]. split; [discriminate|]. split; [discriminate|]. intros [X|[X _]]; tauto.
Qed.
Lemma mintPosition_flat fuel p s t : MinSqrtRatio <= SqrtRatio p -> SqrtRatio p < 2 ^ 160 -> inRange t -> 2 ^ 48 <= rat t -> sAmount0 s <> 0 -> sAmount1 s <> 0 ->
  runV fuel p (mintPosition s t t) = Panic.
Proof.
  intros HP HP2 Ht Hr H0 H1. unfold mintPosition. rewrite runV_bind, run_look_liquidity by assumption.
  pose proof (rat_range t ltac:(unfold inRange, MinTick, MaxTick in *; lia)) as R. unfold MaxSqrtRatio in *. rewrite liquidity_flat by lia.
  replace (sAmount0 s =? 0) with false by lia. replace (sAmount1 s =? 0) with false by lia. replace (rat t <? 2 ^ 48) with false by lia. rewrite !andb_false_r. reflexivity.
Qed.

(** ** flat bands *)
Lemma band_zero P : MinSqrtRatio <= P < MaxSqrtRatio -> exists t, GetTickAtSqrtRatio P = Ok t /\ bandTicks P 0 = Ok (t, t) /\ MinTick <= t < MaxTick /\ rat t <= P < rat (t + 1).
Proof.
  intros HP. destruct (tick_ok tickFuel P (le_n _) HP) as (t & Et & Ht & Hr). exists t. split; [exact Et|]. split; [|tauto].
  unfold bandTicks, usub, uadd. unfold MinSqrtRatio, MaxSqrtRatio in *. rewrite Z.sub_0_r, Z.add_0_r, Z.mod_small by lia.
  replace ((P <? 0) || (P <? 4295128739)) with false by lia. replace ((T256 <=? P) || _) with false by lia.
  unfold GetTickAtSqrtRatio. rewrite Et. reflexivity.
Qed.
Lemma band_zero_low P : 0 <= P < MinSqrtRatio -> bandTicks P 0 = Panic.
Proof.
  intros HP. unfold bandTicks, usub, uadd. unfold MinSqrtRatio, MaxSqrtRatio in *. rewrite Z.sub_0_r, Z.add_0_r, Z.mod_small by lia.
  replace ((P <? 0) || (P <? 4295128739)) with true by lia. replace ((T256 <=? P) || _) with false by lia.
  unfold GetTickAtSqrtRatio. cbn [bind]. rewrite tick_panics; [reflexivity|unfold MinSqrtRatio; lia].
Qed.

(** a history whose [n] entries are all [v] *)
Definition still (h : Prices) (n : Z) (v : Z) : Prop := prPrices h = repeat v (Z.to_nat n) /\ prLength h = n.
Lemma sum_repeat v k : forall a, 0 <= a -> 0 <= v -> a + Z.of_nat k * v < T256 -> fold_left uadd (repeat v k) a = a + Z.of_nat k * v.
Proof.
  induction k as [|k IH]; intros a Ha Hv Hs; cbn [repeat fold_left]; [lia|].
  assert (0 <= Z.of_nat k * v) by (apply Z.mul_nonneg_nonneg; lia).
  rewrite Nat2Z.inj_succ, Z.mul_succ_l in *. unfold uadd at 2. rewrite Z.mod_small by lia. rewrite IH; lia.
Qed.
Lemma still_average h n v : still h n v -> 0 < n < W -> 0 <= v -> n * v < T256 -> Average h = v.
Proof.
  intros (E & L) Hn Hv Hs. unfold Average. rewrite E, L, (Z.mod_small n) by lia. rewrite sum_repeat by lia. unfold udiv. replace (n =? 0) with false by lia.
  cbn [Z.add]. rewrite Z2Nat.id by lia. rewrite Z.mul_comm. now apply Z.div_mul; lia.
Qed.
Lemma still_sum v k : forall a, fold_left (fun s price => s + uabs (usub price v) * uabs (usub price v)) (repeat v k) a = a.
Proof. induction k as [|k IH]; intros a; cbn [repeat fold_left]; [reflexivity|]. rewrite IH. unfold usub. rewrite Z.sub_diag. cbn. lia. Qed.
Lemma still_volatility h n v : prPrices h = repeat v (Z.to_nat n) -> prLength h = n -> n <> 1 -> 0 <= n < 2 ^ 63 -> Average h = v \/ n = 0 -> Volatility h = Ok 0.
Proof.
  intros E L N Hn HA. unfold Volatility. rewrite E, L. cbv zeta.
  assert (fold_left (fun s price => s + uabs (usub price (Average h)) * uabs (usub price (Average h))) (repeat v (Z.to_nat n)) 0 = 0) as ->.
  { destruct HA as [->| ->]; [apply still_sum|reflexivity]. }
  assert (isub n 1 = n - 1) as -> by (unfold isub, int64; rewrite Z.mod_small by lia; lia). replace (n - 1 =? 0) with false by lia.
  rewrite Z.div_0_l by lia. rewrite Z.mul_0_r. reflexivity.
Qed.
Lemma zero_width h m : Volatility h = Ok 0 -> bandWidth h m = Ok 0.
Proof. intros E. unfold bandWidth. rewrite E. reflexivity. Qed.

(** the four strategies that keep a history *)
Definition priced (k : Kind) : option (Z * bool) := match k with
  | BollingerBands m | BollingerBandsFillUp m => Some (m, false) | VolatilitySized m => Some (m, true) | _ => None end.

(** a flat band: all entries of the history equal the square of one price (Bollinger), or have no deviation (sized) *)
Lemma flat_ticks k m sized s n P fuel p : priced k = Some (m, sized) -> still (sHistory s) n (P * P) -> 1 < n <= 2 ^ 26 -> MinSqrtRatio <= P < 2 ^ 115 ->
  MinSqrtRatio <= SqrtRatio p < MaxSqrtRatio ->
  exists t, GetTickAtSqrtRatio (if sized then SqrtRatio p else P) = Ok t /\
    runV fuel p ((if sized then volatilityTicks else bollingerTicks) m s) = Ok (p, [], (t, t)) /\ MinTick <= t < MaxTick /\ rat t <= (if sized then SqrtRatio p else P) < rat (t + 1).
Proof.
  intros _ HS Hn HP HPp.
  assert (0 <= P * P < 2 ^ 115 * 2 ^ 115) as HPP by (split; [apply Z.mul_nonneg_nonneg; unfold MinSqrtRatio in *; lia|apply Z.mul_lt_mono_nonneg; unfold MinSqrtRatio in *; lia]).
  assert (n * (P * P) <= 2 ^ 26 * (P * P)) as HM by (apply Z.mul_le_mono_nonneg_r; lia).
  pose proof (still_average _ _ _ HS ltac:(lia) ltac:(lia) ltac:(lia)) as HA. destruct HS as [HS HL].
  pose proof (still_volatility _ n _ HS HL ltac:(lia) ltac:(lia) (or_introl HA)) as HV.
  assert (MinSqrtRatio <= P < MaxSqrtRatio) as HP' by (unfold MaxSqrtRatio; lia).
  destruct sized.
  - destruct (band_zero (SqrtRatio p) HPp) as (t & Et & Eb & Ht). exists t. split; [exact Et|]. split; [|exact Ht].
    unfold volatilityTicks, look, pure, done. cbn [mbind runV slot slPrice]. rewrite (zero_width _ _ HV). cbn [bind]. rewrite Eb. reflexivity.
  - destruct (band_zero P HP') as (t & Et & Eb & Ht). exists t. split; [exact Et|]. split; [|exact Ht].
    unfold bollingerTicks, pure. cbn [runV]. rewrite (zero_width _ _ HV). cbn [bind]. rewrite HA. unfold usqrt. rewrite Z.sqrt_square by (unfold MinSqrtRatio in *; lia).
    rewrite Eb. reflexivity.
Qed.
(** then there is no range to mint on *)
Lemma flat_panics (k : Kind) m sized s n P fuel p : priced k = Some (m, sized) -> still (sHistory s) n (P * P) -> 1 < n <= 2 ^ 26 -> MinSqrtRatio <= P < 2 ^ 115 ->
  2 ^ 49 <= (if sized then SqrtRatio p else P) -> MinSqrtRatio <= SqrtRatio p < MaxSqrtRatio -> sAmount0 s <> 0 -> sAmount1 s <> 0 ->
  runV fuel p (initPositions k s) = Panic /\ runV fuel p (rebalancePositions k s) = Panic.
Proof.
  intros Hk HS Hn HP HQ HPp H0 H1. destruct (flat_ticks k m sized s n P fuel p Hk HS Hn HP HPp) as (t & _ & Er & Ht & Hr).
  assert (2 ^ 48 <= rat t) as H48.
  { assert (2 ^ 48 <= rat (-665000) <= 2 ^ 49) as G by (vm_compute; split; discriminate).
    assert (-665000 < t + 1) by (apply rat_lt_inv; unfold MinTick, MaxTick in *; lia).
    pose proof (rat_le (-665000) t ltac:(unfold MinTick; lia) ltac:(lia) ltac:(lia)). lia. }
  assert (inRange t) as HI by (unfold inRange, MinTick, MaxTick in *; lia).
  assert (runV fuel p (mintPosition s t t) = Panic) as HM by (apply mintPosition_flat; unfold MaxSqrtRatio in *; try lia; assumption).
  destruct k; try discriminate; cbn [priced] in Hk; injection Hk as <- <-; cbn [initPositions rebalancePositions]; unfold mintAt, bollingerFillUp; rewrite !runV_bind, Er; cbn [bind fst snd];
    rewrite ?runV_bind, HM; split; reflexivity.
Qed.

(** ** a history without prices *)
Lemma blank_average h n : still h n 0 -> 0 <= n < W -> Average h = 0.
Proof.
  intros HS Hn. destruct (Z.eq_dec n 0) as [->|]; [|apply (still_average h n 0 HS); lia].
  destruct HS as [E L]. unfold Average. rewrite E, L. reflexivity.
Qed.
Lemma blank_panics k m s n fuel p : priced k = Some (m, false) \/ (exists w, k = IntervalAroundAverage w) -> still (sHistory s) n 0 -> 0 <= n < 2 ^ 63 ->
  runV fuel p (initPositions k s) = Panic.
Proof.
  intros Hk HS Hn. pose proof (blank_average _ _ HS ltac:(lia)) as HA. destruct Hk as [Hk|(w & ->)].
  - assert (runV fuel p (bollingerTicks m s) = Panic) as E.
    { unfold bollingerTicks, pure. cbn [runV]. rewrite HA. change (usqrt 0) with 0.
      destruct (Z.eq_dec n 1) as [->|N].
      - destruct HS as [_ L]. unfold bandWidth, Volatility. rewrite L. reflexivity.
      - destruct HS as [HS L]. rewrite (zero_width _ _ (still_volatility _ n 0 HS L N ltac:(lia) (or_introl HA))). cbn [bind]. rewrite band_zero_low by (unfold MinSqrtRatio; lia). reflexivity. }
    destruct k; try discriminate; cbn [priced] in Hk; injection Hk as <-; cbn [initPositions]; unfold mintAt; rewrite runV_bind, E; reflexivity.
  - cbn [initPositions]. unfold mintAt, averageTicks, pure. rewrite HA. reflexivity.
Qed.
Lemma blank_sized_panics m s n fuel p : still (sHistory s) n 0 -> 0 <= n < 2 ^ 63 -> 2 ^ 49 <= SqrtRatio p < MaxSqrtRatio -> sAmount0 s <> 0 -> sAmount1 s <> 0 ->
  runV fuel p (initPositions (VolatilitySized m) s) = Panic.
Proof.
  intros HS Hn HP H0 H1. pose proof (blank_average _ _ HS ltac:(lia)) as HA. destruct HS as [HS L]. cbn [initPositions]. unfold mintAt. rewrite runV_bind.
  destruct (Z.eq_dec n 1) as [->|N].
  - unfold volatilityTicks, look, pure, done. cbn [mbind runV]. unfold bandWidth, Volatility. rewrite L. reflexivity.
  - destruct (band_zero (SqrtRatio p)) as (t & _ & Eb & Ht & Hr); [unfold MinSqrtRatio; lia|].
    unfold volatilityTicks, look, pure, done. cbn [mbind runV slot slPrice]. rewrite (zero_width _ _ (still_volatility _ n 0 HS L N ltac:(lia) (or_introl HA))). cbn [bind]. rewrite Eb. cbn [bind fst snd].
    rewrite mintPosition_flat; [reflexivity|unfold MinSqrtRatio, MaxSqrtRatio in *; lia..|unfold inRange, MinTick, MaxTick in *; lia| |assumption|assumption].
    assert (2 ^ 48 <= rat (-665000) <= 2 ^ 49) as G by (vm_compute; split; discriminate).
    assert (-665000 < t + 1) by (apply rat_lt_inv; unfold MinTick, MaxTick in *; lia).
    pose proof (rat_le (-665000) t ltac:(unfold MinTick; lia) ltac:(lia) ltac:(lia)). lia.
Qed.

Lemma new_blank k a0 a1 n s : NewStrategy k a0 a1 n = Ok s -> keepsHistory k = true -> 0 <= n /\ still (sHistory s) n 0 /\ sAmount0 s = a0 /\ sAmount1 s = a1.
Proof.
  unfold NewStrategy, NewPrices. intros E Hk. rewrite Hk in E. destruct (0 <=? n) eqn:C; [|discriminate]. cbn [invariant bind] in E. injection E as <-.
  cbn [sHistory sAmount0 sAmount1]. split; [lia|]. split; [split; reflexivity|]. split; reflexivity.
Qed.
(** the strategies that keep a history cannot start at the first transaction *)
Lemma first_panics k a0 a1 n s c t txs fuel p : keepsHistory k = true -> NewStrategy k a0 a1 n = Ok s -> n < 2 ^ 63 ->
  (forall m, k = VolatilitySized m -> a0 <> 0 /\ a1 <> 0) -> 2 ^ 49 <= SqrtRatio p < MaxSqrtRatio ->
  cStart c <= txTime t <= cEnd c -> runV fuel p (Run (strategyOf k) c (t :: txs) s) = Panic.
Proof.
  intros Hk E Hn Ha HP Ht. destruct (new_blank _ _ _ _ _ E Hk) as (Hn0 & HS & E0 & E1).
  assert (runV fuel p (initPositions k s) = Panic) as HI.
  { destruct k; try discriminate.
    - eapply (blank_panics (BollingerBands multiplier)); [left; reflexivity|exact HS|lia].
    - eapply (blank_panics (BollingerBandsFillUp multiplier)); [left; reflexivity|exact HS|lia].
    - eapply (blank_panics (IntervalAroundAverage width) 0); [right; eauto|exact HS|lia].
    - destruct (Ha _ eq_refl). eapply blank_sized_panics; [exact HS|lia|assumption|congruence|congruence]. }
  unfold Run. rewrite runV_bind. cbn [runLoop]. replace (cEnd c <? txTime t) with false by lia. cbn [lStarted negb andb]. replace (cStart c <=? txTime t) with true by lia.
  unfold strategyOf at 1. cbn [doInit]. rewrite !runV_bind. unfold Init. rewrite runV_bind, HI. reflexivity.
Qed.

(** ** the two ticks of a band *)
Lemma band_panics price width : 0 <= price < T256 -> 0 <= width < T256 ->
  bandTicks price width <> OutOfFuel /\
  (bandTicks price width = Panic <-> MaxSqrtRatio <= price - width \/ price + width < MinSqrtRatio \/ price + width = MaxSqrtRatio).
Proof.
  intros HP HW. unfold bandTicks.
  assert (forall x, GetTickAtSqrtRatio x = Panic /\ ~ (MinSqrtRatio <= x < MaxSqrtRatio) \/ (exists t, GetTickAtSqrtRatio x = Ok t) /\ MinSqrtRatio <= x < MaxSqrtRatio) as K.
  { intros x. unfold GetTickAtSqrtRatio. destruct (Z_le_dec MinSqrtRatio x), (Z_lt_dec x MaxSqrtRatio);
      try (left; split; [apply tick_panics; lia|lia]). right. destruct (tick_ok tickFuel x (le_n _) ltac:(lia)) as (t & Et & _). split; [eauto|lia]. }
  unfold MinSqrtRatio, MaxSqrtRatio in *.
  assert (forall (b : bool) x (c d : Z), (if b then Ok c else GetTickAtSqrtRatio x) <> OutOfFuel) as KF by (intros b x c d; destruct b; [discriminate|]; destruct (K x) as [[-> _]|[(t & ->) _]]; discriminate).
  assert (forall (b : bool) x c, (if b then Ok c else GetTickAtSqrtRatio x) = Panic /\ b = false /\ ~ (4295128739 <= x < 1461446703485210103287273052203988822378723970342) \/
    (exists t, (if b then Ok c else GetTickAtSqrtRatio x) = Ok t) /\ (b = true \/ 4295128739 <= x < 1461446703485210103287273052203988822378723970342)) as KP.
  { intros b x c. destruct b; [right; eauto|]. destruct (K x) as [[-> H]|[(t & ->) H]]; [left|right]; eauto. }
  assert (forall c, price < width \/ usub price c = price - c \/ c <> width) as KA by (intros c; destruct (Z_lt_dec price width); [now left|]; destruct (Z.eq_dec c width) as [->|]; [|tauto]; right; left; apply usub_small; lia).
  pose proof (KA width) as KA'. assert (T256 <= price + width \/ uadd price width = price + width) as KB by (destruct (Z_le_dec T256 (price + width)); [now left|right; unfold uadd; apply Z.mod_small; lia]).
  assert (0 <= usub price width < T256) by (apply Z.mod_pos_bound; lia). assert (0 <= uadd price width < T256) by (apply Z.mod_pos_bound; lia).
  set (A := usub price width) in *. set (B := uadd price width) in *. clearbody A B.
  destruct (KP ((price <? width) || (A <? 4295128739)) A MinTick) as [(E1 & C1 & D1)|((t1 & E1) & C1)]; rewrite E1; cbn [bind]; [split; [discriminate|]; split; [intros _; left; lia|reflexivity]|].
  destruct (KP ((T256 <=? price + width) || (1461446703485210103287273052203988822378723970342 <? B)) B MaxTick) as [(E2 & C2 & D2)|((t2 & E2) & C2)]; rewrite E2; cbn [bind]; (split; [discriminate|]); (split; [|]); try discriminate; try reflexivity; intros Q; lia.
Qed.
