(** Prop_Panics.v -- when the strategies' own computations panic: C79. *)
From Coq Require Import String.
From Verif Require Import Base U256Z SwapMath TickMath Float64 TickData Pool PoolOps PoolSpec Prices Client Strategy Executor StrategyPanics.
Open Scope Z_scope.

(** The liquidity that the balances buy on a range: with balances and a price below 2^128 the computation
    panics exactly if a tick is off the scale, or the range has no width and the balance that would be invested
    is not zero (a price below 2^48 under the tick multiplies to zero first). *)
Theorem C79_liquidity fuel p s l u : MinSqrtRatio <= SqrtRatio p < 2 ^ 128 -> 0 <= sAmount0 s < 2 ^ 128 -> 0 <= sAmount1 s < 2 ^ 128 ->
  runV fuel p (liquidityFor s l u) <> OutOfFuel /\
  (runV fuel p (liquidityFor s l u) = Panic <->
    ~ (-887272 <= l <= 887272 /\ -887272 <= u <= 887272) \/
    l = u /\ exists r, GetSqrtRatioAtTick l = Ok r /\ if SqrtRatio p <=? r then sAmount0 s <> 0 /\ 2 ^ 48 <= r else sAmount1 s <> 0).
Proof. exact (liquidity_panics fuel p s l u). Qed.
Print Assumptions C79_liquidity.
(** the ticks of a band [price - width, price + width], cut off at the ends of the scale: the code compares
    with "greater than the maximum" where the conversion needs "less than the maximum" *)
Theorem C79_band price width : 0 <= price < 2 ^ 256 -> 0 <= width < 2 ^ 256 ->
  bandTicks price width <> OutOfFuel /\
  (bandTicks price width = Panic <-> MaxSqrtRatio <= price - width \/ price + width < MinSqrtRatio \/ price + width = MaxSqrtRatio).
Proof. exact (band_panics price width). Qed.
Print Assumptions C79_band.
(** "a band around a price on the scale has two ticks" is false: its upper end may be the maximal price *)
Theorem C79_band_total_refuted : exists price width, MinSqrtRatio <= price < MaxSqrtRatio /\ 0 < width < 2 ^ 256 /\ bandTicks price width = Panic.
Proof.
  exists (MaxSqrtRatio - 1), 1. split; [split; [discriminate|reflexivity]|]. split; [split; reflexivity|].
  refine (proj2 (proj2 (C79_band (MaxSqrtRatio - 1) 1 _ _)) _); [split; [discriminate|reflexivity]|split; [discriminate|reflexivity]|]. right. right. reflexivity.
Qed.
Print Assumptions C79_band_total_refuted.
Example C79_band_case : bandTicks (2 ^ 96) (2 ^ 90) = Ok (-315, 310) /\ bandTicks (2 ^ 96) (2 ^ 97) = Ok (-887272, 21973) /\ bandTicks (2 ^ 31) 1 = Panic.
Proof. repeat split; vm_compute; reflexivity. Qed.

(** While the price stands still there is no band: the strategies that size their range by the deviation of the
    prices panic at Init and at Rebalance, whatever the multiplier, if they hold both tokens. *)
Theorem C79_flat_band (k : Kind) m (sized : bool) s n P fuel p :
  k = BollingerBands m /\ sized = false \/ k = BollingerBandsFillUp m /\ sized = false \/ k = VolatilitySized m /\ sized = true ->
  1 < n <= 2 ^ 26 -> prPrices (sHistory s) = repeat (P * P) (Z.to_nat n) -> prLength (sHistory s) = n ->
  MinSqrtRatio <= P < 2 ^ 115 -> 2 ^ 49 <= (if sized then SqrtRatio p else P) -> MinSqrtRatio <= SqrtRatio p < MaxSqrtRatio ->
  sAmount0 s <> 0 -> sAmount1 s <> 0 ->
  runV fuel p (initPositions k s) = Panic /\ runV fuel p (rebalancePositions k s) = Panic.
Proof.
  intros Hk Hn H1 H2. refine (flat_panics k m sized s n P fuel p _ (conj H1 H2) Hn).
  destruct Hk as [[-> ->]|[[-> ->]|[-> ->]]]; reflexivity.
Qed.
Print Assumptions C79_flat_band.
(** Before the first price snapshot there is no history: a run of one of the four strategies that keep one
    panics if it starts at the first transaction. *)
Theorem C79_start_at_first k a0 a1 n s c t txs fuel p :
  match k with BollingerBands _ | BollingerBandsFillUp _ | IntervalAroundAverage _ => True | VolatilitySized _ => a0 <> 0 /\ a1 <> 0 | _ => False end ->
  NewStrategy k a0 a1 n = Ok s -> n < 2 ^ 63 -> 2 ^ 49 <= SqrtRatio p < MaxSqrtRatio ->
  cStart c <= txTime t <= cEnd c ->
  runV fuel p (Run (strategyOf k) c (t :: txs) s) = Panic.
Proof.
  intros Hk E Hn HP Ht. refine (first_panics k a0 a1 n s c t txs fuel p _ E Hn _ HP Ht); [destruct k; (reflexivity || contradiction)|].
  intros m ->. exact Hk.
Qed.
Print Assumptions C79_start_at_first.

(** the same pool and strategy, started one transaction later, run to the end *)
Definition early : Config := mkConfig 1000 2000 100 100 10.
Definition later : Config := mkConfig 1001 2000 100 100 10.
Definition two : list Transaction := [mkTx "Swap" 0 (10 ^ 14) 0 0 0 1000; mkTx "Swap" 0 0 (10 ^ 14) 0 0 1001].
Definition band : St := match NewStrategy (BollingerBands 100) (10 ^ 16) (10 ^ 16) 2 with Ok s => s | _ => mkSt 0 0 [] (mkPrices [] 0 0) 0 0 0 false end.
Example C79_case : runV 50 good2 (Run (strategyOf (BollingerBands 100)) early two band) = Panic /\
  (match runV 50 good2 (Run (strategyOf (BollingerBands 100)) later two band) with Ok (_, tr, (_, v)) => (length tr =? 5)%nat && (length v =? 2)%nat | _ => false end = true).
Proof. split; vm_compute; reflexivity. Qed.
