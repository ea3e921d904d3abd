(** Prop_Settle.v -- the fees due to a position of ordinary size can always be settled: C75.

    [others m l u h0 p0 h p v0 v1] (PoolSettle.v): from [p0] to [p] there are swaps, flash loans, mints, burns, collects and
    strategy calls with other table keys, and none on the position of liquidity [m] at [l, u).  [v0], [v1] count the tokens paid
    into swaps and lent.  All the time the range holds at least [m] and all ranges together at most 2^127 and at most 2^63 times [m]. *)
From Coq Require Import Lia.
From Verif Require Import Base TickData Ledger Pool PoolOps PoolSpec PoolSettle Prop_Returns.
Open Scope Z_scope.

(** The fees due are then exactly 0 or not tiny in the sense of C74. *)
Theorem C75_left_alone m l u h0 p0 i h p v0 v1 : reach h0 p0 -> posGet (Pos p0) (posKey l u) = Some i -> pLiquidity i = m -> 0 < m ->
  GetFeeGrowthInside (Data p0) l u (TickCurrent p0) (FeeGrowth0 p0) (FeeGrowth1 p0) = Ok (pLast0 i, pLast1 i) ->
  m <= minted h0 l u -> total h0 <= 2 ^ 127 -> total h0 <= 2 ^ 63 * m ->
  others m l u h0 p0 h p v0 v1 -> v0 < 2 ^ 128 -> v1 < 2 ^ 128 -> feesNotTiny p l u.
Proof. exact (others_settles m l u h0 p0 i h p v0 v1). Qed.
Print Assumptions C75_left_alone.
(** So withdrawing from the position returns, as does adding to it. *)
Theorem C75_burn m l u h0 p0 i h p v0 v1 a : reach h0 p0 -> posGet (Pos p0) (posKey l u) = Some i -> pLiquidity i = m -> 0 < m ->
  GetFeeGrowthInside (Data p0) l u (TickCurrent p0) (FeeGrowth0 p0) (FeeGrowth1 p0) = Ok (pLast0 i, pLast1 i) ->
  m <= minted h0 l u -> total h0 <= 2 ^ 127 -> total h0 <= 2 ^ 63 * m ->
  others m l u h0 p0 h p v0 v1 -> v0 < 2 ^ 128 -> v1 < 2 ^ 128 ->
  0 <= a <= m -> exists r, BurnStrategy p l u a = Ok r.
Proof. exact (others_burn m l u h0 p0 i h p v0 v1 a). Qed.
Print Assumptions C75_burn.
Theorem C75_mint m l u h0 p0 i h p v0 v1 a : reach h0 p0 -> posGet (Pos p0) (posKey l u) = Some i -> pLiquidity i = m -> 0 < m ->
  GetFeeGrowthInside (Data p0) l u (TickCurrent p0) (FeeGrowth0 p0) (FeeGrowth1 p0) = Ok (pLast0 i, pLast1 i) ->
  m <= minted h0 l u -> total h0 <= 2 ^ 127 -> total h0 <= 2 ^ 63 * m ->
  others m l u h0 p0 h p v0 v1 -> v0 < 2 ^ 128 -> v1 < 2 ^ 128 ->
  0 < a -> total h + a < 2 ^ 128 -> u <= TickCurrent p \/ TickCurrent p < l \/ SqrtRatio p < 2 ^ 128 -> exists r, MintStrategy p l u a = Ok r.
Proof. exact (others_mint m l u h0 p0 i h p v0 v1 a). Qed.
Print Assumptions C75_mint.
(** The starting point is met right after the position's own mint, and after a burn that leaves liquidity on the range. *)
Theorem C75_minted h p l u a p' x0 x1 : reach h p -> allowed h p (OMintStrategy l u a) -> MintStrategy p l u a = Ok (p', x0, x1) -> exists i,
  posGet (Pos p') (posKey l u) = Some i /\ pLiquidity i = (match posGet (Pos p) (posKey l u) with Some j => pLiquidity j | None => 0 end + a) mod 2 ^ 256 /\
  GetFeeGrowthInside (Data p') l u (TickCurrent p') (FeeGrowth0 p') (FeeGrowth1 p') = Ok (pLast0 i, pLast1 i).
Proof. exact (mint_settled h p l u a p' x0 x1). Qed.
Print Assumptions C75_minted.
Theorem C75_burnt h p l u a p' x0 x1 : reach h p -> allowed h p (OBurnStrategy l u a) -> BurnStrategy p l u a = Ok (p', x0, x1) -> a < minted h l u -> exists i,
  posGet (Pos p') (posKey l u) = Some i /\ pLiquidity i = (match posGet (Pos p) (posKey l u) with Some j => pLiquidity j | None => 0 end - a) mod 2 ^ 256 /\
  GetFeeGrowthInside (Data p') l u (TickCurrent p') (FeeGrowth0 p') (FeeGrowth1 p') = Ok (pLast0 i, pLast1 i).
Proof. exact (burn_settled h p l u a p' x0 x1). Qed.
Print Assumptions C75_burnt.
(** The size matters: beside 2^70 of others' liquidity a position of liquidity 1 cannot be withdrawn after a swap of 1000. *)
Theorem C75_small_refuted : exists p i a0, reach tinyHist tiny2 /\ posGet (Pos tiny2) (posKey 60 180) = Some i /\ pLiquidity i = 1 /\
  GetFeeGrowthInside (Data tiny2) 60 180 (TickCurrent tiny2) (FeeGrowth0 tiny2) (FeeGrowth1 tiny2) = Ok (pLast0 i, pLast1 i) /\
  swap 20 tiny2 false 1000 0 = Ok (p, a0, 1000) /\ forall a, 0 <= a <= 1 -> BurnStrategy p 60 180 a = Panic.
Proof. exact tiny_stuck. Qed.
Print Assumptions C75_small_refuted.
(** a position, a swap, and a burn by the market *)
Example C75_case : exists i, reach goodHist good2 /\ posGet (Pos good2) (posKey 0 600) = Some i /\ pLiquidity i = 10 ^ 18 /\
  GetFeeGrowthInside (Data good2) 0 600 (TickCurrent good2) (FeeGrowth0 good2) (FeeGrowth1 good2) = Ok (pLast0 i, pLast1 i) /\
  minted goodHist 0 600 = 10 ^ 18 /\ total goodHist = 2 * 10 ^ 18 /\
  others (10 ^ 18) 0 600 goodHist good2 (mkE 60 180 (- 10 ^ 18) :: goodHist) (okOr (Burn good3 60 180 (10 ^ 18)) startPool) 0 (2 * 10 ^ 16).
Proof. exact settle_case. Qed.
