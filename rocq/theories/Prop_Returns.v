(** Prop_Returns.v -- on values below 2^128 the pool's operations return: C74.

    A negative amount [- x] is the word [2 ^ 256 - x].  [z]: token 0 is paid in and the price falls.  The limit 0 stands for the extreme price.
    [allRounds] rounds are one per tick and one more. *)
From Coq Require Import Lia.
From Verif Require Import Base TickMath TickData Ledger Pool PoolTable PoolHist PoolOps PoolSpec PoolSwap PoolLimit PoolReturns.
Open Scope Z_scope.

(** ** swap *)
(** prices and amounts below 2^128: no round panics, however many there are *)
Theorem C74_swap_no_panic h p fuel (z : bool) amt lim : reach h p -> ticks (Data p) <> [] ->
  0 < amt < 2 ^ 128 \/ 2 ^ 256 - 2 ^ 128 <= amt < 2 ^ 256 ->
  let limit := if lim =? 0 then (if z then 4295128740 else 1461446703485210103287273052203988822378723970341) else lim in
  SqrtRatio p < 2 ^ 128 -> limit < 2 ^ 128 -> (if z then 4295128739 < limit < SqrtRatio p else SqrtRatio p < limit) ->
  swap fuel p z amt lim <> Panic.
Proof. exact (swap_no_panic h p fuel z amt lim). Qed.
Print Assumptions C74_swap_no_panic.
(** and upwards, or down to a limit with no misplaced tick above it, the swap returns *)
Theorem C74_swap_returns h p (z : bool) amt lim : reach h p -> ticks (Data p) <> [] ->
  0 < amt < 2 ^ 128 \/ 2 ^ 256 - 2 ^ 128 <= amt < 2 ^ 256 ->
  let limit := if lim =? 0 then (if z then 4295128740 else 1461446703485210103287273052203988822378723970341) else lim in
  SqrtRatio p < 2 ^ 128 -> limit < 2 ^ 128 -> (if z then 4295128739 < limit < SqrtRatio p /\ clearWay p limit else SqrtRatio p < limit) ->
  exists r, swap allRounds p z amt lim = Ok r.
Proof. exact (swap_returns h p z amt lim). Qed.
Print Assumptions C74_swap_returns.
(** no tick is misplaced above the price 1, which is 2^96 *)
Theorem C74_swap_down h p amt lim : reach h p -> ticks (Data p) <> [] -> 0 < amt < 2 ^ 128 \/ 2 ^ 256 - 2 ^ 128 <= amt < 2 ^ 256 ->
  2 ^ 96 <= lim < SqrtRatio p -> SqrtRatio p < 2 ^ 128 -> exists r, swap allRounds p true amt lim = Ok r.
Proof. exact (returns_down_above h p amt lim). Qed.
Print Assumptions C74_swap_down.
(** upwards without a limit: the swap stays below 2^128 and returns, or it reaches 2^128 - 1 *)
Theorem C74_unlimited_up h p amt : reach h p -> ticks (Data p) <> [] -> 0 < amt < 2 ^ 128 \/ 2 ^ 256 - 2 ^ 128 <= amt < 2 ^ 256 -> SqrtRatio p < 2 ^ 128 - 1 ->
  exists p' a0 a1, swap allRounds p false amt (2 ^ 128 - 1) = Ok (p', a0, a1) /\
    (swap allRounds p false amt 0 = Ok (p', a0, a1) \/ SqrtRatio p' = 2 ^ 128 - 1).
Proof. exact (unlimited_up h p amt). Qed.
Print Assumptions C74_unlimited_up.
(** with no tick in the table every swap panics *)
Theorem C74_swap_empty h p fuel z amt lim : reach h p -> ticks (Data p) = [] -> 0 <= amt < 2 ^ 256 -> swap (S fuel) p z amt lim = Panic.
Proof. exact (swap_empty h p fuel z amt lim). Qed.
Print Assumptions C74_swap_empty.

(** ** positions and flash loans *)
Theorem C74_mint h p l u a : reach h p -> 0 <= a -> placed (TickSpacing p) l -> placed (TickSpacing p) u -> total h + a < 2 ^ 128 ->
  (exists p', Mint p l u a = Ok p') <-> 0 < a /\ -887272 <= l < u /\ u <= 887272.
Proof. exact (mint_returns h p l u a). Qed.
Print Assumptions C74_mint.
Theorem C74_burn h p l u a : reach h p -> 0 <= a <= minted h l u -> 0 < minted h l u -> exists p', Burn p l u a = Ok p'.
Proof. exact (burn_returns h p l u a). Qed.
Print Assumptions C74_burn.
Theorem C74_flash h p a0 a1 : reach h p -> 0 <= a0 < 2 ^ 128 -> 0 <= a1 < 2 ^ 128 -> (exists p', Flash p a0 a1 = Ok p') <-> 0 < Liquidity p.
Proof. exact (flash_returns h p a0 a1). Qed.
Print Assumptions C74_flash.

(** the fees due to the position at [l, u), if it holds liquidity, are exactly 0 or at least 2^64 units of 2^-128 token *)
Definition feesNotTiny (p : Pool) (l u : Z) : Prop :=
  forall i, posGet (Pos p) (posKey l u) = Some i -> pLiquidity i = 0 \/
    0 <= pLiquidity i < 2 ^ 192 /\ exists g0 g1, GetFeeGrowthInside (Data p) l u (TickCurrent p) (FeeGrowth0 p) (FeeGrowth1 p) = Ok (g0, g1) /\
      (pLiquidity i * ((g0 - pLast0 i) mod 2 ^ 256) = 0 \/ 2 ^ 64 <= pLiquidity i * ((g0 - pLast0 i) mod 2 ^ 256)) /\
      (pLiquidity i * ((g1 - pLast1 i) mod 2 ^ 256) = 0 \/ 2 ^ 64 <= pLiquidity i * ((g1 - pLast1 i) mod 2 ^ 256)).
(** The price is outside the range or below 2^128. *)
Theorem C74_mint_strategy h p l u a : reach h p -> 0 < a -> placed (TickSpacing p) l -> placed (TickSpacing p) u -> total h + a < 2 ^ 128 ->
  -887272 <= l < u -> u <= 887272 -> u <= TickCurrent p \/ TickCurrent p < l \/ SqrtRatio p < 2 ^ 128 -> feesNotTiny p l u -> exists r, MintStrategy p l u a = Ok r.
Proof. exact (mint_strategy_returns h p l u a). Qed.
Print Assumptions C74_mint_strategy.
Theorem C74_burn_strategy h p l u a : reach h p -> 0 <= a <= minted h l u -> 0 < minted h l u ->
  feesNotTiny p l u -> exists r, BurnStrategy p l u a = Ok r.
Proof. exact (burn_strategy_returns h p l u a). Qed.
Print Assumptions C74_burn_strategy.

(** ** a pool with two ranges: swaps both ways, the second over a tick; the strategy's position earned fees *)
Example C74_case : reach goodHist good3 /\ ticks (Data good3) <> [] /\ SqrtRatio good3 < 2 ^ 128 - 1 /\ clearWay good3 (2 ^ 96) /\ 2 ^ 96 < SqrtRatio good3 /\
  minted goodHist 0 600 = 10 ^ 18 /\ feesNotTiny good3 0 600 /\
  (exists i, posGet (Pos good3) (posKey 0 600) = Some i /\ pLiquidity i = 10 ^ 18 /\
     GetFeeGrowthInside (Data good3) 0 600 (TickCurrent good3) (FeeGrowth0 good3) (FeeGrowth1 good3) <> Ok (pLast0 i, pLast1 i)).
Proof. exact returns_case. Qed.
