(** Prop_Budget.v -- strategies live within their means: C60-C63. *)
From Coq Require Import String.
From Verif Require Import Base U256Z SwapMath TickMath Float64 TickData Ledger Pool PoolOps Prices Client Strategy Executor StrategyFacts PoolSpec
  StrategyBudget StrategyPlace ValueFacts.
Open Scope Z_scope.

(** ** C60: a strategy never overdraws *)

(** [pays t0 t1 b tr b'] reads the calls [tr] as a statement of account from balances [b] to [b']: collected
    amounts are added; a mint is charged at most what is there; a swap sells no more than asked, asks no more
    than there is, and its proceeds are added. *)
Theorem C60_init h p k s fuel q tr r : reach h p -> Token0 p <> Token1 p -> is_u256 (sAmount0 s) -> is_u256 (sAmount1 s) ->
  runV fuel p (Init k s) = Ok (q, tr, r) ->
  pays (Token0 p) (Token1 p) (sAmount0 s, sAmount1 s) tr (sAmount0 (fst r), sAmount1 (fst r)).
Proof. exact (init_pays h p k s fuel q tr r). Qed.
Print Assumptions C60_init.
(** For the strategy that swaps, its positions must be covered by the ledger (otherwise the pool it swaps on
    is not one that the pool's own operations produce). *)
Theorem C60_rebalance h p k s fuel q tr r : reach h p -> Token0 p <> Token1 p -> is_u256 (sAmount0 s) -> is_u256 (sAmount1 s) ->
  match k with IntervalAroundPriceAndSwap _ => backed h (sPositions s) | _ => True end ->
  runV fuel p (Rebalance k s) = Ok (q, tr, r) ->
  pays (Token0 p) (Token1 p) (sAmount0 s, sAmount1 s) tr (sAmount0 (fst r), sAmount1 (fst r)).
Proof. exact (rebalance_pays h p k s fuel q tr r). Qed.
Print Assumptions C60_rebalance.

Definition holder : St := mkSt (10 ^ 16) (3 * 10 ^ 16) [mkPosition (10 ^ 17) 0 600] (mkPrices [] 0 0) 0 0 0 false.
Example C60_holder : backed goodHist (sPositions holder).
Proof.
  split; [|intros x [<-|[]]; reflexivity]. intros lo up. unfold minted, goodHist, holder, recorded. cbn [sPositions sumOf fold_right sumOn eLower eUpper eDelta poLower poUpper poAmount].
  rewrite (Z.eqb_sym lo), (Z.eqb_sym up).
  destruct (0 =? lo), (600 =? up), (60 =? lo), (180 =? up); vm_compute; discriminate.
Qed.
Example C60_case : exists q tr r, runV 50 good2 (Init (FillUp 200) holder) = Ok (q, tr, r) /\ length tr = 2%nat /\ sAmount0 (fst r) < 10 ^ 16 /\ sAmount1 (fst r) < 10 ^ 15.
Proof. eexists. eexists. eexists. split; [vm_compute; reflexivity|]. repeat split; vm_compute; reflexivity. Qed.
Example C60_case_swap : reach goodHist good2 /\ Token0 good2 <> Token1 good2 /\
  exists q tr r, runV 50 good2 (Rebalance (IntervalAroundPriceAndSwap 200) holder) = Ok (q, tr, r) /\
    match map fst tr with [OBurnStrategy _ _ _; OCollectStrategy _ _; OExactInput _ "B" _; OMintStrategy _ _ _] => True | _ => False end.
Proof. split; [exact good2_reach|]. split; [discriminate|]. eexists. eexists. eexists. split; [vm_compute; reflexivity|]. vm_compute. exact I. Qed.

(** ** C61: the snapshot counts what burning everything would pay *)

(** [burnt0], [burnt1]: what a burn call returned.  If BurnAll would go through now, GetAmounts returns, without
    any call, the balances plus what those burns would return. *)
Theorem C61_snapshot h p k s fuel q tr r fuel' : reach h p -> is_u256 (sAmount0 s) -> is_u256 (sAmount1 s) ->
  (forall x, In x (sPositions s) -> 0 < poAmount x < 2 ^ 255) ->
  runV fuel p (BurnAll k s) = Ok (q, tr, r) ->
  runV fuel' p (GetAmounts k s) = Ok (p, [], ((sAmount0 s + sumOf burnt0 tr) mod 2 ^ 256, (sAmount1 s + sumOf burnt1 tr) mod 2 ^ 256)).
Proof. exact (snapshot_value h p k s fuel q tr r fuel'). Qed.
Print Assumptions C61_snapshot.
Example C61_case : exists q tr r, runV 50 good2 (BurnAll V2 holder) = Ok (q, tr, r) /\ 0 < sumOf burnt0 tr /\ 0 < sumOf burnt1 tr.
Proof. eexists. eexists. eexists. split; [vm_compute; reflexivity|]. repeat split; vm_compute; reflexivity. Qed.

(** ** C62: the value in token 0 *)

(** amount0 + floor(amount1 / price), for square-root prices below 2^128 *)
Theorem C62_value fuel p a0 a1 : 4295128739 <= SqrtRatio p < 2 ^ 128 -> 0 <= a1 < 2 ^ 128 ->
  runV fuel p (valueUSD a0 a1) = Ok (p, [], (a0 + a1 * 2 ^ 192 / SqrtRatio p ^ 2) mod 2 ^ 256).
Proof. exact (value_exact fuel p a0 a1). Qed.
Print Assumptions C62_value.
(** from 2^128 on it is wrong: a panic, or a value too large by a factor of 2^120 *)
Theorem C62_high_price_refuted :
  (exists p, reach [] p /\ forall fuel a0 a1, 0 < a1 < 2 ^ 256 -> runV fuel p (valueUSD a0 a1) = Panic) /\
  (exists p v, reach [] p /\ runV 0 p (valueUSD 0 (10 ^ 20)) = Ok (p, [], v) /\ 10 ^ 20 * 2 ^ 192 / SqrtRatio p ^ 2 * 2 ^ 120 < v).
Proof. exact value_high. Qed.
Print Assumptions C62_high_price_refuted.
Example C62_case : 4295128739 <= SqrtRatio good2 < 2 ^ 128 /\ runV 0 good2 (valueUSD 5 (10 ^ 18)) = Ok (good2, [], 5 + 990099009900990099).
Proof. split; [vm_compute; intuition discriminate|]. vm_compute. reflexivity. Qed.

(** ** C63: where the strategies put their liquidity, and how much *)

(** [placement again k s fuel sp p b tr b'] says what strategy [k] does with the balances [b] on pool [p] of spacing
    [sp] ([again]: in Rebalance): on which ranges it invests, in which order, that each investment mints what
    the balances at that moment can buy (half of it for limit orders), and which balances [b'] remain.
    [sane k]: the widths are below 2^50. *)
Theorem C63_init h p k s fuel q tr r : reach h p -> 0 < TickSpacing p -> sane k -> is_u256 (sAmount0 s) -> is_u256 (sAmount1 s) ->
  runV fuel p (Init k s) = Ok (q, tr, r) ->
  placement false k s fuel (TickSpacing p) p (sAmount0 s, sAmount1 s) tr (sAmount0 (fst r), sAmount1 (fst r)).
Proof. exact (init_places h p k s fuel q tr r). Qed.
Print Assumptions C63_init.
(** Rebalance is BurnAll followed by a placement *)
Theorem C63_rebalance h p k s fuel q tr r : reach h p -> 0 < TickSpacing p -> sane k -> k <> NoProvision -> is_u256 (sAmount0 s) -> is_u256 (sAmount1 s) ->
  match k with IntervalAroundPriceAndSwap _ => backed h (sPositions s) | _ => True end ->
  runV fuel p (Rebalance k s) = Ok (q, tr, r) ->
  exists q1 t1 s1 b1 t2, runV fuel p (BurnAll k s) = Ok (q1, t1, (s1, b1)) /\ tr = t1 ++ t2 /\
    placement true k s fuel (TickSpacing p) q1 b1 t2 (sAmount0 (fst r), sAmount1 (fst r)).
Proof. exact (rebalance_places h p k s fuel q tr r). Qed.
Print Assumptions C63_rebalance.
(** tick 99, spacing 60, width 200: the range [-120, 300]; what is left of token 1 goes below the tick *)
Example C63_case : reach goodHist good2 /\ TickSpacing good2 = 60 /\ TickCurrent good2 = 99 /\ exists q tr r, runV 50 good2 (Init (FillUp 200) holder) = Ok (q, tr, r) /\
  map (fun c => match fst c with OMintStrategy l u _ => (l, u) | _ => (0, 0) end) tr = [(-120, 300); (-120, 60)].
Proof. split; [exact good2_reach|]. split; [reflexivity|]. split; [reflexivity|]. eexists. eexists. eexists. split; vm_compute; reflexivity. Qed.
Example C63_case_rebalance : exists q tr r, runV 50 good2 (Rebalance (LimitOrder 200) holder) = Ok (q, tr, r) /\ length tr = 4%nat.
Proof. eexists. eexists. eexists. split; vm_compute; reflexivity. Qed.
