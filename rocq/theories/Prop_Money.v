(** Prop_Money.v -- a whole run creates no tokens: C73.

    [account keys fuel h hs p tt h' hs' q i0 i1 o0 o1] (Money.v) goes through the calls [tt] on the pool [p], each
    tagged with whether the strategy made it: the pool ends as [q]; [h], [hs] and [h'], [hs'] are the ledgers of all
    mints and burns and of the strategy's own, before and after; [i0], [i1] is what the market paid in and [o0], [o1]
    what it was paid.  A historical mint pays any whole amounts not below the exact worth of the liquidity, a
    historical burn is paid any not above it; a swap pays and is paid the amounts it returns, a flash pays its fee.
    The calls must be possible: mints on placed ticks (C30) with less than 2^128 liquidity in all, market burns of liquidity of the market,
    downward swaps that keep clear of the misplaced ticks (C69); and, for [keys = true], the strategy never mints on a range whose table
    key another of its ranges with liquidity has.  [cash] and [worth] are those of C69. *)
From Coq Require Import String QArith.
From Verif Require Import Base U256Z SwapMath TickMath TickMathFacts TickData Ledger Pool PoolInv PoolHist PoolOps PoolPos PoolSpec
  Prices Client Strategy Executor Plan StrategyFacts StrategyBudget ReplayFacts Solvency Cash Money MoneyEx.
Open Scope Z_scope.

(** Run on a pool with r0, r1 tokens and a strategy with two balances and no positions: the balances at the end and the
    tokens then in the pool add up to those at the start, the market's payments in and out included.  The pool can
    still pay all it owes, and the strategy has left it. *)
Theorem C73_conserved keys k c txs s fuel p q tr r h r0 r1 :
  keys = true \/ match k with TwoInterval _ _ | BollingerBandsFillUp _ | FillUp _ | LimitOrder _ => False | _ => True end ->
  cash true true h [] p r0 r1 -> Token0 p <> Token1 p ->
  regular c txs -> Forall (fun t => 0 <= txAmount0 t < 2 ^ 256 /\ 0 <= txAmount1 t < 2 ^ 256) txs ->
  sPositions s = [] -> 0 <= sAmount0 s < 2 ^ 256 -> 0 <= sAmount1 s < 2 ^ 256 ->
  runV fuel p (Run (strategyOf k) c txs s) = Ok (q, tr, r) ->
  exists tt, map snd tt = tr /\ Forall (fun x => fst x = true -> ownCall k (fst (snd x))) tt /\
    map (fun x => fst (snd x)) (filter (fun x => negb (fst x)) tt) =
      flat_map (fun t => match marketOp (Token0 p) (Token1 p) t with Some o => [o] | None => [] end) (upTo (cEnd c) txs) /\
    forall h' hs' q' i0 i1 o0 o1, account keys fuel h [] p tt h' hs' q' i0 i1 o0 o1 ->
      sAmount0 s + r0 + i0 < 2 ^ 256 -> sAmount1 s + r1 + i1 < 2 ^ 256 ->
      q' = q /\ (forall l u, minted hs' l u = 0) /\ exists e0 e1, cash true true h' hs' q e0 e1 /\ 0 <= e0 /\ 0 <= e1 /\
        sAmount0 (fst r) + e0 = sAmount0 s + r0 + i0 - o0 /\ sAmount1 (fst r) + e1 = sAmount1 s + r1 + i1 - o1.
Proof. exact (conserved keys k c txs s fuel p q tr r h r0 r1). Qed.
Print Assumptions C73_conserved.
(** the payments are those of the calls, never negative *)
Theorem C73_payments keys fuel h hs p tt h' hs' q i0 i1 o0 o1 : account keys fuel h hs p tt h' hs' q i0 i1 o0 o1 -> 0 <= Fee p -> 0 <= i0 /\ 0 <= i1 /\ 0 <= o0 /\ 0 <= o1.
Proof. exact (account_nonneg keys fuel h hs p tt h' hs' q i0 i1 o0 o1). Qed.
Print Assumptions C73_payments.
(** without keys of their own the ranges of a strategy that holds several at once are paid fees nobody paid *)
Theorem C73_keys_refuted : ~ (forall k c txs s fuel p q tr r tt h' hs' q' i0 i1 o0 o1,
  cash true true [] [] p 0 0 -> regular c txs -> sPositions s = [] -> runV fuel p (Run (strategyOf k) c txs s) = Ok (q, tr, r) ->
  map snd tt = tr -> account false fuel [] [] p tt h' hs' q' i0 i1 o0 o1 -> sAmount1 (fst r) <= 10 ^ 30 * (sAmount1 s + i1)).
Proof. exact keys_of_run_needed. Qed.
Print Assumptions C73_keys_refuted.

(** a mint, two strategy ranges, swaps in both directions, a rebalance, a flash, a burn: the strategy ends with
    9426668324993538 and 30584621665996937, and the market's fees stay in the pool *)
Example C73_case : cash true true [] [] good0 0 0 /\ regular monConfig monTxs /\
  (exists q tr r, runV 50 good0 (Run (strategyOf (FillUp 120)) monConfig monTxs monSt) = Ok (q, tr, r) /\ map snd monTT = tr /\ sAmount0 (fst r) = 9426668324993538 /\ sAmount1 (fst r) = 30584621665996937) /\
  exists i0 i1 o0 o1, account true 50 [] [] good0 monTT monHist monOwn mon17 i0 i1 o0 o1 /\ [i0; i1; o0; o1] = [4996365498566678; 3983208049347102; 5568465532202436; 3396123100611221].
Proof. split; [exact good0_cash|]. split; [exact mon_regular|]. split; [exact mon_run|exact mon_account]. Qed.
