(** Prop_Trades.v -- trading against the pool: C71.

    [trades way p p' x0 x1] (Trades.v): any sequence of swaps and flashes leads from [p] to [p']; [x0], [x1] are what
    the traders paid in all, less what they were paid.  With [way = true] every downward swap keeps clear of the
    misplaced ticks (section 4 of DESIGN.md).  [worthAll] is the exact worth of the liquidity of the ledger. *)
From Coq Require Import QArith.
From Verif Require Import Base TickMath Ledger Pool PoolOps PoolSpec Solvency Cash Trades.
Open Scope Z_scope.

(** while the liquidity stays, the traders never gain both tokens, and gain nothing by a round trip *)
Theorem C71_no_gain h p p' x0 x1 : reach h p -> trades true p p' x0 x1 ->
  (SqrtRatio p <= SqrtRatio p' -> 0 <= x1) /\ (SqrtRatio p' <= SqrtRatio p -> 0 <= x0) /\
  forall tk : bool, (worthAll tk h (SqrtRatio p') - worthAll tk h (SqrtRatio p) <= inject_Z (if tk then x0 else x1))%Q.
Proof. exact (no_gain h p p' x0 x1). Qed.
Print Assumptions C71_no_gain.
Theorem C71_way_refuted : ~ (forall h p p' x0 x1, reach h p -> trades false p p' x0 x1 -> SqrtRatio p <= SqrtRatio p' -> 0 <= x1).
Proof. exact (fun H => match gain_witness with ex_intro _ h (ex_intro _ p (ex_intro _ p' (ex_intro _ x0 (ex_intro _ x1 (conj R (conj T (conj L N))))))) => Zlt_not_le x1 0 N (H h p p' x0 x1 R T L) end). Qed.
Print Assumptions C71_way_refuted.
(** up and back to the price of before: both fees are lost *)
Example C71_case : reach goodHist good2 /\ exists p' x0 x1, trades true good2 p' x0 x1 /\ SqrtRatio p' = SqrtRatio good2 /\ 0 < x0 /\ 0 < x1.
Proof. exact (conj good2_reach trades_case). Qed.
