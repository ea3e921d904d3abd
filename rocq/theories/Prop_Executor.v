(** Prop_Executor.v -- the executor: C49, C50. *)
From Coq Require Import String.
From Verif Require Import Base U256Z SwapMath TickMath Float64 Pool PoolOps Prices Client Strategy Executor Plan StrategyFacts ReplayFacts PoolSpec.
Open Scope Z_scope.

(** The calls of any execution: the transactions up to the first one past the end time, each once and in list
    order, with calls of the strategy's own kind between them ([replays], [ownCall], [marketOp]: mint, burn,
    flash, or the swap of the amount that is positive as a signed number). *)
Theorem C49_replays_the_market k c txs s fuel p q tr r :
  Forall (fun t => 0 <= txAmount0 t < 2 ^ 256 /\ 0 <= txAmount1 t < 2 ^ 256) txs ->
  runV fuel p (Run (strategyOf k) c txs s) = Ok (q, tr, r) ->
  replays (ownCall k) (Token0 p) (Token1 p) (upTo (cEnd c) txs) tr.
Proof. exact (Run_replays k c txs s fuel p q tr r). Qed.
Print Assumptions C49_replays_the_market.
(** without a strategy, the calls are the transactions *)
Theorem C49_market_alone c txs s fuel p q tr r :
  Forall (fun t => 0 <= txAmount0 t < 2 ^ 256 /\ 0 <= txAmount1 t < 2 ^ 256) txs ->
  runV fuel p (Run (strategyOf NoProvision) c txs s) = Ok (q, tr, r) ->
  map fst tr = flat_map (fun t => match marketOp (Token0 p) (Token1 p) t with Some o => [o] | None => [] end) (upTo (cEnd c) txs).
Proof. exact (NoProvision_replay c txs s fuel p q tr r). Qed.
Print Assumptions C49_market_alone.

(** The executor carries out the plan: a block per transaction up to the end time (start the strategy, price
    snapshot, value snapshot, rebalance, transaction), then BurnAll.  [planned] is the schedule said without
    counters; for times and intervals below 2^62 there is exactly one plan. *)
Theorem C49_follows_the_plan S (strat : Strat S) c txs bl s fuel p : regular c txs -> planned c txs bl ->
  runV fuel p (Run strat c txs s) = runV fuel p (execPlan strat bl s).
Proof. exact (Run_planned strat c txs bl s fuel p). Qed.
Print Assumptions C49_follows_the_plan.
Theorem C49_one_plan c txs : regular c txs -> exists bl, planned c txs bl /\ forall bl', planned c txs bl' -> bl' = bl.
Proof. exact (plan_unique c txs). Qed.
Print Assumptions C49_one_plan.
(** every transaction up to the end time has its block; the strategy starts once, at the first transaction at
    or after the start time, and is rebalanced only after that *)
Theorem C49_starts_once c txs bl : planned c txs bl ->
  map bTx bl = upTo (cEnd c) txs /\ count bInit bl <= 1 /\
  (count bInit bl = 1 <-> exists t, In t (upTo (cEnd c) txs) /\ cStart c <= txTime t) /\
  forall before b after, bl = before ++ b :: after ->
    (bInit b = true <-> cStart c <= txTime (bTx b) /\ forall b', In b' before -> txTime (bTx b') < cStart c) /\
    (bRebalance b = true -> exists b', In b' (before ++ [b]) /\ bInit b' = true).
Proof. exact (starts_once c txs bl). Qed.
Print Assumptions C49_starts_once.

Definition someTxs : list Transaction :=
  [mkTx "Mint" (10 ^ 19) 0 0 (-120) 120 10; mkTx "Swap" 0 (10 ^ 17) (2 ^ 256 - 1) 0 0 20; mkTx "Swap" 0 (2 ^ 256 - 5) (10 ^ 17) 0 0 30;
   mkTx "Flash" 0 1000 0 0 0 40; mkTx "Burn" (10 ^ 18) 0 0 (-120) 120 50; mkTx "Swap" 0 (10 ^ 17) 0 0 0 60].
Definition someConfig : Config := mkConfig 15 55 10 20 1.
Example C49_case : exists q tr r, runV 50 (seedPool startPool) (Run (strategyOf (V2)) someConfig someTxs st0) = Ok (q, tr, r) /\
  map fst tr <> [] /\ length (snd r) = 3%nat /\ length tr = 17%nat /\
  upTo (cEnd someConfig) someTxs = firstn 5 someTxs /\ regular someConfig someTxs.
Proof.
  eexists. eexists. eexists. split; [vm_compute; reflexivity|]. split; [discriminate|]. split; [vm_compute; reflexivity|]. split; [vm_compute; reflexivity|].
  split; [reflexivity|]. unfold regular, someTxs, someConfig; cbn [cUpdate cSnapshot cPrice]. repeat split; try lia. repeat constructor; cbn; lia.
Qed.
Example C49_case_plan : planned someConfig someTxs
  [mkBlock false true false false (nth 0 someTxs (mkTx "" 0 0 0 0 0 0)); mkBlock true true false false (nth 1 someTxs (mkTx "" 0 0 0 0 0 0));
   mkBlock false true false true (nth 2 someTxs (mkTx "" 0 0 0 0 0 0)); mkBlock false true true true (nth 3 someTxs (mkTx "" 0 0 0 0 0 0));
   mkBlock false true false true (nth 4 someTxs (mkTx "" 0 0 0 0 0 0))].
Proof. apply (plan_planned someConfig someTxs). destruct C49_case as (q & tr & r & H). apply H. Qed.
Example C49_case_market : exists q tr r, runV 50 (seedPool startPool) (Run (strategyOf NoProvision) someConfig someTxs st0) = Ok (q, tr, r) /\
  map fst tr = [OMint (-120) 120 (10 ^ 19); OExactInput (10 ^ 17) "A" 0; OExactInput (10 ^ 17) "B" 0; OFlash 1000 0; OBurn (-120) 120 (10 ^ 18)].
Proof. eexists. eexists. eexists. split; vm_compute; reflexivity. Qed.

(** The snapshots.  With [s] the time at which the strategy started, the value snapshot number n+1 (and the
    rebalance number n+1) is due at s + (n+1) * interval and taken at the first transaction from then on at
    which the previous ones have been taken; price snapshot number n+1 is due after n * interval.  At most one
    of each happens per transaction, so none is taken twice. *)
Theorem C50_snapshots c txs bl before b after : planned c txs bl -> bl = before ++ b :: after ->
  (bSnapshot b = true <-> exists t0, find (fun t => cStart c <=? txTime t) (map bTx (before ++ [b])) = Some t0 /\
     txTime t0 + (count bSnapshot before + 1) * cSnapshot c <= txTime (bTx b)) /\
  (bRebalance b = true <-> exists t0, find (fun t => cStart c <=? txTime t) (map bTx (before ++ [b])) = Some t0 /\
     txTime t0 + (count bRebalance before + 1) * cUpdate c <= txTime (bTx b)) /\
  (bPrice b = true <-> count bPrice before * cPrice c < txTime (bTx b)).
Proof. exact (snapshots_due c txs bl before b after). Qed.
Print Assumptions C50_snapshots.
(** one value is recorded at the start, one per value snapshot, one at the end *)
Theorem C50_values_recorded S (strat : Strat S) c txs bl s fuel p q tr r : regular c txs -> planned c txs bl ->
  runV fuel p (Run strat c txs s) = Ok (q, tr, r) ->
  Z.of_nat (length (snd r)) = count bInit bl + count bSnapshot bl + 1.
Proof. exact (values_recorded strat c txs bl s fuel p q tr r). Qed.
Print Assumptions C50_values_recorded.
(** the price snapshots count from time 0: with timestamps large enough, every transaction takes one, whatever
    the interval is meant to be *)
Theorem C50_price_snapshot_at_every_transaction c txs bl : regular c txs -> planned c txs bl ->
  (forall t, In t txs -> Z.of_nat (length txs) * cPrice c < txTime t) -> Forall (fun b => bPrice b = true) bl.
Proof. exact (price_every_tx c txs bl). Qed.
Print Assumptions C50_price_snapshot_at_every_transaction.
(** with the interval of main.go (864 s) and today's times: two snapshots a second apart *)
Example C50_case : exists bl, planned (mkConfig 0 (10 ^ 10) 86400 3600 864) [mkTx "Swap" 0 5 0 0 0 1620000000; mkTx "Swap" 0 5 0 0 0 1620000001] bl /\ map bPrice bl = [true; true].
Proof.
  eexists. split.
  - apply plan_planned. unfold regular. cbn [cUpdate cSnapshot cPrice]. repeat split; try lia. repeat constructor; cbn; lia.
  - vm_compute. reflexivity.
Qed.
