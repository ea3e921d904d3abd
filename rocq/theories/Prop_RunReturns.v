(** Prop_RunReturns.v -- C80: in an ordinary market a run returns. *)
From Coq Require Import String.
From Verif Require Import Base U256Z SwapMath TickMath Float64 TickData Ledger Pool PoolHist PoolSpec PoolOps Prices PricesFacts Client Strategy Executor Plan StrategyBudget Cash Money MoneyEx Main MainFacts MainEx World RunReturns RunCheck MainReturns.
Ltac Zify.zify_post_hook ::= idtac.
Open Scope Z_scope.

(** [cash]: a pool reached by calls, with [r0] and [r1] tokens, in which the strategy has nothing.  [steady] follows the run: every call respects
    [guard] (World.v: ticks that land on their own bit, liquidity below [cap], a strategy's position of at least [cap] / 2^63 with a key of its own, the
    tokens ever put in below 2^128, burns covered, swaps that stop before 2^128 and before a misplaced tick), and whenever the strategy places
    positions it aims at ranges there are.  Neither says that a call or a computation returns. *)
Theorem C80_returns fuel cap k c txs s h p r0 r1 u0 u1 : (allRounds <= fuel)%nat -> cap <= 2 ^ 127 ->
  cash true true h [] p r0 r1 -> Token0 p <> Token1 p -> SqrtRatio p < 2 ^ 128 -> total h <= cap ->
  sPositions s = [] -> 0 <= sAmount0 s -> sAmount0 s + r0 <= u0 < 2 ^ 128 -> 0 <= sAmount1 s -> sAmount1 s + r1 <= u1 < 2 ^ 128 ->
  (keepsHistory k = true -> exists n sq, ring n sq (sHistory s) /\ 0 < Z.of_nat n < 2 ^ 63) ->
  steady fuel cap k (plan c false MaxInt64 MaxInt64 0 txs) (mkWorld h [] p r0 r1 u0 u1) s ->
  exists q tr r, runV fuel p (Run (strategyOf k) c txs s) = Ok (q, tr, r).
Proof. exact (fun H1 H2 => run_returns fuel cap H1 H2 k c txs s h p r0 r1 u0 u1). Qed.
Print Assumptions C80_returns.
(** what is asked of the run can be computed: if the program [startB], given few rounds, says yes, the run returns with all rounds *)
Theorem C80_checked n cap fuel k c txs h p r0 r1 u0 u1 s : (n <= fuel)%nat -> (allRounds <= fuel)%nat ->
  cash true true h [] p r0 r1 -> (keepsHistory k = true -> exists n sq, ring n sq (sHistory s) /\ 0 < Z.of_nat n < 2 ^ 63) ->
  startB n cap k c txs h p r0 r1 u0 u1 s = true -> exists q tr r, runV fuel p (Run (strategyOf k) c txs s) = Ok (q, tr, r).
Proof. exact (fun H => checked_returns n cap fuel H k c txs h p r0 r1 u0 u1 s). Qed.
Print Assumptions C80_checked.

(** two strategies, one that keeps prices and one that swaps, over a mint, swaps and a flash, with a rebalance in between *)
Definition runHistory : Prices := Eval vm_compute in match NewPrices 3 with Ok h => h | _ => mkPrices [] 0 0 end.
Definition runSt : St := with_history monSt runHistory.
Definition runTxs : list Transaction :=
  [mkTx "Mint" (10 ^ 19) 0 0 (-6000) 6000 10; mkTx "Swap" 0 0 (2 * 10 ^ 15) 0 0 20; mkTx "Flash" 0 1000000 0 0 0 40; mkTx "Burn" (10 ^ 18) 0 0 (-6000) 6000 50].
Definition runConfig : Config := mkConfig 15 55 20 20 1.
Definition runKinds : list Kind := [BollingerBandsFillUp 4000; IntervalAroundPriceAndSwap 60].
Lemma run_history k : keepsHistory k = true -> exists n sq, ring n sq (sHistory runSt) /\ 0 < Z.of_nat n < 2 ^ 63.
Proof. intros _. exists 3%nat, []. split; [apply (ring_new 3); [split; reflexivity|reflexivity]|split; reflexivity]. Qed.
Lemma run_checks : forallb (fun k => startB 50 (2 ^ 90) k runConfig runTxs [] good0 0 0 (10 ^ 16) (3 * 10 ^ 16) runSt) runKinds = true.
Proof. vm_cast_no_check (eq_refl true). Qed.
Example C80_case fuel k : (50 <= fuel)%nat -> (allRounds <= fuel)%nat -> In k runKinds ->
  exists q tr r, runV fuel good0 (Run (strategyOf k) runConfig runTxs runSt) = Ok (q, tr, r).
Proof.
  intros H1 H2 Hk. pose proof run_checks as H. rewrite forallb_forall in H.
  exact (C80_checked _ _ _ _ _ _ _ _ _ _ _ _ _ H1 H2 good0_cash (run_history k) (H k Hk)).
Qed.
(** the first transaction mints, the second starts the strategy, the third is preceded by a value, a rebalance and a price *)
Example C80_plan : map (fun b => (bInit b, bSnapshot b, bRebalance b)) (plan runConfig false MaxInt64 MaxInt64 0 runTxs) =
  [(false, false, false); (true, false, false); (false, true, true); (false, false, false)].
Proof. vm_compute. reflexivity. Qed.
(** with a cap that the market's mint alone reaches the program says no *)
Example C80_refuses : startB 50 (10 ^ 18) (FillUp 60) runConfig runTxs [] good0 0 0 (10 ^ 16) (3 * 10 ^ 16) runSt = false.
Proof. vm_compute. reflexivity. Qed.

(** ** the whole program *)
(** if each of the runs keeps to the bounds, main cannot crash whatever the scheduler does, and every run returns; by C76_ends and C76_extends
    the program then ends with a file *)
Theorem C80_program ln fuel cap hours txs p first last n : (allRounds <= fuel)%nat -> 0 <= cap <= 2 ^ 127 ->
  newPool = Ok p -> setup hours txs = Ok (first, last, n) -> (forall i, Z.of_nat i < n -> mainSteady fuel cap hours first txs p i) ->
  (exists f, mainAlone ln fuel hours txs = Ok f) /\ forall schedule, mainUnder ln fuel schedule hours txs <> Crash.
Proof. exact (fun H1 H2 E1 E2 HS => conj (program_returns ln fuel cap H1 H2 hours txs p first last n E1 E2 HS) (fun sc => program_no_crash ln fuel cap H1 H2 hours txs p first last n sc E1 E2 HS)). Qed.
Print Assumptions C80_program.
Example C80_program_case fuel : (50 <= fuel)%nat -> newPool = Ok mainPool /\ setup 744 mintOnly = Ok (1620158974, 1620158974, 65535) /\
  forall i, Z.of_nat i < 65535 -> mainSteady fuel (2 ^ 90) 744 1620158974 mintOnly mainPool i.
Proof. intros H. split; [exact mainPool_new|]. split; [vm_compute; reflexivity|]. intros i _. now apply mintOnly_steady. Qed.
