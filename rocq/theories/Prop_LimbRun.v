(** Prop_LimbRun.v -- C91: a back-test whose numbers are kept in 64-bit words is the back-test on integers. *)
From Coq Require Import String.
From Verif Require PoolSpec.
From Verif Require Import Base U256 U256Z Pool PoolOps Prices Client Strategy Executor LimbMath LimbFacts LimbPool LimbPoolFacts LimbRun LimbRunFacts Prop_Limb Prop_LimbPool.
Ltac Zify.zify_post_hook ::= idtac.
Open Scope Z_scope.

(** [stBy spells], [txBy spells], [traceBy spells] (LimbRunFacts.v): strategies, transactions and lists of calls agree field
    by field, every number of the one being spelled by the words of the other *)
Definition sameSt : StL -> St -> Prop := stBy spells.
Definition sameTx : TransactionL -> Transaction -> Prop := txBy spells.
Definition same2 : Int * Int -> Z * Z -> Prop := both spells spells.
(** the same pool, the same calls with the same results, and related values *)
Definition sameRun {A B} (R : A -> B -> Prop) (x : PoolL * traceL * A) (v : Pool * trace * B) : Prop :=
  samePool (fst (fst x)) (fst (fst v)) /\ traceBy spells (snd (fst x)) (snd (fst v)) /\ R (snd x) (snd v).

Lemma to_spells x v : is x v -> spells x v. Proof. apply spells_is. Qed.
Lemma st_is s t : sameSt s t -> stBy is s t. Proof. apply stBy_impl. intros x v. apply spells_is. Qed.
Lemma is_st s t : stBy is s t -> sameSt s t. Proof. apply stBy_impl. exact to_spells. Qed.
Lemma is_two x v : both is is x v -> same2 x v. Proof. intros [A B]. split; apply to_spells; assumption. Qed.
Lemma alike_run {A B} (R S : A -> B -> Prop) m r : (forall x v, R x v -> S x v) -> sim (ranBy is R) m r -> alike (sameRun S) m r.
Proof.
  intros H. apply alike_sim. intros x v (P & T & K). split; [apply is_pool; exact P|]. split; [|auto]. revert T. apply traceBy_impl. exact to_spells.
Qed.
Lemma alike_tree {A B} (R S : A -> B -> Prop) fuel m r q p : (forall x v, R x v -> S x v) -> simM R m r -> samePool q p ->
  alike (sameRun S) (runL fuel q m) (runV fuel p r).
Proof. intros H K P. eapply alike_run; [exact H|]. apply sim_run; [exact K|apply pool_is; exact P]. Qed.

(** * the twelve strategies: the same method on the same state and pool makes the same calls, leaves the same pool and
    state and returns the same amounts, or panics, or runs out of fuel *)
Theorem C91_strategies fuel k s t q p : sameSt s t -> samePool q p ->
  alike (sameRun (both sameSt same2)) (runL fuel q (InitL k s)) (runV fuel p (Init k t)) /\
  alike (sameRun (both sameSt same2)) (runL fuel q (BurnAllL k s)) (runV fuel p (BurnAll k t)) /\
  alike (sameRun same2) (runL fuel q (GetAmountsL k s)) (runV fuel p (GetAmounts k t)) /\
  alike (sameRun sameSt) (runL fuel q (MakeSnapshotL k s)) (runV fuel p (MakeSnapshot k t)) /\
  alike (sameRun (both sameSt (fun x v => match x, v with Some x, Some v => same2 x v | None, None => True | _, _ => False end)))
    (runL fuel q (RebalanceL k s)) (runV fuel p (Rebalance k t)).
Proof.
  intros S P. apply st_is in S. assert (SB : forall x v, isBurnt x v -> both sameSt same2 x v) by (intros x v [A B]; split; [apply is_st; exact A|apply is_two; exact B]).
  split; [|split; [|split; [|split]]].
  - eapply alike_tree; [exact SB|apply simM_Init; exact S|exact P].
  - eapply alike_tree; [exact SB|apply simM_BurnAll; exact S|exact P].
  - eapply alike_tree; [exact is_two|apply simM_GetAmounts; exact S|exact P].
  - eapply alike_tree; [exact is_st|apply simM_MakeSnapshot; exact S|exact P].
  - eapply alike_tree; [|apply simM_Rebalance; exact S|exact P]. intros [x y] [v w] [A B]. split; [apply is_st; exact A|]. cbn [snd] in *.
    destruct y, w; cbn [isSome2] in B; try contradiction; [apply is_two; exact B|exact I].
Qed.
Print Assumptions C91_strategies.

(** * a whole back-test: the strategy is made, clones the pool, and replays the transactions *)
Definition backtestL (fuel : nat) (k : Kind) (x y : Int) (n : Z) (c : Config) (q : PoolL) (txs : list TransactionL) : res (PoolL * traceL * (StL * list Int)) :=
  do s <- NewStrategyL k x y n;
  do _ <- CreateExecutionL c txs;
  runL fuel (PoolCloneL q) (RunL (strategyOfL k) c txs s).
Definition backtest (fuel : nat) (k : Kind) (a b : Z) (n : Z) (c : Config) (p : Pool) (txs : list Transaction) : res (Pool * trace * (St * list Z)) :=
  do s <- NewStrategy k a b n;
  do _ <- CreateExecution c txs;
  runV fuel (PoolClone p) (Run (strategyOf k) c txs s).

Theorem C91_backtest fuel k x y a b n c q p xs ts : spells x a -> spells y b -> samePool q p -> Forall2 sameTx xs ts ->
  alike (sameRun (both sameSt (Forall2 spells))) (backtestL fuel k x y n c q xs) (backtest fuel k a b n c p ts).
Proof.
  intros X Y P T. apply is_spells in X. apply is_spells in Y. apply pool_is in P.
  assert (U : Forall2 (txBy is) xs ts) by (eapply Forall2_impl2; [|exact T]; intros u v; apply txBy_impl; intros z w; apply spells_is).
  apply (alike_run (both (stBy is) (Forall2 is))).
  - intros [s l] [t m] [S L]. split; [apply is_st; exact S|]. eapply Forall2_impl2; [exact to_spells|exact L].
  - unfold backtestL, backtest. eapply sim_bind; [apply sim_NewStrategy; eassumption|]. intros s t S. rewrite (sim_Create c xs ts U).
    eapply sim_bind; [apply sim_refl|]. intros _ _ _. apply sim_run; [|apply is_PoolClone; exact P]. apply simM_Run; [apply same_strategies|exact U|exact S].
Qed.
Print Assumptions C91_backtest.

(** a back-test in words: FillUp is started at time 10, a snapshot is taken at 20, it rebalances at 30 *)
Definition exTxs : list TransactionL :=
  [mkTxL "Mint" (NewInt (10 ^ 18)) (NewInt 0) (NewInt 0) 60 180 10;
   mkTxL "Flash" (NewInt 0) (NewInt (10 ^ 12)) (NewInt (10 ^ 13)) 0 0 20;
   mkTxL "Burn" (NewInt (5 * 10 ^ 17)) (NewInt 0) (NewInt 0) 60 180 30].
Definition exConfig : Config := mkConfig 5 100 20 10 1000.
Example C91_case : exists q tr s l, backtestL 20 (FillUp 120) (NewInt (10 ^ 15)) (NewInt (10 ^ 15)) 0 exConfig q0 exTxs = Ok (q, tr, (s, l)) /\
  (length tr = 15%nat /\ nth_error tr 9 = Some (LMintStrategy 0 60 (NewInt 94496953636324534), (NewInt 0, NewInt 283902306574027))) /\
  sAmount0L s = NewInt 1000000376653292 /\ sAmount1L s = NewInt 1000003766532936 /\
  l = [NewInt 1990099009900990; NewInt 1990099009900987; NewInt 1990099009900987; NewInt 1990103115794812].
Proof.
  eexists _, _, _, _. split; [vm_compute; reflexivity|]. repeat match goal with |- _ /\ _ => refine (conj _ _) end; vm_compute; reflexivity.
Qed.
(** and the hypotheses of the theorem are met by it *)
Example C91_same : spells (NewInt (10 ^ 15)) (10 ^ 15) /\ samePool q0 PoolSpec.good0 /\
  Forall2 sameTx exTxs [mkTx "Mint" (10 ^ 18) 0 0 60 180 10; mkTx "Flash" 0 (10 ^ 12) (10 ^ 13) 0 0 20; mkTx "Burn" (5 * 10 ^ 17) 0 0 60 180 30].
Proof.
  split; [vm_compute; intuition discriminate|]. split; [exact (proj1 C90_reach_case)|].
  repeat constructor; vm_compute; discriminate.
Qed.
