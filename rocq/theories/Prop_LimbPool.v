(** Prop_LimbPool.v -- C90: the pool whose numbers are kept in 64-bit words is the pool on integers. *)
From Coq Require Import String.
From Verif Require Import Base U256 U256Z Ledger TickMath TickData Pool PoolTable PoolInv PoolHist PoolOps LimbMath LimbFacts LimbPool LimbPoolFacts Prop_Limb.
From Verif Require Prop_Pool PoolSpec.
Ltac Zify.zify_post_hook ::= idtac.
Open Scope Z_scope.

(** [tickBy spells], [infoBy spells], [poolBy spells], ... (LimbPoolFacts.v): two records agree field by field, every
    number of the one being spelled by the words of the other ([spells] and [alike] are those of Prop_Limb.v) *)
Definition samePool : PoolL -> Pool -> Prop := poolBy spells.
(** the same pool and the same two amounts *)
Definition sameOut : PoolL * Int * Int -> Pool * Z * Z -> Prop := outBy spells.

Lemma pool_is q p : samePool q p -> poolBy is q p.
Proof. apply poolBy_impl. intros x v. apply spells_is. Qed.
Lemma is_pool q p : poolBy is q p -> samePool q p.
Proof. apply poolBy_impl. intros x v. apply spells_is. Qed.
Lemma alike_pool m r : sim (poolBy is) m r -> alike samePool m r.
Proof. apply alike_sim. exact is_pool. Qed.
Lemma alike_out m r : sim (outBy is) m r -> alike sameOut m r.
Proof. apply alike_sim. intros x v. apply outBy_impl. intros y w. apply spells_is. Qed.

(** * C90: every exported operation, on the same pool with the same arguments, returns the same, or panics, or runs out
    of fuel on both sides *)
Theorem C90_new t0 t1 fee x a : spells x a -> alike samePool (NewPoolL t0 t1 fee x) (NewPool t0 t1 fee a).
Proof. exact (fun X => alike_pool _ _ (sim_NewPool t0 t1 fee x a (is_spells _ _ X))). Qed.
Print Assumptions C90_new.

Theorem C90_positions q p lower upper x a : samePool q p -> spells x a ->
  alike samePool (MintL q lower upper x) (Mint p lower upper a) /\
  alike samePool (BurnL q lower upper x) (Burn p lower upper a) /\
  alike sameOut (MintStrategyL q lower upper x) (MintStrategy p lower upper a) /\
  alike sameOut (BurnStrategyL q lower upper x) (BurnStrategy p lower upper a) /\
  alike sameOut (CollectStrategyL q lower upper) (CollectStrategy p lower upper).
Proof.
  exact (fun P X => conj (alike_pool _ _ (sim_Mint q p lower upper x a (pool_is _ _ P) (is_spells _ _ X)))
    (conj (alike_pool _ _ (sim_Burn q p lower upper x a (pool_is _ _ P) (is_spells _ _ X)))
    (conj (alike_out _ _ (sim_MintStrategy q p lower upper x a (pool_is _ _ P) (is_spells _ _ X)))
    (conj (alike_out _ _ (sim_BurnStrategy q p lower upper x a (pool_is _ _ P) (is_spells _ _ X)))
          (alike_out _ _ (sim_CollectStrategy q p lower upper (pool_is _ _ P))))))).
Qed.
Print Assumptions C90_positions.

Theorem C90_swaps fuel q p token x y a b : samePool q p -> spells x a -> spells y b ->
  alike sameOut (ExactInputSwapL fuel q x token y) (ExactInputSwap fuel p a token b) /\
  alike sameOut (ExactOutputSwapL fuel q x token y) (ExactOutputSwap fuel p a token b) /\
  alike samePool (FlashL q x y) (Flash p a b) /\ samePool (PoolCloneL q) (PoolClone p).
Proof.
  exact (fun P X Y => conj (alike_out _ _ (sim_in fuel q p x y a b token (pool_is _ _ P) (is_spells _ _ X) (is_spells _ _ Y)))
    (conj (alike_out _ _ (sim_out fuel q p x y a b token (pool_is _ _ P) (is_spells _ _ X) (is_spells _ _ Y)))
    (conj (alike_pool _ _ (sim_Flash q p x y a b (pool_is _ _ P) (is_spells _ _ X) (is_spells _ _ Y)))
          (is_pool _ _ (is_PoolClone q p (pool_is _ _ P)))))).
Qed.
Print Assumptions C90_swaps.

(** * whole histories *)
(** [opBy spells]: the same operation with arguments in words and in integers *)
Definition sameOp : opL -> op -> Prop := opBy spells.
Fixpoint steps (fuel : nat) (p : Pool) (os : list op) : res Pool :=
  match os with [] => Ok p | o :: os => do p <- step fuel p o; steps fuel p os end.

Lemma sim_fst m r : sim (outBy is) m r -> sim (poolBy is) (do z <- m; Ok (fst (fst z))) (do z <- r; Ok (fst (fst z))).
Proof. intros H. eapply sim_bind; [exact H|]. intros x v (P & _). exact P. Qed.
Lemma sim_stepL fuel q p o c : poolBy is q p -> sameOp o c -> sim (poolBy is) (stepL fuel q o) (step fuel p c).
Proof.
  intros P S. apply (opBy_impl spells is (fun x v => is_spells x v)) in S. destruct o, c; cbn [opBy] in S; try contradiction;
    repeat match goal with H : _ /\ _ |- _ => destruct H end; subst; cbn [stepL step].
  - apply sim_Mint; assumption.
  - apply sim_Burn; assumption.
  - apply sim_fst, sim_MintStrategy; assumption.
  - apply sim_fst, sim_BurnStrategy; assumption.
  - apply sim_fst, sim_CollectStrategy; assumption.
  - apply sim_Flash; assumption.
  - apply sim_fst, sim_in; assumption.
  - apply sim_fst, sim_out; assumption.
Qed.
Lemma sim_steps fuel os cs : Forall2 sameOp os cs -> forall q p, poolBy is q p -> sim (poolBy is) (stepsL fuel q os) (steps fuel p cs).
Proof.
  intros S. induction S as [|o c os cs S _ IH]; intros q p P; [exact P|]. cbn [stepsL steps].
  eapply sim_bind; [apply sim_stepL; eassumption|]. intros q' p' P'. apply IH. exact P'.
Qed.

(** any sequence of operations on a new pool *)
Theorem C90_history fuel t0 t1 fee x a os cs : spells x a -> Forall2 sameOp os cs ->
  alike samePool (do q <- NewPoolL t0 t1 fee x; stepsL fuel q os) (do p <- NewPool t0 t1 fee a; steps fuel p cs).
Proof.
  intros X S. apply alike_pool. eapply sim_bind; [apply sim_NewPool; apply is_spells; exact X|]. intros q p P. apply sim_steps; assumption.
Qed.
Print Assumptions C90_history.

(** the pools of words reachable from a new one by allowed operations, with the ledger of their positions: every one of
    them spells a pool that [reach] (PoolOps.v) speaks about, so whatever is proved of those is true of the words *)
Inductive reachL : hist -> PoolL -> Prop :=
| reachL_new t0 t1 fee x a q : spells x a -> NewPoolL t0 t1 fee x = Ok q -> reachL [] q
| reachL_step h q p fuel o c q' : reachL h q -> samePool q p -> sameOp o c -> allowed h p c -> stepL fuel q o = Ok q' -> reachL (log h c) q'.

Lemma samePool_unique q p p' : samePool q p -> samePool q p' -> p = p'.
Proof.
  assert (U : forall z v w, spells z v -> spells z w -> v = w) by (intros z v w [_ <-] [_ <-]; reflexivity).
  assert (UT : forall x v w, tickBy spells x v -> tickBy spells x w -> v = w).
  { intros x [] [] (A0 & A1 & A2 & A3 & A4) (B0 & B1 & B2 & B3 & B4). cbn in *. f_equal; try congruence; eapply U; eassumption. }
  assert (UL : forall l m n, Forall2 (tickBy spells) l m -> Forall2 (tickBy spells) l n -> m = n).
  { intros l. induction l as [|x l IH]; intros m n A B; inversion A; inversion B; subst; f_equal; eauto. }
  assert (UI : forall x v w, infoBy spells x v -> infoBy spells x w -> v = w).
  { intros x [] [] (A0 & A1 & A2 & A3 & A4) (B0 & B1 & B2 & B3 & B4). cbn in *. f_equal; eapply U; eassumption. }
  assert (UP : forall l m n, posBy spells l m -> posBy spells l n -> m = n).
  { intros l. induction l as [|[k x] l IH]; intros m n A B; inversion A as [|? [k1 i1] ? ? [E1 I1] A']; inversion B as [|? [k2 i2] ? ? [E2 I2] B']; subst; [reflexivity|].
    cbn [fst snd] in *. subst k1 k2. f_equal; [f_equal; eapply UI; eassumption|]. apply IH; assumption. }
  intros ((A1 & A2 & A3 & A4 & A5) & (A6 & A7 & A8 & A9) & (A10 & A11) & A12) ((B1 & B2 & B3 & B4 & B5) & (B6 & B7 & B8 & B9) & (B10 & B11) & B12).
  destruct p as [? ? ? ? ? ? ? ? ? [? ?] ?], p' as [? ? ? ? ? ? ? ? ? [? ?] ?]; cbn in *.
  f_equal; try congruence; try (eapply U; eassumption); [f_equal; [eapply UL; eassumption|congruence]|eapply UP; eassumption].
Qed.

Theorem C90_carry h q : reachL h q -> exists p, samePool q p /\ reach h p.
Proof.
  intros H. induction H as [t0 t1 fee x a q X E|h q p fuel o c q' H (p1 & P1 & R1) P S A E].
  - pose proof (sim_NewPool t0 t1 fee x a (is_spells _ _ X)) as N. rewrite E in N. destruct (NewPool t0 t1 fee a) as [p| |] eqn:F; cbn in N; try contradiction.
    exists p. split; [apply is_pool; exact N|]. eapply reach_new. exact F.
  - rewrite (samePool_unique q p1 p P1 P) in R1. pose proof (sim_stepL fuel q p o c (pool_is _ _ P) S) as N. rewrite E in N.
    destruct (step fuel p c) as [p'| |] eqn:F; cbn in N; try contradiction. exists p'. split; [apply is_pool; exact N|]. eapply reach_step; eassumption.
Qed.
Print Assumptions C90_carry.

(** for instance C34: the words of the liquidity spell the liquidity of the positions in range *)
Theorem C90_liquidity h q : reachL h q -> spells (qLiquidity q) (active h (qTickCurrent q)).
Proof.
  intros H. destruct (C90_carry h q H) as (p & P & R). destruct (Prop_Pool.C34_liquidity h p R) as (E & _).
  destruct P as ((_ & _ & _ & _ & T) & (_ & L & _) & _). rewrite E, <- T in L. exact L.
Qed.
Print Assumptions C90_liquidity.

(** a pool of words with two positions, and a swap that crosses tick 180, where one of them ends: the words of the net
    liquidity there are those of a negative number *)
Definition q0 : PoolL := Eval vm_compute in match NewPoolL "A" "B" 3000 (mkInt 2918109948755881831 4316388712 0 0) with Ok q => q | _ => mkPoolL "" "" 0 (NewInt 0) (NewInt 0) (NewInt 0) (NewInt 0) 0 0 (mkTickDataL [] 0) [] end.
Definition q2 : PoolL := Eval vm_compute in match stepsL 20 q0 [LMint 60 180 (NewInt (10 ^ 18)); LMintStrategy 0 600 (NewInt (10 ^ 18))] with Ok q => q | _ => q0 end.
Lemma q0_new : NewPoolL "A" "B" 3000 (mkInt 2918109948755881831 4316388712 0 0) = Ok q0.
Proof. vm_cast_no_check (eq_refl (Ok q0)). Qed.
Example C90_case : stepsL 20 q0 [LMint 60 180 (NewInt (10 ^ 18)); LMintStrategy 0 600 (NewInt (10 ^ 18))] = Ok q2 /\
  (exists t, nth_error (ticksOf (qData q2)) 2 = Some t /\ tIndex t = 180 /\ tNet t = mkInt 17446744073709551616 18446744073709551615 18446744073709551615 18446744073709551615) /\
  qLiquidity q2 = NewInt (2 * 10 ^ 18) /\
  (exists q r s, ExactInputSwapL 20 q2 (NewInt (10 ^ 16)) "B" (mkInt 14320184672128977573 4333794520 0 0) = Ok (q, r, s) /\
     qLiquidity q = NewInt (10 ^ 18) /\ qTickCurrent q = 180 /\ qGrowth1 q = mkInt 10995447671681179514 224946977257399 0 0 /\
     r = mkInt 18438751342712424261 18446744073709551615 18446744073709551615 18446744073709551615) /\
  MintStrategyL q2 600 0 (NewInt 1) = Panic.
Proof.
  refine (conj _ (conj _ (conj _ (conj _ _)))); try (vm_compute; reflexivity).
  - eexists. repeat match goal with |- _ /\ _ => refine (conj _ _) end; vm_compute; reflexivity.
  - eexists _, _, _. split; [vm_compute; reflexivity|]. repeat match goal with |- _ /\ _ => refine (conj _ _) end; vm_compute; reflexivity.
Qed.
(** and it is reachable, with its ledger *)
Example C90_reach_case : samePool q0 PoolSpec.good0 /\ allowed [] PoolSpec.good0 (OMint 60 180 (10 ^ 18)) /\
  exists q, MintL q0 60 180 (NewInt (10 ^ 18)) = Ok q /\ reachL (log [] (OMint 60 180 (10 ^ 18))) q.
Proof.
  assert (S : spells (mkInt 2918109948755881831 4316388712 0 0) 79623317895830914510639640423) by (vm_compute; intuition discriminate).
  assert (A : spells (NewInt (10 ^ 18)) (10 ^ 18)) by (vm_compute; intuition discriminate).
  pose proof q0_new as E.
  assert (P : samePool q0 PoolSpec.good0).
  { unfold samePool, poolBy, dataBy, posBy.
    repeat match goal with
    | |- _ /\ _ => refine (conj _ _)
    | |- Forall2 _ _ _ => constructor
    | |- spells _ _ => vm_compute; intuition discriminate
    | |- _ = _ => reflexivity
    end. }
  assert (B : allowed [] PoolSpec.good0 (OMint 60 180 (10 ^ 18))) by (vm_compute; intuition discriminate).
  assert (M : exists q, MintL q0 60 180 (NewInt (10 ^ 18)) = Ok q) by (eexists; vm_compute; reflexivity).
  destruct M as [q M]. split; [exact P|]. split; [exact B|]. exists q. split; [exact M|].
  apply (reachL_step [] q0 PoolSpec.good0 20 (LMint 60 180 (NewInt (10 ^ 18))) (OMint 60 180 (10 ^ 18))).
  - exact (reachL_new "A" "B" 3000 _ _ q0 S E).
  - exact P.
  - split; [reflexivity|]. split; [reflexivity|exact A].
  - exact B.
  - exact M.
Qed.
