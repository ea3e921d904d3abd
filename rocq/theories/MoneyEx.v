(** MoneyEx.v -- two runs for C73: one with a full account, one that shows why the ranges of the strategy need keys of their own. *)
From Coq Require Import String QArith.
From Verif Require Import Base U256Z SwapMath TickMath TickMathFacts TickAccuracy TickData Ledger Pool PoolInv PoolHist PoolOps PoolPos PoolSpec
  Prices Client Strategy Executor Plan StrategyFacts StrategyBudget ReplayFacts Solvency Cash Money.
Ltac Zify.zify_post_hook ::= idtac.
Open Scope Z_scope.

Definition monTxs : list Transaction :=
  [mkTx "Mint" (10 ^ 18) 0 0 60 180 10; mkTx "Swap" 0 0 (2 * 10 ^ 15) 0 0 20; mkTx "Swap" 0 (10 ^ 15) 0 0 0 30;
   mkTx "Flash" 0 1000000 0 0 0 40; mkTx "Burn" (10 ^ 18) 0 0 60 180 50; mkTx "Swap" 0 (10 ^ 17) 0 0 0 60].
Definition monConfig : Config := mkConfig 15 55 20 20 1.
Definition monSt : St := mkSt (10 ^ 16) (3 * 10 ^ 16) [] (mkPrices [] 0 0) 0 0 0 false.
Definition runOf (k : Kind) (c : Config) (txs : list Transaction) (p : Pool) := runV 50 p (Run (strategyOf k) c txs monSt).
Definition traceOf {A} (r : res (Pool * trace * A)) : trace := match r with Ok x => snd (fst x) | _ => [] end.
(** the calls of the executor's market are the historical ones; the strategies of the two runs never swap *)
Definition tagOf (c : op * (Z * Z)) : bool := match fst c with OMintStrategy _ _ _ | OBurnStrategy _ _ _ | OCollectStrategy _ _ => true | _ => false end.
Definition monTT : tagged := Eval vm_compute in map (fun c => (tagOf c, c)) (traceOf (runOf (FillUp 120) monConfig monTxs good0)).

Definition mon1 : Pool := Eval vm_compute in pairOf (apply 50 good0 (OMint 60 180 1000000000000000000)).
Definition mon2 : Pool := Eval vm_compute in pairOf (apply 50 mon1 (OMintStrategy 0 240 1435773979638925478)).
Definition mon3 : Pool := Eval vm_compute in pairOf (apply 50 mon2 (OMintStrategy 0 60 7601962891412870268)).
Definition mon4 : Pool := Eval vm_compute in pairOf (apply 50 mon3 (OExactInput 2000000000000000 "B" 0)).
Definition mon5 : Pool := Eval vm_compute in pairOf (apply 50 mon4 (OExactInput 1000000000000000 "A" 0)).
Definition mon6 : Pool := Eval vm_compute in pairOf (apply 50 mon5 (OBurnStrategy 0 240 1435773979638925478)).
Definition mon7 : Pool := Eval vm_compute in pairOf (apply 50 mon6 (OCollectStrategy 0 240)).
Definition mon8 : Pool := Eval vm_compute in pairOf (apply 50 mon7 (OBurnStrategy 0 60 7601962891412870268)).
Definition mon9 : Pool := Eval vm_compute in pairOf (apply 50 mon8 (OCollectStrategy 0 60)).
Definition mon10 : Pool := Eval vm_compute in pairOf (apply 50 mon9 (OMintStrategy 0 240 1436043368525539256)).
Definition mon11 : Pool := Eval vm_compute in pairOf (apply 50 mon10 (OMintStrategy 0 60 7602656583509007548)).
Definition mon12 : Pool := Eval vm_compute in pairOf (apply 50 mon11 (OFlash 1000000 0)).
Definition mon13 : Pool := Eval vm_compute in pairOf (apply 50 mon12 (OBurn 60 180 1000000000000000000)).
Definition mon14 : Pool := Eval vm_compute in pairOf (apply 50 mon13 (OBurnStrategy 0 240 1436043368525539256)).
Definition mon15 : Pool := Eval vm_compute in pairOf (apply 50 mon14 (OCollectStrategy 0 240)).
Definition mon16 : Pool := Eval vm_compute in pairOf (apply 50 mon15 (OBurnStrategy 0 60 7602656583509007548)).
Definition mon17 : Pool := Eval vm_compute in pairOf (apply 50 mon16 (OCollectStrategy 0 60)).

Lemma mon_clear : clearWay mon4 (2 ^ 96).
Proof.
  intros t r Ht Hn _ E. destruct (Z.eq_dec t (-1)) as [->|N]; [vm_compute in E; injection E as <-; discriminate|].
  assert (t + 1 < 0) as Hlt by lia. apply Z.lt_le_incl. eapply ratio_monotone; [exact Hlt|exact E|vm_compute; reflexivity].
Qed.
Lemma minted_in hs l u : 0 < minted hs l u -> In (l, u) (map (fun e => (eLower e, eUpper e)) hs).
Proof.
  induction hs as [|e hs IH]; [cbn; lia|]. unfold minted in *. cbn [sumOn map In]. intros H.
  destruct (eLower e =? l) eqn:E1; destruct (eUpper e =? u) eqn:E2; cbn [andb ind] in H; [left|right; apply IH; lia..].
  apply Z.eqb_eq in E1, E2. now subst.
Qed.
Ltac ownKeys := let H := fresh in let E := fresh in intros l' u' H E; apply minted_in in H; cbn in H;
  repeat (destruct H as [H|H]; [injection H as <- <-; vm_compute in E; first [discriminate E|split; reflexivity]|]); contradiction H.
Definition monHist : hist := [mkE 0 60 (-7602656583509007548); mkE 0 240 (-1436043368525539256); mkE 60 180 (-1000000000000000000); mkE 0 60 7602656583509007548; mkE 0 240 1436043368525539256; mkE 0 60 (-7601962891412870268); mkE 0 240 (-1435773979638925478); mkE 0 60 7601962891412870268; mkE 0 240 1435773979638925478; mkE 60 180 1000000000000000000].
Definition monOwn : hist := [mkE 0 60 (-7602656583509007548); mkE 0 240 (-1436043368525539256); mkE 0 60 7602656583509007548; mkE 0 240 1436043368525539256; mkE 0 60 (-7601962891412870268); mkE 0 240 (-1435773979638925478); mkE 0 60 7601962891412870268; mkE 0 240 1435773979638925478].
Lemma mon_account : exists i0 i1 o0 o1, account true 50 [] [] good0 monTT monHist monOwn mon17 i0 i1 o0 o1 /\ [i0; i1; o0; o1] = [4996365498566678; 3983208049347102; 5568465532202436; 3396123100611221].
Proof.
  do 4 eexists. split.
  { unfold monTT, monHist, monOwn.
  eapply acc_mint with (p' := mon1) (x0 := 3996365498563678) (x1 := 1983208049347102); [okAllowed|vm_compute; reflexivity|lia|lia|intros []; vm_compute; discriminate|].
  eapply acc_mintS with (p' := mon2); [okAllowed|intros _; ownKeys|vm_compute; reflexivity|].
  eapply acc_mintS with (p' := mon3); [okAllowed|intros _; ownKeys|vm_compute; reflexivity|].
  eapply acc_swap with (p' := mon4); [vm_compute; intuition discriminate|intros H; discriminate H|vm_compute; reflexivity|].
  eapply acc_swap with (p' := mon5); [vm_compute; intuition discriminate|intros _; exists (2 ^ 96); split; [exact mon_clear|vm_compute; reflexivity]|vm_compute; reflexivity|].
  eapply acc_burnS with (p' := mon6); [vm_compute; reflexivity|].
  eapply acc_collect with (p' := mon7); [vm_compute; reflexivity|].
  eapply acc_burnS with (p' := mon8); [vm_compute; reflexivity|].
  eapply acc_collect with (p' := mon9); [vm_compute; reflexivity|].
  eapply acc_mintS with (p' := mon10); [okAllowed|intros _; ownKeys|vm_compute; reflexivity|].
  eapply acc_mintS with (p' := mon11); [okAllowed|intros _; ownKeys|vm_compute; reflexivity|].
  eapply acc_flash with (p' := mon12); [vm_compute; intuition discriminate|vm_compute; intuition discriminate|vm_compute; reflexivity|].
  eapply acc_burn with (p' := mon13) (y0 := 3595814964987782) (y1 := 2387927007188929); [lia|vm_compute; discriminate|vm_compute; reflexivity|vm_compute; reflexivity|lia|lia|intros []; vm_compute; discriminate|].
  eapply acc_burnS with (p' := mon14); [vm_compute; reflexivity|].
  eapply acc_collect with (p' := mon15); [vm_compute; reflexivity|].
  eapply acc_burnS with (p' := mon16); [vm_compute; reflexivity|].
  eapply acc_collect with (p' := mon17); [vm_compute; reflexivity|].
  apply acc_nil. }
  vm_compute. reflexivity.
Qed.

(** ** two ranges below tick zero share one key *)
Definition neg0 : Pool := Eval vm_compute in okOr (NewPool "A" "B" 3000 77700000000000000000000000000) startPool.
Definition negTxs : list Transaction := [mkTx "Mint" (10 ^ 18) 0 0 (-600) 600 10; mkTx "Swap" 0 0 (5 * 10 ^ 15) 0 0 20; mkTx "Mint" 1 0 0 (-600) 600 60].
Definition negConfig : Config := mkConfig 15 25 100 100 100.
Definition negTT : tagged := Eval vm_compute in map (fun c => (tagOf c, c)) (traceOf (runOf (FillUp 120) negConfig negTxs neg0)).
Definition neg1 : Pool := Eval vm_compute in pairOf (apply 50 neg0 (OMint (-600) 600 1000000000000000000)).
Definition neg2 : Pool := Eval vm_compute in pairOf (apply 50 neg1 (OMintStrategy (-540) (-300) 2195308764131914255)).
Definition neg3 : Pool := Eval vm_compute in pairOf (apply 50 neg2 (OMintStrategy (-540) (-420) 2367241635660974225)).
Definition neg4 : Pool := Eval vm_compute in pairOf (apply 50 neg3 (OExactInput 5000000000000000 "B" 0)).
Definition neg5 : Pool := Eval vm_compute in pairOf (apply 50 neg4 (OBurnStrategy (-540) (-300) 2195308764131914255)).
Definition neg6 : Pool := Eval vm_compute in pairOf (apply 50 neg5 (OCollectStrategy (-540) (-300))).
Definition neg7 : Pool := Eval vm_compute in pairOf (apply 50 neg6 (OBurnStrategy (-540) (-420) 2367241635660974225)).
Definition neg8 : Pool := Eval vm_compute in pairOf (apply 50 neg7 (OCollectStrategy (-540) (-420))).

Definition negHist : hist := [mkE (-540) (-420) (-2367241635660974225); mkE (-540) (-300) (-2195308764131914255); mkE (-540) (-420) 2367241635660974225; mkE (-540) (-300) 2195308764131914255; mkE (-600) 600 1000000000000000000].
Definition negOwn : hist := [mkE (-540) (-420) (-2367241635660974225); mkE (-540) (-300) (-2195308764131914255); mkE (-540) (-420) 2367241635660974225; mkE (-540) (-300) 2195308764131914255].
Lemma neg_account : exists i0 i1 o0 o1, account false 50 [] [] neg0 negTT negHist negOwn neg8 i0 i1 o0 o1 /\ [i0; i1; o0; o1] = [49220482105190421; 15264888249899047; 5174780980330652; 0].
Proof.
  do 4 eexists. split.
  { unfold negTT, negHist, negOwn.
  eapply acc_mint with (p' := neg1) (x0 := 49220482105190421) (x1 := 10264888249899047); [okAllowed|vm_compute; reflexivity|lia|lia|intros []; vm_compute; discriminate|].
  eapply acc_mintS with (p' := neg2); [okAllowed|discriminate|vm_compute; reflexivity|].
  eapply acc_mintS with (p' := neg3); [okAllowed|discriminate|vm_compute; reflexivity|].
  eapply acc_swap with (p' := neg4); [vm_compute; intuition discriminate|intros H; discriminate H|vm_compute; reflexivity|].
  eapply acc_burnS with (p' := neg5); [vm_compute; reflexivity|].
  eapply acc_collect with (p' := neg6); [vm_compute; reflexivity|].
  eapply acc_burnS with (p' := neg7); [vm_compute; reflexivity|].
  eapply acc_collect with (p' := neg8); [vm_compute; reflexivity|].
  apply acc_nil. }
  vm_compute. reflexivity.
Qed.

Lemma conserved keys k c txs s fuel p q tr r h r0 r1 :
  keys = true \/ match k with TwoInterval _ _ | BollingerBandsFillUp _ | FillUp _ | LimitOrder _ => False | _ => True end ->
  cash true true h [] p r0 r1 -> Token0 p <> Token1 p ->
  regular c txs -> Forall (fun t => 0 <= txAmount0 t < 2 ^ 256 /\ 0 <= txAmount1 t < 2 ^ 256) txs ->
  sPositions s = [] -> 0 <= sAmount0 s < 2 ^ 256 -> 0 <= sAmount1 s < 2 ^ 256 ->
  runV fuel p (Run (strategyOf k) c txs s) = Ok (q, tr, r) ->
  exists tt, map snd tt = tr /\ Forall (fun x => fst x = true -> ownCall k (fst (snd x))) tt /\
    map (fun x => fst (snd x)) (filter (fun x => negb (fst x)) tt) =
      flat_map (fun t => match marketOp (Token0 p) (Token1 p) t with Some o => [o] | None => [] end) (upTo (cEnd c) txs) /\
    forall h' hs' q' i0 i1 o0 o1, account keys fuel h [] p tt h' hs' q' i0 i1 o0 o1 ->
      sAmount0 s + r0 + i0 < 2 ^ 256 -> sAmount1 s + r1 + i1 < 2 ^ 256 ->
      q' = q /\ (forall l u, minted hs' l u = 0) /\ exists e0 e1, cash true true h' hs' q e0 e1 /\ 0 <= e0 /\ 0 <= e1 /\
        sAmount0 (fst r) + e0 = sAmount0 s + r0 + i0 - o0 /\ sAmount1 (fst r) + e1 = sAmount1 s + r1 + i1 - o1.
Proof.
  intros HK. apply run_money. destruct HK as [->|HK]; [now left|right]. destruct k; cbn in HK |- *; tauto.
Qed.

Lemma good0_cash : cash true true [] [] good0 0 0.
Proof. apply cash_new with (t0 := "A"%string) (t1 := "B"%string) (fee := 3000) (price := 79623317895830914510639640423). vm_compute. reflexivity. Qed.
Lemma neg0_cash : cash true true [] [] neg0 0 0.
Proof. apply cash_new with (t0 := "A"%string) (t1 := "B"%string) (fee := 3000) (price := 77700000000000000000000000000). vm_compute. reflexivity. Qed.
Ltac regularly := unfold regular; repeat (split; [vm_compute; intuition discriminate|]); repeat constructor.
Lemma mon_regular : regular monConfig monTxs.
Proof. regularly. Qed.
Lemma neg_regular : regular negConfig negTxs.
Proof. regularly. Qed.
Definition monEnd := Eval vm_compute in match runOf (FillUp 120) monConfig monTxs good0 with Ok x => Some x | _ => None end.
Definition negEnd := Eval vm_compute in match runOf (FillUp 120) negConfig negTxs neg0 with Ok x => Some x | _ => None end.
Lemma mon_run : exists q tr r, runV 50 good0 (Run (strategyOf (FillUp 120)) monConfig monTxs monSt) = Ok (q, tr, r) /\ map snd monTT = tr /\ sAmount0 (fst r) = 9426668324993538 /\ sAmount1 (fst r) = 30584621665996937.
Proof.
  exists (match monEnd with Some x => fst (fst x) | None => good0 end), (match monEnd with Some x => snd (fst x) | None => [] end), (match monEnd with Some x => snd x | None => (monSt, []) end).
  repeat split; vm_compute; reflexivity.
Qed.
Lemma neg_run : exists q tr r, runV 50 neg0 (Run (strategyOf (FillUp 120)) negConfig negTxs monSt) = Ok (q, tr, r) /\ map snd negTT = tr /\ sAmount0 (fst r) = 6444712271282078 /\
  sAmount1 (fst r) = 805530586856510157740159605474656978860052839712760170032.
Proof.
  exists (match negEnd with Some x => fst (fst x) | None => good0 end), (match negEnd with Some x => snd (fst x) | None => [] end), (match negEnd with Some x => snd x | None => (monSt, []) end).
  repeat split; vm_compute; reflexivity.
Qed.
Lemma keys_of_run_needed : ~ (forall k c txs s fuel p q tr r tt h' hs' q' i0 i1 o0 o1,
  cash true true [] [] p 0 0 -> regular c txs -> sPositions s = [] -> runV fuel p (Run (strategyOf k) c txs s) = Ok (q, tr, r) ->
  map snd tt = tr -> account false fuel [] [] p tt h' hs' q' i0 i1 o0 o1 -> sAmount1 (fst r) <= 10 ^ 30 * (sAmount1 s + i1)).
Proof.
  intros H. destruct neg_run as (q & tr & r & E & T & _ & F). destruct neg_account as (i0 & i1 & o0 & o1 & A & N). injection N as -> -> -> ->.
  pose proof (H (FillUp 120) negConfig negTxs monSt 50%nat neg0 q tr r negTT _ _ _ _ _ _ _ neg0_cash neg_regular eq_refl E T A) as K. rewrite F in K. vm_compute in K. now apply K.
Qed.
