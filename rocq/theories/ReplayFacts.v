(** ReplayFacts.v -- the calls an execution makes: the market's transactions, each once and in order, with the
    strategy's own calls between them. *)
From Coq Require Import String ZifyBool.
From Verif Require Import Base U256Z SwapMath TickMath TickData TickDataFacts Pool PoolOps Prices Client Strategy Executor Plan StrategyFacts.
Ltac Zify.zify_post_hook ::= idtac.
Open Scope Z_scope.

(** ** the tokens of a pool never change *)
Definition sameTokens (p q : Pool) : Prop := Token0 q = Token0 p /\ Token1 q = Token1 p.
Lemma updatePosition_tokens p l u a q i : updatePosition p l u a = Ok (q, i) -> sameTokens p q.
Proof.
  unfold updatePosition. intros E. apply bind_inv in E as ([[d c1] c2] & _ & E). apply bind_inv in E as ([i0 i1] & _ & E). cbv zeta in E.
  apply bind_inv in E as (pos & _ & E). apply bind_inv in E as (d' & _ & E). injection E as <- _. split; reflexivity.
Qed.
Lemma modifyPositionStrategy_tokens p l u a q a0 a1 : modifyPositionStrategy p l u a = Ok (q, a0, a1) -> sameTokens p q.
Proof.
  unfold modifyPositionStrategy. intros E. apply bind_inv in E as (? & _ & E). apply bind_inv in E as ([p1 i] & E1 & E).
  apply updatePosition_tokens in E1. destruct (a =? 0); [|destruct (TickCurrent p1 <? l); [|destruct (TickCurrent p1 <? u)]].
  all: repeat (apply bind_inv in E as (? & _ & E)); injection E as <- _ _; exact E1.
Qed.
Lemma modifyPosition_tokens p l u a q : modifyPosition p l u a = Ok q -> sameTokens p q.
Proof.
  unfold modifyPosition. intros E. apply bind_inv in E as (? & _ & E). apply bind_inv in E as ([d c] & _ & E). apply bind_inv in E as ([d1 c1] & _ & E).
  apply bind_inv in E as (? & _ & E). apply bind_inv in E as (? & _ & E). cbv zeta in E. destruct (_ && _); injection E as <-; split; reflexivity.
Qed.
Lemma swap_tokens fuel p z a lim q a0 a1 : swap fuel p z a lim = Ok (q, a0, a1) -> sameTokens p q.
Proof.
  unfold swap. intros E. apply bind_inv in E as (? & _ & E). apply bind_inv in E as (? & _ & E). cbv zeta in E. apply bind_inv in E as (? & _ & E).
  cbv zeta in E. destruct (Bool.eqb _ _); injection E as <- _ _; split; reflexivity.
Qed.
Lemma apply_tokens fuel p o q a0 a1 : apply fuel p o = Ok (q, a0, a1) -> sameTokens p q.
Proof.
  destruct o as [l u a|l u a|l u a|l u a|l u|x y|a t lim|a t lim]; cbn [apply]; intros E.
  - apply bind_inv in E as (q' & E1 & E). injection E as <- _ _. unfold Mint in E1. apply bind_inv in E1 as (? & _ & E1). now apply modifyPosition_tokens in E1.
  - apply bind_inv in E as (q' & E1 & E). injection E as <- _ _. now apply modifyPosition_tokens in E1.
  - unfold MintStrategy in E. apply bind_inv in E as (? & _ & E1). now apply modifyPositionStrategy_tokens in E1.
  - unfold BurnStrategy in E. apply bind_inv in E as (((q' & b0) & b1) & E1 & E). apply modifyPositionStrategy_tokens in E1. cbv zeta in E.
    destruct (posGet _ _); [|discriminate]. injection E as <- _ _. exact E1.
  - unfold CollectStrategy in E. destruct (posGet _ _); [|discriminate]. injection E as <- _ _. split; reflexivity.
  - apply bind_inv in E as (q' & E1 & E). injection E as <- _ _. unfold Flash in E1. repeat (apply bind_inv in E1 as (? & _ & E1)). injection E1 as <-. split; reflexivity.
  - now apply swap_tokens in E.
  - now apply swap_tokens in E.
Qed.
Lemma runV_tokens {A} fuel (m : M A) : forall p q t a, runV fuel p m = Ok (q, t, a) -> sameTokens p q.
Proof.
  induction m as [r|o k IH|k IH]; intros p q t a E; cbn [runV] in E.
  - destruct r; cbn [bind] in E; try discriminate. injection E as <- _ _. split; reflexivity.
  - apply bind_inv in E as (((p1 & a0) & a1) & E1 & E). apply apply_tokens in E1. apply bind_inv in E as (((p2 & t2) & a2) & E2 & E).
    apply IH in E2. injection E as <- _ _. unfold sameTokens in *. destruct E1 as [<- <-]. exact E2.
  - now apply IH in E.
Qed.

(** ** which calls a client makes *)
Fixpoint only {A} (ok : op -> Prop) (m : M A) : Prop :=
  match m with
  | MRet _ => True
  | MOp o k => ok o /\ forall r, only ok (k r)
  | MRead k => forall s, only ok (k s)
  end.
Lemma only_bind {A B} ok (m : M A) (f : A -> M B) : only ok m -> (forall a, only ok (f a)) -> only ok (mbind m f).
Proof.
  intros H K. induction m as [r|o k IH|k IH]; cbn [mbind only] in *.
  - destruct r; [apply K|exact I|exact I].
  - destruct H as [H1 H2]. split; [assumption|]. intros r. apply IH, H2.
  - intros s. apply IH, H.
Qed.
Lemma only_trace {A} ok (m : M A) fuel : only ok m -> forall p q t a, runV fuel p m = Ok (q, t, a) -> Forall (fun c => ok (fst c)) t.
Proof.
  induction m as [r|o k IH|k IH]; intros H p q t a E; cbn [runV only] in *.
  - destruct r; cbn [bind] in E; try discriminate. injection E as _ <- _. constructor.
  - apply bind_inv in E as (((p1 & a0) & a1) & E1 & E). apply bind_inv in E as (((p2 & t2) & a2) & E2 & E). injection E as _ <- _.
    destruct H as [H1 H2]. constructor; [exact H1|]. now apply (IH (a0, a1) (H2 _) p1 p2 t2 a2).
  - now apply (IH (slot p) (H _) p q t a).
Qed.

(** the strategies only use their own methods; one of them also swaps *)
Definition ownCall (k : Kind) (o : op) : Prop :=
  match k, o with
  | NoProvision, _ => False
  | _, OMintStrategy _ _ _ | _, OBurnStrategy _ _ _ | _, OCollectStrategy _ _ => True
  | IntervalAroundPriceAndSwap _, OExactInput _ _ _ => True
  | _, _ => False
  end.
Definition lp (o : op) : Prop := match o with OMintStrategy _ _ _ | OBurnStrategy _ _ _ | OCollectStrategy _ _ => True | _ => False end.
Lemma only_weaken {A} (ok ok' : op -> Prop) (m : M A) : (forall o, ok o -> ok' o) -> only ok m -> only ok' m.
Proof.
  intros H. induction m as [r|o k IH|k IH]; cbn [only]; [auto| |]; intros K.
  - destruct K as [K1 K2]. split; auto.
  - intros s. apply IH, K.
Qed.
Lemma lp_own k o : k <> NoProvision -> lp o -> ownCall k o.
Proof. intros H. destruct k, o; cbn; tauto. Qed.
Ltac lps := repeat match goal with
  | |- only _ (mbind _ _) => apply only_bind; [|intros ?]
  | |- only _ (pure _) => exact I
  | |- only _ look => intros ?; exact I
  | |- only _ (done _) => exact I
  | |- only _ (call _) => split; [exact I|intros ?; exact I]
  | |- only _ (if ?b then _ else _) => destruct b
  | |- only _ (let '(_, _) := ?x in _) => destruct x as [? ?]
  end.
Lemma lp_burnPositions l : forall s, only lp (burnPositions l s).
Proof. induction l as [|x l IH]; intros s; cbn [burnPositions]; lps. apply IH. Qed.
Lemma lp_mintAmount s l u a : only lp (mintAmount s l u a).
Proof. unfold mintAmount. cbv zeta. lps. Qed.
Lemma lp_liquidityFor s l u : only lp (liquidityFor s l u).
Proof. unfold liquidityFor. lps. Qed.
Lemma lp_mintPosition s l u : only lp (mintPosition s l u).
Proof. unfold mintPosition. apply only_bind; [apply lp_liquidityFor|]. intros a. lps. apply lp_mintAmount. Qed.
Lemma lp_mintUnchecked s l u : only lp (mintUnchecked s l u).
Proof. unfold mintUnchecked. apply only_bind; [apply lp_liquidityFor|]. intros a. apply lp_mintAmount. Qed.
Lemma lp_mintHalf s l u : only lp (mintHalf s l u).
Proof. unfold mintHalf. apply only_bind; [apply lp_liquidityFor|]. intros a. cbv zeta. lps. apply lp_mintAmount. Qed.
Lemma lp_twoInterval a b s : only lp (twoIntervalPositions a b s).
Proof. unfold twoIntervalPositions. cbv zeta. lps; try apply lp_mintPosition. Qed.
Lemma lp_fillUp s sp l u : only lp (fillUp s sp l u).
Proof. unfold fillUp. cbv zeta. lps; apply lp_mintPosition. Qed.
Lemma lp_fillUpPositions w s : only lp (fillUpPositions w s).
Proof. unfold fillUpPositions. lps; [apply lp_mintPosition|apply lp_fillUp]. Qed.
Lemma lp_limitOrder w s : only lp (limitOrderPositions w s).
Proof. unfold limitOrderPositions. cbv zeta. lps; first [apply lp_mintPosition|apply lp_mintHalf]. Qed.
Lemma lp_bollingerFillUp m s : only lp (bollingerFillUp m s).
Proof. unfold bollingerFillUp, bollingerTicks. lps; first [apply lp_mintPosition|apply lp_fillUp]. Qed.
Lemma lp_volatilityTicks m s : only lp (volatilityTicks m s).
Proof. unfold volatilityTicks. lps. Qed.
Lemma lp_averageTicks m s : only lp (averageTicks m s).
Proof. unfold averageTicks. lps. Qed.
Lemma lp_mintAt g s : (forall s, only lp (g s)) -> only lp (mintAt g s).
Proof. intros H. unfold mintAt. apply only_bind; [apply H|]. intros t. apply lp_mintPosition. Qed.
Lemma lp_mintAround w mint s : (forall s l u, only lp (mint s l u)) -> only lp (mintAround w mint s).
Proof. intros H. unfold mintAround. lps. apply H. Qed.
Lemma own_swapAndMint w s l u : only (ownCall (IntervalAroundPriceAndSwap w)) (swapAndMint s l u).
Proof. unfold swapAndMint. cbv zeta. lps. eapply only_weaken; [|apply lp_mintAmount]. intros o. now apply lp_own. Qed.

Lemma own_positions k s : k <> NoProvision -> only (ownCall k) (initPositions k s) /\ only (ownCall k) (rebalancePositions k s).
Proof.
  intros H. assert (forall m : M St, only lp m -> only (ownCall k) m) as W by (intros m; apply only_weaken; intros o; now apply lp_own).
  destruct k; try congruence; cbn [initPositions rebalancePositions]; (split; [|]).
  - apply W, lp_twoInterval.
  - apply W, lp_twoInterval.
  - apply W, lp_mintAt. intros ?. exact I.
  - apply W, lp_mintAt. intros ?. exact I.
  - apply W, lp_mintAt. intros ?. exact I.
  - apply W, lp_bollingerFillUp.
  - apply W. lps. apply lp_mintUnchecked.
  - apply W, lp_mintPosition.
  - apply W, lp_fillUpPositions.
  - apply W, lp_fillUpPositions.
  - apply W, lp_mintAt, lp_averageTicks.
  - apply W, lp_mintAt, lp_averageTicks.
  - apply W, lp_mintAround, lp_mintUnchecked.
  - apply W, lp_mintAround, lp_mintPosition.
  - apply W, lp_limitOrder.
  - apply W, lp_limitOrder.
  - unfold mintAround. lps. apply own_swapAndMint.
  - unfold mintAround. lps. apply own_swapAndMint.
  - apply W, lp_mintPosition.
  - apply W, lp_mintPosition.
  - apply W, lp_mintAt, lp_volatilityTicks.
  - apply W, lp_mintAt, lp_volatilityTicks.
Qed.
Lemma own_strategy k s : only (ownCall k) (doInit (strategyOf k) s) /\ only (ownCall k) (doRebalance (strategyOf k) s) /\
  only (ownCall k) (doBurnAll (strategyOf k) s) /\ only (ownCall k) (doAmounts (strategyOf k) s) /\ only (ownCall k) (doSnapshot (strategyOf k) s).
Proof.
  assert (k = NoProvision \/ k <> NoProvision) as [->|H] by (destruct k; first [now left|now right]).
  { cbn. auto. }
  destruct (own_positions k s H) as [H1 _].
  assert (only (ownCall k) (burnReset s) /\ only (ownCall k) (burnKeep s)) as [HB HK].
  { split; (unfold burnReset, burnKeep; apply only_bind; [|intros ?; exact I]; eapply only_weaken; [intros o; now apply lp_own|apply lp_burnPositions]). }
  assert (forall l a b, only (ownCall k) (sumPositions l a b)) as HS.
  { induction l as [|x l IH]; intros a b; cbn [sumPositions]; lps. apply IH. }
  cbn [doInit doRebalance doBurnAll doAmounts doSnapshot strategyOf]. split; [|split; [|split; [|split]]].
  - unfold Init. cbv zeta. apply only_bind; [exact H1|]. intros ?. exact I.
  - apply only_bind; [|intros ?; exact I].
    assert (only (ownCall k) (act r <- burnReset s; act s0 <- rebalancePositions k (fst r); done (s0, Some (snd r)))) as HR.
    { apply only_bind; [exact HB|]. intros r. apply only_bind; [apply own_positions; assumption|]. intros ?. exact I. }
    destruct k; cbn [Rebalance]; first [exact HR|exact I].
  - destruct k; cbn [BurnAll]; first [exact HB|exact HK|exact I].
  - destruct k; cbn [GetAmounts]; first [exact I|apply only_bind; [apply HS|intros ?; exact I]].
  - unfold MakeSnapshot. lps.
Qed.

(** ** the market's calls *)
Definition marketOp (token0 token1 : string) (t : Transaction) : option op :=
  if String.eqb (txType t) "Mint" then Some (OMint (txLower t) (txUpper t) (txAmount t))
  else if String.eqb (txType t) "Burn" then Some (OBurn (txLower t) (txUpper t) (txAmount t))
  else if String.eqb (txType t) "Swap" then
    if (0 <? txAmount0 t) && (txAmount0 t <? 2 ^ 255) then Some (OExactInput (txAmount0 t) token0 0)
    else if (0 <? txAmount1 t) && (txAmount1 t <? 2 ^ 255) then Some (OExactInput (txAmount1 t) token1 0)
    else None
  else if String.eqb (txType t) "Flash" then Some (OFlash (txAmount0 t) (txAmount1 t))
  else None.
(** [replays own token0 token1 txs tr]: the calls [tr] are the transactions in order, with calls satisfying [own] before each
    and after the last *)
Fixpoint replays (own : op -> Prop) (token0 token1 : string) (txs : list Transaction) (tr : trace) : Prop :=
  match txs with
  | [] => Forall (fun c => own (fst c)) tr
  | t :: txs => exists g m tr', tr = g ++ m ++ tr' /\ Forall (fun c => own (fst c)) g /\
      map fst m = match marketOp token0 token1 t with Some o => [o] | None => [] end /\ replays own token0 token1 txs tr'
  end.

Lemma usign_pos a : is_u256 a -> (0 <? usign a) = (0 <? a) && (a <? 2 ^ 255).
Proof. intros H. unfold usign. change T255 with (2 ^ 255). unfold is_u256 in H. destruct (a =? 0) eqn:E1; [lia|]. destruct (a <? 2 ^ 255) eqn:E2; lia. Qed.
Definition txOK (t : Transaction) : Prop := is_u256 (txAmount0 t) /\ is_u256 (txAmount1 t).
Lemma execTx_market t fuel p q tr a : txOK t -> runV fuel p (execTx t) = Ok (q, tr, a) ->
  map fst tr = match marketOp (Token0 p) (Token1 p) t with Some o => [o] | None => [] end.
Proof.
  intros [H0 H1] E. unfold execTx, marketOp in *. rewrite !usign_pos in E by assumption.
  destruct (String.eqb (txType t) "Mint"); [|destruct (String.eqb (txType t) "Burn"); [|destruct (String.eqb (txType t) "Swap");
    [destruct (_ && _); [|destruct (_ && _)]|destruct (String.eqb (txType t) "Flash")]]];
  unfold call, look, done in E; cbn [mbind runV bind slot slToken0 slToken1] in E;
  repeat (apply bind_inv in E as (((? & ?) & ?) & _ & E)); try (injection E as _ <- _); reflexivity.
Qed.

Lemma execBlock_replay k b s vs fuel p q tr r : txOK (bTx b) -> runV fuel p (execBlock (strategyOf k) b s vs) = Ok (q, tr, r) ->
  exists g m, tr = g ++ m /\ Forall (fun c => ownCall k (fst c)) g /\
    map fst m = match marketOp (Token0 p) (Token1 p) (bTx b) with Some o => [o] | None => [] end.
Proof.
  intros HT E. unfold execBlock in E.
  set (pre1 := if bInit b then _ else _) in E.
  assert (forall s vs, only (ownCall k) (if bInit b then act r <- doInit (strategyOf k) s; act v <- valueUSD (fst (snd r)) (snd (snd r)); done (fst r, vs ++ [v]) else done (s, vs))) as O1.
  { intros s0 vs0. destruct (bInit b); [|exact I]. apply only_bind; [apply own_strategy|]. intros x. unfold valueUSD. cbv zeta. lps. }
  specialize (O1 s vs). fold pre1 in O1.
  rewrite runV_bind in E. apply bind_inv in E as (((p1 & t1) & [s1 v1]) & E1 & E). apply bind_inv in E as (((p2' & t2') & r2) & E2 & E). injection E as <- <- <-.
  pose proof (only_trace _ _ _ O1 _ _ _ _ E1) as F1. pose proof (runV_tokens _ _ _ _ _ _ E1) as [T1 T1']. cbn [fst snd] in E2.
  rewrite runV_bind in E2. apply bind_inv in E2 as (((p2 & t2) & s2) & E2 & E). apply bind_inv in E as (((p3' & t3') & r3) & E3 & E). injection E as <- <- <-.
  assert (Forall (fun c => ownCall k (fst c)) t2) as F2.
  { refine (only_trace (ownCall k) _ _ _ _ _ _ _ E2). destruct (bPrice b); [apply own_strategy|exact I]. }
  pose proof (runV_tokens _ _ _ _ _ _ E2) as [T2 T2'].
  rewrite runV_bind in E3. apply bind_inv in E3 as (((p3 & t3) & v3) & E3 & E). apply bind_inv in E as (((p4' & t4') & r4) & E4 & E). injection E as <- <- <-.
  assert (Forall (fun c => ownCall k (fst c)) t3) as F3.
  { refine (only_trace (ownCall k) _ _ _ _ _ _ _ E3). destruct (bSnapshot b); [|exact I]. apply only_bind; [apply own_strategy|]. intros x. unfold valueUSD. cbv zeta. lps. }
  pose proof (runV_tokens _ _ _ _ _ _ E3) as [T3 T3'].
  rewrite runV_bind in E4. apply bind_inv in E4 as (((p4 & t4) & s4) & E4 & E). apply bind_inv in E as (((p5' & t5') & r5) & E5 & E). injection E as <- <- <-.
  assert (Forall (fun c => ownCall k (fst c)) t4) as F4.
  { refine (only_trace (ownCall k) _ _ _ _ _ _ _ E4). destruct (bRebalance b); [apply own_strategy|exact I]. }
  pose proof (runV_tokens _ _ _ _ _ _ E4) as [T4 T4'].
  rewrite runV_bind in E5. apply bind_inv in E5 as (((p5 & t5) & x5) & E5 & E). apply bind_inv in E as (((p6 & t6) & r6) & E6 & E). injection E as <- <- <-.
  unfold done in E6. cbn [runV bind] in E6. injection E6 as <- <- <-.
  exists (t1 ++ t2 ++ t3 ++ t4), t5. split; [now rewrite app_nil_r, !app_assoc|]. split.
  - rewrite !Forall_app. auto.
  - rewrite (execTx_market _ _ _ _ _ _ HT E5), T4, T4', T3, T3', T2, T2', T1, T1'. reflexivity.
Qed.
Lemma execBlocks_replay k bl : forall s vs fuel p q tr r, Forall (fun b => txOK (bTx b)) bl -> runV fuel p (execBlocks (strategyOf k) bl s vs) = Ok (q, tr, r) ->
  forall tr', Forall (fun c => ownCall k (fst c)) tr' -> replays (ownCall k) (Token0 p) (Token1 p) (map bTx bl) (tr ++ tr').
Proof.
  induction bl as [|b bl IH]; intros s vs fuel p q tr r HF E tr' HT; cbn [execBlocks map replays] in *.
  - unfold done in E. cbn [runV bind] in E. injection E as _ <- _. exact HT.
  - rewrite runV_bind in E. apply bind_inv in E as (((p1 & t1) & r1) & E1 & E). apply bind_inv in E as (((p2 & t2) & r2) & E2 & E). injection E as <- <- <-.
    inversion HF as [|? ? HF1 HF2 EF]; subst. destruct (execBlock_replay k b s vs fuel p p1 t1 r1 HF1 E1) as (g & m & -> & Hg & Hm).
    pose proof (runV_tokens _ _ _ _ _ _ E1) as [T1 T1']. specialize (IH _ _ _ _ _ _ _ HF2 E2 tr' HT). rewrite T1, T1' in IH.
    exists g, m, (t2 ++ tr'). split; [now rewrite <- !app_assoc|]. auto.
Qed.
Lemma upTo_sub limit txs t : In t (upTo limit txs) -> In t txs.
Proof. induction txs as [|x l IH]; cbn; [tauto|]. destruct (limit <? txTime x); [intros []|]. intros [->|H]; auto. Qed.

(** ** C49 on the level of calls *)
Lemma Run_replays k c txs s fuel p q tr r : Forall txOK txs -> runV fuel p (Run (strategyOf k) c txs s) = Ok (q, tr, r) ->
  replays (ownCall k) (Token0 p) (Token1 p) (upTo (cEnd c) txs) tr.
Proof.
  intros HF E. rewrite (Run_plan (strategyOf k) c txs s fuel p) in E. unfold execPlan in E.
  rewrite runV_bind in E. apply bind_inv in E as (((p1 & t1) & r1) & E1 & E). apply bind_inv in E as (((p2 & t2) & r2) & E2 & E). injection E as <- <- <-.
  rewrite <- (plan_txs c txs false MaxInt64 MaxInt64 0). eapply execBlocks_replay; [|exact E1|].
  - assert (Forall txOK (map bTx (plan c false MaxInt64 MaxInt64 0 txs))) as K.
    { rewrite plan_txs. rewrite Forall_forall in *. intros t Ht. apply HF. now apply upTo_sub in Ht. }
    rewrite Forall_map in K. exact K.
  - refine (only_trace (ownCall k) _ _ _ _ _ _ _ E2). apply only_bind; [apply own_strategy|]. intros x. unfold valueUSD. cbv zeta. lps.
Qed.
(** a strategy that does nothing: the market alone *)
Lemma replay_alone (own : op -> Prop) t0 t1 txs : (forall o, ~ own o) -> forall tr, replays own t0 t1 txs tr ->
  map fst tr = flat_map (fun t => match marketOp t0 t1 t with Some o => [o] | None => [] end) txs.
Proof.
  intros HO. assert (forall g : trace, Forall (fun c => own (fst c)) g -> g = []) as K.
  { intros [|x g] H; [reflexivity|]. inversion H as [|? ? H1 H2 E]; subst. now apply HO in H1. }
  induction txs as [|t txs IH]; intros tr H; cbn [replays flat_map] in *.
  - apply K in H. now subst.
  - destruct H as (g & m & tr' & -> & Hg & Hm & H). apply K in Hg. subst g. cbn [app]. rewrite map_app, Hm, (IH _ H). reflexivity.
Qed.
Lemma NoProvision_replay c txs s fuel p q tr r : Forall txOK txs -> runV fuel p (Run (strategyOf NoProvision) c txs s) = Ok (q, tr, r) ->
  map fst tr = flat_map (fun t => match marketOp (Token0 p) (Token1 p) t with Some o => [o] | None => [] end) (upTo (cEnd c) txs).
Proof. intros HF E. apply Run_replays in E; [|assumption]. apply replay_alone with (own := ownCall NoProvision); [intros o H; exact H|exact E]. Qed.

(** ** price snapshots: with the counter starting at 0 every transaction takes one *)
Lemma price_every_tx c txs bl : regular c txs -> planned c txs bl ->
  (forall t, In t txs -> Z.of_nat (length txs) * cPrice c < txTime t) -> Forall (fun b => bPrice b = true) bl.
Proof.
  intros HR [HM HC] HT. apply Forall_forall. intros b Hb. apply in_split in Hb. destruct Hb as (l1 & l2 & E).
  destruct (HC _ _ _ E) as (_ & C2 & _). apply C2.
  assert (In (bTx b) txs) as Hin. { apply (upTo_sub (cEnd c)). rewrite <- HM, E, map_app. apply in_or_app. right. now left. }
  specialize (HT _ Hin). assert (length bl <= length txs)%nat as HL.
  { rewrite <- (map_length bTx bl), HM. clear. induction txs as [|x l IH]; cbn; [lia|]. destruct (_ <? _); cbn; lia. }
  assert (count bPrice l1 <= Z.of_nat (length txs)) as HL1.
  { unfold count. rewrite E, app_length in HL. assert (length (filter bPrice l1) <= length l1)%nat; [|lia].
    clear. induction l1 as [|x l IH]; cbn [filter length]; [lia|]. destruct (bPrice x); cbn [length]; lia. }
  destruct HR as (_ & _ & HP & _). assert (count bPrice l1 * cPrice c <= Z.of_nat (length txs) * cPrice c); [apply Z.mul_le_mono_nonneg_r; lia|lia].
Qed.

(** ** plans *)
Lemma plan_unique c txs : regular c txs -> exists bl, planned c txs bl /\ forall bl', planned c txs bl' -> bl' = bl.
Proof. intros H. exists (plan c false MaxInt64 MaxInt64 0 txs). split; [now apply plan_planned|]. intros bl' H'. apply (planned_unique c txs); [assumption|now apply plan_planned]. Qed.
Lemma first_started c txs bl pre b post t0 : planned c txs bl -> bl = pre ++ b :: post ->
  find (fun t => cStart c <=? txTime t) (map bTx (pre ++ [b])) = Some t0 -> exists b', In b' (pre ++ [b]) /\ bInit b' = true.
Proof.
  intros [HM HC] E F.
  assert (forall l, find (fun t => cStart c <=? txTime t) (map bTx l) = Some t0 ->
    exists l1 b' l2, l = l1 ++ b' :: l2 /\ cStart c <= txTime (bTx b') /\ forall x, In x l1 -> txTime (bTx x) < cStart c) as K.
  { clear. induction l as [|x l IH]; cbn [map find]; [discriminate|]. destruct (cStart c <=? txTime (bTx x)) eqn:Hx.
    - intros _. exists [], x, l. split; [reflexivity|]. split; [now apply Z.leb_le in Hx|]. intros y [].
    - intros H. destruct (IH H) as (l1 & b' & l2 & -> & H1 & H2). exists (x :: l1), b', l2. split; [reflexivity|]. split; [assumption|].
      intros y [<-|Hy]; [apply Z.leb_gt in Hx; lia|now apply H2]. }
  destruct (K _ F) as (l1 & b' & l2 & E' & H1 & H2).
  assert (bl = l1 ++ b' :: (l2 ++ post)) as E2.
  { rewrite E. change (b :: post) with ([b] ++ post). rewrite app_assoc, E', <- app_assoc. reflexivity. }
  destruct (HC _ _ _ E2) as (C1 & _). exists b'. split; [rewrite E'; apply in_or_app; right; now left|]. apply C1. auto.
Qed.
Lemma starts_once c txs bl : planned c txs bl ->
  map bTx bl = upTo (cEnd c) txs /\ count bInit bl <= 1 /\
  (count bInit bl = 1 <-> exists t, In t (upTo (cEnd c) txs) /\ cStart c <= txTime t) /\
  forall before b after, bl = before ++ b :: after ->
    (bInit b = true <-> cStart c <= txTime (bTx b) /\ forall b', In b' before -> txTime (bTx b') < cStart c) /\
    (bRebalance b = true -> exists b', In b' (before ++ [b]) /\ bInit b' = true).
Proof.
  intros HP. destruct (planned_init_once c txs bl HP) as [A B]. split; [apply HP|]. split; [exact A|]. split; [exact B|].
  intros before b after E. assert (HC := proj2 HP). destruct (HC _ _ _ E) as (C1 & _ & _ & C4). split; [exact C1|].
  intros H. apply C4 in H. destruct H as (s & (t & F & _) & _). exact (first_started c txs bl before b after t HP E F).
Qed.
Lemma snapshots_due c txs bl before b after : planned c txs bl -> bl = before ++ b :: after ->
  (bSnapshot b = true <-> exists t0, find (fun t => cStart c <=? txTime t) (map bTx (before ++ [b])) = Some t0 /\
     txTime t0 + (count bSnapshot before + 1) * cSnapshot c <= txTime (bTx b)) /\
  (bRebalance b = true <-> exists t0, find (fun t => cStart c <=? txTime t) (map bTx (before ++ [b])) = Some t0 /\
     txTime t0 + (count bRebalance before + 1) * cUpdate c <= txTime (bTx b)) /\
  (bPrice b = true <-> count bPrice before * cPrice c < txTime (bTx b)).
Proof.
  intros [HM HC] E. destruct (HC _ _ _ E) as (_ & C2 & C3 & C4).
  assert (forall n i, (exists s, startedAt c before b s /\ s + n * i <= txTime (bTx b)) <->
    exists t0, find (fun t => cStart c <=? txTime t) (map bTx (before ++ [b])) = Some t0 /\ txTime t0 + n * i <= txTime (bTx b)) as K.
  { intros n i. unfold startedAt. split; [intros (s & (t & F & ->) & H); eauto|intros (t & F & H); eauto 10]. }
  rewrite K in C3, C4. auto.
Qed.
Lemma values_recorded {S} (strat : Strat S) c txs bl s fuel p q tr r : regular c txs -> planned c txs bl ->
  runV fuel p (Run strat c txs s) = Ok (q, tr, r) -> Z.of_nat (length (snd r)) = count bInit bl + count bSnapshot bl + 1.
Proof. intros HR HP E. rewrite (Run_planned strat c txs bl s fuel p HR HP) in E. exact (execPlan_values strat bl s fuel p q tr r E). Qed.
