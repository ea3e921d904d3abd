(** MainFacts.v -- main.go as a whole. *)
From Coq Require Import String Floats.SpecFloat Lia.
From Verif Require Import Base U256 U256Facts U256Z SwapMath TickMath Float64 TickData Pool PoolOps HeapProg TickHeap PoolHeap Prices Client Strategy Executor Grid Plan Stats CloneFacts Main.
From Verif Require Decimal.
Ltac Zify.zify_post_hook ::= idtac.
Open Scope Z_scope.

Lemma nth_error_ext {A} (l l' : list A) : (forall i, nth_error l i = nth_error l' i) -> l = l'.
Proof.
  revert l'. induction l as [|a l IH]; intros [|b l'] H; [reflexivity|discriminate (H 0%nat)|discriminate (H 0%nat)|].
  pose proof (H 0%nat) as E. injection E as ->. f_equal. apply IH. intros i. exact (H (S i)).
Qed.
Lemma collect_ok {A} (f : nat -> res A) (g : nat -> A) l : (forall i, In i l -> f i = Ok (g i)) -> collect f l = Ok (map g l).
Proof.
  induction l as [|i l IH]; intros H; [reflexivity|]. cbn [collect map]. rewrite (H i (or_introl eq_refl)). cbn [bind].
  rewrite IH by (intros k Hk; apply H; now right). reflexivity.
Qed.
Lemma collect_inv {A} (f : nat -> res A) l r : collect f l = Ok r -> forall k i, nth_error l k = Some i -> exists a, f i = Ok a /\ nth_error r k = Some a.
Proof.
  revert r. induction l as [|i l IH]; intros r E k j Hk; [destruct k; discriminate Hk|]. cbn [collect] in E.
  destruct (f i) as [a| |] eqn:E1; cbn [bind] in E; try discriminate. destruct (collect f l) as [r'| |] eqn:E2; cbn [bind] in E; try discriminate.
  injection E as <-. destruct k as [|k]; cbn [nth_error] in *; [injection Hk as <-; eauto|eapply IH; eauto].
Qed.
Lemma collect_length {A} (f : nat -> res A) l r : collect f l = Ok r -> length r = length l.
Proof.
  revert r. induction l as [|i l IH]; intros r E; cbn [collect] in E; [injection E as <-; reflexivity|].
  destruct (f i) as [a| |] eqn:E1; cbn [bind] in E; try discriminate. destruct (collect f l) as [r'| |] eqn:E2; cbn [bind] in E; try discriminate.
  injection E as <-. cbn [length]. f_equal. now apply IH.
Qed.
Lemma collect_in {A} (f : nat -> res A) n r : collect f (seq 0 n) = Ok r -> forall i, (i < n)%nat -> exists a, f i = Ok a /\ nth_error r i = Some a.
Proof.
  intros E i Hi. apply (collect_inv f (seq 0 n) r E i i). rewrite nth_error_nth' with (d := 0%nat) by (rewrite seq_length; assumption). now rewrite seq_nth.
Qed.

Lemma setup_n hours txs first last n : setup hours txs = Ok (first, last, n) ->
  n = 65535 /\ (exists t r, txs = t :: r /\ txTime t = first) /\ (exists t r, txs = r ++ [t] /\ txTime t = last) /\ CreateExecution (mainConfig hours first) txs = Ok tt.
Proof.
  unfold setup. destruct txs as [|t r]; [discriminate|]. destruct (rev (t :: r)) as [|u q] eqn:ER; [discriminate|].
  change (Decimal.IntPow 20 2 16) with (Ok 65536). cbn [bind]. destruct (CreateExecution (mainConfig hours (txTime t)) (t :: r)) as [[]| |] eqn:EC; cbn [bind]; try discriminate.
  intros E. injection E as <- <- <-.
  split; [reflexivity|]. split; [eauto|]. split; [|assumption].
  exists u, (rev q). split; [|reflexivity]. rewrite <- (rev_involutive (t :: r)), ER. reflexivity.
Qed.
Lemma newPool_view h hp : hnewPool = Ok hp -> newPool = Ok (viewP h hp) /\ PoolClone (viewP h hp) = viewP h hp /\ noTicks hp.
Proof. unfold hnewPool, newPool. intros E. destruct (NewPool_view h _ _ _ _ _ E). split; [assumption|]. split; [assumption|]. exact (NewPool_noTicks _ _ _ _ _ E). Qed.

Lemma hnewPool_ok : exists hp, hnewPool = Ok hp.
Proof.
  assert (match hnewPool with Ok _ => true | _ => false end = true) as T by (vm_cast_no_check (eq_refl true)).
  destruct hnewPool as [hp| |]; [eauto|discriminate T..].
Qed.
Lemma batchSize_pos : (0 < batchSize)%nat.
Proof. unfold batchSize. lia. Qed.
Lemma setup_fuel hours txs : setup hours txs <> OutOfFuel.
Proof.
  unfold setup. destruct txs as [|t r]; [discriminate|]. destruct (rev (t :: r)) as [|u q] eqn:ER; [discriminate|].
  change (Decimal.IntPow 20 2 16) with (Ok 65536). cbn [bind]. unfold CreateExecution. rewrite ER.
 
  destruct (negb _); cbn [invariant bind]; [|discriminate]. destruct (0 <=? _); cbn [invariant bind]; discriminate.
Qed.
Lemma newPool_eq : newPool = NewPool "USDC" "WETH" 500 startPrice.
Proof. unfold newPool. reflexivity. Qed.
Local Opaque hnewPool newPool setup batchSize.

Section Facts.
  Variable ln : spec_float -> spec_float.
  Variable fuel : nat.

  Lemma seq_alone hours first txs hp p i : hnewPool = Ok hp -> newPool = Ok p ->
    sequential _ fuel hp (mainJob ln hours first txs) i = runAlone ln fuel hours first txs p i.
  Proof.
    intros H1 H2. destruct (newPool_view emptyHeap hp H1) as (E1 & E2 & _). unfold sequential, runAlone. rewrite E2.
    assert (viewP emptyHeap hp = p) as -> by congruence. reflexivity.
  Qed.

  Lemma main_finished schedule hours txs f : mainUnder ln fuel schedule hours txs = Finished f -> mainAlone ln fuel hours txs = Ok f.
  Proof.
    unfold mainUnder, mainAlone. destruct hnewPool as [hp| |] eqn:EH; [|intros Q; discriminate Q..]. destruct (newPool_view emptyHeap hp EH) as (EP & EC & EN).
    rewrite EP. cbn [bind]. destruct (setup hours txs) as [[[first last] n]| |]; cbn [bind]; [|intros Q; discriminate Q..]. unfold ending.
    set (s := grid ln fuel hours first txs hp (Z.to_nat n) schedule). destruct (crashed _ _ s); [intros Q; discriminate Q|]. destruct (main _ _ s) eqn:EM; [intros Q; discriminate Q..|].
    intros E. injection E as <-.
    rewrite (collect_ok _ (fun i => match results _ _ s i with Some r => r | None => zeroResult end)); [reflexivity|]. intros i Hi. apply in_seq in Hi.
    destruct (runs_over _ _ fuel hp (mainJob ln hours first txs) (fun _ r => r) (Z.to_nat n) batchSize EN schedule i EM ltac:(lia)) as (a & Ea & ER).
    rewrite (seq_alone hours first txs hp _ i EH EP) in Ea. rewrite Ea. f_equal. unfold s, grid. unfold schedule_run, initial, prgOf, postOf in ER. now rewrite ER.
  Qed.
  Lemma main_crash schedule hours txs : mainUnder ln fuel schedule hours txs = Crash ->
    setup hours txs = Panic \/ exists p first last n i, newPool = Ok p /\ setup hours txs = Ok (first, last, n) /\ Z.of_nat i < n /\ runAlone ln fuel hours first txs p i = Panic.
  Proof.
    unfold mainUnder. destruct hnewPool as [hp| |] eqn:EH.
    - destruct (newPool_view emptyHeap hp EH) as (EP & EC & EN). destruct (setup hours txs) as [[[first last] n]| |] eqn:ES.
      + unfold ending. destruct (crashed _ _ (grid ln fuel hours first txs hp (Z.to_nat n) schedule)) eqn:ECr; [|destruct (main _ _ _); intros Q; discriminate Q]. intros _. right.
        destruct (runs_crash _ _ fuel hp (mainJob ln hours first txs) (fun _ r => r) (Z.to_nat n) batchSize EN schedule ECr) as (i & Hi & EI).
        rewrite (seq_alone hours first txs hp _ i EH EP) in EI. exists (viewP emptyHeap hp), first, last, n, i. split; [exact EP|]. split; [reflexivity|]. split; [lia|exact EI].
      + auto.
      + intros _. destruct (setup_fuel _ _ ES).
    - destruct hnewPool_ok. congruence.
    - destruct hnewPool_ok. congruence.
  Qed.
  Lemma main_ends hours txs f : mainAlone ln fuel hours txs = Ok f -> exists hp first last n,
    hnewPool = Ok hp /\ setup hours txs = Ok (first, last, n) /\
    exists bound, forall k s,
      steps _ _ (fun i => compile fuel (hPoolClone hp) (mainJob ln hours first txs i)) (fun _ r => snd r) (Z.to_nat n) batchSize k (start _ _ emptyHeap) s ->
      (k <= bound)%nat /\
      ((forall w, gstep _ _ (fun i => compile fuel (hPoolClone hp) (mainJob ln hours first txs i)) (fun _ r => snd r) (Z.to_nat n) batchSize w s = None) ->
        ending s first last (Z.to_nat n) = Finished f).
  Proof.
    unfold mainAlone. destruct hnewPool as [hp| |] eqn:EH; [|destruct hnewPool_ok; congruence..]. destruct (newPool_view emptyHeap hp EH) as (EP & EC & EN).
    rewrite EP. cbn [bind]. destruct (setup hours txs) as [[[first last] n]| |] eqn:ES; cbn [bind]; [|intros Q; discriminate Q..].
    destruct (collect (runAlone ln fuel hours first txs (viewP emptyHeap hp)) (seq 0 (Z.to_nat n))) as [rs| |] eqn:ER; cbn [bind]; [|intros Q; discriminate Q..]. intros E. injection E as <-.
    exists hp, first, last, n. split; [reflexivity|]. split; [reflexivity|]. pose proof (collect_in _ _ _ ER) as HC.
    destruct (runs_end _ _ fuel hp (mainJob ln hours first txs) (fun _ r => r) (Z.to_nat n) batchSize EN batchSize_pos) as (bound & HB).
    { intros i Hi. destruct (HC i Hi) as (a & Ea & _). exists a. now rewrite (seq_alone hours first txs hp _ i EH EP). }
    exists bound. intros k s HS. destruct (HB k s HS) as (B1 & B0 & B2). split; [assumption|]. intros HStuck. destruct (B2 HStuck) as [EM HR].
    unfold ending. rewrite EM.
    assert (table s (Z.to_nat n) = rs) as ->.
    { unfold table. apply nth_error_ext. intros i. destruct (Nat.ltb_spec i (Z.to_nat n)) as [Hi|Hi].
      - destruct (HC i Hi) as (a & Ea & En). rewrite En. destruct (HR i Hi) as (b & Eb & Er). rewrite (seq_alone hours first txs hp _ i EH EP) in Eb.
        rewrite nth_error_map, nth_error_nth' with (d := 0%nat) by (rewrite seq_length; assumption). rewrite seq_nth by assumption. cbn [option_map Nat.add]. rewrite Er. congruence.
      - rewrite (proj2 (nth_error_None _ _)), (proj2 (nth_error_None _ _)); [reflexivity| |].
        + apply collect_length in ER. rewrite ER, seq_length. lia.
        + rewrite map_length, seq_length. lia. }
    rewrite B0. reflexivity.
  Qed.
  (** wherever the scheduler has led, the program can still end, and any end is this one *)
  Lemma main_extends hours txs f schedule : mainAlone ln fuel hours txs = Ok f -> exists more, mainUnder ln fuel (schedule ++ more) hours txs = Finished f.
  Proof.
    intros EA. pose proof EA as E. unfold mainAlone in E. destruct hnewPool as [hp| |] eqn:EH; [|destruct hnewPool_ok; congruence..]. destruct (newPool_view emptyHeap hp EH) as (EP & EC & EN).
    rewrite EP in E. cbn [bind] in E. destruct (setup hours txs) as [[[first last] n]| |] eqn:ES; cbn [bind] in E; [|discriminate E..].
    destruct (collect (runAlone ln fuel hours first txs (viewP emptyHeap hp)) (seq 0 (Z.to_nat n))) as [rs| |] eqn:ER; cbn [bind] in E; [|discriminate E..].
    destruct (runs_extend _ _ fuel hp (mainJob ln hours first txs) (fun _ r => r) (Z.to_nat n) batchSize EN schedule batchSize_pos) as (more & E1 & E2).
    { intros i Hi. destruct (collect_in _ _ _ ER i Hi) as (a & Ea & _). exists a. now rewrite (seq_alone hours first txs hp _ i EH EP). }
    exists more. assert (exists f', mainUnder ln fuel (schedule ++ more) hours txs = Finished f') as [f' EF].
    { unfold mainUnder. rewrite EH, ES. unfold ending. change (grid ln fuel hours first txs hp (Z.to_nat n) (schedule ++ more)) with
        (schedule_run _ _ fuel hp (mainJob ln hours first txs) (fun _ r => r) (Z.to_nat n) batchSize (schedule ++ more)). rewrite E1, E2. eauto. }
    rewrite EF. pose proof (main_finished _ _ _ _ EF). congruence.
  Qed.
End Facts.

(** ** what is in the file *)
Definition startSt : St := mkSt 1000000 startAmount1 [] (mkPrices (repeat 0 100) 0 100) 0 0 0 false.
Lemma NewStrategy_start k : keepsHistory k = true -> NewStrategy k 1000000 startAmount1 100 = Ok startSt.
Proof. intros H. unfold NewStrategy. rewrite H. reflexivity. Qed.
Lemma int64_small x : - 2 ^ 63 <= x < 2 ^ 63 -> int64 x = x.
Proof. intros H. unfold int64. rewrite Z.mod_small by lia. lia. Qed.
Lemma updateOf_hours hours : Z.abs hours < 2 ^ 50 -> updateOf hours = hours * 3600.
Proof. intros H. unfold updateOf. rewrite (int64_small (hours * 60)) by lia. rewrite int64_small by lia. lia. Qed.
Lemma mainConfig_eq hours first : Z.abs hours < 2 ^ 50 -> 0 <= first < 2 ^ 62 ->
  mainConfig hours first = mkConfig (first + 2592000) 90000000000000 (hours * 3600) 3600 864.
Proof.
  intros H1 H2. unfold mainConfig. rewrite (updateOf_hours hours H1). unfold iadd. rewrite int64_small by lia. reflexivity.
Qed.

Section Contents.
  Variable ln : spec_float -> spec_float.
  Variable fuel : nat.

  Lemma runAlone_inv hours first txs p i r : runAlone ln fuel hours first txs p i = Ok r -> exists q tr st values,
    runV fuel p (Run (strategyOf (BollingerBandsFillUp (Z.of_nat i + 1))) (mainConfig hours first) txs startSt) = Ok (q, tr, (st, values)) /\
    resultOf ln (Z.of_nat i + 1) 86400 (updateOf hours) values = Ok r.
  Proof.
    unfold runAlone, mainJob. rewrite NewStrategy_start by reflexivity. unfold pure at 1. cbn [mbind]. rewrite runV_bind.
    destruct (runV fuel p (Run _ _ _ _)) as [[[q tr] [st values]]| |] eqn:E; cbn [bind]; [|intros Q; discriminate Q..].
    unfold pure. cbn [runV snd]. change duration with 86400.
    destruct (resultOf ln (Z.of_nat i + 1) 86400 (updateOf hours) values) as [r'| |] eqn:ER; cbn [bind snd]; intros Q; try discriminate Q. injection Q as <-.
    exists q, tr, st, values. auto.
  Qed.
  Lemma main_contents hours txs f : mainAlone ln fuel hours txs = Ok f -> exists p first last rs,
    NewPool "USDC" "WETH" 500 startPrice = Ok p /\
    (exists t r, txs = t :: r /\ txTime t = first) /\ (exists t r, txs = r ++ [t] /\ txTime t = last) /\
    Z.of_nat (length rs) = 65535 /\ f = save first last rs /\
    forall i, (i < length rs)%nat -> exists r q tr st values, nth_error rs i = Some r /\
      runV fuel p (Run (strategyOf (BollingerBandsFillUp (Z.of_nat i + 1))) (mainConfig hours first) txs startSt) = Ok (q, tr, (st, values)) /\
      resultOf ln (Z.of_nat i + 1) 86400 (updateOf hours) values = Ok r.
  Proof.
    unfold mainAlone. destruct newPool as [p| |] eqn:EP; cbn [bind]; [|intros Q; discriminate Q..].
    destruct (setup hours txs) as [[[first last] n]| |] eqn:ES; cbn [bind]; [|intros Q; discriminate Q..].
    destruct (collect (runAlone ln fuel hours first txs p) (seq 0 (Z.to_nat n))) as [rs| |] eqn:ER; cbn [bind]; intros Q; try discriminate Q. injection Q as <-.
    destruct (setup_n _ _ _ _ _ ES) as (HN & HF & HL & _). pose proof (collect_length _ _ _ ER) as HLen. rewrite seq_length in HLen.
    exists p, first, last, rs. split; [rewrite <- newPool_eq; exact EP|]. split; [assumption|]. split; [assumption|]. split; [rewrite HLen, HN, Z2Nat.id by lia; reflexivity|]. split; [reflexivity|].
    intros i Hi. rewrite HLen in Hi. destruct (collect_in _ _ _ ER i Hi) as (r & E1 & E2). destruct (runAlone_inv _ _ _ _ _ _ E1) as (q & tr & st & vs & E3 & E4).
    exists r, q, tr, st, vs. auto.
  Qed.
End Contents.

(** ** when it starts *)
Local Transparent setup.
Lemma setup_times hours txs : setup hours txs =
  match map txTime txs, rev (map txTime txs) with
  | first :: _, last :: _ =>
      if updateOf hours =? 0 then Panic
      else if 0 <=? int64 (Z.quot (isub last (iadd first (60 * 60 * 24 * 30))) (updateOf hours)) then Ok (first, last, 65535) else Panic
  | _, _ => Panic
  end.
Proof.
  unfold setup, CreateExecution. rewrite <- map_rev. destruct txs as [|t r]; [reflexivity|]. destruct (rev (t :: r)) as [|u q]; [reflexivity|]. cbn [map].
  change (Decimal.IntPow 20 2 16) with (Ok 65536). cbn [bind mainConfig cStart cUpdate].
  destruct (updateOf hours =? 0); cbn [negb invariant bind]; [reflexivity|]. destruct (0 <=? _); reflexivity.
Qed.
Local Opaque setup.
Lemma quot_neg a b : 0 < b -> (Z.quot a b < 0 <-> a <= - b).
Proof.
  intros H. destruct (Z.le_gt_cases 0 a) as [Ha|Ha].
  - pose proof (Z.quot_pos a b Ha H). split; lia.
  - rewrite <- (Z.opp_involutive a), Z.quot_opp_l by lia. rewrite Z.quot_div_nonneg by lia.
    split; intros K.
    + assert (1 <= - a / b) by lia. pose proof (Z.mul_div_le (- a) b H). assert (b * 1 <= b * (- a / b)) by (apply Z.mul_le_mono_nonneg_l; lia). lia.
    + assert (1 <= - a / b) by (apply Z.div_le_lower_bound; lia). lia.
Qed.
Lemma setup_starts hours t r u q : t :: r = q ++ [u] -> 0 < hours < 2 ^ 50 -> 0 <= txTime t < 2 ^ 62 -> 0 <= txTime u < 2 ^ 62 ->
  setup hours (t :: r) = if txTime u + hours * 3600 <=? txTime t + 2592000 then Panic else Ok (txTime t, txTime u, 65535).
Proof.
  intros E H1 H2 H3. rewrite setup_times. 
  assert (rev (map txTime (t :: r)) = txTime u :: rev (map txTime q)) as -> by (rewrite E, map_app, rev_app_distr; reflexivity). cbn [map]. rewrite updateOf_hours by lia.
  destruct (Z.eqb_spec (hours * 3600) 0); [lia|]. unfold isub, iadd. rewrite (int64_small (txTime t + _)) by lia. rewrite (int64_small (txTime u - _)) by lia.
  pose proof (quot_neg (txTime u - (txTime t + 60 * 60 * 24 * 30)) (hours * 3600) ltac:(lia)) as Q.
  assert (Z.abs (Z.quot (txTime u - (txTime t + 60 * 60 * 24 * 30)) (hours * 3600)) < 2 ^ 63).
  { rewrite <- Z.quot_abs by lia. rewrite Z.quot_div_nonneg by lia. apply Z.div_lt_upper_bound; lia. }
  rewrite int64_small by lia.
  destruct (Z.leb_spec 0 (Z.quot (txTime u - (txTime t + 60 * 60 * 24 * 30)) (hours * 3600))); destruct (Z.leb_spec (txTime u + hours * 3600) (txTime t + 2592000)); try reflexivity; lia.
Qed.

(** ** too little data *)
Lemma snapshot_run m fuel p s q t s' : runV fuel p (MakeSnapshot (BollingerBandsFillUp m) s) = Ok (q, t, s') -> q = p /\ exists h, s' = with_history s h.
Proof.
  unfold MakeSnapshot. cbn [keepsHistory]. unfold look, pure, done. cbn [mbind runV].
  destruct (AddPrice (sHistory s) (slPrice (slot p))) as [h| |]; cbn [mbind runV bind]; intros E; try discriminate E. injection E as <- _ <-. eauto.
Qed.
Lemma loop_unstarted m c fuel txs : forall s l p q tr s' l',
  Forall (fun t => txTime t < cStart c /\ txTime t < MaxInt64) txs -> lStarted l = false -> lUpdate l = MaxInt64 -> lSnapshot l = MaxInt64 ->
  runV fuel p (runLoop (strategyOf (BollingerBandsFillUp m)) c txs s l) = Ok (q, tr, (s', l')) ->
  sAmount0 s' = sAmount0 s /\ sAmount1 s' = sAmount1 s /\ sPositions s' = sPositions s /\ lValues l' = lValues l.
Proof.
  induction txs as [|t txs IH]; intros s l p q tr s' l' HF HS HU HN E; cbn [runLoop] in E.
  - injection E as _ _ <- <-. auto.
  - inversion HF as [|? ? [Ht Ht'] HF']; subst. destruct (cEnd c <? txTime t); [injection E as _ _ <- <-; auto|].
    rewrite HS in E. destruct (Z.leb_spec (cStart c) (txTime t)) as [K|_]; [lia|]. cbn [negb andb mbind done] in E.
    assert (forall s1 l1 p1 tr1 , lStarted l1 = false -> lUpdate l1 = MaxInt64 -> lSnapshot l1 = MaxInt64 ->
      sAmount0 s1 = sAmount0 s -> sAmount1 s1 = sAmount1 s -> sPositions s1 = sPositions s -> lValues l1 = lValues l ->
      runV fuel p1 (act l2 <- (if lSnapshot l1 <=? txTime t then
            act a <- doAmounts (strategyOf (BollingerBandsFillUp m)) s1;
            act v <- valueUSD (fst a) (snd a);
            done (mkLoop (lStarted l1) (lUpdate l1) (iadd (lSnapshot l1) (cSnapshot c)) (lPrice l1) (lValues l1 ++ [v]))
          else done l1);
       act sl <-
         (if lUpdate l2 <=? txTime t then
            act s <- doRebalance (strategyOf (BollingerBandsFillUp m)) s1;
            done (s, mkLoop (lStarted l2) (iadd (lUpdate l2) (cUpdate c)) (lSnapshot l2) (lPrice l2) (lValues l2))
          else done (s1, l2));
       let '(s, l) := sl in
       act _ <- execTx t;
       runLoop (strategyOf (BollingerBandsFillUp m)) c txs s l) = Ok (q, tr1, (s', l')) ->
      sAmount0 s' = sAmount0 s /\ sAmount1 s' = sAmount1 s /\ sPositions s' = sPositions s /\ lValues l' = lValues l) as Rest.
    { intros s1 l1 p1 tr1 A1 A2 A3 B1 B2 B3 B4 E1. rewrite A3 in E1. destruct (Z.leb_spec MaxInt64 (txTime t)) as [K|_]; [lia|]. cbn [mbind done] in E1.
      rewrite A2 in E1. destruct (Z.leb_spec MaxInt64 (txTime t)) as [K|_]; [lia|]. cbn [mbind done] in E1. rewrite runV_bind in E1.
      destruct (runV fuel p1 (execTx t)) as [[[p2 t2] a]| |]; cbn [bind] in E1; try discriminate E1.
      destruct (runV fuel p2 (runLoop _ c txs s1 l1)) as [[[p3 t3] [s3 l3]]| |] eqn:E3; cbn [bind] in E1; try discriminate E1. injection E1 as _ _ <- <-.
      destruct (IH s1 l1 p2 p3 t3 s3 l3 HF' A1 A2 A3 E3) as (C1 & C2 & C3 & C4). repeat split; congruence. }
    destruct (lPrice l <? txTime t).
    + rewrite runV_bind in E. destruct (runV fuel p _) as [[[p1 t1] [s1 l1]]| |] eqn:E1; cbn [bind] in E; try discriminate E.
      destruct (runV fuel p1 _) as [[[p2 t2] [s2 l2]]| |] eqn:E2 in E; cbn [bind] in E; try discriminate E. injection E as <- _ <- <-.
      rewrite runV_bind in E1. destruct (runV fuel p (doSnapshot _ s)) as [[[p0 t0] s0]| |] eqn:E0; cbn [bind] in E1; try discriminate E1.
      unfold done in E1. cbn [runV bind] in E1. injection E1 as <- _ <- <-. destruct (snapshot_run m _ _ _ _ _ _ E0) as (-> & h & ->).
      eapply Rest; [..|exact E2]; try reflexivity; assumption.
    + cbn [mbind done] in E. eapply Rest; [..|exact E]; try reflexivity; assumption.
Qed.

(** only the worth of the untouched amounts is recorded *)
Lemma run_unstarted m c fuel txs s p q tr st values :
  Forall (fun t => txTime t < cStart c /\ txTime t < MaxInt64) txs -> sPositions s = [] ->
  runV fuel p (Run (strategyOf (BollingerBandsFillUp m)) c txs s) = Ok (q, tr, (st, values)) ->
  exists w, MulDiv (sAmount1 s) (2 ^ 192) (umul (SqrtRatio q) (SqrtRatio q)) = Ok w /\ values = [uadd w (sAmount0 s)].
Proof.
  intros HF HP E. unfold Run in E. rewrite runV_bind in E.
  destruct (runV fuel p (runLoop (strategyOf (BollingerBandsFillUp m)) c txs s (mkLoop false MaxInt64 MaxInt64 0 []))) as [[[p1 t1] [s1 l1]]| |] eqn:E1; cbn [bind] in E; try discriminate E.
  destruct (loop_unstarted m c fuel txs s (mkLoop false MaxInt64 MaxInt64 0 []) p p1 t1 s1 l1 HF eq_refl eq_refl eq_refl E1) as (A0 & A1 & AP & AV). cbn [lValues] in AV.
  cbn [strategyOf doBurnAll BurnAll] in E. unfold burnReset in E. rewrite AP, HP in E. cbn [burnPositions mbind done] in E.
  unfold valueUSD, look, pure, done in E. cbn [mbind runV slot slPrice] in E. rewrite A0, A1, AV in E. unfold Q192 in E.
  destruct (MulDiv (sAmount1 s) (2 ^ 192) (umul (SqrtRatio p1) (SqrtRatio p1))) as [w| |] eqn:EM; cbn [mbind runV bind] in E; try discriminate E.
  injection E as <- _ _ <-. exists w. auto.
Qed.

(** ** the same transactions *)
Definition alike (t t' : Transaction) : Prop := txTime t = txTime t' /\ execTx t = execTx t'.
Lemma runLoop_alike {S} (strat : Strat S) c txs txs' : Forall2 alike txs txs' -> forall s l, same (runLoop strat c txs s l) (runLoop strat c txs' s l).
Proof.
  induction 1 as [|t t' txs txs' [HT HX] _ IH]; intros s l; cbn [runLoop]; [apply same_refl|]. rewrite HT, HX.
  destruct (cEnd c <? txTime t'); [apply same_refl|]. apply same_bind; [apply same_refl|]. intros [s1 l1].
  apply same_bind; [apply same_refl|]. intros [s2 l2]. apply same_bind; [apply same_refl|]. intros l3.
  apply same_bind; [apply same_refl|]. intros [s4 l4]. apply same_bind; [apply same_refl|]. intros _. apply IH.
Qed.
Lemma Run_alike {S} (strat : Strat S) c txs txs' s : Forall2 alike txs txs' -> same (Run strat c txs s) (Run strat c txs' s).
Proof. intros H. unfold Run. apply same_bind; [now apply runLoop_alike|]. intros [s1 l1]. apply same_refl. Qed.
Lemma alike_times txs txs' : Forall2 alike txs txs' -> map txTime txs = map txTime txs'.
Proof. induction 1 as [|t t' txs txs' [HT _] _ IH]; [reflexivity|]. cbn [map]. now rewrite HT, IH. Qed.
Lemma collect_ext {A} (f g : nat -> res A) l : (forall i, f i = g i) -> collect f l = collect g l.
Proof. intros H. induction l as [|i l IH]; [reflexivity|]. cbn [collect]. now rewrite H, IH. Qed.
Lemma main_alike ln fuel hours txs txs' : Forall2 alike txs txs' -> mainAlone ln fuel hours txs = mainAlone ln fuel hours txs'.
Proof.
  intros H. unfold mainAlone. destruct newPool as [p| |]; cbn [bind]; [|reflexivity..].
  assert (setup hours txs = setup hours txs') as -> by (rewrite !setup_times, (alike_times _ _ H); reflexivity).
  destruct (setup hours txs') as [[[first last] n]| |]; cbn [bind]; [|reflexivity..].
  rewrite (collect_ext _ (runAlone ln fuel hours first txs' p)); [reflexivity|]. intros i. unfold runAlone.
  assert (same (mainJob ln hours first txs i) (mainJob ln hours first txs' i)) as HS.
  { unfold mainJob. apply same_bind; [apply same_refl|]. intros s. apply same_bind; [now apply Run_alike|]. intros r. apply same_refl. }
  now rewrite HS.
Qed.
From Verif Require Import DecimalFacts FloatSpec StatsFacts StatsRun.

(** the fields MarshalJSON and the executor use are there *)
Definition complete (t : Decimal.Transaction) : Prop :=
  (Decimal.tType t = "Swap"%string /\ some_wf (Decimal.tAmount0 t) /\ some_wf (Decimal.tAmount1 t) /\ some_wf (Decimal.tSqrtPriceX96 t)) \/
  ((Decimal.tType t = "Mint"%string \/ Decimal.tType t = "Burn"%string) /\ some_wf (Decimal.tAmount t) /\ some_wf (Decimal.tAmount0 t) /\ some_wf (Decimal.tAmount1 t)) \/
  (Decimal.tType t = "Flash"%string /\ some_wf (Decimal.tAmount0 t) /\ some_wf (Decimal.tAmount1 t)).
Lemma some_value z junk junk' : some_wf z -> valueOf junk z = valueOf junk' z.
Proof. destruct z; [reflexivity|intros []]. Qed.
Lemma written_alike t i junk junk' : complete t -> Decimal.MarshalJSON t = Ok i -> alike (txOf junk (Decimal.readTransaction i)) (txOf junk' t).
Proof.
  intros [(HT & H0 & H1 & HS)|[(HT & HA & H0 & H1)|(HT & H0 & H1)]] E.
  - destruct (swap_round t HT H0 H1 HS) as (i' & E' & ER). rewrite E in E'. injection E' as <-. rewrite ER. split; [reflexivity|].
    unfold execTx, txOf. cbn. rewrite HT. cbn. now rewrite (some_value _ junk junk' H0), (some_value _ junk junk' H1).
  - destruct (mint_burn_round t HT HA H0 H1) as (i' & E' & ER). rewrite E in E'. injection E' as <-. rewrite ER. split; [reflexivity|].
    unfold execTx, txOf. cbn. rewrite (some_value _ junk junk' HA). destruct HT as [-> | ->]; cbn; reflexivity.
  - destruct (flash_round t HT H0 H1) as (i' & E' & ER). rewrite E in E'. injection E' as <-. rewrite ER. split; [reflexivity|].
    unfold execTx, txOf. cbn. rewrite HT. cbn. now rewrite (some_value _ junk junk' H0), (some_value _ junk junk' H1).
Qed.
Lemma main_written ln fuel hours ts inputs junk junk' : Forall complete ts -> Forall2 (fun t i => Decimal.MarshalJSON t = Ok i) ts inputs ->
  mainAlone ln fuel hours (getTransactions junk inputs) = mainAlone ln fuel hours (map (txOf junk') ts).
Proof.
  intros HF H2. apply main_alike. induction H2 as [|t i ts inputs E _ IH]; [constructor|]. inversion HF; subst. cbn [getTransactions map]. constructor; [now apply written_alike|now apply IH].
Qed.

(** every amount the executor uses can be read *)
Definition readable (i : Decimal.TransactionInput) : Prop :=
  (Decimal.inType i = "Mint"%string \/ Decimal.inType i = "Burn"%string -> Decimal.bigSetString (Decimal.inAmount i) <> None) /\
  (Decimal.inType i = "Swap"%string \/ Decimal.inType i = "Flash"%string ->
     Decimal.bigSetString (Decimal.inAmount0 i) <> None /\ Decimal.bigSetString (Decimal.inAmount1 i) <> None).
Lemma readable_value s junk junk' : Decimal.bigSetString s <> None -> valueOf junk (Decimal.stringToUint256 s) = valueOf junk' (Decimal.stringToUint256 s).
Proof. unfold Decimal.stringToUint256. destruct (Decimal.bigSetString s); [reflexivity|congruence]. Qed.
Lemma readable_alike i junk junk' : readable i -> alike (txOf junk (Decimal.readTransaction i)) (txOf junk' (Decimal.readTransaction i)).
Proof.
  intros [H1 H2]. split; [reflexivity|]. unfold execTx, txOf, Decimal.readTransaction. cbn.
  destruct (String.eqb_spec (Decimal.inType i) "Mint") as [EM|_]; [now rewrite (readable_value _ junk junk' (H1 (or_introl EM)))|].
  destruct (String.eqb_spec (Decimal.inType i) "Burn") as [EM|_]; [now rewrite (readable_value _ junk junk' (H1 (or_intror EM)))|].
  destruct (String.eqb_spec (Decimal.inType i) "Swap") as [EM|_].
  { destruct (H2 (or_introl EM)) as [K0 K1]. now rewrite (readable_value _ junk junk' K0), (readable_value _ junk junk' K1). }
  destruct (String.eqb_spec (Decimal.inType i) "Flash") as [EM|_]; [|reflexivity].
  destruct (H2 (or_intror EM)) as [K0 K1]. now rewrite (readable_value _ junk junk' K0), (readable_value _ junk junk' K1).
Qed.
Lemma main_readable ln fuel hours inputs junk junk' : Forall readable inputs ->
  mainAlone ln fuel hours (getTransactions junk inputs) = mainAlone ln fuel hours (getTransactions junk' inputs).
Proof.
  intros HF. apply main_alike. induction HF as [|i inputs H _ IH]; [constructor|]. cbn [getTransactions map]. constructor; [now apply readable_alike|exact IH].
Qed.

(** ** nothing starts *)
Lemma resultOf_single ln mul interval v r : 0 < v < 2 ^ 256 -> resultOf ln mul 86400 interval [v] = Ok r ->
  EndAmount r = v /\ encodable r = true /\ fin (Return r) 0 /\
  forall x, In x [MaxDrawdown r; StdHourly r; StdDaily r; StdWeekly r; DownHourly r; DownDaily r; DownWeekly r; VarHourly r; VarDaily r; VarWeekly r] -> x = f64_zero.
Proof.
  intros HV E. pose proof E as E0.
  apply (result_return ln mul 86400 interval v [] r) in E0; [|constructor; [unfold price; lia|constructor]|lia]. destruct E0 as (w & HF & _ & _ & W1 & W2).
  cbn in E. injection E as <-. cbn [Return EndAmount MaxDrawdown StdHourly StdDaily StdWeekly DownHourly DownDaily DownWeekly VarHourly VarDaily VarWeekly] in *.
  assert (w = 0) as -> by lia. split; [reflexivity|]. split; [|split; [assumption|]].
  - unfold encodable. cbn [Return MaxDrawdown StdHourly StdDaily StdWeekly DownHourly DownDaily DownWeekly VarHourly VarDaily VarWeekly forallb isFinite f64_zero andb].
    destruct (f64_div _ _); cbn in HF; try reflexivity; destruct HF; discriminate.
  - cbn [In]. intros x [<-|[<-|[<-|[<-|[<-|[<-|[<-|[<-|[<-|[<-|[]]]]]]]]]]]; reflexivity.
Qed.

Lemma main_short ln fuel hours txs t r f : mainAlone ln fuel hours txs = Ok f -> txs = t :: r -> Z.abs hours < 2 ^ 50 -> 0 <= txTime t < 2 ^ 62 ->
  Forall (fun x => txTime x < txTime t + 2592000) txs ->
  exists file, f = Some file /\ Z.of_nat (length (Results file)) = 65535 /\ forall res, In res (Results file) ->
    (exists x, EndAmount res = 366874042000000 * 2 ^ 192 / ((x * x) mod 2 ^ 256) + 1000000) /\ fin (Return res) 0 /\
    forall x, In x [MaxDrawdown res; StdHourly res; StdDaily res; StdWeekly res; DownHourly res; DownDaily res; DownWeekly res; VarHourly res; VarDaily res; VarWeekly res] -> x = f64_zero.
Proof.
  intros E ET HH HT HF. destruct (main_contents ln fuel hours txs f E) as (p & first & last & rs & _ & (t' & r' & ET' & Ef) & _ & HN & -> & HR).
  rewrite ET in ET'. injection ET' as <- <-. subst first.
  assert (forall res, In res rs -> encodable res = true /\ (exists x, EndAmount res = 366874042000000 * 2 ^ 192 / ((x * x) mod 2 ^ 256) + 1000000) /\ fin (Return res) 0 /\
    forall x, In x [MaxDrawdown res; StdHourly res; StdDaily res; StdWeekly res; DownHourly res; DownDaily res; DownWeekly res; VarHourly res; VarDaily res; VarWeekly res] -> x = f64_zero) as HA.
  { intros res HI. apply In_nth_error in HI. destruct HI as [i Hi]. assert (i < length rs)%nat as Hlt by (apply nth_error_Some; congruence).
    destruct (HR i Hlt) as (res' & q & tr & st & values & E1 & E2 & E3). assert (res' = res) as -> by congruence.
    apply run_unstarted in E2; [|rewrite mainConfig_eq by assumption; cbn [cStart]; eapply Forall_impl; [|exact HF]; intros a Ha; cbv beta in Ha; split; [exact Ha|unfold MaxInt64; lia]|reflexivity].
    destruct E2 as (w & EW & ->). cbn [startSt sAmount0 sAmount1] in *. unfold startAmount1 in EW.
    unfold MulDiv in EW. change ((366874042000000 =? 0) || (2 ^ 192 =? 0)) with false in EW. destruct (udivrem5_ok _ _); [|discriminate EW]. injection EW as EW.
    assert (0 <= 366874042000000 * 2 ^ 192 / umul (SqrtRatio q) (SqrtRatio q) <= 366874042000000 * 2 ^ 192) as HB.
    { unfold umul. pose proof (Z.mod_pos_bound (SqrtRatio q * SqrtRatio q) T256 ltac:(reflexivity)) as HM. revert HM. generalize ((SqrtRatio q * SqrtRatio q) mod T256). intros d HM.
      destruct (Z.eq_dec d 0) as [->|]; [rewrite Zdiv_0_r; lia|]. split; [apply Z.div_pos; lia|]. apply Z.div_le_upper_bound; [lia|].
      transitivity (1 * (366874042000000 * 2 ^ 192)); [lia|]. apply Z.mul_le_mono_nonneg_r; lia. }
    rewrite Z.mod_small in EW by (refine (conj (proj1 HB) _); eapply Z.le_lt_trans; [exact (proj2 HB)|reflexivity]).
    assert (0 <= w <= 366874042000000 * 2 ^ 192) as HW by (rewrite <- EW; exact HB).
    assert (uadd w 1000000 = w + 1000000) as EU by (unfold uadd; apply Z.mod_small; change T256 with (2 ^ 256); lia). rewrite EU in E3.
    destruct (resultOf_single ln _ _ (w + 1000000) res ltac:(lia) E3) as (R1 & R2 & R3 & R4). split; [assumption|]. split; [|split; assumption].
    exists (SqrtRatio q). rewrite R1. f_equal. symmetry. exact EW. }
  assert (saveFile rs = Some rs) as ES.
  { unfold saveFile. assert (forallb encodable rs = true) as ->; [|reflexivity]. apply forallb_forall. intros x Hx. apply (HA x Hx). }
  exists (mkSave "2000000" (txTime t) last rs). unfold save. rewrite ES. split; [reflexivity|]. cbn [Results]. split; [assumption|]. intros res HI. apply (HA res HI).
Qed.

(** ** the file, with main's numbers *)
Lemma main_file ln fuel hours txs f : mainAlone ln fuel hours txs = Ok f -> Z.abs hours < 2 ^ 50 -> (forall t r, txs = t :: r -> 0 <= txTime t < 2 ^ 62) ->
  exists p first last rs,
    NewPool "USDC" "WETH" 500 startPrice = Ok p /\
    (exists t r, txs = t :: r /\ txTime t = first) /\ (exists t r, txs = r ++ [t] /\ txTime t = last) /\
    Z.of_nat (length rs) = 65535 /\
    f = (if forallb encodable rs then Some (mkSave "2000000" first last rs) else None) /\
    forall i, (i < length rs)%nat -> exists r q tr st values, nth_error rs i = Some r /\
      runV fuel p (Run (strategyOf (BollingerBandsFillUp (Z.of_nat i + 1))) (mkConfig (first + 2592000) 90000000000000 (hours * 3600) 3600 864) txs
        (mkSt 1000000 startAmount1 [] (mkPrices (repeat 0 100) 0 100) 0 0 0 false)) = Ok (q, tr, (st, values)) /\
      resultOf ln (Z.of_nat i + 1) 86400 (hours * 3600) values = Ok r.
Proof.
  intros E HH HT. destruct (main_contents ln fuel hours txs f E) as (p & first & last & rs & HP & (t & r & ET & EF) & HL & HN & -> & HR).
  exists p, first, last, rs. split; [exact HP|]. split; [eauto|]. split; [exact HL|]. split; [exact HN|]. split.
  - unfold save, saveFile. destruct (forallb encodable rs); reflexivity.
  - intros i Hi. destruct (HR i Hi) as (res & q & tr & st & vs & E1 & E2 & E3). exists res, q, tr, st, vs. split; [exact E1|].
    specialize (HT t r ET). rewrite EF in HT. rewrite mainConfig_eq in E2 by assumption. rewrite updateOf_hours in E3 by assumption. split; [exact E2|exact E3].
Qed.
