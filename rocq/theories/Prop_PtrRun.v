(** Prop_PtrRun.v -- property C93: with pointers, a back-test computes what it computes on values. *)
From Coq Require Import String.
From Verif Require Import Base U256Z SwapMath TickMath TickData Pool PoolOps Prices Client Strategy Executor.
From Verif Require Import Ptr PtrFacts PtrPoolFacts PtrRun PtrRunFacts.
Ltac Zify.zify_post_hook ::= idtac.
Open Scope Z_scope.

(** ** C93 *)
(** A run of the executor, with any strategy, from any state: the outcome, the pool, the state of the strategy and the values are those of
    the run on values, and besides the pool's variables only the two balances change. *)
Theorem C93_a_run_is_a_run_on_values : forall fuel k c m P p S s txs ts,
  poolOk m P p -> stIs (multiplierOf k) m S s -> nth_error m gQ192 = Some Q192 -> Forall2 (txIs m) txs ts -> apart P S txs ->
  match RunP fuel k c txs S P m, runV fuel p (Run (strategyOf k) c ts s) with
  | Ok (r, m'), Ok (p', _, r') =>
      poolOk m' (fst r) p' /\ stIs (multiplierOf k) m' (fst (snd r)) (fst r') /\
      Forall2 (fun x v => nth_error m' x = Some v) (snd (snd r)) (snd r') /\
      (forall q v, ~ In q (written P) -> q <> uAmount0 S -> q <> uAmount1 S -> nth_error m q = Some v -> nth_error m' q = Some v)
  | Panic, Panic => True
  | OutOfFuel, OutOfFuel => True
  | _, _ => False
  end.
Proof.
  intros fuel k c m P p S s txs ts H Hs Vq Ft Ap. pose proof (ok_Run fuel k c m P p S s txs ts H Hs Vq Ft Ap) as X. unfold ok, eval in X.
  destruct (RunP fuel k c txs S P m) as [[r m']| |], (runV fuel p (Run (strategyOf k) c ts s)) as [[[p' tr] r']| |]; cbn [bind fst snd] in X; auto.
  destruct X as ([_ K] & X1 & X2 & X3). split; [exact X1|]. split; [exact X2|]. split; [exact X3|].
  intros q v N1 N2 N3 V. apply K; [intuition congruence|eapply val_lt, V|exact V].
Qed.
Print Assumptions C93_a_run_is_a_run_on_values.

(** A back-test: the constructor, which copies the pool and the start amounts, and the run.  Of what existed before, only variables of the
    ticks of the cloned pool can change: the start amounts, the transactions and everything else keep their numbers. *)
Theorem C93_a_back_test_is_a_back_test_on_values : forall fuel j m P p x0 x1 v0 v1 txs ts,
  poolOk m P p -> nth_error m x0 = Some v0 -> nth_error m x1 = Some v1 -> nth_error m gQ192 = Some Q192 -> Forall2 (txIs m) txs ts ->
  (forall q, In q (gQ192 :: flat_map txReads txs) -> ~ In q (tc (yTicks (zData P)))) ->
  match backtestP fuel (jKind j) (jConfig j) P x0 x1 (jSnapshots j) txs m, backtestV fuel j p v0 v1 ts with
  | Ok (r, m'), Ok r' =>
      poolOk m' (fst r) (fst r') /\ stIs (multiplierOf (jKind j)) m' (fst (snd r)) (fst (snd r')) /\
      Forall2 (fun x v => nth_error m' x = Some v) (snd (snd r)) (snd (snd r')) /\
      (forall q v, ~ In q (tc (yTicks (zData P))) -> nth_error m q = Some v -> nth_error m' q = Some v)
  | Panic, Panic => True
  | OutOfFuel, OutOfFuel => True
  | _, _ => False
  end.
Proof.
  intros fuel j m P p x0 x1 v0 v1 txs ts H V0 V1 Vq Ft Sh. pose proof (ok_backtest fuel j m P p x0 x1 v0 v1 txs ts H V0 V1 Vq Ft Sh) as X. unfold ok in X.
  destruct (backtestP _ _ _ _ _ _ _ _ m) as [[r m']| |], (backtestV fuel j p v0 v1 ts) as [r'| |]; auto.
  destruct X as ([_ K] & X1 & X2 & X3). split; [exact X1|]. split; [exact X2|]. split; [exact X3|].
  intros q v N V. apply K; [exact N|eapply val_lt, V|exact V].
Qed.
Print Assumptions C93_a_back_test_is_a_back_test_on_values.

(** The program of main.go from its start: a new pool, and any number of back-tests of it, one after the other in one memory.
    At the end the results of all of them are the values that each has alone, and the numbers of the start are unchanged. *)
Theorem C93_back_tests_of_a_new_pool_are_independent : forall fuel jobs t0 t1 fee price v0 v1 ts,
  Forall (fun t => 0 <= txAmount t) ts ->
  match (let* P := NewPoolP t0 t1 fee 10 in backtestsP fuel jobs P 11 12 (placeTxs 13 ts)) (globals ++ Q192 :: price :: v0 :: v1 :: txValues ts),
        (do p <- NewPool t0 t1 fee price; backtestsV fuel jobs p v0 v1 ts) with
  | Ok (rs, m'), Ok vs =>
      resultsAre m' jobs rs vs /\
      (forall i v, nth_error (globals ++ Q192 :: price :: v0 :: v1 :: txValues ts) i = Some v -> nth_error m' i = Some v)
  | Panic, Panic => True
  | OutOfFuel, OutOfFuel => True
  | _, _ => False
  end.
Proof.
  intros fuel jobs t0 t1 fee price v0 v1 ts F. set (m := globals ++ Q192 :: price :: v0 :: v1 :: txValues ts).
  assert (Gl m) as G by (intros i v E; now apply val_app).
  assert (val m 10 price) as V by reflexivity.
  pose proof (ok_NewPool m t0 t1 fee 10%nat price G V) as X. unfold ok in X. unfold mbind.
  destruct (NewPoolP t0 t1 fee 10 m) as [[P m1]| |] eqn:EP, (NewPool t0 t1 fee price) as [p| |]; try contradiction; cbn [bind]; auto.
  destruct X as (K & Ok1 & _ & _).
  assert (yTicks (zData P) = []) as E.
  { revert EP. unfold NewPoolP, mbind, lift, new, clone, ld, mret. unfold mbind. destruct (invariant _); try discriminate.
    repeat match goal with |- context [match ?x with _ => _ end] => destruct x; try discriminate end; intros [= <- _]; reflexivity. }
  assert (Forall2 (txIs m1) (placeTxs 13 ts) ts) as Ft.
  { apply place_is; [exact F|]. intros d v Ed. apply (keeps_none m m1 _ v K). unfold val, m. rewrite nth_error_app2; [|cbn; lia].
    cbn [globals length]. replace (13 + d - 9)%nat with (4 + d)%nat by lia. exact Ed. }
  pose proof (ok_backtests fuel P p 11 12 v0 v1 _ ts E jobs m1 Ok1 (keeps_none m m1 11 v0 K eq_refl) (keeps_none m m1 12 v1 K eq_refl) (keeps_none m m1 gQ192 Q192 K eq_refl) Ft) as Y.
  unfold ok in Y. destruct (backtestsP fuel jobs P 11 12 (placeTxs 13 ts) m1) as [[rs m']| |], (backtestsV fuel jobs p v0 v1 ts) as [vs| |]; auto.
  destruct Y as (K2 & _ & Y). split; [exact Y|]. intros i v Ei. apply (keeps_none m1 m' i v K2). now apply (keeps_none m m1 i v K).
Qed.
Print Assumptions C93_back_tests_of_a_new_pool_are_independent.

(** ** the same, when the pool already has ticks *)
Definition exT (type : string) (amount amount0 amount1 lower upper time : Z) : Transaction := mkTx type amount amount0 amount1 lower upper time.
Definition exPrice : Z := 101 * (Q96 / 100).
Definition exTs : list Transaction := [exT "Mint" (10 ^ 9) 0 0 (-600) 600 5; exT "Swap" 0 0 (5 * 10 ^ 8) 0 0 10; exT "Swap" 0 0 1000 0 0 20].
Definition exConf : Config := mkConfig 1 100 7 7 7.
Definition valuesIn (m : Mem) (rs : list (StP * list ptr)) : list (list Z) := map (fun r => map (fun x => nth x m 0) (snd r)) rs.
(** a program that mints in the pool before the back-tests: the second back-test finds the ticks as the first has left them *)
Definition exProgram (jobs : list Job) : cm (list (StP * list ptr)) :=
  let* P := NewPoolP "A" "B" 3000 10 in
  let* x := new (10 ^ 9) in
  let* y := new (10 ^ 10) in
  let* P := MintP P (-12000) 12000 y in
  let* P := MintP P (-600) 600 x in
  backtestsP 20 jobs P 11 12 (placeTxs 13 exTs).
Definition exProgramV (jobs : list Job) : res (list (St * list Z)) :=
  do p <- NewPool "A" "B" 3000 exPrice;
  do p <- Mint p (-12000) 12000 (10 ^ 10);
  do p <- Mint p (-600) 600 (10 ^ 9);
  backtestsV 20 jobs p (10 ^ 7) (10 ^ 7) exTs.
Definition exMem : Mem := globals ++ Q192 :: exPrice :: 10 ^ 7 :: 10 ^ 7 :: txValues exTs.
(** The same back-test twice: on values the results are equal, in memory they are not. *)
Theorem C93_back_tests_of_a_pool_with_ticks_are_independent_refuted :
  let jobs := [mkJob NoProvision exConf 0; mkJob NoProvision exConf 0] in
  match exProgram jobs exMem, exProgramV jobs with
  | Ok (rs, m'), Ok vs =>
      valuesIn m' rs = [[19802960; 18971603; 18971602]; [19802960; 18924005; 18924003]] /\
      map snd vs = [[19802960; 18971603; 18971602]; [19802960; 18971603; 18971602]] /\ ~ resultsAre m' jobs rs vs
  | _, _ => False
  end.
Proof.
  assert (forall m jobs rs vs, resultsAre m jobs rs vs -> valuesIn m rs = map snd vs) as C.
  { intros m jobs rs vs H. induction H as [|j jobs r rs v vs [_ F] H IH]; [reflexivity|]. cbn [valuesIn map]. f_equal; [|exact IH].
    induction F as [|x y l l' V F IH']; [reflexivity|]. cbn [map]. f_equal; [now apply nth_error_nth|exact IH']. }
  cbv zeta. set (jobs := [mkJob NoProvision exConf 0; mkJob NoProvision exConf 0]).
  assert (match exProgram jobs exMem, exProgramV jobs with
          | Ok (rs, m'), Ok vs => valuesIn m' rs = [[19802960; 18971603; 18971602]; [19802960; 18924005; 18924003]] /\
              map snd vs = [[19802960; 18971603; 18971602]; [19802960; 18971603; 18971602]]
          | _, _ => False
          end) as X by (vm_compute; split; reflexivity).
  revert X. destruct (exProgram jobs exMem) as [[rs m']| |], (exProgramV jobs) as [vs| |]; intros X; try contradiction. destruct X as [V1 V2].
  split; [exact V1|]. split; [exact V2|]. intros H. apply C in H. rewrite V1, V2 in H. discriminate H.
Qed.
Print Assumptions C93_back_tests_of_a_pool_with_ticks_are_independent_refuted.

(** ** non-vacuity *)
Definition exTs2 : list Transaction :=
  [exT "Mint" (10 ^ 10) 0 0 (-12000) 12000 1; exT "Swap" 0 0 (10 ^ 8) 0 0 2; exT "Swap" 0 0 (10 ^ 8) 0 0 4; exT "Swap" 0 0 (10 ^ 8) 0 0 9; exT "Swap" 0 (10 ^ 7) 0 0 0 16; exT "Flash" 0 (10 ^ 6) 0 0 0 18; exT "Burn" (10 ^ 9) 0 0 (-12000) 12000 20].
Definition exConf2 : Config := mkConfig 9 100 7 7 1.
Definition exJobs : list Job :=
  [mkJob (BollingerBandsFillUp 1000) exConf2 2; mkJob V2 exConf2 0; mkJob (IntervalAroundPriceAndSwap 600) exConf2 0; mkJob (LimitOrder 600) exConf2 0].
Definition exMem2 : Mem := globals ++ Q192 :: exPrice :: 10 ^ 7 :: 10 ^ 7 :: txValues exTs2.
(** four back-tests of one new pool, which run to their ends, in memory and on values *)
Example C93_ex_runs :
  match (let* P := NewPoolP "A" "B" 500 10 in backtestsP 20 exJobs P 11 12 (placeTxs 13 exTs2)) exMem2,
        (do p <- NewPool "A" "B" 500 exPrice; backtestsV 20 exJobs p (10 ^ 7) (10 ^ 7) exTs2) with
  | Ok (rs, m'), Ok vs =>
      (valuesIn m' rs, map snd vs) =
      ([[19426142; 19240526; 19261312]; [19426142; 19245130; 19264566]; [19426729; 19218077; 19230318]; [19426142; 19219439; 19240822]],
       [[19426142; 19240526; 19261312]; [19426142; 19245130; 19264566]; [19426729; 19218077; 19230318]; [19426142; 19219439; 19240822]])
  | _, _ => False
  end.
Proof. vm_compute. reflexivity. Qed.
Example C93_ex_amounts : Forall (fun t => 0 <= txAmount t) exTs2.
Proof. repeat constructor; cbn; lia. Qed.
(** a pool and a strategy that meet the hypotheses of the first two theorems *)
Example C93_ex_hypotheses :
  exists m P p S s, poolOk m P p /\ stIs (multiplierOf (BollingerBandsFillUp 1000)) m S s /\
    nth_error m 11 = Some (10 ^ 7) /\ nth_error m 12 = Some (10 ^ 7) /\ nth_error m gQ192 = Some Q192 /\
    Forall2 (txIs m) (placeTxs 13 exTs2) exTs2 /\ apart P S (placeTxs 13 exTs2) /\
    (forall q, In q (gQ192 :: flat_map txReads (placeTxs 13 exTs2)) -> ~ In q (tc (yTicks (zData P)))).
Proof.
  assert (Gl exMem2) as G by (intros i v E; now apply val_app).
  assert (val exMem2 10 exPrice) as V by reflexivity.
  pose proof (ok_NewPool exMem2 "A" "B" 500 10%nat exPrice G V) as X. unfold ok in X.
  assert (match NewPool "A" "B" 500 exPrice with Ok _ => True | _ => False end) as E' by (vm_compute; exact I).
  revert X E'. generalize (NewPool "A" "B" 500 exPrice) (NewPoolP "A" "B" 500 10 exMem2). intros r r' X E'. destruct r as [p| |]; [|destruct E'|destruct E'].
  destruct r' as [[P m1]| |]; [|destruct X|destruct X]. destruct X as (K1 & Ok1 & Wr & Ro). apply keeps_len in K1 as Ln1.
  pose proof (ok_NewStrategy m1 (BollingerBandsFillUp 1000) 11 12 (10 ^ 7) (10 ^ 7) 2 (proj1 Ok1) (keeps_none _ _ 11 _ K1 eq_refl) (keeps_none _ _ 12 _ K1 eq_refl)) as Y. unfold ok in Y.
  destruct (NewStrategyP (BollingerBandsFillUp 1000) 11 12 2 m1) as [[S m2]| |]; (destruct (NewStrategy (BollingerBandsFillUp 1000) (10 ^ 7) (10 ^ 7) 2) as [s| |] eqn:F'; try contradiction; try discriminate F').
  destruct Y as (K2 & Hs & Ep & D & LR & LA & LB).
  assert (forall q v, val exMem2 q v -> val m2 q v) as C by (intros q v Vq; eapply keeps_none; [exact K2|]; eapply keeps_none; [exact K1|exact Vq]).
  assert (forall q, In q (written P) -> (length exMem2 <= q < length m1)%nat) as LW by (intros q Hq; split; [now apply Wr|eapply pool_live; [apply Ok1|now left]]).
  assert (forall q, In q (gQ192 :: flat_map txReads (placeTxs 13 exTs2)) -> (q < length exMem2)%nat) as LX.
  { intros q Hq. apply Nat.ltb_lt. revert q Hq. apply forallb_forall. vm_compute. reflexivity. }
  assert (forall q, In q (reads S (placeTxs 13 exTs2)) -> In q (gQ192 :: flat_map txReads (placeTxs 13 exTs2)) \/ In q (uMultiplier S :: qPrices (uHistory S))) as RS.
  { intros q. unfold reads. rewrite Ep. cbn [map app In]. rewrite in_app_iff. tauto. }
  exists m2, P, p, S, s. split; [eapply poolOk_none; eassumption|]. split; [exact Hs|]. split; [now apply C|]. split; [now apply C|]. split; [now apply C|]. split.
  { apply place_is; [exact C93_ex_amounts|]. intros d v Ed. apply C. exact Ed. }
  split.
  - split; [exact D|]. split.
    + intros a Ha. assert (length m1 <= a)%nat as La by (destruct Ha as [-> | ->]; lia). pose proof (Gl_len _ (proj1 Ok1)). split; [lia|].
      split; [intros Q; apply LW in Q; lia|]. split; [rewrite Ro; intros [<-|[]]; change (length exMem2) with 34%nat in *; lia|].
      intros Q. apply RS in Q. destruct Q as [Q|Q]; [apply LX in Q; lia|]. apply LR in Q. destruct Q as (_ & Q1 & Q2). destruct Ha; congruence.
    + intros q Hq Q. apply LW in Q. apply RS in Hq. destruct Hq as [Hq|Hq]; [apply LX in Hq; lia|apply LR in Hq; lia].
  - intros q Hq Q. apply LX in Hq. assert (In q (written P)) as Q' by (apply wr_t; exact Q). apply LW in Q'. lia.
Qed.
