(** MainReturns.v -- the program from the runs: if every run keeps to the bounds of RunReturns.v, main neither crashes nor loops. *)
From Coq Require Import ZifyBool String Floats.SpecFloat.
From Verif Require Import Base U256Z SwapMath TickMath Float64 TickData Ledger Pool PoolHist PoolOps Prices PricesFacts Client Strategy Executor Plan Cash Money Stats StatsFacts StatsRisk StatsRun Main MainFacts MainEx World RunReturns RunCheck.
Ltac Zify.zify_post_hook ::= idtac.
Open Scope Z_scope.

Lemma collect_ok {A} (f : nat -> res A) l : (forall i, In i l -> exists a, f i = Ok a) -> exists rs, collect f l = Ok rs.
Proof.
  induction l as [|i l IH]; intros H; cbn [collect]; [eauto|]. destruct (H i (or_introl eq_refl)) as [a ->]. cbn [bind].
  destruct IH as [rs ->]; [intros j Hj; apply H; now right|]. cbn [bind]. eauto.
Qed.

Section Program.
Variable ln : spec_float -> spec_float.
Variable fuel : nat.
Variable cap : Z.
Hypothesis enough : (allRounds <= fuel)%nat.
Hypothesis cap_ok : 0 <= cap <= 2 ^ 127.

(** what RunReturns.v asks of run [i] *)
Definition mainSteady (hours first : Z) (txs : list Transaction) (p : Pool) (i : nat) : Prop :=
  steady fuel cap (BollingerBandsFillUp (Z.of_nat i + 1)) (plan (mainConfig hours first) false MaxInt64 MaxInt64 0 txs)
    (mkWorld [] [] p 0 0 1000000 startAmount1) startSt.

Lemma runAlone_returns hours first txs p i : newPool = Ok p -> mainSteady hours first txs p i -> exists r, runAlone ln fuel hours first txs p i = Ok r.
Proof.
  intros EP HS.
  assert (Token0 p = "USDC" /\ Token1 p = "WETH" /\ SqrtRatio p = startPrice)%string as (T0 & T1 & TP).
  { revert EP. unfold newPool, NewPool. destruct (GetTickAtSqrtRatio startPrice); cbn [bind]; try discriminate. intros E. injection E as <-. auto. }
  destruct (run_returns fuel cap enough (proj2 cap_ok) (BollingerBandsFillUp (Z.of_nat i + 1)) (mainConfig hours first) txs startSt [] p 0 0 1000000 startAmount1) as (q & tr & [st vs] & E).
  - eapply cash_new. exact EP.
  - rewrite T0, T1. discriminate.
  - rewrite TP. reflexivity.
  - cbn. lia.
  - reflexivity.
  - cbn; lia.
  - cbn; lia.
  - cbn; unfold startAmount1; lia.
  - cbn; unfold startAmount1; lia.
  - intros _. exists 100%nat, []. split; [apply (ring_new 100); [split; reflexivity|reflexivity]|split; reflexivity].
  - exact HS.
  - unfold runAlone, mainJob. rewrite NewStrategy_start by reflexivity. unfold pure at 1. cbn [mbind]. rewrite runV_bind, E. cbn [bind snd].
    pose proof (proj2 (run_values _ _ _ _ _ _ _ _ _ E)) as NE. cbn [snd] in NE.
    destruct (proj2 (result_total ln (Z.of_nat i + 1) duration (updateOf hours) vs) NE) as [r ER]. unfold pure. cbn [runV]. rewrite ER. cbn [bind snd]. eauto.
Qed.
Theorem program_returns hours txs p first last n : newPool = Ok p -> setup hours txs = Ok (first, last, n) ->
  (forall i, Z.of_nat i < n -> mainSteady hours first txs p i) -> exists f, mainAlone ln fuel hours txs = Ok f.
Proof.
  intros EP ES H. unfold mainAlone. rewrite EP, ES. cbn [bind].
  destruct (collect_ok (runAlone ln fuel hours first txs p) (seq 0 (Z.to_nat n))) as [rs E].
  { intros i Hi. apply in_seq in Hi. apply runAlone_returns; [assumption|]. apply H. lia. }
  rewrite E. cbn [bind]. eauto.
Qed.
Theorem program_no_crash hours txs p first last n schedule : newPool = Ok p -> setup hours txs = Ok (first, last, n) ->
  (forall i, Z.of_nat i < n -> mainSteady hours first txs p i) -> mainUnder ln fuel schedule hours txs <> Crash.
Proof.
  intros EP ES H C. apply main_crash in C as [C|(p' & f' & l' & n' & i & EP' & ES' & Hi & C)]; [rewrite ES in C; discriminate|].
  rewrite ES in ES'. injection ES' as <- <- <-. rewrite EP in EP'. injection EP' as <-.
  destruct (runAlone_returns hours first txs p i EP (H i Hi)) as [r E]. rewrite E in C. discriminate.
Qed.
End Program.

(** a data file on which every run keeps to the bounds *)
Lemma mintOnly_steady fuel i : (50 <= fuel)%nat -> mainSteady fuel (2 ^ 90) 744 1620158974 mintOnly mainPool i.
Proof.
  intros H. unfold mainSteady. apply (steadyB_ok 50 (2 ^ 90) fuel H).
  vm_cast_no_check (eq_refl true).
Qed.
