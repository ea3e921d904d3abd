(** PoolStuck.v -- a downward swap that enters a misplaced tick never leaves it: either the remaining
    amount runs out on the way up to the word boundary, or the loop repeats the same state for ever. *)
From Coq Require Import ZifyBool String.
From Verif Require Import Base U256Z FullMathFacts SwapMath SwapMathFacts SwapStep TickMath TickMathFacts TickData TickDataFacts TickSearch Ledger Pool PoolTable PoolInv PoolSwap PoolLoop.
Ltac Zify.zify_post_hook ::= idtac.
Open Scope Z_scope.

Lemma step_still P l rem f ex st : priceR P -> 0 <= l < 2 ^ 128 -> rem <> 0 -> remOK ex rem -> 0 <= f < MaxFee ->
  ComputeSwapStep P P l rem f = Ok st -> stNext st = P /\ stIn st = 0 /\ stOut st = 0 /\ stFee st = 0.
Proof.
  intros HP Hl Hr0 Hr Hf E. assert (liqR l) as HlR by (unfold liqR; lia). assert (0 < P) as HP0 by (unfold priceR in HP; lia).
  assert (0 < P * P) as HPP by (apply Z.mul_pos_pos; lia).
  assert (forall x, 0 <= x -> x * (P * P) < P * P -> x = 0) as K1.
  { intros x Hx H. destruct (Z_lt_le_dec x 1); [lia|]. assert (1 * (P * P) <= x * (P * P)) by (apply Z.mul_le_mono_nonneg_r; lia). lia. }
  assert (forall x, 0 <= x -> x * Q96 <= 0 -> x = 0) as K2 by (unfold Q96; intros; lia).
  assert (forall x, 0 <= x -> x * (MaxFee - f) < MaxFee - f -> x = 0) as K3.
  { intros x Hx H. destruct (Z_lt_le_dec x 1); [lia|]. assert (1 * (MaxFee - f) <= x * (MaxFee - f)) by (apply Z.mul_le_mono_nonneg_r; lia). lia. }
  destruct ex; unfold remOK in Hr.
  - destruct (step_exactin P P l rem f st HP HP HlR Hr ltac:(lia) E) as (A1 & A2 & A3 & A4 & A5 & A6 & A7 & A8 & A9 & A10). cbv zeta in *.
    replace (P <=? P) with true in * by lia. unfold toward in A1. replace (P <=? P) with true in A1 by lia.
    assert (stNext st = P) as EN by lia. rewrite EN in *. unfold in_ceil, ceil0, out_floor, floor1 in *. rewrite !Z.sub_diag, !Z.mul_0_r in *.
    assert (stIn st = 0) as EI by (apply K1; lia). rewrite EI in *. specialize (A9 eq_refl ltac:(lia)).
    split; [reflexivity|]. split; [reflexivity|]. split; [apply K2; lia|apply K3; lia].
  - destruct Hr as [|Hr]; [lia|]. destruct (step_exactout P P l rem f st HP HP HlR Hr Hf E) as (A1 & A2 & A3 & A4 & A5 & A6 & A7). cbv zeta in *.
    replace (P <=? P) with true in * by lia. unfold toward in A1. replace (P <=? P) with true in A1 by lia.
    assert (stNext st = P) as EN by lia. rewrite EN in *. unfold in_ceil, ceil0, out_le in *. rewrite !Z.sub_diag, !Z.mul_0_r in *.
    assert (stIn st = 0) as EI by (apply K1; lia). rewrite EI in *.
    assert (0 <= stFee st) as HF.
    { apply Z.nlt_ge. intros C. assert (stFee st * (MaxFee - f) <= -1 * (MaxFee - f)) by (apply Z.mul_le_mono_nonneg_r; lia). lia. }
    split; [reflexivity|]. split; [reflexivity|]. split; [apply K2; lia|apply K3; lia].
Qed.

(** the tick just below the boundary of a misplaced tick is misplaced, with the same boundary *)
Lemma misplaced_next tick sp : 0 < sp -> misplaced tick sp -> let k := wordMin tick sp in
  misplaced (k - 1) sp /\ wordMin (k - 1) sp = k.
Proof.
  intros Hsp M k. pose proof M as (M1 & M2 & M3). destruct (quot_bounds tick sp Hsp) as [_ Hq]. specialize (Hq ltac:(lia)).
  assert (k = sp * (tick ÷ sp)) as Ek.
  { unfold k, wordMin. pose proof (Z.div_mod (tick ÷ sp) 256 ltac:(lia)) as D. rewrite M3 in D. replace (tick ÷ sp / 256 * 256) with (tick ÷ sp) by lia. ring. }
  set (c := tick ÷ sp) in *. assert (c <= 0) as Hc.
  { apply Z.nlt_ge. intros C. assert (sp * 1 <= sp * c) by (apply Z.mul_le_mono_nonneg_l; lia). lia. }
  assert (k <= 0) as Hk by (rewrite Ek; apply Z.mul_nonneg_nonpos; lia).
  assert (sp <> 1) as Hs1.
  { intros E. apply M2. rewrite E. apply Z.mod_1_r. }
  assert ((k - 1) ÷ sp = c) as Eq.
  { destruct (quot_bounds (k - 1) sp Hsp) as [_ Hq']. specialize (Hq' ltac:(lia)). set (c' := (k - 1) ÷ sp) in *. clearbody c'.
    destruct (Z_lt_le_dec c' c) as [C|C]; [assert (sp * c' <= sp * (c - 1)) by (apply Z.mul_le_mono_nonneg_l; lia); lia|].
    destruct (Z_lt_le_dec c c') as [C'|C']; [|lia]. assert (sp * (c + 1) <= sp * c') by (apply Z.mul_le_mono_nonneg_l; lia). lia. }
  assert (wordMin (k - 1) sp = k) as EW.
  { unfold wordMin at 1. rewrite Eq. reflexivity. }
  split; [|exact EW]. unfold misplaced. rewrite Eq. split; [lia|]. split; [|exact M3].
  rewrite Ek. replace (sp * c - 1) with (-1 + c * sp) by ring. rewrite Z_mod_plus_full, <- (Z_mod_plus_full (-1) 1), Z.mod_small; lia.
Qed.

Section Stuck.
Variables (h : hist) (sp : Z) (ex : bool) (limit fee other : Z).
Hypothesis HH : histOK sp h.
Hypothesis Hsp : 0 < sp.
Hypothesis Hfee : 0 <= fee < MaxFee.
Hypothesis Hlim : limitOK true limit.
Notation ok := (loopOK h sp true ex limit).
Notation run := (running limit).

Definition stuck (s : State) : Prop :=
  ok s /\ run s = true /\ misplaced (sTick s) sp /\ sTick s = wordMin (sTick s) sp - 1 /\ sPrice s = rat (wordMin (sTick s) sp) /\ is_u256 (sCalculated s).

Lemma stuck_round s s' : stuck s -> swapRound true ex limit fee other s = Ok s' -> s' = s.
Proof.
  intros (HL & R & M & Et & Ep & Hc) E.
  destruct (running_ok h sp true ex limit fee other HH Hsp Hfee Hlim s s' HL R E) as (k & st & RF).
  destruct RF as [[R1 R1'] R2 R3 R4 R5 R6 R7 R8 R9 R10 R11 R12 R13]. destruct R1' as [R1' _]. destruct (R1' M) as [Ek _].
  pose proof HL as (HT & EL & HP & HG & HR & Hside). unfold running in R. rewrite <- Ek in *. unfold side in Hside.
  replace (targetOf true limit (rat k)) with (sPrice s) in R2 by (unfold targetOf; lia).
  pose proof (active_range _ _ (sTick s) HH) as Hliq. rewrite <- EL in Hliq. pose proof (price_bounds _ _ HP) as HPb.
  destruct (step_still (sPrice s) (sLiquidity s) (sRemaining s) fee ex st ltac:(apply price_R; lia) Hliq ltac:(lia) HR Hfee R2) as (S1 & S2 & S3 & S4).
  rewrite S1 in R3. rewrite S2, S3, S4 in *. specialize (R9 ltac:(lia)). cbv iota in R9.
  assert (sData s' = sData s) as ED.
  { clear - R7 R9 Et. revert R7. rewrite R9. remember (k - 1) as t' eqn:Q. intros HM. destruct HM as [k0 d' nn HA _ _|]; [|reflexivity]. cbn in Q. lia. }
  assert (sGrowth s' = sGrowth s) as EGr.
  { unfold is_u256 in HG. destruct (0 <? sLiquidity s) eqn:C; [|assumption]. destruct R6 as (f & Ef & Eg). unfold MulDiv in Ef. cbn [Z.eqb orb] in Ef. injection Ef as <-.
    rewrite Eg. unfold uadd. rewrite Z.add_0_r. apply Z.mod_small. lia. }
  destruct R8 as (_ & EL' & _). rewrite R9 in EL'. rewrite <- Et, <- EL in EL'.
  assert (sRemaining s' = sRemaining s) as ERm.
  { rewrite R4. unfold remOK in HR. destruct ex; unfold usub, uadd; rewrite ?Z.add_0_r, ?Z.mod_0_l, ?Z.sub_0_r, ?Z.add_0_r by lia; apply Z.mod_small; lia. }
  assert (sCalculated s' = sCalculated s) as ECa.
  { rewrite R5. unfold is_u256 in Hc. destruct ex; unfold usub, uadd; rewrite ?Z.add_0_r, ?Z.mod_0_l, ?Z.sub_0_r, ?Z.add_0_r by lia; apply Z.mod_small; lia. }
  destruct s, s'. cbn in *. f_equal; lia || assumption.
Qed.

Lemma stuck_forever s : stuck s -> swapRound true ex limit fee other s = Ok s -> forall n, swapLoop n true ex limit fee other s = OutOfFuel.
Proof.
  intros HS E. induction n as [|n IH]; rewrite (loop_eq true ex limit fee other); destruct HS as (_ & R & _); rewrite R; [reflexivity|]. rewrite E. cbn [bind]. exact IH.
Qed.

(** from a misplaced tick: one round, then finished or stuck *)
Lemma misplaced_round s s' : ok s -> run s = true -> misplaced (sTick s) sp -> swapRound true ex limit fee other s = Ok s' ->
  run s' = true -> stuck s'.
Proof.
  intros HL R M E R'. destruct (running_ok h sp true ex limit fee other HH Hsp Hfee Hlim s s' HL R E) as (k & st & RF).
  destruct RF as [[R1 R1'] R2 R3 R4 R5 R6 R7 R8 R9 R10 R11 R12 R13]. destruct R1' as [R1' _]. destruct (R1' M) as [Ek _].
  unfold running in R'. destruct R10 as [Q|[Q|Q]]; [lia|lia|]. rewrite R3 in Q. specialize (R9 Q). cbv iota in R9.
  destruct (misplaced_next (sTick s) sp Hsp M) as [N1 N2]. rewrite <- Ek in N1, N2. unfold stuck. rewrite R9, N2, R3.
  split; [assumption|]. split; [unfold running; lia|]. split; [assumption|]. split; [reflexivity|]. split; [assumption|].
  rewrite R5. unfold is_u256, uadd, usub. destruct ex; apply Z.mod_pos_bound; lia.
Qed.

(** a downward loop still running after that many rounds runs for ever *)
Lemma loop_down_decides n : forall s, ok s -> sTick s - MinTick + 2 <= Z.of_nat n ->
  swapLoop n true ex limit fee other s = OutOfFuel -> forall m, swapLoop m true ex limit fee other s = OutOfFuel.
Proof.
  induction n as [|n IH]; intros s HL Hn E m; [destruct HL as (_ & _ & (H & _) & _); lia|].
  rewrite (loop_eq true ex limit fee other) in E. destruct (run s) eqn:R; [|discriminate].
  destruct (swapRound true ex limit fee other s) as [s1| |] eqn:E1; cbn [bind] in E; [|discriminate|].
  2:{ apply (ok_not_fuel h sp true ex limit fee other Hsp) in E1; [contradiction|assumption]. }
  assert (forall m, swapLoop m true ex limit fee other s1 = OutOfFuel) as K.
  { destruct (running_ok h sp true ex limit fee other HH Hsp Hfee Hlim s s1 HL R E1) as (k & st & RF). pose proof (rf_ok _ _ _ _ _ _ _ _ _ _ _ RF) as HL1.
    assert (run s1 = true) as R1 by (destruct (run s1) eqn:R1; [reflexivity|rewrite (loop_eq true ex limit fee other), R1 in E; discriminate]).
    destruct (misplaced_dec (sTick s) sp) as [M|M].
    - pose proof (misplaced_round s s1 HL R M E1 R1) as HS. apply stuck_forever; [assumption|].
      assert (1 <= Z.of_nat n) as Hn1 by (destruct HL as (_ & _ & (H & _) & _); lia). destruct n as [|n]; [lia|].
      rewrite (loop_eq true ex limit fee other), R1 in E. destruct (swapRound true ex limit fee other s1) as [s2| |] eqn:E2; cbn [bind] in E; [|discriminate|].
      + f_equal. now apply stuck_round.
      + apply (ok_not_fuel h sp true ex limit fee other Hsp) in E2; [contradiction|assumption].
    - apply IH; try assumption. destruct RF as [[Q1 Q2] Q3 Q4 Q5 Q6 Q7 Q8 Q9 Q10 Q11 Q12 Q13 Q14]. destruct Q2 as [_ Q2]. specialize (Q2 M).
      unfold running in R1. assert (sTick s1 = k - 1) as Et by (apply Q10; destruct Q11 as [Q|[Q|Q]]; [lia|lia|]; rewrite <- Q4; exact Q). lia. }
  rewrite (loop_eq true ex limit fee other), R. destruct m; [reflexivity|]. rewrite E1. cbn [bind]. apply K.
Qed.
End Stuck.
