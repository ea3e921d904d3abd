(** PoolLoop.v -- the whole swap loop: invariant, direction, amounts, termination. *)
From Coq Require Import ZifyBool String.
From Verif Require Import Base U256Z FullMathFacts SwapMath SwapMathFacts SwapStep TickMath TickMathFacts TickData TickDataFacts TickSearch Ledger Pool PoolTable PoolInv PoolSwap.
Ltac Zify.zify_post_hook ::= idtac.
Open Scope Z_scope.

Lemma bind_not_fuel {A B} (x : res A) (f : A -> res B) : x <> OutOfFuel -> (forall a, x = Ok a -> f a <> OutOfFuel) -> bind x f <> OutOfFuel.
Proof. destruct x; cbn; intros H1 H2; [now apply H2|discriminate|congruence]. Qed.

Lemma next_not_fuel d t z : sortedT d -> 0 < tickSpacing d -> NextInitializedTickWithinOneWord d t z <> OutOfFuel.
Proof.
  intros Hs Hsp. destruct (ticks d) as [|x l] eqn:E.
  - rewrite search_empty by (now right). discriminate.
  - destruct (TickSearch.search_ok d t Hs z Hsp) as (n & b & H); [congruence|]. rewrite H. discriminate.
Qed.
Lemma ratio_not_fuel t : GetSqrtRatioAtTick t <> OutOfFuel.
Proof.
  destruct (Z_le_gt_dec MinTick t); [destruct (Z_le_gt_dec t MaxTick)|].
  - rewrite rat_ok by lia. discriminate.
  - rewrite rat_panics by lia. discriminate.
  - rewrite rat_panics by lia. discriminate.
Qed.
Lemma tickAt_not_fuel p : GetTickAtSqrtRatio p <> OutOfFuel.
Proof.
  unfold GetTickAtSqrtRatio. destruct (Z_le_gt_dec MinSqrtRatio p); [destruct (Z_lt_le_dec p MaxSqrtRatio)|].
  - destruct (tick_ok tickFuel p (le_n _) ltac:(lia)) as (t & -> & _). discriminate.
  - rewrite tick_panics by lia. discriminate.
  - rewrite tick_panics by lia. discriminate.
Qed.
Lemma cross_not_fuel d k a b : sortedT d -> Cross d k a b <> OutOfFuel.
Proof. intros Hs. pose proof (Cross_spec d k a b Hs) as C. destruct (lookup (ticks d) k); [destruct C as (t' & -> & _)|rewrite C]; discriminate. Qed.

Lemma round_not_fuel z ex limit fee other s : sortedT (sData s) -> 0 < tickSpacing (sData s) -> swapRound z ex limit fee other s <> OutOfFuel.
Proof.
  intros Hs Hsp. unfold swapRound. apply bind_not_fuel; [now apply next_not_fuel|]. intros (n & b) _. cbv zeta.
  apply bind_not_fuel; [apply ratio_not_fuel|]. intros r _. apply bind_not_fuel; [apply step_not_fuel|]. intros st _.
  apply bind_not_fuel; [destruct (0 <? usign (sLiquidity s)); [apply bind_not_fuel; [apply MulDiv_not_fuel|discriminate]|discriminate]|]. intros g _.
  destruct (stNext st =? r).
  - apply bind_not_fuel; [|intros (d & l) _; discriminate]. destruct b; [|discriminate]. apply bind_not_fuel; [destruct z; now apply cross_not_fuel|].
    intros (d & nn) _. discriminate.
  - destruct (negb (stNext st =? sPrice s)); [|discriminate]. apply bind_not_fuel; [apply tickAt_not_fuel|discriminate].
Qed.

Section Loop.
Variables (h : hist) (sp : Z) (z ex : bool) (limit fee other : Z).
Hypothesis HH : histOK sp h.
Hypothesis Hsp : 0 < sp.
Hypothesis Hfee : 0 <= fee < MaxFee.
Hypothesis Hlim : limitOK z limit.
Notation loop := (fun n => swapLoop n z ex limit fee other).
Notation ok := (loopOK h sp z ex limit).

Definition running (s : State) : bool := negb (sRemaining s =? 0) && negb (sPrice s =? limit).

Lemma loop_eq n s : swapLoop n z ex limit fee other s =
  if running s then match n with O => OutOfFuel | S n => do s' <- swapRound z ex limit fee other s; swapLoop n z ex limit fee other s' end else Ok s.
Proof. destruct n; reflexivity. Qed.

Lemma running_ok s s' : ok s -> running s = true -> swapRound z ex limit fee other s = Ok s' ->
  exists k st, RoundFacts h sp z ex limit fee other s s' k st.
Proof.
  intros HL R E. unfold running in R. apply (round_ok h sp z ex limit fee other s s'); try assumption; lia.
Qed.

(** induction over the rounds of a loop that returned *)
Lemma loop_ind (P : State -> Prop) :
  (forall s s' k st, ok s -> P s -> running s = true -> RoundFacts h sp z ex limit fee other s s' k st -> P s') ->
  forall n s s', ok s -> P s -> swapLoop n z ex limit fee other s = Ok s' -> ok s' /\ P s' /\ running s' = false.
Proof.
  intros HP. induction n as [|n IH]; intros s s' HL Ps E; rewrite loop_eq in E; destruct (running s) eqn:R.
  - discriminate.
  - injection E as <-. auto.
  - apply bind_inv in E as (s1 & E1 & E). destruct (running_ok s s1 HL R E1) as (k & st & RF).
    apply (IH s1 s'); [apply RF|eapply HP; eassumption|assumption].
  - injection E as <-. auto.
Qed.

(** ** Direction *)
Lemma loop_up n s s' : z = false -> ok s -> swapLoop n z ex limit fee other s = Ok s' ->
  ok s' /\ running s' = false /\ sPrice s <= sPrice s' /\ sTick s <= sTick s' /\
  (sPrice s < rat (sTick s + 1) -> sPrice s' < rat (sTick s' + 1)).
Proof.
  intros Ez HL E. destruct (loop_ind (fun x => sPrice s <= sPrice x /\ sTick s <= sTick x /\ (sPrice s < rat (sTick s + 1) -> sPrice x < rat (sTick x + 1)))) with (n := n) (s := s) (s' := s')
    as (A & (B & C & D) & F); auto.
  - intros x x' k st Hx (B & C & D) _ RF. destruct (rf_up _ _ _ _ _ _ _ _ _ _ _ RF Ez) as [U1 U2]. split; [lia|]. split; [lia|].
    intros H. apply (rf_strict _ _ _ _ _ _ _ _ _ _ _ RF Ez), D, H.
  - split; [lia|]. split; [lia|]. auto.
Qed.

(** no misplaced word boundary between the limit and the starting tick *)
Definition noMisplaced (t0 : Z) : Prop := forall t, MinTick <= t <= t0 -> misplaced t sp -> rat (t + 1) <= limit.

Lemma noMisplaced_run t0 s : noMisplaced t0 -> z = true -> ok s -> running s = true -> sTick s <= t0 -> ~ misplaced (sTick s) sp.
Proof.
  intros N Ez (_ & _ & HP & _ & _ & Hs) R Ht M. rewrite Ez in Hs. unfold side, running in *. destruct HP as (H1 & H2 & _).
  specialize (N (sTick s) ltac:(lia) M). lia.
Qed.

Lemma loop_down t0 n s s' : z = true -> noMisplaced t0 -> sTick s <= t0 -> ok s -> swapLoop n z ex limit fee other s = Ok s' ->
  ok s' /\ running s' = false /\ sPrice s' <= sPrice s /\ sTick s' <= sTick s.
Proof.
  intros Ez N Ht HL E. destruct (loop_ind (fun x => sPrice x <= sPrice s /\ sTick x <= sTick s)) with (n := n) (s := s) (s' := s')
    as (A & (B & C) & F); auto.
  - intros x x' k st Hx (B & C) R RF. pose proof (noMisplaced_run t0 x N Ez Hx R ltac:(lia)) as NM.
    destruct (rf_down _ _ _ _ _ _ _ _ _ _ _ RF Ez NM) as [D1 D2]. lia.
  - lia.
Qed.

(** ** Amounts *)
Lemma loop_amounts n : forall s s', ok s -> swapLoop n z ex limit fee other s = Ok s' ->
  (if ex then 0 <= sRemaining s' <= sRemaining s /\ exists Y, 0 <= Y <= Z.of_nat n * 2 ^ 193 /\ sCalculated s' mod T256 = (sCalculated s - Y) mod T256
   else (sRemaining s' = 0 \/ sRemaining s <= sRemaining s') /\
        exists X, 0 <= X <= Z.of_nat n * 2 ^ 216 /\ sCalculated s' mod T256 = (sCalculated s + X) mod T256).
Proof.
  induction n as [|n IH]; intros s s' HL E; rewrite loop_eq in E; destruct (running s) eqn:R; try discriminate.
  - injection E as <-. pose proof HL as (_ & _ & _ & _ & HR & _). unfold remOK in HR. destruct ex; (split; [lia|]); exists 0; (split; [lia|]); f_equal; lia.
  - apply bind_inv in E as (s1 & E1 & E). destruct (running_ok s s1 HL R E1) as (k & st & RF). specialize (IH s1 s' (rf_ok _ _ _ _ _ _ _ _ _ _ _ RF) E).
    assert (sRemaining s1 = 0 -> s' = s1) as Hz by (intros Z1; rewrite loop_eq in E; unfold running in E; rewrite Z1 in E; cbn [Z.eqb negb andb] in E; congruence).
    destruct RF as [R1 R2 R3 R4 R5 R6 R7 R8 R9 R10 R11 R12 R13]. pose proof HL as (HT & EL & HP & _ & HR & Hside).
    pose proof (active_range _ _ (sTick s) HH) as Hliq. rewrite <- EL in Hliq. destruct R1 as [Hk _].
    pose proof (price_bounds _ _ HP) as HPb. pose proof (rat_range k Hk) as Hkb.
    assert (MinSqrtRatio <= targetOf z limit (rat k) <= MaxSqrtRatio) as HTb by (unfold targetOf, side, limitOK in *; destruct z; lia).
    destruct (step_facts (sPrice s) (targetOf z limit (rat k)) (sLiquidity s) (sRemaining s) fee ex st ltac:(apply price_R; lia) ltac:(apply price_R; lia) Hliq ltac:(unfold running in R; lia) HR Hfee R2)
      as (A1 & A2 & A3 & A4 & A5 & A6 & A7). cbv zeta in *. rewrite <- R4 in A2, A3, A7. destruct ex; unfold remOK in *.
    + destruct IH as [I1 (Y & I2 & I3)]. split; [lia|]. exists (Y + stOut st). split; [lia|]. rewrite I3, R5. unfold usub. rewrite Zminus_mod_idemp_l. f_equal. ring.
    + destruct IH as [I1 (X & I2 & I3)]. split.
      { destruct (Z.eq_dec (sRemaining s1) 0) as [Z1|N1]; [|lia]. left. rewrite (Hz Z1). exact Z1. } exists (X + (stIn st + stFee st)). split; [lia|]. rewrite I3, R5. unfold uadd. rewrite Zplus_mod_idemp_l.
      replace (sCalculated s + (stIn st + stFee st) mod T256 + X) with (sCalculated s + X + (stIn st + stFee st) mod T256) by ring. rewrite Zplus_mod_idemp_r. f_equal. ring.
  - injection E as <-. pose proof HL as (_ & _ & _ & _ & HR & _). unfold remOK in HR. destruct ex; (split; [lia|]); exists 0; (split; [lia|]); f_equal; lia.
Qed.

(** ** Termination *)
Lemma loop_mono n : forall m s, (n <= m)%nat -> swapLoop n z ex limit fee other s <> OutOfFuel -> swapLoop m z ex limit fee other s = swapLoop n z ex limit fee other s.
Proof.
  induction n as [|n IH]; intros m s Hm H; rewrite (loop_eq m), (loop_eq _ s) in *; destruct (running s) eqn:R; try reflexivity.
  - congruence.
  - destruct m as [|m]; [lia|]. destruct (swapRound z ex limit fee other s); cbn [bind] in *; try reflexivity. apply IH; [lia|assumption].
Qed.

Lemma ok_not_fuel s : ok s -> swapRound z ex limit fee other s <> OutOfFuel.
Proof. intros ((Hs & Esp & _) & _). apply round_not_fuel; [assumption|lia]. Qed.

Lemma loop_up_terminates n : forall s, z = false -> ok s -> MaxTick - sTick s < Z.of_nat n -> swapLoop n z ex limit fee other s <> OutOfFuel.
Proof.
  induction n as [|n IH]; intros s Ez HL Hn; [destruct HL as (_ & _ & (H & _) & _); lia|].
  rewrite loop_eq. destruct (running s) eqn:R; [|discriminate]. destruct (swapRound z ex limit fee other s) as [s1| |] eqn:E1; cbn [bind]; [|discriminate|].
  2:{ apply ok_not_fuel in E1; [contradiction|assumption]. }
  destruct (running_ok s s1 HL R E1) as (k & st & RF). pose proof (rf_ok _ _ _ _ _ _ _ _ _ _ _ RF) as HL1.
  destruct (running s1) eqn:R1; [|rewrite loop_eq, R1; discriminate].
  apply IH; try assumption. destruct RF as [[Q1 Q2] Q3 Q4 Q5 Q6 Q7 Q8 Q9 Q10 Q11 Q12 Q13 Q14]. unfold running in R1. rewrite Ez in Q2, Q10.
  destruct Q11 as [Q|[Q|Q]]; [lia|lia|]. rewrite Q4 in Q. specialize (Q10 Q). lia.
Qed.

Lemma loop_down_terminates t0 n : forall s, z = true -> noMisplaced t0 -> sTick s <= t0 -> ok s -> sTick s - MinTick < Z.of_nat n -> swapLoop n z ex limit fee other s <> OutOfFuel.
Proof.
  induction n as [|n IH]; intros s Ez N Ht HL Hn; [destruct HL as (_ & _ & (H & _) & _); lia|].
  rewrite loop_eq. destruct (running s) eqn:R; [|discriminate]. destruct (swapRound z ex limit fee other s) as [s1| |] eqn:E1; cbn [bind]; [|discriminate|].
  2:{ apply ok_not_fuel in E1; [contradiction|assumption]. }
  destruct (running_ok s s1 HL R E1) as (k & st & RF). pose proof (rf_ok _ _ _ _ _ _ _ _ _ _ _ RF) as HL1.
  destruct (running s1) eqn:R1; [|rewrite loop_eq, R1; discriminate].
  pose proof (noMisplaced_run t0 s N Ez HL R Ht) as NM.
  destruct RF as [[Q1 Q2] Q3 Q4 Q5 Q6 Q7 Q8 Q9 Q10 Q11 Q12 Q13 Q14]. unfold running in R1. rewrite Ez in Q2, Q10. destruct Q2 as [_ Q2]. specialize (Q2 NM).
  assert (sTick s1 = k - 1) as Et by (apply Q10; destruct Q11 as [Q|[Q|Q]]; [lia|lia|]; rewrite <- Q4; exact Q).
  apply IH; try assumption; lia.
Qed.
End Loop.
