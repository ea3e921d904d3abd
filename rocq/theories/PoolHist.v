(** PoolHist.v -- whole swaps, and the pool invariant after every history of operations. *)
From Coq Require Import ZifyBool String.
From Verif Require Import Base U256Z SwapMath SwapMathFacts SwapStep TickMath TickMathFacts TickData TickDataFacts TickSearch Ledger Pool PoolTable PoolInv PoolSwap PoolLoop PoolStuck.
Ltac Zify.zify_post_hook ::= idtac.
Open Scope Z_scope.

(** more rounds than any swap that ends can take *)
Definition allRounds : nat := Z.to_nat (MaxTick - MinTick + 2).
Lemma allRounds_Z : Z.of_nat allRounds = MaxTick - MinTick + 2.
Proof. unfold allRounds. rewrite Z2Nat.id; [reflexivity|unfold MaxTick, MinTick; lia]. Qed.

Section Decide.
Variables (h : hist) (sp : Z) (z ex : bool) (limit fee other : Z).
Hypothesis HH : histOK sp h.
Hypothesis Hsp : 0 < sp.
Hypothesis Hfee : 0 <= fee < MaxFee.
Hypothesis Hlim : limitOK z limit.

Lemma loop_decides s : loopOK h sp z ex limit s -> swapLoop allRounds z ex limit fee other s = OutOfFuel ->
  forall m, swapLoop m z ex limit fee other s = OutOfFuel.
Proof.
  intros HL E. assert (MinTick <= sTick s < MaxTick) as Ht by apply HL. pose proof allRounds_Z as HN. destruct z eqn:Ez.
  - apply (loop_down_decides h sp ex limit fee other HH Hsp Hfee Hlim allRounds); try assumption. lia.
  - exfalso. revert E. apply (loop_up_terminates h sp false ex limit fee other HH Hsp Hfee Hlim); try assumption; [reflexivity|lia].
Qed.

Lemma loop_allRounds m s s' : loopOK h sp z ex limit s -> swapLoop m z ex limit fee other s = Ok s' -> swapLoop allRounds z ex limit fee other s = Ok s'.
Proof.
  intros HL E. assert (swapLoop allRounds z ex limit fee other s <> OutOfFuel) as N.
  { intros C. pose proof (loop_decides s HL C m). congruence. }
  rewrite <- (loop_mono z ex limit fee other allRounds (Nat.max m allRounds) s (Nat.le_max_r _ _) N).
  rewrite (loop_mono z ex limit fee other m (Nat.max m allRounds) s (Nat.le_max_l _ _)); [assumption|congruence].
Qed.
End Decide.

(** the state the loop starts from, and the pool it leaves *)
Definition startState (p : Pool) (z : bool) (amt : Z) : State :=
  mkState amt 0 (SqrtRatio p) (TickCurrent p) (if z then FeeGrowth0 p else FeeGrowth1 p) (Liquidity p) (Data p).
Definition otherGrowth (p : Pool) (z : bool) : Z := if z then FeeGrowth1 p else FeeGrowth0 p.
Definition finish (p : Pool) (z : bool) (s : State) : Pool :=
  mkPool (Token0 p) (Token1 p) (Fee p) (sPrice s) (sLiquidity s)
    (if z then sGrowth s else FeeGrowth0 p) (if z then FeeGrowth1 p else sGrowth s) (TickSpacing p) (sTick s) (sData s) (Pos p).

(** the checks at the start of a swap *)
Definition swapStarts (p : Pool) (z : bool) (amt lim : Z) : Prop :=
  amt <> 0 /\ (if z then MinSqrtRatio < effectiveLimit z lim < SqrtRatio p else SqrtRatio p < effectiveLimit z lim < MaxSqrtRatio).

Lemma swap_eq n p z amt lim : is_u256 amt -> swapStarts p z amt lim ->
  swap n p z amt lim =
  bind (swapLoop n z (amt <? T255) (effectiveLimit z lim) (Fee p) (otherGrowth p z) (startState p z amt))
    (fun s => Ok (finish p z s, if Bool.eqb z (amt <? T255) then usub amt (sRemaining s) else sCalculated s,
                               if Bool.eqb z (amt <? T255) then sCalculated s else usub amt (sRemaining s))).
Proof.
  intros Ha [H1 H2]. unfold swap. replace (amt =? 0) with false by lia. cbn [negb invariant bind]. cbv zeta.
  assert ((if z then (effectiveLimit z lim <? SqrtRatio p) && (MinSqrtRatio <? effectiveLimit z lim)
           else (SqrtRatio p <? effectiveLimit z lim) && (effectiveLimit z lim <? MaxSqrtRatio)) = true) as -> by (destruct z; lia).
  cbn [invariant bind]. rewrite usign_nonneg by assumption. fold (otherGrowth p z). fold (startState p z amt).
  destruct (swapLoop n z (amt <? T255) (effectiveLimit z lim) (Fee p) (otherGrowth p z) (startState p z amt)) as [s| |]; cbn [bind]; try reflexivity.
  fold (finish p z s). destruct (Bool.eqb z (amt <? T255)); reflexivity.
Qed.
Lemma swap_panics n p z amt lim : is_u256 amt -> ~ swapStarts p z amt lim -> swap n p z amt lim = Panic.
Proof.
  intros Ha H. unfold swap. destruct (amt =? 0) eqn:C0; [reflexivity|]. cbn [negb invariant bind]. cbv zeta.
  destruct (if z then (effectiveLimit z lim <? SqrtRatio p) && (MinSqrtRatio <? effectiveLimit z lim)
           else (SqrtRatio p <? effectiveLimit z lim) && (effectiveLimit z lim <? MaxSqrtRatio)) eqn:C; [|reflexivity].
  exfalso. apply H. split; [lia|]. destruct z; lia.
Qed.
Lemma starts_dec p z amt lim : {swapStarts p z amt lim} + {~ swapStarts p z amt lim}.
Proof.
  destruct (negb (amt =? 0) && (if z then (effectiveLimit z lim <? SqrtRatio p) && (MinSqrtRatio <? effectiveLimit z lim)
           else (SqrtRatio p <? effectiveLimit z lim) && (effectiveLimit z lim <? MaxSqrtRatio))) eqn:C; [left|right]; unfold swapStarts; destruct z; lia.
Qed.

Lemma TickSpaces_fee f : 0 < TickSpaces f -> 0 <= f < MaxFee.
Proof. unfold TickSpaces, MaxFee. destruct (f =? 500) eqn:?; [lia|]. destruct (f =? 3000) eqn:?; [lia|]. destruct (f =? 10000) eqn:?; lia. Qed.

Section Swap.
Variables (h : hist) (p : Pool) (z : bool) (amt lim : Z).
Hypothesis HP : poolOK h p.
Hypothesis Ha : is_u256 amt.
Notation L := (effectiveLimit z lim).
Notation ex := (amt <? T255).
Notation sp := (TickSpacing p).
Notation s0 := (startState p z amt).
Notation loop n := (swapLoop n z ex L (Fee p) (otherGrowth p z) s0).

Lemma start_ok : swapStarts p z amt lim -> loopOK h sp z ex L s0 /\ limitOK z L /\ running L s0 = true.
Proof.
  intros [H1 H2]. destruct HP as (HH & HT & Esp & Hf & EL & Hpr & Hg0 & Hg1). unfold is_u256 in Ha.
  split; [|split; [unfold limitOK; destruct z; lia|unfold running; cbn [sRemaining sPrice startState]; destruct z; lia]].
  unfold loopOK. cbn [startState sData sLiquidity sTick sPrice sGrowth sRemaining].
  repeat (split; [assumption|]). split; [destruct z; assumption|]. split; [unfold remOK; destruct (amt <? T255) eqn:C; lia|]. unfold side. destruct z; lia.
Qed.

(** a tick spacing of zero panics in the first round *)
Lemma no_spacing n : swapStarts p z amt lim -> sp = 0 -> swap (S n) p z amt lim = Panic.
Proof.
  intros HS Z0. rewrite swap_eq by assumption. destruct (start_ok HS) as (HL & Hl & R). rewrite loop_eq, R.
  unfold swapRound. rewrite search_empty; [reflexivity|]. left. destruct HP as (_ & (_ & E & _) & _). cbn [startState sData]. lia.
Qed.
Lemma sp_nonneg : 0 <= sp.
Proof. destruct HP as (_ & _ & E & _). rewrite E. apply TickSpaces_nonneg. Qed.

Lemma swap_ok_inv n p' a0 a1 : swap n p z amt lim = Ok (p', a0, a1) ->
  swapStarts p z amt lim /\ 0 < sp /\ 0 <= Fee p < MaxFee /\
  exists s, loop n = Ok s /\ p' = finish p z s /\
    (if Bool.eqb z ex then a0 = usub amt (sRemaining s) /\ a1 = sCalculated s else a0 = sCalculated s /\ a1 = usub amt (sRemaining s)).
Proof.
  intros E. destruct (starts_dec p z amt lim) as [HS|N]; [|rewrite swap_panics in E by assumption; discriminate].
  split; [assumption|]. destruct (start_ok HS) as (HL & Hl & R).
  assert (0 < sp) as Hsp.
  { pose proof sp_nonneg. destruct (Z.eq_dec sp 0) as [Z0|]; [|lia]. destruct n; [|rewrite no_spacing in E by assumption; discriminate].
    rewrite swap_eq, loop_eq, R in E by assumption. discriminate. }
  split; [assumption|]. split; [apply TickSpaces_fee; destruct HP as (_ & _ & Es & _); rewrite <- Es; assumption|].
  rewrite swap_eq in E by assumption. apply bind_inv in E as (s & Es & E). exists s. split; [assumption|]. injection E as <- <- <-. split; [reflexivity|].
  destruct (Bool.eqb z ex); split; reflexivity.
Qed.

(** ** the invariant, the direction and the limit *)
Lemma swap_ok n p' a0 a1 : swap n p z amt lim = Ok (p', a0, a1) ->
  poolOK h p' /\ Token0 p' = Token0 p /\ Token1 p' = Token1 p /\ Fee p' = Fee p /\ TickSpacing p' = sp /\ Pos p' = Pos p /\
  (if z then FeeGrowth1 p' = FeeGrowth1 p else FeeGrowth0 p' = FeeGrowth0 p) /\
  swapStarts p z amt lim /\
  (if z then L <= SqrtRatio p' /\ (noMisplaced sp L (TickCurrent p) -> SqrtRatio p' <= SqrtRatio p /\ TickCurrent p' <= TickCurrent p)
   else SqrtRatio p <= SqrtRatio p' <= L /\ TickCurrent p <= TickCurrent p' /\
        (SqrtRatio p < rat (TickCurrent p + 1) -> SqrtRatio p' < rat (TickCurrent p' + 1))).
Proof.
  intros E. destruct (swap_ok_inv n p' a0 a1 E) as (HS & Hsp & Hfee & s & Es & -> & _). destruct (start_ok HS) as (HL & Hl & R).
  destruct HP as (HH & HT & Esp & Hf & EL & Hpr & Hg0 & Hg1).
  destruct (loop_ind h sp z ex L (Fee p) (otherGrowth p z) HH Hsp Hfee Hl (fun _ => True)) with (n := n) (s := s0) (s' := s) as (HL' & _ & R'); auto.
  pose proof HL' as (HT' & EL' & HP' & HG' & HR' & Hside').
  split. { unfold poolOK, finish. cbn [TickSpacing Data Fee Liquidity TickCurrent SqrtRatio FeeGrowth0 FeeGrowth1]. repeat (split; [assumption|]). destruct z; auto. }
  repeat (split; [reflexivity|]). split; [destruct z; reflexivity|]. split; [assumption|].
  cbn [finish SqrtRatio TickCurrent]. unfold side in Hside'. destruct z eqn:Ez.
  - split; [assumption|]. intros NM. 
    destruct (loop_down h sp true ex (effectiveLimit true lim) (Fee p) (otherGrowth p true) HH Hsp Hfee Hl (TickCurrent p) n (startState p true amt) s eq_refl NM ltac:(cbn; lia) HL Es) as (_ & _ & D1 & D2). cbn [startState sPrice sTick] in *. lia.
  - destruct (loop_up h sp false ex (effectiveLimit false lim) (Fee p) (otherGrowth p false) HH Hsp Hfee Hl n (startState p false amt) s eq_refl HL Es) as (_ & _ & D1 & D2 & D3). cbn [startState sPrice sTick] in *.
    split; [lia|]. split; [lia|assumption].
Qed.

(** ** the amounts *)
Lemma swap_amounts n p' a0 a1 : swap n p z amt lim = Ok (p', a0, a1) ->
  exists inp out, (if z then a0 = inp /\ a1 = uneg out else a1 = inp /\ a0 = uneg out) /\ 0 <= inp /\ 0 <= out /\
    (if ex then inp <= amt /\ (inp = amt \/ SqrtRatio p' = L) /\ out < 2 ^ 214
     else out <= T256 - amt /\ (out = T256 - amt \/ SqrtRatio p' = L) /\ inp < 2 ^ 237).
Proof.
  intros E. destruct (swap_ok_inv n p' a0 a1 E) as (HS & Hsp & Hfee & s & Es & -> & EA). destruct (start_ok HS) as (HL & Hl & R).
  destruct HP as (HH & _). pose proof Ha as Ha'. unfold is_u256 in Ha'.
  destruct (loop_ind h sp z ex L (Fee p) (otherGrowth p z) HH Hsp Hfee Hl (fun x => is_u256 (sCalculated x))) with (n := n) (s := s0) (s' := s) as (HL' & Hc & R'); auto.
  { intros x x' k st _ _ _ RF. rewrite (rf_calc _ _ _ _ _ _ _ _ _ _ _ RF). unfold is_u256, usub, uadd. destruct ex; apply Z.mod_pos_bound; lia. }
  { unfold is_u256. cbn. lia. }
  pose proof (loop_allRounds h sp z ex L (Fee p) (otherGrowth p z) HH Hsp Hfee Hl n s0 s HL Es) as EN.
  pose proof (loop_amounts h sp z ex L (Fee p) (otherGrowth p z) HH Hsp Hfee Hl allRounds s0 s HL EN) as HA. rewrite allRounds_Z in HA.
  cbn [startState sRemaining sCalculated] in HA. unfold running in R'. cbn [finish SqrtRatio]. pose proof HL' as (_ & _ & _ & _ & HR & _). unfold remOK in HR.
  unfold MaxTick, MinTick in HA. unfold is_u256 in Hc. destruct (amt <? T255) eqn:C.
  - destruct HA as [H1 (Y & H2 & H3)]. rewrite (Z.mod_small (sCalculated s)) in H3 by assumption.
    exists (amt - sRemaining s), Y. split.
    { assert (usub amt (sRemaining s) = amt - sRemaining s) as U by (unfold usub; apply Z.mod_small; lia). destruct z; cbn [Bool.eqb] in EA; destruct EA as [-> ->]; (split; [exact U|rewrite H3; reflexivity]). }
    split; [lia|]. split; [lia|]. split; [lia|]. split; [lia|lia].
  - destruct HA as [H1 (X & H2 & H3)]. rewrite (Z.mod_small (sCalculated s)) in H3 by assumption. rewrite Z.mod_small in H3 by lia.
    exists X, (if sRemaining s =? 0 then T256 - amt else sRemaining s - amt). split.
    { assert (usub amt (sRemaining s) = uneg (if sRemaining s =? 0 then T256 - amt else sRemaining s - amt)) as U.
      { unfold usub, uneg. destruct (sRemaining s =? 0) eqn:C0.
        - replace (sRemaining s) with 0 by lia. replace (- (T256 - amt)) with (amt - 0 + (-1) * T256) by ring. now rewrite Z_mod_plus_full.
        - f_equal. ring. }
      destruct z; cbn [Bool.eqb] in EA; destruct EA as [-> ->]; (split; [lia|exact U]). }
    destruct (sRemaining s =? 0) eqn:C0; (split; [lia|]; split; [lia|]; split; [lia|]; split; [lia|lia]).
Qed.

(** ** termination *)
Lemma swap_up_terminates : z = false -> swap allRounds p z amt lim <> OutOfFuel.
Proof.
  intros Ez. destruct (starts_dec p z amt lim) as [HS|N]; [|rewrite swap_panics by assumption; discriminate].
  pose proof sp_nonneg. destruct (Z.eq_dec sp 0) as [Z0|]. { replace allRounds with (S (pred allRounds)) by (pose proof allRounds_Z; unfold MaxTick, MinTick in *; lia). rewrite no_spacing by assumption. discriminate. }
  assert (0 <= Fee p < MaxFee) as Hfee by (apply TickSpaces_fee; destruct HP as (_ & _ & Es & _); rewrite <- Es; lia).
  destruct (start_ok HS) as (HL & Hl & R). rewrite swap_eq by assumption. apply bind_not_fuel; [|discriminate].
  assert (MinTick <= TickCurrent p < MaxTick) by apply HP.
  apply (loop_up_terminates h sp z ex L (Fee p) (otherGrowth p z) (proj1 HP) ltac:(lia) Hfee Hl); try assumption. rewrite allRounds_Z. cbn [startState sTick]. lia.
Qed.
Lemma swap_down_terminates : z = true -> noMisplaced sp L (TickCurrent p) -> swap allRounds p z amt lim <> OutOfFuel.
Proof.
  intros Ez NM. destruct (starts_dec p z amt lim) as [HS|N]; [|rewrite swap_panics by assumption; discriminate].
  pose proof sp_nonneg. destruct (Z.eq_dec sp 0) as [Z0|]. { replace allRounds with (S (pred allRounds)) by (pose proof allRounds_Z; unfold MaxTick, MinTick in *; lia). rewrite no_spacing by assumption. discriminate. }
  assert (0 <= Fee p < MaxFee) as Hfee by (apply TickSpaces_fee; destruct HP as (_ & _ & Es & _); rewrite <- Es; lia).
  destruct (start_ok HS) as (HL & Hl & R). rewrite swap_eq by assumption. apply bind_not_fuel; [|discriminate].
  assert (MinTick <= TickCurrent p < MaxTick) by apply HP.
  apply (loop_down_terminates h sp z ex L (Fee p) (otherGrowth p z) (proj1 HP) ltac:(lia) Hfee Hl (TickCurrent p)); try assumption; [cbn [startState sTick]; lia|].
  rewrite allRounds_Z. cbn [startState sTick]. lia.
Qed.
Lemma swap_decides : swap allRounds p z amt lim = OutOfFuel -> forall m, swap m p z amt lim = OutOfFuel.
Proof.
  intros E m. destruct (starts_dec p z amt lim) as [HS|N]; [|rewrite swap_panics in E by assumption; discriminate].
  pose proof sp_nonneg. destruct (Z.eq_dec sp 0) as [Z0|]. { replace allRounds with (S (pred allRounds)) in E by (pose proof allRounds_Z; unfold MaxTick, MinTick in *; lia). rewrite no_spacing in E by assumption. discriminate. }
  assert (0 <= Fee p < MaxFee) as Hfee by (apply TickSpaces_fee; destruct HP as (_ & _ & Es & _); rewrite <- Es; lia).
  destruct (start_ok HS) as (HL & Hl & R). rewrite swap_eq in E |- * by assumption.
  rewrite (loop_decides h sp z ex L (Fee p) (otherGrowth p z) (proj1 HP) ltac:(lia) Hfee Hl s0 HL); [reflexivity|].
  destruct (swapLoop allRounds z ex L (Fee p) (otherGrowth p z) s0); [discriminate|discriminate|reflexivity].
Qed.
End Swap.
