(** PoolSpec.v -- the pool lemmas in the form the property file states them, and the witnesses. *)
From Coq Require Import Sorting.Sorted ZifyBool String.
From Verif Require Import Base U256Z FullMathFacts SwapMath SwapMathFacts SwapStep TickMath TickMathFacts TickData TickDataFacts TickSearch TickFees TickSpec Ledger Pool PoolTable PoolInv PoolSwap PoolLoop PoolStuck PoolHist PoolOps PoolMint PoolFees PoolPos.
Ltac Zify.zify_post_hook ::= idtac.
Open Scope Z_scope.

Lemma reach_table h p : reach h p ->
  StronglySorted (fun a b => tkIndex a < tkIndex b) (ticks (Data p)) /\ tickSpacing (Data p) = TickSpacing p /\
  (forall j, (exists x, In x (ticks (Data p)) /\ tkIndex x = j) <-> 0 < gross h j) /\
  (forall x, In x (ticks (Data p)) -> tkGross x = gross h (tkIndex x) /\ tkNet x = net h (tkIndex x) mod T256 /\
     placed (TickSpacing p) (tkIndex x) /\ MinTick <= tkIndex x <= MaxTick).
Proof.
  intros R. pose proof (reach_ok h p R) as HP. destruct HP as (HH & (S & Sp & L) & _). split; [exact S|]. split; [exact Sp|]. split.
  - intros j. pose proof (hasTick_present (Data p) j) as E. unfold hasTick in E. rewrite E. unfold present. specialize (L j). unfold tickOK in L.
    destruct (lookup (ticks (Data p)) j); split; intros H; [lia|discriminate|congruence|lia].
  - intros x Hx. specialize (L (tkIndex x)). rewrite (proj1 (lookup_in_iff _ x S) Hx) in L. destruct L as (L1 & L2 & L3 & L4 & _). split; [assumption|]. split; [assumption|].
    destruct (gross_in h (tkIndex x)) as (e & He & Hj); [lia|]. destruct HH as (_ & R1 & _). destruct (R1 e He) as (Q1 & Q2 & Q3 & Q4 & Q5).
    destruct Hj as [<-|<-]; split; auto; lia.
Qed.

Lemma reach_liquidity h p : reach h p ->
  Liquidity p = active h (TickCurrent p) /\ 0 <= Liquidity p < 2 ^ 128 /\ Liquidity p = sumNet (ticks (Data p)) (TickCurrent p) mod T256.
Proof.
  intros R. pose proof (reach_ok h p R) as HP. split; [apply HP|]. split; [|now apply (ok_sumNet h)].
  destruct HP as (HH & _ & _ & _ & -> & _). eapply active_range, HH.
Qed.

Lemma reach_price h p : reach h p -> exists r s, GetSqrtRatioAtTick (TickCurrent p) = Ok r /\ GetSqrtRatioAtTick (TickCurrent p + 1) = Ok s /\
  r <= SqrtRatio p <= s /\ SqrtRatio p < MaxSqrtRatio /\ MinTick <= TickCurrent p < MaxTick.
Proof.
  intros R. destruct (reach_ok h p R) as (_ & _ & _ & _ & _ & (H1 & H2 & H3) & _). exists (rat (TickCurrent p)), (rat (TickCurrent p + 1)).
  rewrite !rat_ok by lia. auto.
Qed.
Lemma new_price t0 t1 fee price p : NewPool t0 t1 fee price = Ok p -> SqrtRatio p = price /\
  exists s, GetSqrtRatioAtTick (TickCurrent p + 1) = Ok s /\ price < s.
Proof.
  intros E. destruct (new_pool_ok t0 t1 fee price p E) as ((_ & _ & _ & _ & _ & (H & _) & _) & E1 & _ & E2 & _). split; [assumption|].
  exists (rat (TickCurrent p + 1)). rewrite rat_ok by lia. auto.
Qed.
Lemma strict_price h p fuel o p' s s' : reach h p -> allowed h p o -> step fuel p o = Ok p' -> ~ downSwap p o ->
  GetSqrtRatioAtTick (TickCurrent p + 1) = Ok s -> SqrtRatio p < s -> GetSqrtRatioAtTick (TickCurrent p' + 1) = Ok s' -> SqrtRatio p' < s'.
Proof.
  intros R HA E ND E1 H1 E2. pose proof (reach_ok h p R) as HP. pose proof (step_ok h p fuel o p' HP HA E) as (HP' & _).
  assert (MinTick <= TickCurrent p < MaxTick) by apply HP. assert (MinTick <= TickCurrent p' < MaxTick) by apply HP'.
  rewrite rat_ok in E1, E2 by lia. injection E1 as <-. injection E2 as <-. now apply (step_strict h p fuel o p').
Qed.
(** ** swaps *)
(** no tick the swap may stand on has its search boundary above it *)
Definition clearWay (p : Pool) (limit : Z) : Prop :=
  forall t r, t <= TickCurrent p -> t < 0 -> t / (256 * TickSpacing p) * (256 * TickSpacing p) + 255 * TickSpacing p < t ->
    GetSqrtRatioAtTick (t + 1) = Ok r -> r <= limit.

Lemma clearWay_noMisplaced h p limit : poolOK h p -> 0 < TickSpacing p -> clearWay p limit -> noMisplaced (TickSpacing p) limit (TickCurrent p).
Proof.
  intros HP Hsp C t Ht M. apply misplaced_iff in M as [M1 M2]; [|assumption]. apply (C t); [lia|assumption|exact M2|]. apply rat_ok. unfold MaxTick, MinTick in *. lia.
Qed.

Lemma swap_direction h p fuel z amt lim p' a0 a1 : reach h p -> is_u256 amt -> swap fuel p z amt lim = Ok (p', a0, a1) ->
  let L := effectiveLimit z lim in
  if z then MinSqrtRatio < L < SqrtRatio p /\ L <= SqrtRatio p' /\ (clearWay p L -> SqrtRatio p' <= SqrtRatio p /\ TickCurrent p' <= TickCurrent p)
  else SqrtRatio p < L < MaxSqrtRatio /\ SqrtRatio p <= SqrtRatio p' <= L /\ TickCurrent p <= TickCurrent p'.
Proof.
  intros R Ha E. cbv zeta. pose proof (reach_ok h p R) as HP. destruct (swap_ok_inv h p z amt lim HP Ha fuel p' a0 a1 E) as ([_ HS] & Hsp & _).
  destruct (swap_ok h p z amt lim HP Ha fuel p' a0 a1 E) as (_ & _ & _ & _ & _ & _ & _ & _ & D). destruct z.
  - destruct D as [D1 D2]. split; [lia|]. split; [assumption|]. intros C. apply D2. eapply clearWay_noMisplaced; eassumption.
  - destruct D as (D1 & D2 & _). split; [lia|]. split; assumption.
Qed.

Lemma swap_frame h p fuel z amt lim p' a0 a1 : reach h p -> is_u256 amt -> swap fuel p z amt lim = Ok (p', a0, a1) ->
  Token0 p' = Token0 p /\ Token1 p' = Token1 p /\ Fee p' = Fee p /\ TickSpacing p' = TickSpacing p /\ Pos p' = Pos p /\
  (if z then FeeGrowth1 p' = FeeGrowth1 p else FeeGrowth0 p' = FeeGrowth0 p) /\
  (forall x, In x (ticks (Data p)) -> exists y, In y (ticks (Data p')) /\ tkIndex y = tkIndex x /\ tkNet y = tkNet x /\ tkGross y = tkGross x) /\
  map tkIndex (ticks (Data p')) = map tkIndex (ticks (Data p)).
Proof.
  intros R Ha E. pose proof (reach_ok h p R) as HP. destruct (swap_ok h p z amt lim HP Ha fuel p' a0 a1 E) as (HP' & Q1 & Q2 & Q3 & Q4 & Q5 & Q6 & _).
  do 6 (split; [assumption|]). destruct HP as (_ & (S & _ & L) & _). destruct HP' as (_ & (S' & _ & L') & _).
  assert (forall x, In x (ticks (Data p)) -> exists y, In y (ticks (Data p')) /\ tkIndex y = tkIndex x /\ tkNet y = tkNet x /\ tkGross y = tkGross x) as K.
  { intros x Hx. specialize (L (tkIndex x)). specialize (L' (tkIndex x)). rewrite (proj1 (lookup_in_iff _ x S) Hx) in L. unfold tickOK in *. destruct L as (G1 & _ & G2 & G3 & _).
    destruct (lookup (ticks (Data p')) (tkIndex x)) as [y|] eqn:Ey; [|lia]. destruct L' as (_ & G4 & G5 & G6 & _). exists y. split; [eapply lookup_in, Ey|]. split; [assumption|]. split; congruence. }
  split; [exact K|]. clear K.
  assert (forall l l' : list Tick, sortedL l -> sortedL l' -> (forall j, lookup l j = None <-> lookup l' j = None) -> map tkIndex l' = map tkIndex l) as KM.
  { clear. induction l as [|a l IH]; intros [|b l'] Hs Hs' HL; [reflexivity|..].
    - exfalso. assert (lookup (b :: l') (tkIndex b) = None) as X by (apply HL; reflexivity). cbn in X. rewrite Z.eqb_refl in X. discriminate.
    - exfalso. assert (lookup (a :: l) (tkIndex a) = None) as X by (apply HL; reflexivity). cbn in X. rewrite Z.eqb_refl in X. discriminate.
    - apply sorted_cons in Hs as [Hs Ha]. apply sorted_cons in Hs' as [Hs' Hb].
      assert (forall c m j, lookup (c :: m) j = if tkIndex c =? j then Some c else lookup m j) as LC by (intros; reflexivity).
      assert (forall (m : list Tick) j, (forall y, In y m -> j < tkIndex y) -> lookup m j = None) as LN.
      { intros m j H. apply lookup_none. intros x Hx. specialize (H x Hx). lia. }
      assert (tkIndex a = tkIndex b) as Eab.
      { destruct (Z_lt_le_dec (tkIndex a) (tkIndex b)) as [C|C].
        - exfalso. assert (lookup (a :: l) (tkIndex a) = None) as X.
          { apply HL. rewrite LC. replace (tkIndex b =? tkIndex a) with false by lia. apply LN. intros y Hy. specialize (Hb y Hy). lia. }
          rewrite LC, Z.eqb_refl in X. discriminate.
        - destruct (Z.eq_dec (tkIndex a) (tkIndex b)) as [|N]; [assumption|]. exfalso. assert (lookup (b :: l') (tkIndex b) = None) as X.
          { apply HL. rewrite LC. replace (tkIndex a =? tkIndex b) with false by lia. apply LN. intros y Hy. specialize (Ha y Hy). lia. }
          rewrite LC, Z.eqb_refl in X. discriminate. }
      cbn [map]. f_equal; [congruence|]. apply IH; [assumption|assumption|]. intros j. specialize (HL j). rewrite !LC, <- Eab in HL.
      destruct (tkIndex a =? j) eqn:C; [|exact HL]. rewrite !LN; [tauto|..].
      + intros y Hy. specialize (Hb y Hy). lia.
      + intros y Hy. specialize (Ha y Hy). lia. }
  apply KM; [assumption|assumption|]. intros j. specialize (L j). specialize (L' j). unfold tickOK in *.
  destruct (lookup (ticks (Data p)) j); destruct (lookup (ticks (Data p')) j); split; intros H; try discriminate; try reflexivity; lia.
Qed.

Lemma swap_request h p fuel z amt lim p' a0 a1 : reach h p -> is_u256 amt -> swap fuel p z amt lim = Ok (p', a0, a1) ->
  exists inp out, (if z then a0 = inp /\ a1 = (- out) mod T256 else a1 = inp /\ a0 = (- out) mod T256) /\ 0 <= inp /\ 0 <= out /\
    (if amt <? T255 then inp <= amt /\ (inp = amt \/ SqrtRatio p' = effectiveLimit z lim) /\ out < 2 ^ 214
     else out <= T256 - amt /\ (out = T256 - amt \/ SqrtRatio p' = effectiveLimit z lim) /\ inp < 2 ^ 237).
Proof. intros R Ha. apply (swap_amounts h p z amt lim (reach_ok h p R) Ha fuel). Qed.

Lemma ends_up h p amt lim : reach h p -> is_u256 amt -> swap allRounds p false amt lim <> OutOfFuel.
Proof. intros R Ha. apply (swap_up_terminates h p false amt lim (reach_ok h p R) Ha eq_refl). Qed.
Lemma ends_down h p amt lim : reach h p -> is_u256 amt -> clearWay p (effectiveLimit true lim) -> swap allRounds p true amt lim <> OutOfFuel.
Proof.
  intros R Ha C. pose proof (reach_ok h p R) as HP. destruct (Z.eq_dec (TickSpacing p) 0) as [Z0|NZ].
  - destruct (starts_dec p true amt lim) as [HS|N]; [|rewrite swap_panics by assumption; discriminate].
    replace allRounds with (S (pred allRounds)) by (pose proof allRounds_Z; unfold MaxTick, MinTick in *; lia). rewrite (no_spacing h) by assumption. discriminate.
  - apply (swap_down_terminates h p true amt lim HP Ha eq_refl). apply (clearWay_noMisplaced h); [assumption| |assumption].
    destruct HP as (_ & _ & E & _). pose proof (TickSpaces_nonneg (Fee p)). lia.
Qed.
Lemma decided h p z amt lim : reach h p -> is_u256 amt -> swap allRounds p z amt lim = OutOfFuel -> forall m, swap m p z amt lim = OutOfFuel.
Proof. intros R Ha. apply (swap_decides h p z amt lim (reach_ok h p R) Ha). Qed.
Lemma more_fuel h p z amt lim n r : reach h p -> is_u256 amt -> swap n p z amt lim = Ok r -> swap allRounds p z amt lim = Ok r.
Proof.
  intros R Ha E. destruct r as [[p' a0] a1]. pose proof (reach_ok h p R) as HP. destruct (swap_ok_inv h p z amt lim HP Ha n p' a0 a1 E) as (HS & Hsp & Hfee & s & Es & Ep & EA).
  destruct (start_ok h p z amt lim HP Ha HS) as (HL & Hl & _). rewrite (swap_eq n) in E by assumption. rewrite (swap_eq allRounds) by assumption.
  rewrite Es in E. rewrite (loop_allRounds h (TickSpacing p) z (amt <? T255) (effectiveLimit z lim) (Fee p) (otherGrowth p z) (proj1 HP) Hsp Hfee Hl n (startState p z amt) s HL Es). exact E.
Qed.

(** ** a pool whose downward swaps go wrong: spacing 60, price between ticks -30 and -29, one position *)
Definition badPrice : Z := 79109415290437042952051541803.
Definition badPool : Pool :=
  mkPool "A" "B" 3000 badPrice (10 ^ 18) 0 0 60 (-30)
    (mkTickData [mkTick (-120) (10 ^ 18) (10 ^ 18) 0 0; mkTick 120 (T256 - 10 ^ 18) (10 ^ 18) 0 0] 60) [].
Definition badHist : hist := [mkE (-120) 120 (10 ^ 18)].
Definition startPool : Pool := mkPool "A" "B" 3000 badPrice 0 0 0 60 (-30) (mkTickData [] 60) [].

Lemma startPool_reach : reach [] startPool.
Proof. apply (reach_new "A" "B" 3000 badPrice). vm_compute. reflexivity. Qed.
Lemma badPool_reach : reach badHist badPool.
Proof.
  apply (reach_step [] startPool 0 (OMint (-120) 120 (10 ^ 18))).
  - exact startPool_reach.
  - split; [vm_compute; intuition discriminate|]. split; [apply placed_multiple; [reflexivity|exists (-2); reflexivity]|]. split; [apply placed_multiple; [reflexivity|exists 2; reflexivity]|reflexivity].
  - vm_compute. reflexivity.
Qed.

(** the state of a swap of 10^16 token A after its first round: the price went UP to the one of tick 0 *)
Definition stuckState : State :=
  mkState 8496689388471304 115792089237316195423570985008687907853269984665640564039457582506862674503415
    79228162514264337593543950336 (-1) 1534650279325354686911109913176785 (10 ^ 18) (Data badPool).

Lemma stuckState_round : swapRound true true 4295128740 3000 0 stuckState = Ok stuckState.
Proof. vm_compute. reflexivity. Qed.
Lemma stuckState_loop n : swapLoop n true true 4295128740 3000 0 stuckState = OutOfFuel.
Proof.
  induction n as [|n IH]; [reflexivity|]. cbn [swapLoop]. change (negb (sRemaining stuckState =? 0) && negb (sPrice stuckState =? 4295128740)) with true. cbv iota.
  rewrite stuckState_round. cbn [bind]. exact IH.
Qed.
Lemma never_ends n : ExactInputSwap n badPool (10 ^ 16) "A" 0 = OutOfFuel.
Proof.
  unfold ExactInputSwap. change (String.eqb "A" (Token0 badPool)) with true. rewrite swap_eq.
  - change (10 ^ 16 <? T255) with true. change (effectiveLimit true 0) with 4295128740. change (Fee badPool) with 3000. change (otherGrowth badPool true) with 0.
    assert (swapRound true true 4295128740 3000 0 (startState badPool true (10 ^ 16)) = Ok stuckState) as E by (vm_compute; reflexivity).
    destruct n as [|n]; [reflexivity|]. cbn [swapLoop]. change (negb (sRemaining (startState badPool true (10 ^ 16)) =? 0) && negb (sPrice (startState badPool true (10 ^ 16)) =? 4295128740)) with true. cbv iota.
    rewrite E. cbn [bind]. rewrite stuckState_loop. reflexivity.
  - unfold is_u256. lia.
  - split; [discriminate|]. vm_compute. auto.
Qed.

(** ** a pool with a history: two mints, a swap up across tick 180, a swap back down *)
Definition okOr {A} (r : res A) (d : A) : A := match r with Ok a => a | _ => d end.
Definition good0 : Pool := Eval vm_compute in okOr (NewPool "A" "B" 3000 79623317895830914510639640423) startPool.
Definition good1 : Pool := Eval vm_compute in okOr (step 20 good0 (OMint 60 180 (10 ^ 18))) startPool.
Definition good2 : Pool := Eval vm_compute in okOr (step 20 good1 (OMintStrategy 0 600 (10 ^ 18))) startPool.
Definition good3 : Pool := Eval vm_compute in okOr (step 20 good2 (OExactInput (2 * 10 ^ 16) "B" 0)) startPool.
Definition good4 : Pool := Eval vm_compute in okOr (step 20 good3 (OExactInput (2 * 10 ^ 16) "A" 0)) startPool.
Definition goodHist : hist := [mkE 0 600 (10 ^ 18); mkE 60 180 (10 ^ 18)].

Lemma good2_reach : reach goodHist good2.
Proof.
  apply (reach_step [mkE 60 180 (10 ^ 18)] good1 20 (OMintStrategy 0 600 (10 ^ 18))).
  - apply (reach_step [] good0 20 (OMint 60 180 (10 ^ 18))).
    + apply (reach_new "A" "B" 3000 79623317895830914510639640423). vm_compute. reflexivity.
    + split; [vm_compute; intuition discriminate|]. split; [apply placed_multiple; [reflexivity|exists 1; reflexivity]|]. split; [apply placed_multiple; [reflexivity|exists 3; reflexivity]|reflexivity].
    + vm_compute. reflexivity.
  - split; [vm_compute; intuition discriminate|]. split; [apply placed_multiple; [reflexivity|exists 0; reflexivity]|]. split; [apply placed_multiple; [reflexivity|exists 10; reflexivity]|reflexivity].
  - vm_compute. reflexivity.
Qed.
Lemma good3_reach : reach goodHist good3.
Proof.
  apply (reach_step goodHist good2 20 (OExactInput (2 * 10 ^ 16) "B" 0)); [exact good2_reach| |vm_compute; reflexivity]. vm_compute. intuition discriminate.
Qed.
Lemma good4_reach : reach goodHist good4.
Proof.
  apply (reach_step goodHist good3 20 (OExactInput (2 * 10 ^ 16) "A" 0)); [exact good3_reach| |vm_compute; reflexivity]. vm_compute. intuition discriminate.
Qed.

(** ranges off the spacing, as the Bollinger and volatility strategies mint them, and swaps over their ends *)
Definition odd1 : Pool := Eval vm_compute in okOr (step 20 good0 (OMint (-85) 605 (10 ^ 18))) startPool.
Definition odd2 : Pool := Eval vm_compute in okOr (step 20 odd1 (OMintStrategy 61 175 (10 ^ 18))) startPool.
Definition odd3 : Pool := Eval vm_compute in okOr (step 20 odd2 (OExactInput (2 * 10 ^ 16) "B" 0)) startPool.
Definition odd4 : Pool := Eval vm_compute in okOr (step 20 odd3 (OExactInput (22 * 10 ^ 15) "A" 0)) startPool.
Definition oddHist : hist := [mkE 61 175 (10 ^ 18); mkE (-85) 605 (10 ^ 18)].
Lemma odd4_reach : reach oddHist odd4.
Proof.
  apply (reach_step oddHist odd3 20 (OExactInput (22 * 10 ^ 15) "A" 0)); [|vm_compute; intuition discriminate|vm_compute; reflexivity].
  apply (reach_step oddHist odd2 20 (OExactInput (2 * 10 ^ 16) "B" 0)); [|vm_compute; intuition discriminate|vm_compute; reflexivity].
  apply (reach_step [mkE (-85) 605 (10 ^ 18)] odd1 20 (OMintStrategy 61 175 (10 ^ 18))); [|split; [vm_compute; intuition discriminate|]|vm_compute; reflexivity].
  apply (reach_step [] good0 20 (OMint (-85) 605 (10 ^ 18))); [|split; [vm_compute; intuition discriminate|]|vm_compute; reflexivity].
  - apply (reach_new "A" "B" 3000 79623317895830914510639640423). vm_compute. reflexivity.
  - split; [apply placed_iff; split; [reflexivity|right; right; discriminate]|]. split; [apply placed_nonneg; [reflexivity|discriminate]|reflexivity].
  - split; [apply placed_nonneg; [reflexivity|discriminate]|]. split; [apply placed_nonneg; [reflexivity|discriminate]|reflexivity].
Qed.

Lemma no_profit h p l u a p1 a0 a1 p2 b0 b1 : reach h p -> 0 <= a < 2 ^ 160 ->
  MintStrategy p l u a = Ok (p1, a0, a1) -> BurnStrategy p1 l u a = Ok (p2, b0, b1) -> 0 <= b0 <= a0 /\ 0 <= b1 <= a1.
Proof.
  intros R Ha E1 E2. destruct (mintS_then_burnS h p l u a p1 a0 a1 (reach_ok h p R) ltac:(unfold is_u256; lia) ltac:(lia) E1) as (q & c0 & c1 & E & H0 & H1 & _).
  rewrite E2 in E. injection E as <- <- <-. auto.
Qed.

(** ** fees credited to all ranges together *)
Fixpoint sumRanges (w : Z -> Z -> Z) (rs : list (Z * Z)) : Z :=
  match rs with [] => 0 | (l, u) :: rs => w l u + sumRanges w rs end.

Lemma sumRanges_le w w' rs : (forall l u, In (l, u) rs -> w l u <= w' l u) -> sumRanges w rs <= sumRanges w' rs.
Proof.
  induction rs as [|[l u] rs IH]; intros H; [cbn; lia|]. cbn [sumRanges]. pose proof (H l u (or_introl eq_refl)). specialize (IH ltac:(intros; apply H; now right)). lia.
Qed.

Lemma sumRanges_hist w rs : (forall l u, 0 <= w l u) -> NoDup rs -> forall h, covered h -> sumRanges (fun l u => minted h l u * w l u) rs <= sumOn w h.
Proof.
  intros Hw. induction rs as [|[l u] rs IH]; intros ND h HC; cbn [sumRanges]; [apply sumOn_nonneg; auto|].
  inversion ND as [|? ? N1 N2]; subst. rewrite (sumOn_split w h (mkE l u 0)). cbn [eLower eUpper].
  set (h' := filter (fun x => negb (same x (mkE l u 0))) h).
  assert (covered h') as HC' by (intros l' u'; unfold h'; rewrite minted_filter; destruct (_ && _); [lia|apply HC]).
  specialize (IH N2 h' HC').
  assert (sumRanges (fun l0 u0 => minted h l0 u0 * w l0 u0) rs <= sumRanges (fun l0 u0 => minted h' l0 u0 * w l0 u0) rs).
  { apply sumRanges_le. intros l0 u0 Hin. unfold h'. rewrite minted_filter. cbn [eLower eUpper]. destruct ((l =? l0) && (u =? u0)) eqn:C; [|lia].
    exfalso. apply N1. replace l with l0 by lia. replace u with u0 by lia. assumption. }
  lia.
Qed.

(** growth inside a range for one token (0 if a tick is missing) *)
Definition insideGrowth (token0 : bool) (p : Pool) (l u : Z) : Z :=
  match GetFeeGrowthInside (Data p) l u (TickCurrent p) (FeeGrowth0 p) (FeeGrowth1 p) with
  | Ok (x, y) => if token0 then x else y
  | _ => 0
  end.

Lemma credited_nonneg rs a b : (forall r, In r rs -> 0 <= shGrowth r) -> 0 <= credited rs a b.
Proof.
  induction rs as [|r rs IH]; intros H; cbn [credited]; [lia|]. specialize (IH ltac:(intros x Hx; apply H; now right)). specialize (H r (or_introl eq_refl)).
  destruct ((a <=? shTick r) && (shTick r <? b)); cbn [ind]; lia.
Qed.

Lemma sum_floor (w : Z -> Z -> Z) rs q : 0 < q -> sumRanges (fun l u => w l u / q) rs * q <= sumRanges w rs.
Proof.
  intros Hq. induction rs as [|[l u] rs IH]; cbn [sumRanges]; [lia|]. pose proof (Z.mul_div_le (w l u) q Hq). lia.
Qed.

Lemma swap_shares h p n (z : bool) amt lim p' a0 a1 : reach h p -> is_u256 amt -> swap n p z amt lim = Ok (p', a0, a1) ->
  let limit := if lim =? 0 then (if z then 4295128740 else 1461446703485210103287273052203988822378723970341) else lim in
  exists rs,
    (forall r, In r rs -> 0 <= shFee r /\ (active h (shTick r) = 0 -> shFee r = 0) /\ shGrowth r = (shFee r * 2 ^ 128 / active h (shTick r)) mod T256 /\
      (if z then clearWay p limit -> TickCurrent p' <= shTick r <= TickCurrent p else TickCurrent p <= shTick r <= TickCurrent p')) /\
    sumOn (credited rs) h <= feesOf rs * 2 ^ 128 /\
    (if z then a0 else a1) * Fee p <= feesOf rs * 1000000 /\ 0 <= feesOf rs <= (if z then a0 else a1) /\
    FeeGrowth0 p' = (if z then (FeeGrowth0 p + growthOf rs) mod T256 else FeeGrowth0 p) /\
    FeeGrowth1 p' = (if z then FeeGrowth1 p else (FeeGrowth1 p + growthOf rs) mod T256) /\
    forall a b x0 x1, a < b -> GetFeeGrowthInside (Data p) a b (TickCurrent p) (FeeGrowth0 p) (FeeGrowth1 p) = Ok (x0, x1) ->
      GetFeeGrowthInside (Data p') a b (TickCurrent p') (FeeGrowth0 p') (FeeGrowth1 p') =
        Ok (if z then ((x0 + credited rs a b) mod T256, x1) else (x0, (x1 + credited rs a b) mod T256)).
Proof.
  intros R Ha E limit. pose proof (reach_ok h p R) as HP. destruct (swap_fees h p n z amt lim p' a0 a1 HP Ha E) as (rs & H1 & H2 & H3 & H4 & H5 & H6).
  destruct (swap_ok_inv h p z amt lim HP Ha n p' a0 a1 E) as (_ & Hsp & _).
  exists rs. split.
  { intros r Hr. destruct (H1 r Hr) as [(A & B & C) V]. split; [assumption|]. split; [assumption|]. split; [assumption|]. unfold visited in V. destruct z; [|exact V].
    intros CW. apply (V (TickCurrent p)); [lia|]. exact (clearWay_noMisplaced h p _ HP Hsp CW). }
  split; [exact (shares_ledger h _ rs (proj1 HP) (fun r Hr => proj1 (H1 r Hr)))|]. split; [exact H3|]. split; [exact H2|]. split; [exact H4|]. split; [exact H5|exact H6].
Qed.

Lemma fees_solvent h p n z amt lim p' a0 a1 ranges : reach h p -> is_u256 amt -> swap n p z amt lim = Ok (p', a0, a1) -> NoDup ranges ->
  sumRanges (fun l u => minted h l u * ((insideGrowth z p' l u - insideGrowth z p l u) mod T256) / 2 ^ 128) ranges <= (if z then a0 else a1).
Proof.
  intros R Ha E ND. pose proof (reach_ok h p R) as HP. destruct (swap_fees h p n z amt lim p' a0 a1 HP Ha E) as (rs & H3 & H2 & _ & _ & _ & H4). pose proof (shares_ledger h _ rs (proj1 HP) (fun r Hr => proj1 (H3 r Hr))) as H1. set (fees := feesOf rs) in *. clearbody fees.
  assert (forall l u, 0 <= credited rs l u) as HC by (intros; apply credited_nonneg; intros r Hr; exact (proj1 (exactShare_le h _ (proj1 HP) r (proj1 (H3 r Hr))))).
  pose proof HP as (HH & (S & _ & L) & _). pose proof HH as (Cov & _).
  assert (sumRanges (fun l u => minted h l u * ((insideGrowth z p' l u - insideGrowth z p l u) mod T256)) ranges <= sumOn (credited rs) h) as K.
  { eapply Z.le_trans; [|apply sumRanges_hist; [exact HC|exact ND|exact Cov]]. apply sumRanges_le. intros l u _. pose proof (Cov l u) as Hm.
    destruct (Z.eq_dec (minted h l u) 0) as [->|NZ]; [lia|]. apply Z.mul_le_mono_nonneg_l; [assumption|].
    pose proof (minted_range _ h l u HH ltac:(lia)) as (Hlu & _).
    assert (present (Data p) l /\ present (Data p) u) as [Pl Pu].
    { unfold present. pose proof (minted_gross_l h l u Cov). pose proof (minted_gross_u h l u Cov). pose proof (L l) as Ll. pose proof (L u) as Lu. unfold tickOK in *.
      split; [destruct (lookup (ticks (Data p)) l); [discriminate|lia]|destruct (lookup (ticks (Data p)) u); [discriminate|lia]]. }
    pose proof (GetFeeGrowthInside_spec (Data p) l u (TickCurrent p) (FeeGrowth0 p) (FeeGrowth1 p) S Pl Pu) as G.
    match type of G with _ = Ok (?x, ?y) => set (x0 := x) in G; set (x1 := y) in G end. unfold insideGrowth. rewrite (H4 l u x0 x1 Hlu G), G.
    assert (forall x c, 0 <= c -> ((x + c) mod T256 - x) mod T256 <= c) as KM.
    { intros x c Hc. rewrite Zminus_mod_idemp_l. replace (x + c - x) with c by ring. apply Z.mod_le; lia. }
    destruct z; apply KM, HC. }
  assert (sumRanges (fun l u => minted h l u * ((insideGrowth z p' l u - insideGrowth z p l u) mod T256) / 2 ^ 128) ranges * 2 ^ 128 <= fees * 2 ^ 128).
  { eapply Z.le_trans; [|exact H1]. eapply Z.le_trans; [|exact K].
    exact (sum_floor (fun l u => minted h l u * ((insideGrowth z p' l u - insideGrowth z p l u) mod T256)) ranges (2 ^ 128) ltac:(lia)). }
  lia.
Qed.

Lemma bad_rise : exists p' a0 a1, swap 10 badPool true (10 ^ 15) 0 = Ok (p', a0, a1) /\ SqrtRatio p' = 79188405768463764496632305121.
Proof. do 3 eexists. split; [vm_compute; reflexivity|reflexivity]. Qed.
Lemma direction_refuted : ~ (forall h p fuel amt lim p' a0 a1, reach h p -> is_u256 amt ->
  swap fuel p true amt lim = Ok (p', a0, a1) -> SqrtRatio p' <= SqrtRatio p).
Proof.
  intros H. destruct bad_rise as (p' & a0 & a1 & E & Ep). specialize (H badHist badPool 10%nat (10 ^ 15) 0 p' a0 a1 badPool_reach ltac:(unfold is_u256; lia) E).
  rewrite Ep in H. change (SqrtRatio badPool) with badPrice in H. unfold badPrice in H. lia.
Qed.
Lemma terminates_refuted : exists h p amt, reach h p /\ is_u256 amt /\ forall n, ExactInputSwap n p amt (Token0 p) 0 = OutOfFuel.
Proof.
  exists badHist, badPool, (10 ^ 16). split; [exact badPool_reach|]. split; [unfold is_u256; lia|]. intros n. change (Token0 badPool) with "A"%string. apply never_ends.
Qed.
