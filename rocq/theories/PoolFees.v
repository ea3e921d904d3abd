(** PoolFees.v -- where the fees of a swap go. *)
From Coq Require Import ZifyBool String.
From Verif Require Import Base U256Z FullMathFacts SwapMath SwapMathFacts SwapStep SwapStepReturns TickMath TickMathFacts TickData TickDataFacts TickSearch TickFees Ledger Pool PoolTable PoolInv PoolSwap PoolLoop PoolHist.
Ltac Zify.zify_post_hook ::= idtac.
Open Scope Z_scope.

(** fee growth inside a range, for the token that is paid in (first) and the other one (second) *)
Definition insideOf (z : bool) (d : TickData) (tick growth other a b : Z) : res (Z * Z) :=
  if z then GetFeeGrowthInside d a b tick growth other
  else do r <- GetFeeGrowthInside d a b tick other growth; Ok (snd r, fst r).

Lemma inside_present d a b cur g0 g1 x : sortedT d -> GetFeeGrowthInside d a b cur g0 g1 = Ok x -> present d a /\ present d b.
Proof.
  intros Hs E. unfold GetFeeGrowthInside in E. rewrite !GetTick_spec in E by assumption. unfold present.
  destruct (lookup (ticks d) a); [|discriminate]. destruct (lookup (ticks d) b); [|discriminate]. split; discriminate.
Qed.

Lemma inside_grow0 d a b cur g0 g1 f x0 x1 : sortedT d -> a < b -> GetFeeGrowthInside d a b cur g0 g1 = Ok (x0, x1) ->
  GetFeeGrowthInside d a b cur (uadd g0 f) g1 = Ok ((x0 + ind ((a <=? cur) && (cur <? b)) * f) mod T256, x1).
Proof.
  intros Hs Hab E. destruct (inside_present _ _ _ _ _ _ _ Hs E) as [Pa Pb]. rewrite GetFeeGrowthInside_spec in E |- * by assumption. injection E as <- <-.
  f_equal. f_equal. rewrite Zplus_mod_idemp_l. unfold gb0, growthBelow, ind.
  destruct (a <=? cur) eqn:C1; destruct (b <=? cur) eqn:C2; try lia.
  - replace (cur <? b) with false by lia. cbn [andb]. f_equal. lia.
  - replace (cur <? b) with true by lia. cbn [andb]. unfold uadd. replace ((g0 + f) mod T256 - out0 d b - out0 d a) with ((g0 + f) mod T256 - (out0 d b + out0 d a)) by ring. rewrite Zminus_mod_idemp_l. f_equal. ring.
  - cbn [andb]. unfold uadd. rewrite Z.mul_0_l, Z.add_0_r. replace ((g0 + f) mod T256 - out0 d b - ((g0 + f) mod T256 - out0 d a)) with (g0 - out0 d b - (g0 - out0 d a)) by ring. reflexivity.
Qed.
Lemma inside_grow1 d a b cur g0 g1 f x0 x1 : sortedT d -> a < b -> GetFeeGrowthInside d a b cur g0 g1 = Ok (x0, x1) ->
  GetFeeGrowthInside d a b cur g0 (uadd g1 f) = Ok (x0, (x1 + ind ((a <=? cur) && (cur <? b)) * f) mod T256).
Proof.
  intros Hs Hab E. destruct (inside_present _ _ _ _ _ _ _ Hs E) as [Pa Pb]. rewrite GetFeeGrowthInside_spec in E |- * by assumption. injection E as <- <-.
  f_equal. f_equal. rewrite Zplus_mod_idemp_l. unfold gb1, growthBelow, ind.
  destruct (a <=? cur) eqn:C1; destruct (b <=? cur) eqn:C2; try lia.
  - replace (cur <? b) with false by lia. cbn [andb]. f_equal. lia.
  - replace (cur <? b) with true by lia. cbn [andb]. unfold uadd. replace ((g1 + f) mod T256 - out1 d b - out1 d a) with ((g1 + f) mod T256 - (out1 d b + out1 d a)) by ring. rewrite Zminus_mod_idemp_l. f_equal. ring.
  - cbn [andb]. unfold uadd. rewrite Z.mul_0_l, Z.add_0_r. replace ((g1 + f) mod T256 - out1 d b - ((g1 + f) mod T256 - out1 d a)) with (g1 - out1 d b - (g1 - out1 d a)) by ring. reflexivity.
Qed.

Lemma insideOf_grow z d a b cur g other f x y : sortedT d -> a < b -> insideOf z d cur g other a b = Ok (x, y) ->
  insideOf z d cur (uadd g f) other a b = Ok ((x + ind ((a <=? cur) && (cur <? b)) * f) mod T256, y).
Proof.
  intros Hs Hab E. unfold insideOf in *. destruct z; [now apply inside_grow0|].
  apply bind_inv in E as ((u & v) & E & Q). cbn [fst snd] in Q. injection Q as <- <-. rewrite (inside_grow1 d a b cur other g f u v Hs Hab E). reflexivity.
Qed.

Lemma inside_flat d a b cur cur' g0 g1 : sortedT d -> clear d cur cur' -> clear d cur' cur ->
  GetFeeGrowthInside d a b cur' g0 g1 = GetFeeGrowthInside d a b cur g0 g1.
Proof.
  intros Hs C1 C2.
  assert (forall i, present d i -> (i <=? cur') = (i <=? cur)) as K.
  { intros i Pi. destruct (i <=? cur') eqn:A; destruct (i <=? cur) eqn:B; try reflexivity; exfalso; [apply (C1 i); [lia|assumption]|apply (C2 i); [lia|assumption]]. }
  assert ({present d a} + {~ present d a}) as [Pa|Na] by (unfold present; destruct (lookup (ticks d) a); [left; discriminate|right; congruence]).
  2:{ rewrite !GetFeeGrowthInside_panics by tauto. reflexivity. }
  assert ({present d b} + {~ present d b}) as [Pb|Nb] by (unfold present; destruct (lookup (ticks d) b); [left; discriminate|right; congruence]).
  2:{ rewrite !GetFeeGrowthInside_panics by tauto. reflexivity. }
  rewrite !GetFeeGrowthInside_spec by assumption. unfold gb0, gb1, growthBelow. now rewrite (K a Pa), (K b Pb).
Qed.

Lemma moved_inside z g other d t d' t' a b : sortedT d -> moved z g other d t d' t' -> insideOf z d' t' g other a b = insideOf z d t g other a b.
Proof.
  intros Hs M. destruct M as [k d' net Hk Pk E|t' C1 C2].
  - assert ((k <= t <-> (if z then k - 1 else k) < k) /\ (forall j, present d j -> j <> k -> (j <= t <-> j <= (if z then k - 1 else k)))) as [K1 K2].
    { destruct z; destruct Hk as [H1 H2]; (split; [lia|]); intros j Pj Nj.
      - split; intros H; [|lia]. destruct (Z_le_gt_dec j (k - 1)); [assumption|]. exfalso. apply (H2 j); [lia|assumption].
      - split; intros H; [lia|]. destruct (Z_le_gt_dec j t); [assumption|]. exfalso. apply (H2 j); [lia|assumption]. }
    unfold insideOf. destruct z.
    + apply (cross_inside d k g other d' net t (k - 1) Hs E K1 K2).
    + now rewrite (cross_inside d k other g d' net t k Hs E K1 K2).
  - unfold insideOf. now rewrite !(inside_flat d a b t t') by assumption.
Qed.

(** without liquidity a step moves to its target and takes no fee *)
Lemma no_amount0 a b r : GetAmount0Delta a b 0 r = Ok 0.
Proof. unfold GetAmount0Delta. destruct (ordered a b) as [x y]. cbv zeta. change (ulsh 0 96) with 0. destruct r; [reflexivity|]. cbn [MulDiv Z.eqb orb bind]. f_equal. unfold udiv. destruct (x =? 0); reflexivity. Qed.
Lemma no_amount1 a b r : GetAmount1Delta a b 0 r = Ok 0.
Proof. unfold GetAmount1Delta. destruct (ordered a b) as [x y]. destruct r; reflexivity. Qed.
Lemma step_no_liquidity P T rem f s : ComputeSwapStep P T 0 rem f = Ok s -> stFee s = 0.
Proof.
  unfold ComputeSwapStep. cbv zeta. rewrite !no_amount0, !no_amount1. intros E. set (x := udiv _ _) in E. assert (0 <= x) as Hx. { unfold x, udiv, umul. change (MaxFee =? 0) with false. cbn iota. apply Z.div_pos; [apply Z.mod_pos_bound; lia|unfold MaxFee; lia]. } clearbody x. assert (0 <= uneg rem) as Hn by (apply Z.mod_pos_bound; lia).
  destruct (0 <=? usign rem).
  - assert ((if T <=? P then Ok 0 else Ok 0) = Ok 0) as E0 by (destruct (T <=? P); reflexivity). rewrite E0 in E. cbn [bind] in E. replace (0 <=? x) with true in E by lia. cbn [bind] in E.
    rewrite !Z.eqb_refl in E. cbn [andb negb bind] in E. rewrite no_amount0, no_amount1 in E. apply bind_inv in E as (o & _ & E). injection E as <-. reflexivity.
  - assert ((if T <=? P then Ok 0 else Ok 0) = Ok 0) as E0 by (destruct (T <=? P); reflexivity). rewrite E0 in E. cbn [bind] in E. replace (0 <=? uneg rem) with true in E by lia. cbn [bind] in E.
    rewrite !Z.eqb_refl in E. cbn [andb negb bind] in E. rewrite !no_amount0, !no_amount1, E0 in E. cbn [bind] in E. injection E as <-. reflexivity.
Qed.

(** the share of the fee of a round that is credited to each unit of liquidity in range *)
Record share := mkShare { shTick : Z; shGrowth : Z; shFee : Z }.
(** what the rounds credit to a unit of liquidity on [a,b), to all, and the fees taken *)
Fixpoint credited (rs : list share) (a b : Z) : Z :=
  match rs with
  | [] => 0
  | r :: rs => ind ((a <=? shTick r) && (shTick r <? b)) * shGrowth r + credited rs a b
  end.
Fixpoint feesOf (rs : list share) : Z := match rs with [] => 0 | r :: rs => shFee r + feesOf rs end.
Fixpoint growthOf (rs : list share) : Z := match rs with [] => 0 | r :: rs => shGrowth r + growthOf rs end.

(** all the positions together are credited no more than the fees *)
Lemma credited_ledger h rs : (forall r, In r rs -> 0 <= shFee r /\ shGrowth r * active h (shTick r) <= shFee r * Q128) ->
  sumOn (credited rs) h <= feesOf rs * Q128.
Proof.
  induction rs as [|r rs IH]; intros H; cbn [feesOf].
  - assert (sumOn (credited []) h = 0) as ->; [|lia]. clear. unfold credited. induction h as [|e h IH]; [reflexivity|]. cbn [sumOn]. rewrite IH. lia.
  - destruct (H r (or_introl eq_refl)) as [H1 H2]. specialize (IH ltac:(intros x Hx; apply H; now right)).
    assert (sumOn (credited (r :: rs)) h = shGrowth r * active h (shTick r) + sumOn (credited rs) h) as ->; [|lia].
    clear. unfold active. cbn [credited]. induction h as [|e h IH]; [cbn; lia|]. cbn [sumOn]. cbn [credited] in IH. rewrite IH. ring.
Qed.

Section Loop.
Variables (h : hist) (sp : Z) (z ex : bool) (limit fee other : Z).
Hypothesis HH : histOK sp h.
Hypothesis Hsp : 0 < sp.
Hypothesis Hfee : 0 <= fee < MaxFee.
Hypothesis Hlim : limitOK z limit.

Definition inOf (s : State) (a b : Z) : res (Z * Z) := insideOf z (sData s) (sTick s) (sGrowth s) other a b.

Lemma round_share s s' k st : loopOK h sp z ex limit s -> running limit s = true -> RoundFacts h sp z ex limit fee other s s' k st ->
  exists f, 0 <= stFee st /\ 0 <= f < T256 /\ f * active h (sTick s) <= stFee st * Q128 /\ sGrowth s' = (sGrowth s + f) mod T256 /\
    (f = (stFee st * Q128 / active h (sTick s)) mod T256 /\ (active h (sTick s) = 0 -> stFee st = 0) /\ (stIn st + stFee st) * fee <= stFee st * MaxFee) /\
    forall a b x y, a < b -> inOf s a b = Ok (x, y) -> inOf s' a b = Ok ((x + ind ((a <=? sTick s) && (sTick s <? b)) * f) mod T256, y).
Proof.
  intros HL R RF. pose proof HL as (HT & EL & HP & HG & HR & Hside). pose proof HT as (Hs & _).
  destruct RF as [R1 R2 R3 R4 R5 R6 R7 R8 R9 R10 R11 R12 R13].
  pose proof (active_range _ _ (sTick s) HH) as Hliq. destruct R1 as [Hk _]. pose proof Hliq as Hliq'. rewrite <- EL in Hliq'.
  pose proof (price_bounds _ _ HP) as HPb. pose proof (rat_range k Hk) as Hkb.
  assert (MinSqrtRatio <= targetOf z limit (rat k) <= MaxSqrtRatio) as HTb by (unfold targetOf, side, limitOK in *; destruct z; lia).
  destruct (step_facts (sPrice s) (targetOf z limit (rat k)) (sLiquidity s) (sRemaining s) fee ex st ltac:(apply price_R; lia) ltac:(apply price_R; lia) Hliq' ltac:(unfold running in R; lia) HR Hfee R2)
    as (_ & _ & _ & _ & _ & Hf & _). cbv zeta in *.
  assert (active h (sTick s) = 0 -> stFee st = 0) as Hf0.
  { intros H0. rewrite EL, H0 in R2. exact (step_no_liquidity _ _ _ _ _ R2). }
  assert ((stIn st + stFee st) * fee <= stFee st * MaxFee) as Hrate.
  { destruct (step_fee_least (sPrice s) (targetOf z limit (rat k)) (sLiquidity s) (sRemaining s) fee st ltac:(unfold MinSqrtRatio, MaxSqrtRatio in *; lia) ltac:(unfold MinSqrtRatio, MaxSqrtRatio in *; lia) ltac:(lia)
      ltac:(unfold remOK in HR; destruct ex; lia) Hfee R2) as [K _]. unfold MaxFee in *. lia. }
  set (f := (stFee st * Q128 / active h (sTick s)) mod T256).
  assert (0 <= stFee st * Q128) as HQ by (apply Z.mul_nonneg_nonneg; [lia|unfold Q128; lia]).
  assert (0 <= f < T256) as F1 by (apply Z.mod_pos_bound; lia).
  assert (f * active h (sTick s) <= stFee st * Q128 /\ sGrowth s' = uadd (sGrowth s) f) as (F2 & F3).
  { rewrite EL in R6. destruct (0 <? active h (sTick s)) eqn:C.
    - destruct R6 as (g & Ef & Eg). apply MulDiv_ok in Ef; [|lia|unfold Q128; lia|lia]. fold f in Ef. subst g. split; [|assumption]. unfold f.
      pose proof (Z.mod_le (stFee st * Q128 / active h (sTick s)) T256 ltac:(apply Z.div_pos; lia) ltac:(lia)) as M.
      pose proof (Z.mul_div_le (stFee st * Q128) (active h (sTick s)) ltac:(lia)) as D.
      assert ((stFee st * Q128 / active h (sTick s)) mod T256 * active h (sTick s) <= stFee st * Q128 / active h (sTick s) * active h (sTick s)) by (apply Z.mul_le_mono_nonneg_r; lia). lia.
    - assert (active h (sTick s) = 0) as C0 by lia. assert (f = 0) as -> by (unfold f; rewrite (Hf0 C0), Z.mul_0_l, C0; reflexivity). split; [lia|].
      rewrite R6. unfold uadd, is_u256 in *. rewrite Z.add_0_r, Z.mod_small; lia. }
  exists f. split; [assumption|]. split; [assumption|]. split; [assumption|]. split; [exact F3|]. split; [split; [reflexivity|auto]|].
  intros a b x y Hab E. unfold inOf in *. rewrite (moved_inside z (sGrowth s') other (sData s) (sTick s)) by assumption. rewrite F3. now apply insideOf_grow.
Qed.

(** the share of a round: its fee over the liquidity in range, which takes no fee when there is none *)
Definition exactShare (r : share) : Prop :=
  0 <= shFee r /\ (active h (shTick r) = 0 -> shFee r = 0) /\ shGrowth r = (shFee r * Q128 / active h (shTick r)) mod T256.
(** the rounds start between the ticks where the swap starts and ends *)
Definition visited (t t' : Z) (r : share) : Prop :=
  if z then forall t0, t <= t0 -> noMisplaced sp limit t0 -> t' <= shTick r <= t else t <= shTick r <= t'.

Lemma exactShare_le r : exactShare r -> 0 <= shGrowth r /\ shGrowth r * active h (shTick r) <= shFee r * Q128.
Proof.
  intros (H1 & H2 & H3). rewrite H3. pose proof (active_range _ _ (shTick r) HH) as Hl.
  assert (0 <= shFee r * Q128) as HQ by (apply Z.mul_nonneg_nonneg; [lia|unfold Q128; lia]). split; [apply Z.mod_pos_bound; lia|].
  destruct (Z.eq_dec (active h (shTick r)) 0) as [E|N]; [rewrite (H2 E), E, Z.mul_0_l; cbn; lia|].
  pose proof (Z.mod_le (shFee r * Q128 / active h (shTick r)) T256 ltac:(apply Z.div_pos; lia) ltac:(lia)) as M.
  pose proof (Z.mul_div_le (shFee r * Q128) (active h (shTick r)) ltac:(lia)) as D.
  assert ((shFee r * Q128 / active h (shTick r)) mod T256 * active h (shTick r) <= shFee r * Q128 / active h (shTick r) * active h (shTick r)) by (apply Z.mul_le_mono_nonneg_r; lia). lia.
Qed.

Lemma loop_shares n : forall s s', loopOK h sp z ex limit s -> swapLoop n z ex limit fee other s = Ok s' ->
  exists rs X, (forall r, In r rs -> exactShare r /\ visited (sTick s) (sTick s') r) /\
    sGrowth s' = (sGrowth s + growthOf rs) mod T256 /\
    feesOf rs <= X /\ X * fee <= feesOf rs * MaxFee /\
    (if ex then X = sRemaining s - sRemaining s' else X <= Z.of_nat n * 2 ^ 216 /\ sCalculated s' mod T256 = (sCalculated s + X) mod T256) /\
    forall a b x y, a < b -> inOf s a b = Ok (x, y) -> inOf s' a b = Ok ((x + credited rs a b) mod T256, y).
Proof.
  assert (forall m s s', loopOK h sp z ex limit s -> Ok s = Ok s' -> 0 <= m -> exists rs X, (forall r, In r rs -> exactShare r /\ visited (sTick s) (sTick s') r) /\
    sGrowth s' = (sGrowth s + growthOf rs) mod T256 /\
    feesOf rs <= X /\ X * fee <= feesOf rs * MaxFee /\
    (if ex then X = sRemaining s - sRemaining s' else X <= m * 2 ^ 216 /\ sCalculated s' mod T256 = (sCalculated s + X) mod T256) /\
    forall a b x y, a < b -> inOf s a b = Ok (x, y) -> inOf s' a b = Ok ((x + credited rs a b) mod T256, y)) as Stop.
  { intros m s s' HL E Hm. injection E as <-. exists [], 0. cbn [In growthOf feesOf credited]. split; [tauto|].
    split; [rewrite Z.add_0_r, Z.mod_small; [reflexivity|apply HL]|]. split; [lia|]. split; [lia|]. split; [destruct ex; [lia|split; [lia|f_equal; lia]]|].
    intros a b x y Hab E. rewrite E. f_equal. f_equal. rewrite Z.add_0_r. symmetry. apply Z.mod_small.
    pose proof HL as ((Hs & _) & _). unfold inOf, insideOf in E. destruct z.
    - destruct (inside_present _ _ _ _ _ _ _ Hs E) as [Pa Pb]. rewrite GetFeeGrowthInside_spec in E by assumption. injection E as <- _. apply Z.mod_pos_bound. lia.
    - apply bind_inv in E as (r & E & Q). destruct (inside_present _ _ _ _ _ _ _ Hs E) as [Pa Pb]. rewrite GetFeeGrowthInside_spec in E by assumption. injection E as <-. cbn [snd fst] in Q. injection Q as <- _. apply Z.mod_pos_bound. lia. }
  induction n as [|n IH]; intros s s' HL E; rewrite (loop_eq z ex limit fee other) in E; destruct (running limit s) eqn:R; try discriminate.
  - apply (Stop (Z.of_nat 0)); [assumption|assumption|lia].
  - apply bind_inv in E as (s1 & E1 & E). destruct (running_ok h sp z ex limit fee other HH Hsp Hfee Hlim s s1 HL R E1) as (k & st & RF).
    pose proof (rf_ok _ _ _ _ _ _ _ _ _ _ _ RF) as HL1.
    destruct (round_share s s1 k st HL R RF) as (f & F0 & F1 & F2 & F3 & (F4 & F4' & F4'') & F5).
    destruct (IH s1 s' HL1 E) as (rs & X & I1 & I2 & I3 & I4 & I5 & I6). exists (mkShare (sTick s) f (stFee st) :: rs), (X + (stIn st + stFee st)).
    pose proof HL as (HT & EL & HP & HG & HR & Hside).
    split.
    { assert (z = false -> sTick s <= sTick s1 <= sTick s') as Up.
      { intros Ez. destruct (rf_up _ _ _ _ _ _ _ _ _ _ _ RF Ez) as [U _]. pose proof (loop_up h sp z ex limit fee other HH Hsp Hfee Hlim n s1 s' Ez HL1 E) as (_ & _ & _ & U' & _). lia. }
      assert (z = true -> forall t0, sTick s <= t0 -> noMisplaced sp limit t0 -> sTick s1 <= sTick s /\ sTick s' <= sTick s1) as Down.
      { intros Ez t0 Ht N. pose proof (noMisplaced_run h sp z ex limit t0 s N Ez HL R Ht) as NM. destruct (rf_down _ _ _ _ _ _ _ _ _ _ _ RF Ez NM) as [D _].
        pose proof (loop_down h sp z ex limit fee other HH Hsp Hfee Hlim t0 n s1 s' Ez N ltac:(lia) HL1 E) as (_ & _ & _ & D'). lia. }
      intros r [<-|Hr].
      - split; [unfold exactShare; cbn [shFee shGrowth shTick]; auto|]. unfold visited. cbn [shTick]. destruct z; [intros t0 Ht N; specialize (Down eq_refl t0 Ht N); lia|specialize (Up eq_refl); lia].
      - destruct (I1 r Hr) as [J1 J2]. split; [assumption|]. unfold visited in *. destruct z; [intros t0 Ht N; specialize (Down eq_refl t0 Ht N); specialize (J2 t0 ltac:(lia) N); lia|specialize (Up eq_refl); lia]. }
    cbn [growthOf feesOf credited shFee shGrowth shTick]. split. { rewrite I2, F3, Zplus_mod_idemp_l. f_equal. ring. }
    pose proof (active_range _ _ (sTick s) HH) as Hliq. rewrite <- EL in Hliq.
    pose proof (price_bounds _ _ HP) as HPb. pose proof (rf_search _ _ _ _ _ _ _ _ _ _ _ RF) as [Hk _]. pose proof (rat_range k Hk) as Hkb.
    assert (MinSqrtRatio <= targetOf z limit (rat k) <= MaxSqrtRatio) as HTb by (unfold targetOf, side, limitOK in *; destruct z; lia).
    destruct (step_facts (sPrice s) (targetOf z limit (rat k)) (sLiquidity s) (sRemaining s) fee ex st ltac:(apply price_R; lia) ltac:(apply price_R; lia) Hliq ltac:(unfold running in R; lia) HR Hfee (rf_step _ _ _ _ _ _ _ _ _ _ _ RF))
      as (_ & _ & _ & _ & Hi & _ & A7). cbv zeta in A7. rewrite <- (rf_rem _ _ _ _ _ _ _ _ _ _ _ RF) in A7. pose proof (rf_calc _ _ _ _ _ _ _ _ _ _ _ RF) as R5.
    split; [lia|]. split; [rewrite !Z.mul_add_distr_r in *; lia|]. split.
    { destruct ex; [lia|]. destruct I5 as (I5 & I5'). split; [lia|]. rewrite I5', R5. unfold uadd. rewrite Zplus_mod_idemp_l.
      replace (sCalculated s + (stIn st + stFee st) mod T256 + X) with (sCalculated s + X + (stIn st + stFee st) mod T256) by ring. rewrite Zplus_mod_idemp_r. f_equal. ring. }
    intros a b x y Hab Ei. rewrite (I6 a b _ y Hab (F5 a b x y Hab Ei)). rewrite Zplus_mod_idemp_l. f_equal. f_equal. f_equal. ring.
  - apply (Stop (Z.of_nat (S n))); [assumption|assumption|lia].
Qed.
End Loop.

(** what a whole swap does to the fee counters *)
Lemma swap_fees h p n z amt lim p' a0 a1 : poolOK h p -> is_u256 amt -> swap n p z amt lim = Ok (p', a0, a1) ->
  exists rs, (forall r, In r rs -> exactShare h r /\ visited (TickSpacing p) z (effectiveLimit z lim) (TickCurrent p) (TickCurrent p') r) /\
    0 <= feesOf rs <= (if z then a0 else a1) /\ (if z then a0 else a1) * Fee p <= feesOf rs * MaxFee /\
    FeeGrowth0 p' = (if z then (FeeGrowth0 p + growthOf rs) mod T256 else FeeGrowth0 p) /\
    FeeGrowth1 p' = (if z then FeeGrowth1 p else (FeeGrowth1 p + growthOf rs) mod T256) /\
    forall a b x0 x1, a < b -> GetFeeGrowthInside (Data p) a b (TickCurrent p) (FeeGrowth0 p) (FeeGrowth1 p) = Ok (x0, x1) ->
      GetFeeGrowthInside (Data p') a b (TickCurrent p') (FeeGrowth0 p') (FeeGrowth1 p') =
        Ok (if z then ((x0 + credited rs a b) mod T256, x1) else (x0, (x1 + credited rs a b) mod T256)).
Proof.
  intros HP Ha E. destruct (swap_ok_inv h p z amt lim HP Ha n p' a0 a1 E) as (HS & Hsp & Hfee & s & Es & -> & EA). destruct (start_ok h p z amt lim HP Ha HS) as (HL & Hl & R).
  destruct HP as (HH & _ & _ & _ & _ & _ & HG0 & HG1). pose proof Ha as Ha'. unfold is_u256 in Ha'.
  destruct (loop_ind h (TickSpacing p) z (amt <? T255) (effectiveLimit z lim) (Fee p) (otherGrowth p z) HH Hsp Hfee Hl (fun x => is_u256 (sCalculated x))) with (n := n) (s := startState p z amt) (s' := s) as (HL' & Hc & R'); auto.
  { intros x x' k st _ _ _ RF. rewrite (rf_calc _ _ _ _ _ _ _ _ _ _ _ RF). unfold is_u256, usub, uadd. destruct (amt <? T255); apply Z.mod_pos_bound; lia. }
  { unfold is_u256. cbn. lia. }
  pose proof (loop_allRounds h (TickSpacing p) z (amt <? T255) (effectiveLimit z lim) (Fee p) (otherGrowth p z) HH Hsp Hfee Hl n (startState p z amt) s HL Es) as EN.
  pose proof (loop_amounts h (TickSpacing p) z (amt <? T255) (effectiveLimit z lim) (Fee p) (otherGrowth p z) HH Hsp Hfee Hl allRounds (startState p z amt) s HL EN) as HA. rewrite allRounds_Z in HA.
  destruct (loop_shares h (TickSpacing p) z (amt <? T255) (effectiveLimit z lim) (Fee p) (otherGrowth p z) HH Hsp Hfee Hl allRounds (startState p z amt) s HL EN) as (rs & X & R1 & R2 & R3 & R4 & R5 & R6).
  rewrite allRounds_Z in R5. cbn [startState sRemaining sCalculated sGrowth] in *.
  assert (0 <= feesOf rs) as HF.
  { clear - R1. induction rs as [|r rs IH]; [cbn; lia|]. cbn [feesOf]. destruct (R1 r (or_introl eq_refl)) as [[H _] _]. specialize (IH ltac:(intros x Hx; apply R1; now right)). lia. }
  exists rs. split; [exact R1|].
  assert ((if z then a0 else a1) = X) as ->.
  { destruct (amt <? T255) eqn:C.
    - destruct HA as [HA _]. replace (if z then a0 else a1) with (usub amt (sRemaining s)) by (destruct z; cbn [Bool.eqb] in EA; symmetry; apply EA). rewrite R5. unfold usub. apply Z.mod_small. lia.
    - destruct R5 as (X1 & X2). replace (if z then a0 else a1) with (sCalculated s) by (destruct z; cbn [Bool.eqb] in EA; symmetry; apply EA).
      unfold is_u256 in Hc. unfold MaxTick, MinTick in *. rewrite (Z.mod_small (sCalculated s)) in X2 by assumption. rewrite X2. apply Z.mod_small. lia. }
  split; [lia|]. split; [assumption|].
  cbn [finish FeeGrowth0 FeeGrowth1 Data TickCurrent]. split; [destruct z; [exact R2|reflexivity]|]. split; [destruct z; [reflexivity|exact R2]|].
  intros a b x0 x1 Hab Ei. specialize (R6 a b). unfold inOf, insideOf in R6. cbn [startState sData sTick sGrowth] in R6. destruct z; cbn [otherGrowth] in R6.
  - rewrite (R6 x0 x1 Hab Ei). reflexivity.
  - rewrite Ei in R6. cbn [bind snd fst] in R6. specialize (R6 x1 x0 Hab eq_refl). apply bind_inv in R6 as ((u & v) & E4 & Q). cbn [fst snd] in Q. injection Q as -> ->. rewrite E4. reflexivity.
Qed.
Lemma shares_ledger h sp rs : histOK sp h -> (forall r, In r rs -> exactShare h r) -> sumOn (credited rs) h <= feesOf rs * 2 ^ 128.
Proof. intros HH H. apply credited_ledger. intros r Hr. specialize (H r Hr). pose proof (exactShare_le h sp HH r H) as [_ K]. destruct H as (H & _). auto. Qed.

