(** RunReturns.v -- in an ordinary market a whole run of the executor returns. *)
From Coq Require Import ZifyBool String.
From Verif Require Import Base U256Z FullMathFacts SwapMath SwapMathFacts LiqFacts TickMath TickMathFacts Float64 TickData TickDataFacts Ledger Pool PoolTable PoolInv PoolSwap PoolHist PoolOps PoolReturns Prices PricesFacts Client Strategy StrategyFacts Executor Plan ReplayFacts StrategyBudget StrategyPanics ValueFacts Cash Money World.
Ltac Zify.zify_post_hook ::= idtac.
Open Scope Z_scope.

(** ** computations *)
Lemma value_some P a1 : MinSqrtRatio <= P < 2 ^ 128 -> 0 <= a1 < 2 ^ 192 -> exists r, MulDiv a1 Q192 (umul P P) = Ok r.
Proof.
  intros Hp Ha. assert (2 ^ 64 <= P * P < T256) as HP2.
  { split; [apply (Z.mul_le_mono_nonneg (2 ^ 32) P (2 ^ 32) P)|apply (Z.mul_lt_mono_nonneg P (2 ^ 128) P (2 ^ 128))]; unfold MinSqrtRatio in *; lia. }
  assert (umul P P = P * P) as -> by (unfold umul; apply Z.mod_small; lia). change Q192 with (2 ^ 192). set (d := P * P) in *. clearbody d.
  destruct (Z.eq_dec a1 0) as [->|N]; [exists 0; reflexivity|]. apply MulDiv_words; try lia.
  - assert (words d <= 4) by (apply words_le; [lia|lia|]; change (W ^ 4) with (2 ^ 256); lia).
    assert (3 < words (a1 * 2 ^ 192)) by (apply words_ge; [lia|lia|]; change (W ^ 3) with (2 ^ 192); lia). lia.
  - assert (1 < words d) by (apply words_ge; [lia|lia|]; change (W ^ 1) with (2 ^ 64); lia).
    assert (words (a1 * 2 ^ 192) <= 6) by (apply words_le; [lia|lia|]; change (W ^ 6) with (2 ^ 384); lia). lia.
Qed.
Lemma amounts_some P l u m : MinSqrtRatio <= P < 2 ^ 128 -> MinTick <= l < u -> u <= MaxTick -> 0 <= m < 2 ^ 128 ->
  exists x y, GetAmountsForLiquidity P (rat l) (rat u) m = Ok (x, y) /\ 0 <= y <= m * 2 ^ 32.
Proof.
  intros HP Hl Hu Hm. pose proof (rat_lt l u ltac:(lia) ltac:(lia) Hu) as Hr. pose proof (rat_range l ltac:(lia)) as Rl. pose proof (rat_range u ltac:(lia)) as Ru.
  assert (liqR m) as LR by (unfold liqR; lia). unfold MinSqrtRatio, MaxSqrtRatio in *.
  assert (forall a b y, 0 <= a <= b -> b < 2 ^ 128 -> GetAmount1Delta a b m false = Ok y -> 0 <= y <= m * 2 ^ 32) as K.
  { intros a b y Ha Hb E. apply amount1_down in E as [F R]; [|assumption|lia|lia]. split; [lia|]. unfold floor1, Q96 in F.
    assert (m * (b - a) <= m * 2 ^ 128) by (apply Z.mul_le_mono_nonneg_l; lia). lia. }
  unfold GetAmountsForLiquidity. rewrite ordered_le by lia. rewrite !getAmount0_eq, !getAmount1_eq by lia.
  destruct (P <=? rat l) eqn:C1; [|destruct (P <? rat u) eqn:C2].
  - destruct (amount0_down_any (rat l) (rat u) m LR ltac:(lia) ltac:(lia)) as (x & ->). cbn [bind]. exists x, 0. split; [reflexivity|]. lia.
  - destruct (amount0_down_any P (rat u) m LR ltac:(lia) ltac:(lia)) as (x & ->). destruct (amount1_any (rat l) P m false LR ltac:(lia) ltac:(lia)) as (y & E). rewrite E. cbn [bind].
    exists x, y. split; [reflexivity|]. apply (K (rat l) P); [lia|lia|exact E].
  - destruct (amount1_any (rat l) (rat u) m false LR ltac:(lia) ltac:(lia)) as (y & E). rewrite E. cbn [bind]. exists 0, y. split; [reflexivity|]. apply (K (rat l) (rat u)); [lia|lia|exact E].
Qed.
Lemma total_sub h hs : (forall l u, minted hs l u <= minted h l u) -> total hs <= total h.
Proof.
  intros H. set (neg := map (fun e => mkE (eLower e) (eUpper e) (- eDelta e)) hs).
  assert (forall w a b, sumOn w (a ++ b) = sumOn w a + sumOn w b) as K1 by (intros w a b; induction a as [|e a IH]; cbn [app sumOn]; lia).
  assert (forall w, sumOn w neg = - sumOn w hs) as K2. { intros w. subst neg. clear H. induction hs as [|e hs' IH]; cbn [map sumOn eLower eUpper eDelta]; lia. }
  assert (covered (h ++ neg)) as C. { intros l u. specialize (H l u). unfold minted in *. rewrite K1, K2. lia. }
  pose proof (sumOn_nonneg (fun _ _ => 1) _ C ltac:(intros; lia)) as N. rewrite K1, K2 in N. unfold total. lia.
Qed.
Lemma rest_sum cap lo up l : (forall x, In x l -> 0 < poAmount x /\ cap <= 2 ^ 63 * poAmount x) ->
  0 <= sumOf (recorded lo up) l /\ (sumOf (recorded lo up) l = 0 \/ cap <= 2 ^ 63 * sumOf (recorded lo up) l).
Proof.
  induction l as [|x l IH]; intros H; cbn [sumOf fold_right]; [lia|]. specialize (IH (fun y Hy => H y (or_intror Hy))). unfold sumOf in IH.
  specialize (H x (or_introl eq_refl)). unfold recorded at 1 3 5. destruct (_ && _); lia.
Qed.

Definition valid (l u : Z) : Prop := MinTick <= l < u /\ u <= MaxTick.
Definition keeps (s s' : St) : Prop := sHistory s' = sHistory s /\ sTickLower s' = sTickLower s /\ sTickUpper s' = sTickUpper s.
Lemma keeps_refl s : keeps s s.
Proof. repeat split. Qed.
Lemma keeps_trans a b c : keeps a b -> keeps b c -> keeps a c.
Proof. intros (A & B & C) (D & E & F). unfold keeps. rewrite D, E, F. auto. Qed.

Section Runs.
Variable fuel : nat.
Variable cap : Z.
Hypothesis enough : (allRounds <= fuel)%nat.
Hypothesis cap_ok : cap <= 2 ^ 127.

(** the strategy's state in order: nothing it has was not put in, and its list [l] is its ledger *)
Record stands (w : World) (s : St) (l : list Position) : Prop := {
  sd_0 : 0 <= sAmount0 s; sd_1 : 0 <= sAmount1 s;
  sd_in0 : sAmount0 s + wHas0 w <= wIn0 w; sd_in1 : sAmount1 s + wHas1 w <= wIn1 w;
  sd_list : forall lo up, sumOf (recorded lo up) l = minted (wOwn w) lo up;
  sd_each : forall x, In x l -> 0 < poAmount x /\ cap <= 2 ^ 63 * poAmount x /\ valid (poLower x) (poUpper x);
  sd_total : sumOf poAmount l = total (wOwn w)
}.
Lemma has_nonneg w : sound cap w -> 0 <= wHas0 w /\ 0 <= wHas1 w.
Proof. intros S. pose proof (cash_solvent _ _ _ _ _ (so_cash _ _ S)) as (A & B & _). auto. Qed.
Lemma funds w s l : sound cap w -> stands w s l -> 0 <= sAmount0 s < 2 ^ 128 /\ 0 <= sAmount1 s < 2 ^ 128.
Proof. intros S D. pose proof (has_nonneg w S). pose proof (so_in0 _ _ S). pose proof (so_in1 _ _ S). destruct D. lia. Qed.
Lemma sound_good w : sound cap w -> good (wPool w).
Proof. intros S. pose proof (ck_pool _ _ _ _ _ (sound_ok _ _ S)) as HP. apply HP. Qed.
Lemma sound_price w : sound cap w -> MinSqrtRatio <= SqrtRatio (wPool w) < 2 ^ 128.
Proof. intros S. split; [exact (price_min _ _ (ck_pool _ _ _ _ _ (sound_ok _ _ S)))|apply S]. Qed.

Lemma burnPositions_returns l : forall w s, sound cap w -> stands w s l ->
  returns fuel cap w (burnPositions l s) (fun w' s' => sound cap w' /\ stands w' s' [] /\ keeps s s').
Proof.
  induction l as [|x l IH]; intros w s S D; cbn [burnPositions].
  - apply returns_done. split; [assumption|]. split; [assumption|apply keeps_refl].
  - pose proof D as [D0 D1 DI0 DI1 DL DE DT].
    destruct (DE x (or_introl eq_refl)) as (X1 & X2 & X3).
    destruct (rest_sum cap (poLower x) (poUpper x) l) as [R1 R2]; [intros y Hy; destruct (DE y (or_intror Hy)) as (? & ? & _); auto|].
    pose proof (DL (poLower x) (poUpper x)) as EL. cbn [sumOf fold_right] in EL. unfold recorded at 1 in EL. rewrite !Z.eqb_refl in EL. cbn [andb] in EL. fold (sumOf (recorded (poLower x) (poUpper x)) l) in EL.
    apply returns_bind with (Q := fun w1 _ => sound cap w1 /\ stands w1 s l /\ exists i, posGet (Pos (wPool w1)) (posKey (poLower x) (poUpper x)) = Some i).
    { apply returns_call. intros _. destruct (burnS_world fuel cap enough cap_ok w (poLower x) (poUpper x) (poAmount x) S ltac:(lia) ltac:(lia)) as (r & E & S' & HI).
      exists r. split; [assumption|]. split; [assumption|]. split; [|assumption]. destruct r as [[p' x0] x1]. constructor; cbn [after wAll wOwn wHas0 wHas1 wIn0 wIn1]; try assumption.
      - intros lo up. specialize (DL lo up). cbn [sumOf fold_right] in DL. fold (sumOf (recorded lo up) l) in DL. rewrite minted_cons. unfold recorded at 1 in DL.
        rewrite (Z.eqb_sym lo), (Z.eqb_sym up) in DL. destruct (_ && _); lia.
      - intros y Hy. apply DE. now right.
      - rewrite total_cons. cbn [sumOf fold_right] in DT. fold (sumOf poAmount l) in DT. lia. }
    intros w1 r1 (S1 & D' & i & EI). clear r1.
    apply returns_bind with (Q := fun w2 r => sound cap w2 /\ stands w2 (with_amounts s (uadd (sAmount0 s) (fst r)) (uadd (sAmount1 s) (snd r))) l).
    { apply returns_call. intros _. destruct (collect_world fuel cap enough cap_ok w1 _ _ i S1 EI) as (r & E & S' & C0 & C1). exists r. split; [assumption|]. split; [assumption|].
      pose proof (funds _ _ _ S1 D') as [F0 F1]. pose proof (so_in0 _ _ S1) as I0. pose proof (so_in1 _ _ S1) as I1. destruct D' as [E0 E1 EI0 EI1 EL' EE ET].
      destruct r as [[p' x0] x1]. cbn [fst snd] in *. unfold uadd. rewrite !Z.mod_small by lia.
      constructor; cbn [after wAll wOwn wHas0 wHas1 wIn0 wIn1 with_amounts sAmount0 sAmount1]; try assumption; lia. }
    intros w2 r (S2 & D2). eapply returns_conseq; [apply IH; eassumption|]. intros w3 s3 (A & B & C). split; [assumption|]. split; [assumption|].
    eapply keeps_trans; [|exact C]. repeat split.
Qed.

(** ** placing *)
Definition placedWell (s : St) (w' : World) (s' : St) : Prop := sound cap w' /\ stands w' s' (sPositions s') /\ keeps s s'.
Definition still (w : World) (s : St) (w' : World) (s' : St) : Prop := placedWell s w' s' /\ slot (wPool w') = slot (wPool w).
Lemma mintAmount_returns w s l u liq a : sound cap w -> stands w s (sPositions s) -> valid l u ->
  GetLiquidityForAmount (SqrtRatio (wPool w)) (rat l) (rat u) (sAmount0 s) (sAmount1 s) = Ok liq -> a <= liq ->
  returns fuel cap w (mintAmount s l u a) (still w s).
Proof.
  intros S D [V1 V2] EL HA. unfold mintAmount. pose proof (funds _ _ _ S D) as [F0 F1].
  apply returns_bind with (Q := fun w1 r => sound cap w1 /\ slot (wPool w1) = slot (wPool w) /\
    stands w1 (with_amounts (with_positions s (sPositions s ++ [mkPosition a l u])) (usub (sAmount0 s) (fst r)) (usub (sAmount1 s) (snd r))) (sPositions s ++ [mkPosition a l u])).
  - apply returns_call. intros G. destruct (mintS_world fuel cap enough cap_ok w l u a S V1 V2 G) as (r & E & S'). exists r. split; [assumption|]. split; [assumption|].
    destruct r as [[p' x0] x1]. destruct G as (Ha & _ & _ & _ & Hc & _).
    assert (GetSqrtRatioAtTick l = Ok (rat l) /\ GetSqrtRatioAtTick u = Ok (rat u)) as [El Eu] by (rewrite !rat_ok by lia; auto).
    destruct (mint_budget (wPool w) l u _ _ (sAmount0 s) (sAmount1 s) liq a p' x0 x1 (sound_good _ S) ltac:(unfold is_u256; lia) ltac:(unfold is_u256; lia) El Eu EL ltac:(lia) E) as (B1 & B2 & B3).
    split; [exact B1|]. destruct D as [D0 D1 DI0 DI1 DL DE DT]. cbn [fst snd]. unfold usub. rewrite !Z.mod_small by lia.
    constructor; cbn [after wAll wOwn wHas0 wHas1 wIn0 wIn1 with_amounts with_positions sAmount0 sAmount1]; try lia.
    + intros lo up. rewrite sumOf_app, DL, minted_cons. cbn [sumOf fold_right]. unfold recorded. cbn [poLower poUpper poAmount]. rewrite (Z.eqb_sym lo), (Z.eqb_sym up). lia.
    + intros x Hx. apply in_app_or in Hx as [Hx|[<-|[]]]; [now apply DE|]. cbn [poLower poUpper poAmount]. split; [assumption|]. split; [assumption|]. split; assumption.
    + rewrite sumOf_app, DT, total_cons. cbn [sumOf fold_right poAmount]. lia.
  - intros w1 r (S1 & E1 & D1). apply returns_done. split; [|assumption]. split; [assumption|]. split; [exact D1|]. repeat split.
Qed.
Lemma still_refl w s : sound cap w -> stands w s (sPositions s) -> still w s w s.
Proof. intros S D. split; [|reflexivity]. split; [assumption|]. split; [assumption|apply keeps_refl]. Qed.
Lemma still_trans w s w1 s1 w2 s2 : still w s w1 s1 -> still w1 s1 w2 s2 -> still w s w2 s2.
Proof. intros [(A & B & C) D] [(E & F & G) H]. split; [|congruence]. split; [assumption|]. split; [assumption|]. eapply keeps_trans; eassumption. Qed.

(** a placement whose amount is at most what the balances buy *)
Lemma mint_any w s l u f : sound cap w -> stands w s (sPositions s) -> valid l u ->
  (forall liq, 0 <= liq -> f liq = done s \/ exists a, a <= liq /\ f liq = mintAmount s l u a) -> returns fuel cap w (mbind (liquidityFor s l u) f) (still w s).
Proof.
  intros S D V Hf. pose proof V as [V1 V2]. pose proof (funds _ _ _ S D) as [F0 F1]. pose proof (sound_price _ S) as P.
  destruct (liquidity_ordered _ l u _ _ P V1 V2 F0 F1) as (liq & EL).
  apply returns_bind with (Q := fun w1 x => w1 = w /\ x = liq).
  - unfold liquidityFor. rewrite !rat_ok by lia. intros _. exists w, liq. unfold pure, look, done. cbn [mbind runW slot slPrice]. rewrite EL. auto.
  - intros w1 x [-> ->]. assert (0 <= liq) as L0.
    { pose proof (rat_lt l u ltac:(lia) ltac:(lia) V2). pose proof (rat_range l ltac:(lia)). pose proof (rat_range u ltac:(lia)). unfold MinSqrtRatio, MaxSqrtRatio in *.
      eapply budget_ineqs with (p := SqrtRatio (wPool w)) (a := rat l) (b := rat u); try exact EL; lia. }
    destruct (Hf liq L0) as [->|(a & Ha & ->)]; [apply returns_done; now apply still_refl|]. eapply mintAmount_returns; eassumption.
Qed.
Lemma mintPosition_returns w s l u : sound cap w -> stands w s (sPositions s) -> valid l u -> returns fuel cap w (mintPosition s l u) (still w s).
Proof. intros S D V. apply mint_any; try assumption. intros liq _. destruct (liq =? 0); [now left|right]. exists liq. split; [lia|reflexivity]. Qed.
Lemma mintUnchecked_returns w s l u : sound cap w -> stands w s (sPositions s) -> valid l u -> returns fuel cap w (mintUnchecked s l u) (still w s).
Proof. intros S D V. apply mint_any; try assumption. intros liq _. right. exists liq. split; [lia|reflexivity]. Qed.
Lemma mintHalf_returns w s l u : sound cap w -> stands w s (sPositions s) -> valid l u -> returns fuel cap w (mintHalf s l u) (still w s).
Proof.
  intros S D V. apply mint_any; try assumption. intros liq L0. cbv zeta. destruct (udiv liq 2 =? 0); [now left|right]. exists (udiv liq 2). split; [|reflexivity].
  unfold udiv. cbn. apply Z.div_le_upper_bound; lia.
Qed.
Lemma stands_ext w s s' l : stands w s l -> sAmount0 s' = sAmount0 s -> sAmount1 s' = sAmount1 s -> stands w s' l.
Proof. intros [] E0 E1. constructor; rewrite ?E0, ?E1; assumption. Qed.

Ltac looks w := eapply returns_bind; [apply returns_look with (Q := fun w' p => w' = w /\ p = slot (wPool w)); auto|]; cbv beta; intros ? ? [-> ->].
Ltac computes w v := eapply returns_bind; [apply returns_pure with (a := v) (Q := fun w' a => w' = w /\ a = v); auto|]; cbv beta; intros ? ? [-> ->].
(** the strategy's own swap *)
Lemma swap_returns_own w s half t : sound cap w -> stands w s (sPositions s) ->
  (t = Token0 (wPool w) /\ half <= sAmount0 s \/ t = Token1 (wPool w) /\ half <= sAmount1 s) ->
  returns fuel cap w (act r <- call (OExactInput half t 0); done (with_amounts s (usub (sAmount0 s) (fst r)) (usub (sAmount1 s) (snd r)))) (placedWell s).
Proof.
  intros S D Ht. pose proof (funds _ _ _ S D) as [F0 F1]. pose proof (so_tokens _ _ S) as NT.
  apply returns_bind with (Q := fun w1 r => sound cap w1 /\ stands w1 (with_amounts s (usub (sAmount0 s) (fst r)) (usub (sAmount1 s) (snd r))) (sPositions s)).
  - apply returns_call. intros G. destruct (swap_world fuel cap enough w half t 0 S G) as (r & E & S' & T). exists r. split; [assumption|]. split; [assumption|].
    pose proof (has_nonneg _ S') as [N0 N1]. destruct D as [D0 D1 DI0 DI1 DL DE DT]. unfold traded in T. cbv zeta in T. destruct T as (inp & out & ER & HI & HO & HW).
    assert (forall a, 0 <= a < 2 ^ 128 -> usub a (uneg out) = a + out) as UN. { intros a Ha. unfold usub, uneg. rewrite Zminus_mod_idemp_r. rewrite Z.sub_opp_r. apply Z.mod_small. lia. }
    assert (forall a, 0 <= a < 2 ^ 128 -> inp <= a -> usub a inp = a - inp) as UI by (intros a Ha HA; unfold usub; apply Z.mod_small; lia).
    assert (wOwn (after w (OExactInput half t 0) r) = wOwn w) as EO by (destruct r as [[? ?] ?]; reflexivity).
    destruct (String.eqb t (Token0 (wPool w))) eqn:EZ.
    + apply String.eqb_eq in EZ. destruct Ht as [[_ Ht]|[Ht _]]; [|congruence]. destruct ER as [-> ->]. destruct HW as (W1 & W2 & W3 & W4). rewrite UI, UN by lia.
      constructor; cbn [with_amounts sAmount0 sAmount1]; rewrite ?EO, ?W1, ?W2, ?W3, ?W4; try assumption; lia.
    + apply String.eqb_neq in EZ. destruct Ht as [[Ht _]|[_ Ht]]; [congruence|]. destruct ER as [-> ->]. destruct HW as (W1 & W2 & W3 & W4). rewrite UI, UN by lia.
      constructor; cbn [with_amounts sAmount0 sAmount1]; rewrite ?EO, ?W1, ?W2, ?W3, ?W4; try assumption; lia.
  - intros w1 r [S1 D1]. apply returns_done. split; [assumption|]. split; [exact D1|]. repeat split.
Qed.
Lemma swapAndMint_returns w s l u : sound cap w -> stands w s (sPositions s) -> valid l u ->
  (forall liq, GetLiquidityForAmount (SqrtRatio (wPool w)) (rat l) (rat u) (sAmount0 s) (sAmount1 s) = Ok liq -> liq < 2 ^ 128) ->
  returns fuel cap w (swapAndMint s l u) (placedWell s).
Proof.
  intros S D V HL. pose proof V as [V1 V2]. pose proof (funds _ _ _ S D) as [F0 F1]. pose proof (sound_price _ S) as P.
  destruct (liquidity_ordered _ l u _ _ P V1 V2 F0 F1) as (liq & EL). specialize (HL _ EL).
  assert (0 <= liq) as L0.
  { pose proof (rat_lt l u ltac:(lia) ltac:(lia) V2). pose proof (rat_range l ltac:(lia)). pose proof (rat_range u ltac:(lia)). unfold MinSqrtRatio, MaxSqrtRatio in *.
    eapply budget_ineqs with (p := SqrtRatio (wPool w)) (a := rat l) (b := rat u); try exact EL; lia. }
  destruct (amounts_some _ l u liq P V1 V2 ltac:(lia)) as (x & y & EA & _).
  assert (GetSqrtRatioAtTick l = Ok (rat l) /\ GetSqrtRatioAtTick u = Ok (rat u)) as [El Eu] by (rewrite !rat_ok by lia; auto).
  destruct (noSwap_within (wPool w) l u s _ _ liq x y (sound_good _ S) ltac:(split; unfold is_u256; lia) ltac:(lia) El Eu EL EA) as [X Y].
  unfold swapAndMint. rewrite El, Eu. computes w (rat l).
  computes w (rat u).
  looks w. cbn [slot slPrice]. rewrite EL.
  computes w (liq). rewrite EA.
  computes w ((x, y)). cbn [fst snd].
  assert (forall a d, 0 <= d <= a -> a < 2 ^ 128 -> 0 <= udiv (usub a d) 2 <= a) as HD.
  { intros a d Hd Ha. unfold usub. rewrite Z.mod_small by lia. unfold udiv. cbn. split; [apply Z.div_pos; lia|apply Z.div_le_upper_bound; lia]. }
  eapply returns_bind with (Q := placedWell s).
  - destruct (_ <? _); cbv zeta.
    + destruct (_ =? _); [|apply returns_done; eapply still_refl; assumption].
      looks w. cbn [slot slToken0].
      apply swap_returns_own; try assumption. left. split; [reflexivity|]. apply HD; lia.
    + destruct (_ =? _); [|apply returns_done; eapply still_refl; assumption].
      looks w. cbn [slot slToken1].
      apply swap_returns_own; try assumption. right. split; [reflexivity|]. apply HD; lia.
  - intros w1 s1 (S1 & D1 & K1). pose proof (funds _ _ _ S1 D1) as [G0 G1]. pose proof (sound_price _ S1) as P1.
    destruct (liquidity_ordered _ l u _ _ P1 V1 V2 G0 G1) as (liq1 & EL1).
    looks w1. cbn [slot slPrice]. rewrite EL1.
    computes w1 (liq1).
    eapply returns_conseq; [eapply mintAmount_returns; try eassumption; lia|]. intros w2 s2 [(S2 & D2 & K2) _]. split; [assumption|]. split; [assumption|]. eapply keeps_trans; eassumption.
Qed.

(** ** the ranges a strategy aims at *)
Definition aims (r : Z * Z) : Prop := valid (fst r) (snd r).
Definition fills (t sp : Z) (r : Z * Z) : Prop := (Ceil t sp < snd r -> MinTick <= Ceil t sp) /\ (fst r < Floor t sp -> Floor t sp <= MaxTick).
Definition sides (t sp b : Z) : Prop := valid (Ceil t sp) (iadd (Ceil t sp) b) /\ valid (isub (Floor t sp) b) (Floor t sp).
Definition aimed (again : bool) (k : Kind) (s : St) (sl : Slot) : Prop :=
  let t := slTick sl in let fee := slFee sl in let sp := TickSpaces fee in
  match k with
  | TwoInterval a b => aims (around t a fee) /\ sides t sp b
  | BollingerBands m => exists r, (do w <- bandWidth (sHistory s) m; bandTicks (usqrt (Average (sHistory s))) w) = Ok r /\ aims r
  | BollingerBandsFillUp m => exists r, (do w <- bandWidth (sHistory s) m; bandTicks (usqrt (Average (sHistory s))) w) = Ok r /\ aims r /\ (again = true -> fills t sp r)
  | ConstantInterval w => if again then valid (sTickLower s) (sTickUpper s) else aims (around t w fee)
  | FillUp w => aims (around t w fee) /\ fills t sp (around t w fee)
  | IntervalAroundAverage w => exists t', GetTickAtSqrtRatio (usqrt (Average (sHistory s))) = Ok t' /\ aims (around t' w fee)
  | IntervalAroundPrice w => aims (around t w fee)
  | LimitOrder w => aims (around t w fee) /\ sides t sp 10
  | NoProvision | V2 => True
  | IntervalAroundPriceAndSwap w => aims (around t w fee) /\
      forall liq, GetLiquidityForAmount (slPrice sl) (rat (fst (around t w fee))) (rat (snd (around t w fee))) (sAmount0 s) (sAmount1 s) = Ok liq -> liq < 2 ^ 128
  | VolatilitySized m => exists r, (do w <- bandWidth (sHistory s) m; bandTicks (slPrice sl) w) = Ok r /\ aims r
  end.

Lemma still_well w s w' s' : still w s w' s' -> placedWell s w' s'.
Proof. intros [H _]. exact H. Qed.
Lemma well_trans w s w1 s1 w2 s2 : still w s w1 s1 -> placedWell s1 w2 s2 -> placedWell s w2 s2.
Proof. intros [(A & B & C) D] (E & F & G). split; [assumption|]. split; [assumption|]. eapply keeps_trans; eassumption. Qed.
Lemma returns_still {w s w1 s1 m} : still w s w1 s1 -> returns fuel cap w1 m (still w1 s1) -> returns fuel cap w1 m (still w s).
Proof. intros H K. eapply returns_conseq; [exact K|]. intros w2 s2. now apply still_trans. Qed.

Lemma fillUp_returns w s l u : sound cap w -> stands w s (sPositions s) -> valid l u -> fills (TickCurrent (wPool w)) (TickSpaces (Fee (wPool w))) (l, u) ->
  returns fuel cap w (fillUp s (TickSpaces (Fee (wPool w))) l u) (still w s).
Proof.
  intros S D [V1 V2] [H1 H2]. cbn [fst snd] in *. unfold fillUp. pose proof (still_refl w s S D) as R. destruct (negb _).
  - looks w. cbn [slot slTick]. cbv zeta. destruct (_ <? _) eqn:E; [|now apply returns_done]. apply mintPosition_returns; try assumption. split; [split|]; [apply H1; lia|lia|lia].
  - destruct (negb _); [|now apply returns_done]. looks w. cbn [slot slTick]. cbv zeta. destruct (_ <? _) eqn:E; [|now apply returns_done].
    apply mintPosition_returns; try assumption. split; [lia|]. apply H2. lia.
Qed.
Lemma mintAt_returns w s get r : sound cap w -> stands w s (sPositions s) -> aims r -> returns fuel cap w (get s) (fun w' a => w' = w /\ a = r) ->
  returns fuel cap w (mintAt get s) (placedWell s).
Proof.
  intros S D V HG. unfold mintAt. eapply returns_bind; [exact HG|]. cbv beta. intros ? ? [-> ->]. eapply returns_conseq; [apply mintPosition_returns; assumption|]. intros. eapply still_well; eassumption.
Qed.
Lemma bollinger_ticks w s m r : (do w <- bandWidth (sHistory s) m; bandTicks (usqrt (Average (sHistory s))) w) = Ok r -> returns fuel cap w (bollingerTicks m s) (fun w' a => w' = w /\ a = r).
Proof. intros E. unfold bollingerTicks. eapply returns_pure; [exact E|auto]. Qed.

Lemma two_returns w s a b : sound cap w -> stands w s (sPositions s) -> aimed false (TwoInterval a b) s (slot (wPool w)) -> returns fuel cap w (twoIntervalPositions a b s) (placedWell s).
Proof.
  intros S D (A1 & A2 & A3). cbn [slot slTick slFee] in *. unfold twoIntervalPositions. looks w. cbn [slot slTick slFee]. cbv zeta. destruct (around _ _ _) as [l u] eqn:EA.
  eapply returns_bind; [apply mintPosition_returns; try eassumption; exact A1|]. intros w1 s1 St1. pose proof St1 as [(S1 & D1 & K1) E1].
  eapply returns_bind with (Q := still w s).
  - destruct (negb _); [|now apply returns_done]. looks w1. rewrite E1. cbn [slot slTick]. apply (returns_still St1). apply mintPosition_returns; assumption.
  - intros w2 s2 St2. pose proof St2 as [(S2 & D2 & K2) E2]. destruct (negb _); [|apply returns_done; eapply still_well; eassumption].
    looks w2. rewrite E2. cbn [slot slTick]. eapply returns_conseq; [apply (returns_still St2); apply mintPosition_returns; assumption|]. intros. eapply still_well; eassumption.
Qed.
Lemma still_limit w s w' s' t d : still w s w' s' -> still w s w' (with_limit s' t d).
Proof. intros [(A & B & C) E]. split; [|assumption]. split; [assumption|]. split; [|exact C]. eapply stands_ext; [exact B|reflexivity|reflexivity]. Qed.
Lemma limit_returns w s x : sound cap w -> stands w s (sPositions s) -> aimed false (LimitOrder x) s (slot (wPool w)) -> returns fuel cap w (limitOrderPositions x s) (placedWell s).
Proof.
  intros S D (A1 & A2 & A3). cbn [slot slTick slFee] in *. unfold limitOrderPositions. looks w. cbn [slot slTick slFee]. cbv zeta. destruct (around _ _ _) as [l u] eqn:EA.
  eapply returns_bind; [apply mintPosition_returns; try eassumption; exact A1|]. intros w1 s1 St1. pose proof St1 as [(S1 & D1 & K1) E1].
  eapply returns_bind with (Q := still w s).
  - destruct (negb _); [|now apply returns_done]. looks w1. rewrite E1. cbn [slot slTick]. eapply returns_bind; [apply (returns_still St1); apply mintHalf_returns; assumption|].
    intros w2 s2 St2. apply returns_done. now apply still_limit.
  - intros w2 s2 St2. pose proof St2 as [(S2 & D2 & K2) E2]. destruct (negb _); [|apply returns_done; eapply still_well; eassumption].
    looks w2. rewrite E2. cbn [slot slTick]. eapply returns_bind; [apply (returns_still St2); apply mintHalf_returns; assumption|].
    intros w3 s3 St3. apply returns_done. eapply still_well, still_limit; eassumption.
Qed.
Lemma fillUpPositions_returns w s x : sound cap w -> stands w s (sPositions s) -> aimed false (FillUp x) s (slot (wPool w)) -> returns fuel cap w (fillUpPositions x s) (placedWell s).
Proof.
  intros S D (A1 & A2). cbn [slot slTick slFee] in *. unfold fillUpPositions. looks w. cbn [slot slTick slFee]. cbv zeta. destruct (around _ _ _) as [l u] eqn:EA.
  eapply returns_bind; [apply mintPosition_returns; try eassumption; exact A1|]. intros w1 s1 St1. pose proof St1 as [(S1 & D1 & K1) E1]. unfold slot in E1. injection E1 as _ _ E3 _ E5.
  eapply returns_conseq; [apply (returns_still St1)|intros; eapply still_well; eassumption]. rewrite <- E3, <- E5 in *. apply fillUp_returns; assumption.
Qed.
Lemma v2_valid : valid (-887270) 887270.
Proof. unfold valid, MinTick, MaxTick. lia. Qed.

(** Init sets the range ConstantInterval comes back to *)
Definition inOrder (w : World) (s : St) : Prop := sound cap w /\ stands w s (sPositions s).
Definition sameHistory (s : St) (w' : World) (s' : St) : Prop := inOrder w' s' /\ sHistory s' = sHistory s.
Lemma well_order s w' s' : placedWell s w' s' -> sameHistory s w' s'.
Proof. intros (A & B & C & _). split; [split; assumption|assumption]. Qed.
Lemma returns_well w s m : returns fuel cap w m (placedWell s) -> returns fuel cap w m (sameHistory s).
Proof. intros H. eapply returns_conseq; [exact H|]. intros. eapply well_order; eassumption. Qed.
Lemma mintAround_returns w s x mint : inOrder w s -> aims (around (TickCurrent (wPool w)) x (Fee (wPool w))) ->
  (forall l u, (l, u) = around (TickCurrent (wPool w)) x (Fee (wPool w)) -> valid l u -> returns fuel cap w (mint s l u) (placedWell s)) -> returns fuel cap w (mintAround x mint s) (sameHistory s).
Proof.
  intros [S D] V H. unfold mintAround. looks w. cbn [slot slTick slFee]. destruct (around _ _ _) as [l u]. apply returns_well. now apply H.
Qed.
Lemma initPositions_returns k w s : inOrder w s -> aimed false k s (slot (wPool w)) -> returns fuel cap w (initPositions k s) (sameHistory s).
Proof.
  intros O H. pose proof O as [S D]. destruct k as [a b|m|m|x|x|x|x|x| |x| |m]; cbn [initPositions].
  - apply returns_well. now apply two_returns.
  - destruct H as (r & E & A). apply returns_well. eapply mintAt_returns; try eassumption. now apply bollinger_ticks.
  - destruct H as (r & E & A & _). apply returns_well. eapply mintAt_returns; try eassumption. now apply bollinger_ticks.
  - unfold aimed in H. cbn [slot slTick slFee] in H. looks w. cbn [slot slTick slFee]. destruct (around _ _ _) as [l u].
    assert (stands w (with_range s l u) (sPositions (with_range s l u))) as D' by (eapply stands_ext; [exact D|reflexivity|reflexivity]).
    eapply returns_conseq; [apply mintUnchecked_returns; assumption|]. intros w' s' [(A & B & C & _) _]. split; [split; assumption|exact C].
  - apply returns_well. now apply fillUpPositions_returns.
  - destruct H as (t' & E & A). apply returns_well. eapply mintAt_returns; try eassumption. unfold averageTicks. computes w t'. looks w. now apply returns_done.
  - apply mintAround_returns; try assumption. intros l u _ V. eapply returns_conseq; [now apply mintUnchecked_returns|]. intros. eapply still_well; eassumption.
  - apply returns_well. now apply limit_returns.
  - apply returns_done. split; [assumption|reflexivity].
  - destruct H as [A HL]. apply mintAround_returns; try assumption. intros l u E V. cbn [slot slTick slFee slPrice] in HL. rewrite <- E in HL. now apply swapAndMint_returns.
  - apply returns_well. eapply returns_conseq; [apply mintPosition_returns; try assumption; exact v2_valid|]. intros. eapply still_well; eassumption.
  - destruct H as (r & E & A). apply returns_well. eapply mintAt_returns; try eassumption. unfold volatilityTicks. looks w. eapply returns_pure; [exact E|auto].
Qed.
Lemma rebalancePositions_returns k w s : inOrder w s -> aimed true k s (slot (wPool w)) -> returns fuel cap w (rebalancePositions k s) (sameHistory s).
Proof.
  intros O H. pose proof O as [S D]. destruct k as [a b|m|m|x|x|x|x|x| |x| |m]; cbn [rebalancePositions].
  - apply returns_well. now apply two_returns.
  - destruct H as (r & E & A). apply returns_well. eapply mintAt_returns; try eassumption. now apply bollinger_ticks.
  - destruct H as ([l u] & E & A & HF). specialize (HF eq_refl). unfold bollingerFillUp. eapply returns_bind; [apply bollinger_ticks; exact E|]. cbv beta. intros ? ? [-> ->].
    eapply returns_bind; [apply mintPosition_returns; try eassumption; exact A|]. intros w1 s1 St1. pose proof St1 as [(S1 & D1 & K1) E1]. apply returns_well.
    looks w1. destruct (_ && _); [|apply returns_done; eapply still_well; eassumption]. cbn [slot slFee]. unfold slot in E1. injection E1 as _ _ E3 _ E5. cbn [slot slTick slFee] in HF.
    eapply returns_conseq; [apply (returns_still St1)|intros; eapply still_well; eassumption]. rewrite <- E3, <- E5 in *. apply fillUp_returns; assumption.
  - apply returns_well. eapply returns_conseq; [apply mintPosition_returns; assumption|]. intros. eapply still_well; eassumption.
  - apply returns_well. now apply fillUpPositions_returns.
  - destruct H as (t' & E & A). apply returns_well. eapply mintAt_returns; try eassumption. unfold averageTicks. computes w t'. looks w. now apply returns_done.
  - apply mintAround_returns; try assumption. intros l u _ V. eapply returns_conseq; [now apply mintPosition_returns|]. intros. eapply still_well; eassumption.
  - apply returns_well. now apply limit_returns.
  - apply returns_done. split; [assumption|reflexivity].
  - destruct H as [A HL]. apply mintAround_returns; try assumption. intros l u E V. cbn [slot slTick slFee slPrice] in HL. rewrite <- E in HL. now apply swapAndMint_returns.
  - apply returns_well. eapply returns_conseq; [apply mintPosition_returns; try assumption; exact v2_valid|]. intros. eapply still_well; eassumption.
  - destruct H as (r & E & A). apply returns_well. eapply mintAt_returns; try eassumption. unfold volatilityTicks. looks w. eapply returns_pure; [exact E|auto].
Qed.

(** ** values and snapshots *)
Lemma valueUSD_returns w a0 a1 : sound cap w -> 0 <= a1 < 2 ^ 192 -> returns fuel cap w (valueUSD a0 a1) (fun w' _ => w' = w).
Proof.
  intros S H. unfold valueUSD. looks w. cbn [slot slPrice]. cbv zeta. destruct (value_some _ _ (sound_price _ S) H) as (r & E).
  eapply returns_bind; [eapply returns_pure with (Q := fun w' _ => w' = w); [exact E|reflexivity]|]. cbv beta. intros ? ? ->. now apply returns_done.
Qed.
Lemma sumPositions_returns l : forall w a0 a1, sound cap w -> (forall x, In x l -> 0 < poAmount x < 2 ^ 128 /\ valid (poLower x) (poUpper x)) ->
  0 <= a1 -> a1 + sumOf poAmount l * 2 ^ 32 < T256 -> returns fuel cap w (sumPositions l a0 a1) (fun w' r => w' = w /\ 0 <= snd r <= a1 + sumOf poAmount l * 2 ^ 32).
Proof.
  induction l as [|x l IH]; intros w a0 a1 S Hx Ha Hs; cbn [sumPositions].
  - apply returns_done. split; [reflexivity|]. cbn [snd sumOf fold_right]. lia.
  - destruct (Hx x (or_introl eq_refl)) as [X1 [X2 X3]]. cbn [sumOf fold_right] in *. fold (sumOf poAmount l) in *.
    assert (0 <= sumOf poAmount l) as N.
    { clear - Hx. assert (forall y, In y l -> 0 < poAmount y) as H by (intros y Hy; now destruct (Hx y (or_intror Hy)) as [[H _] _]). clear Hx.
      induction l as [|y l IH]; cbn [sumOf fold_right]; [lia|]. specialize (IH (fun z Hz => H z (or_intror Hz))). specialize (H y (or_introl eq_refl)). unfold sumOf in IH. lia. }
    assert (GetSqrtRatioAtTick (poLower x) = Ok (rat (poLower x)) /\ GetSqrtRatioAtTick (poUpper x) = Ok (rat (poUpper x))) as [El Eu] by (rewrite !rat_ok by lia; auto).
    destruct (amounts_some _ _ _ (poAmount x) (sound_price _ S) X2 X3 ltac:(lia)) as (y0 & y1 & EA & HY).
    rewrite El, Eu. computes w (rat (poLower x)). computes w (rat (poUpper x)). looks w. cbn [slot slPrice]. rewrite EA. computes w (y0, y1). cbn [fst snd].
    assert (uadd a1 y1 = a1 + y1) as -> by (unfold uadd; apply Z.mod_small; lia).
    eapply returns_conseq; [apply IH; try assumption; try lia|].
    + intros y Hy. apply Hx. now right.
    + cbv beta. intros w' r [-> R]. split; [reflexivity|]. lia.
Qed.
Lemma amounts_returns k w s : inOrder w s -> returns fuel cap w (GetAmounts k s) (fun w' r => w' = w /\ 0 <= snd r < 2 ^ 192).
Proof.
  intros [S D]. pose proof (funds _ _ _ S D) as [F0 F1]. pose proof D as [D0 D1 DI0 DI1 DL DE DT].
  pose proof (sound_ok _ _ S) as CK. pose proof (total_sub (wAll w) (wOwn w) (ck_sub _ _ _ _ _ CK)) as TS. pose proof (so_total _ _ S) as TA.
  assert (forall x, In x (sPositions s) -> 0 < poAmount x < 2 ^ 128 /\ valid (poLower x) (poUpper x)) as HX.
  { intros x Hx. destruct (DE x Hx) as (E1 & _ & E3). split; [|assumption]. split; [assumption|]. assert (poAmount x <= sumOf poAmount (sPositions s)) as L; [|lia].
    revert Hx. assert (forall y, In y (sPositions s) -> 0 < poAmount y) as H by (intros y Hy; now destruct (DE y Hy)). clear - H. induction (sPositions s) as [|y l IH]; intros Hx; [destruct Hx|].
    assert (forall l, (forall y, In y l -> 0 < poAmount y) -> 0 <= sumOf poAmount l) as N. { clear. induction l as [|z l IH]; intros H; cbn [sumOf fold_right]; [lia|]. specialize (IH (fun z Hz => H z (or_intror Hz))). specialize (H z (or_introl eq_refl)). unfold sumOf in IH. lia. }
    cbn [sumOf fold_right]. fold (sumOf poAmount l). specialize (N l (fun z Hz => H z (or_intror Hz))). pose proof (H y (or_introl eq_refl)). destruct Hx as [->|Hx]; [lia|].
    specialize (IH (fun z Hz => H z (or_intror Hz)) Hx). lia. }
  destruct k; cbn [GetAmounts]; try (apply returns_done; cbn [snd]; split; [reflexivity|lia]).
  all: eapply returns_bind; [apply sumPositions_returns; try assumption; lia|]; cbv beta; intros ? r [-> R]; apply returns_done; cbn [snd]; split; [reflexivity|]; unfold uadd; rewrite Z.mod_small by lia; lia.
Qed.
Definition historyOK (k : Kind) (s : St) : Prop := keepsHistory k = true -> exists n sq, ring n sq (sHistory s) /\ 0 < Z.of_nat n < 2 ^ 63.
Lemma snapshot_returns k w s : inOrder w s -> historyOK k s -> (keepsHistory k = true -> SqrtRatio (wPool w) < 2 ^ 115) ->
  returns fuel cap w (MakeSnapshot k s) (fun w' s' => w' = w /\ inOrder w s' /\ historyOK k s').
Proof.
  intros [S D] H HP. unfold MakeSnapshot. destruct (keepsHistory k) eqn:EK; [|apply returns_done; split; [reflexivity|]; split; [split; assumption|assumption]].
  destruct (H EK) as (n & sq & R & Hn). specialize (HP eq_refl). pose proof R as (R1 & R2 & R3 & _).
  assert (0 <= prIndex (sHistory s) < Z.of_nat n) as RB by (rewrite R3; apply Z.mod_pos_bound; lia). pose proof (sound_price _ S) as P. unfold MinSqrtRatio in P.
  destruct (AddPrice_small (sHistory s) (SqrtRatio (wPool w)) ltac:(lia) ltac:(lia) ltac:(lia)) as [[_ K] _]. destruct (K HP) as (h' & E).
  looks w. cbn [slot slPrice]. rewrite E. computes w h'. apply returns_done. split; [reflexivity|]. split.
  - split; [assumption|]. eapply stands_ext; [exact D|reflexivity|reflexivity].
  - intros _. exists n, (sq ++ [umul (SqrtRatio (wPool w)) (SqrtRatio (wPool w))]). split; [|assumption]. cbn [with_history sHistory]. eapply ring_add; eassumption.
Qed.

(** ** burning everything needs no care *)
Lemma burn_calm l : forall w s, calm fuel cap w (burnPositions l s).
Proof. induction l as [|x l IH]; intros w s; [exact I|]. split; [exact I|]. intros r E. split; [exact I|]. intros r' E'. apply IH. Qed.
Lemma calm_seq {A B} (m : M A) (f : A -> M B) : forall w, calm fuel cap w m -> (forall w' a, runW fuel w m = Ok (w', a) -> calm fuel cap w' (f a)) -> calm fuel cap w (mbind m f).
Proof.
  induction m as [r|o k IH|k IH]; intros w H K; cbn [mbind calm] in *.
  - destruct r; [apply K; reflexivity|exact I|exact I].
  - destruct H as [G H]. split; [assumption|]. intros r E. apply IH; [now apply H|]. intros w' a E'. apply K. cbn [runW]. now rewrite E.
  - apply IH; assumption.
Qed.
Definition runs {A} (w : World) (m : M A) (Q : World -> A -> Prop) : Prop := exists w' a, runW fuel w m = Ok (w', a) /\ Q w' a.
Lemma runs_bind {A B} w (m : M A) (f : A -> M B) Q R : runs w m Q -> (forall w' a, runW fuel w m = Ok (w', a) -> Q w' a -> runs w' (f a) R) -> runs w (mbind m f) R.
Proof.
  intros (w1 & a & E & HQ) K. destruct (K w1 a E HQ) as (w2 & b & E2 & HR). exists w2, b. rewrite runW_bind, E. auto.
Qed.
Lemma runs_done {A} w (a : A) (Q : World -> A -> Prop) : Q w a -> runs w (done a) Q.
Proof. intros H. exists w, a. auto. Qed.
Lemma value_runs w a0 a1 : sound cap w -> 0 <= a1 < 2 ^ 192 -> runs w (valueUSD a0 a1) (fun w' _ => w' = w).
Proof. intros S H. apply valueUSD_returns; [assumption|assumption|]. unfold valueUSD. apply calm_seq; [exact I|]. intros w' p _. apply calm_seq; [exact I|]. intros; exact I. Qed.
Lemma sum_calm w l : forall a0 a1, calm fuel cap w (sumPositions l a0 a1).
Proof.
  induction l as [|x l IH]; intros a0 a1; [exact I|]. cbn [sumPositions]. apply calm_seq; [exact I|]. intros w' a E. destruct (GetSqrtRatioAtTick (poLower x)); cbn [pure runW bind] in E; try discriminate.
  injection E as <- <-. apply calm_seq; [exact I|]. intros w' b E. destruct (GetSqrtRatioAtTick (poUpper x)); cbn [pure runW bind] in E; try discriminate. injection E as <- <-.
  apply calm_seq; [exact I|]. intros w' p E. cbn [look done runW bind] in E. injection E as <- <-. apply calm_seq; [exact I|]. intros w' r E. destruct (GetAmountsForLiquidity _ _ _ _); cbn [pure runW bind] in E; try discriminate.
  injection E as <- <-. apply IH.
Qed.
Lemma amounts_calm k w s : calm fuel cap w (GetAmounts k s).
Proof. destruct k; try exact I; cbn [GetAmounts]; apply calm_seq; try apply sum_calm; intros; exact I. Qed.
Lemma burnAll_runs k w s : inOrder w s -> runs w (BurnAll k s) (fun w' r => sound cap w' /\ 0 <= snd (snd r) < 2 ^ 128).
Proof.
  intros [S D]. assert (runs w (burnPositions (sPositions s) s) (fun w' s' => sound cap w' /\ 0 <= sAmount1 s' < 2 ^ 128)) as K.
  { destruct (burnPositions_returns (sPositions s) w s S D (burn_calm _ _ _)) as (w' & s' & E & S' & D' & _). exists w', s'. split; [assumption|]. split; [assumption|]. eapply funds; eassumption. }
  pose proof (funds _ _ _ S D) as [_ F1].
  destruct k; cbn [BurnAll]; unfold burnKeep, burnReset; try (eapply runs_bind; [exact K|]; cbv beta; intros w' s' _ [S' H']; apply runs_done; split; assumption). apply runs_done. split; assumption.
Qed.

(** ** the market's transactions *)
Lemma execTx_returns w s t : inOrder w s -> returns fuel cap w (execTx t) (fun w' _ => inOrder w' s).
Proof.
  intros [S D]. pose proof D as [D0 D1 DI0 DI1 DL DE DT].
  assert (forall amt t', returns fuel cap w (call (OExactInput amt t' 0)) (fun w' _ => inOrder w' s)) as KS.
  { intros amt t'. apply returns_call. intros G. destruct (swap_world fuel cap enough w _ _ _ S G) as (r & E & S' & T). exists r. split; [assumption|]. split; [assumption|].
    unfold traded in T. cbv zeta in T. destruct T as (inp & out & ER & HI & HO & HW).
    assert (wOwn (after w (OExactInput amt t' 0) r) = wOwn w) as EO by (destruct r as [[? ?] ?]; reflexivity).
    destruct (String.eqb _ _); destruct HW as (W1 & W2 & W3 & W4); constructor; rewrite ?EO, ?W1, ?W2, ?W3, ?W4; try assumption; lia. }
  unfold execTx. destruct (String.eqb (txType t) "Mint"); [|destruct (String.eqb (txType t) "Burn"); [|destruct (String.eqb (txType t) "Swap"); [|destruct (String.eqb (txType t) "Flash")]]].
  - apply returns_call. intros G. destruct (mint_world fuel cap enough cap_ok w _ _ _ S G) as (r & E & S'). exists r. split; [assumption|]. split; [assumption|].
    destruct r as [[p' x0] x1]. constructor; cbn [after wOwn wHas0 wHas1 wIn0 wIn1]; try assumption; lia.
  - apply returns_call. intros G. destruct (burn_world fuel cap enough cap_ok w _ _ _ S G) as (r & E & S'). exists r. split; [assumption|]. split; [assumption|].
    destruct r as [[p' x0] x1]. constructor; cbn [after wOwn wHas0 wHas1 wIn0 wIn1]; assumption.
  - destruct (0 <? usign (txAmount0 t)); [looks w; apply KS|]. destruct (0 <? usign (txAmount1 t)); [looks w; apply KS|]. apply returns_done. split; assumption.
  - apply returns_call. intros G. destruct (flash_world fuel cap enough w _ _ S G) as (r & E & S' & HF). exists r. split; [assumption|]. split; [assumption|].
    destruct G as (G0 & G1 & _). pose proof (flash_fee_le _ _ G0 HF). pose proof (flash_fee_le _ _ G1 HF).
    destruct r as [[p' x0] x1]. constructor; cbn [after wOwn wHas0 wHas1 wIn0 wIn1]; try assumption; lia.
  - apply returns_done. split; assumption.
Qed.

(** ** the run *)
(** along the plan [bl], from [w] and the strategy's state [s]: every call respects [guard], the strategy aims at ranges there are, and the price can be recorded *)
Fixpoint steady (k : Kind) (bl : list Block) (w : World) (s : St) : Prop :=
  match bl with
  | [] => True
  | b :: bl =>
      (bInit b = true -> aimed false k s (slot (wPool w)) /\ calm fuel cap w (Init k s)) /\
      forall w1 s1, (if bInit b then exists v, runW fuel w (Init k s) = Ok (w1, (s1, v)) else w1 = w /\ s1 = s) ->
      (bPrice b = true -> keepsHistory k = true -> SqrtRatio (wPool w1) < 2 ^ 115) /\
      forall s2, (if bPrice b then runW fuel w1 (MakeSnapshot k s1) = Ok (w1, s2) else s2 = s1) ->
      (bRebalance b = true -> calm fuel cap w1 (Rebalance k s2) /\ forall w' r, runW fuel w1 (burnReset s2) = Ok (w', r) -> aimed true k (fst r) (slot (wPool w'))) /\
      forall w3 s3, (if bRebalance b then exists v, runW fuel w1 (Rebalance k s2) = Ok (w3, (s3, v)) else w3 = w1 /\ s3 = s2) ->
      calm fuel cap w3 (execTx (bTx b)) /\ forall w4 v, runW fuel w3 (execTx (bTx b)) = Ok (w4, v) -> steady k bl w4 s3
  end.

Lemma init_runs k w s : inOrder w s -> historyOK k s -> aimed false k s (slot (wPool w)) -> calm fuel cap w (Init k s) ->
  runs w (Init k s) (fun w' r => inOrder w' (fst r) /\ historyOK k (fst r) /\ 0 <= snd (snd r) < 2 ^ 128).
Proof.
  intros O H A C. pose proof O as [S D]. pose proof (funds _ _ _ S D) as [_ F1]. unfold Init in *. cbv zeta in *. pose proof (proj1 (calm_bind _ _ _ _ _ C)) as C1.
  destruct (initPositions_returns k w s O A C1) as (w' & s' & E & O' & H'). exists w', (s', (sAmount0 s, sAmount1 s)). rewrite runW_bind, E. split; [reflexivity|]. cbn [fst snd].
  split; [assumption|]. split; [|assumption]. intros EK. rewrite H'. now apply H.
Qed.
Lemma rebalance_runs k w s : inOrder w s -> historyOK k s -> calm fuel cap w (Rebalance k s) -> (forall w' r, runW fuel w (burnReset s) = Ok (w', r) -> aimed true k (fst r) (slot (wPool w'))) ->
  runs w (Rebalance k s) (fun w' r => inOrder w' (fst r) /\ historyOK k (fst r)).
Proof.
  intros O H C A. pose proof O as [S D].
  assert (runs w (burnReset s) (fun w' r => inOrder w' (fst r) /\ sHistory (fst r) = sHistory s)) as K.
  { destruct (burnPositions_returns (sPositions s) w s S D (burn_calm _ _ _)) as (w' & s' & E & S' & D' & K' & _). exists w', (with_positions s' [], (sAmount0 s', sAmount1 s')).
    unfold burnReset. rewrite runW_bind, E. split; [reflexivity|]. split; [|exact K']. split; [assumption|]. eapply stands_ext; [exact D'|reflexivity|reflexivity]. }
  assert (calm fuel cap w (act r <- burnReset s; act s <- rebalancePositions k (fst r); done (s, Some (snd r))) ->
    runs w (act r <- burnReset s; act s <- rebalancePositions k (fst r); done (s, Some (snd r))) (fun w' r => inOrder w' (fst r) /\ historyOK k (fst r))) as G.
  { clear C. intros C. apply calm_bind in C as [_ C]. eapply runs_bind; [exact K|]. intros w1 r E [O1 H1]. specialize (C _ _ E). apply calm_bind in C as [C _].
    destruct (rebalancePositions_returns k w1 (fst r) O1 (A _ _ E) C) as (w2 & s2 & E2 & O2 & H2). eapply runs_bind with (Q := sameHistory (fst r)); [exists w2, s2; split; [exact E2|exact (conj O2 H2)]|].
    cbv beta. intros w3 s3 _ [O3 H3]. apply runs_done. split; [assumption|]. intros EK. cbn [fst]. rewrite H3, H1. now apply H. }
  destruct k; try (apply G; exact C). apply runs_done. split; assumption.
Qed.

Lemma execBlocks_runs k bl : forall w s vs, inOrder w s -> historyOK k s -> steady k bl w s -> runs w (execBlocks (strategyOf k) bl s vs) (fun w' r => inOrder w' (fst r)).
Proof.
  induction bl as [|b bl IH]; intros w s vs O H HS; cbn [execBlocks]; [now apply runs_done|]. cbn [steady] in HS. destruct HS as [HI HS].
  apply runs_bind with (Q := fun w' r => inOrder w' (fst r) /\ historyOK k (fst r) /\ steady k bl w' (fst r)); [|intros w' r _ (O' & H' & S'); now apply IH].
  unfold execBlock. cbn [strategyOf doInit doSnapshot doAmounts doRebalance].
  apply runs_bind with (Q := fun w1 r => inOrder w1 (fst r) /\ historyOK k (fst r) /\ (if bInit b then exists v, runW fuel w (Init k s) = Ok (w1, (fst r, v)) else w1 = w /\ fst r = s)).
  { destruct (bInit b); [|apply runs_done; auto]. destruct (HI eq_refl) as [A C]. eapply runs_bind; [now apply init_runs|]. cbv beta. intros w1 (s1 & v) E (O1 & H1 & V1). cbn [fst snd] in *.
    eapply runs_bind; [apply value_runs; [apply O1|lia]|]. cbv beta. intros ? x _ ->. apply runs_done. cbn [fst]. split; [assumption|]. split; [assumption|]. eauto. }
  intros w1 (s1 & vs1) _ (O1 & H1 & E1). cbn [fst snd] in *. destruct (HS w1 s1 E1) as [HP HS']. clear HS.
  apply runs_bind with (Q := fun w2 s2 => w2 = w1 /\ inOrder w1 s2 /\ historyOK k s2 /\ (if bPrice b then runW fuel w1 (MakeSnapshot k s1) = Ok (w1, s2) else s2 = s1)).
  { destruct (bPrice b); [|apply runs_done; auto]. destruct (snapshot_returns k w1 s1 O1 H1 (HP eq_refl)) as (w' & s' & E & -> & O' & H').
    - unfold MakeSnapshot. destruct (keepsHistory k); [|exact I]. apply calm_seq; [exact I|]. intros w' a E. apply calm_seq; [exact I|]. intros; exact I.
    - exists w1, s'. auto. }
  intros w2 s2 _ (-> & O2 & H2 & E2). destruct (HS' s2 E2) as [HR HS]. clear HS'.
  apply runs_bind with (Q := fun w' _ => w' = w1).
  { destruct (bSnapshot b); [|now apply runs_done]. destruct (amounts_returns k w1 s2 O2 (amounts_calm _ _ _)) as (w' & a & E & -> & V). eapply runs_bind with (Q := fun w' r => w' = w1 /\ 0 <= snd r < 2 ^ 192); [exists w1, a; split; [exact E|exact (conj eq_refl V)]|].
    cbv beta. intros w' a' _ [-> V']. eapply runs_bind; [apply value_runs; [apply O2|assumption]|]. cbv beta. intros ? x _ ->. now apply runs_done. }
  cbv beta. intros ? vs2 _ ->.
  apply runs_bind with (Q := fun w3 s3 => inOrder w3 s3 /\ historyOK k s3 /\ (if bRebalance b then exists v, runW fuel w1 (Rebalance k s2) = Ok (w3, (s3, v)) else w3 = w1 /\ s3 = s2)).
  { destruct (bRebalance b); [|apply runs_done; auto]. destruct (HR eq_refl) as [C A]. eapply runs_bind; [now apply rebalance_runs|]. cbv beta. intros w3 (s3 & v) E (O3 & H3). apply runs_done. cbn [fst] in *. eauto. }
  intros w3 s3 _ (O3 & H3 & E3). destruct (HS w3 s3 E3) as [CT HN]. clear HS.
  destruct (execTx_returns w3 s3 (bTx b) O3 CT) as (w4 & v & E4 & O4). eapply runs_bind with (Q := fun w' _ => inOrder w' s3 /\ steady k bl w' s3); [exists w4, v; split; [exact E4|]; split; [exact O4|exact (HN _ _ E4)]|].
  cbv beta. intros w5 v5 _ [O5 S5]. now apply runs_done.
Qed.
Lemma execPlan_runs k bl w s : inOrder w s -> historyOK k s -> steady k bl w s -> runs w (execPlan (strategyOf k) bl s) (fun w' _ => sound cap w').
Proof.
  intros O H HS. unfold execPlan. eapply runs_bind; [now apply execBlocks_runs|]. cbv beta. intros w1 (s1 & vs) _ O1. cbn [fst snd strategyOf doBurnAll] in *.
  eapply runs_bind; [now apply burnAll_runs|]. cbv beta. intros w2 r _ [S2 V2]. eapply runs_bind; [apply value_runs; [exact S2|lia]|]. cbv beta. intros ? v _ ->. now apply runs_done.
Qed.
Theorem run_returns k c txs s h p r0 r1 u0 u1 : cash true true h [] p r0 r1 -> Token0 p <> Token1 p -> SqrtRatio p < 2 ^ 128 -> total h <= cap ->
  sPositions s = [] -> 0 <= sAmount0 s -> sAmount0 s + r0 <= u0 < 2 ^ 128 -> 0 <= sAmount1 s -> sAmount1 s + r1 <= u1 < 2 ^ 128 -> historyOK k s ->
  steady k (plan c false MaxInt64 MaxInt64 0 txs) (mkWorld h [] p r0 r1 u0 u1) s -> exists q tr r, runV fuel p (Run (strategyOf k) c txs s) = Ok (q, tr, r).
Proof.
  intros C NT HP HT EP A0 B0 A1 B1 HH HS. pose proof (cash_solvent _ _ _ _ _ C) as (N0 & N1 & _).
  assert (inOrder (mkWorld h [] p r0 r1 u0 u1) s) as O.
  { split.
    - constructor; cbn [wAll wOwn wPool wHas0 wHas1 wIn0 wIn1]; try assumption; try lia. intros l u Hm. unfold minted in Hm. cbn [sumOn] in Hm. lia.
    - rewrite EP. constructor; cbn [wAll wOwn wPool wHas0 wHas1 wIn0 wIn1]; try lia; [reflexivity|intros x []|reflexivity]. }
  destruct (execPlan_runs k _ _ s O HH HS) as (w' & r & E & _). apply runW_runV in E as (tr & E). cbn [wPool] in E. exists (wPool w'), tr, r.
  rewrite (Run_plan (strategyOf k) c txs s fuel p). exact E.
Qed.
End Runs.
