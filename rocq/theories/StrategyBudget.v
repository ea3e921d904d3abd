(** StrategyBudget.v -- strategies pay for what they mint out of their balances, and their snapshots count
    what burning everything would pay. *)
From Coq Require Import String ZifyBool.
From Verif Require Import Base U256Z SwapMath SwapMathFacts FullMathFacts LiqFacts TickMath TickMathFacts Float64 TickData Ledger Pool PoolInv PoolMint PoolOps
  TickDataFacts PoolTable PoolHist Prices Client Strategy StrategyFacts PoolSpec.
Ltac Zify.zify_post_hook ::= idtac.
Open Scope Z_scope.

(** ** amounts are 256-bit values *)
Lemma uadd_u a b : is_u256 (uadd a b).
Proof. apply Z.mod_pos_bound. reflexivity. Qed.
Lemma usub_u a b : is_u256 (usub a b).
Proof. apply Z.mod_pos_bound. reflexivity. Qed.
Lemma uneg_u a : is_u256 (uneg a).
Proof. apply Z.mod_pos_bound. reflexivity. Qed.
Lemma MulDiv_u a b d x : MulDiv a b d = Ok x -> is_u256 x.
Proof.
  unfold MulDiv. destruct (_ || _). { intros E. injection E as <-. split; [reflexivity|reflexivity]. }
  destruct (udivrem5_ok _ _); [|discriminate]. intros E. injection E as <-. apply Z.mod_pos_bound. reflexivity.
Qed.
Lemma MulDivUp_u a b d x : MulDivRoundingUp a b d = Ok x -> is_u256 x.
Proof.
  unfold MulDivRoundingUp. destruct (_ || _). { intros E. injection E as <-. split; reflexivity. }
  destruct (udivrem5_ok _ _); [|discriminate]. cbv zeta. intros E. injection E as <-. destruct (negb _); [apply uadd_u|].
  apply Z.mod_pos_bound. reflexivity.
Qed.
Lemma udiv_u a b : is_u256 a -> 0 <= b -> is_u256 (udiv a b).
Proof.
  intros Ha Hb. unfold udiv. destruct (b =? 0) eqn:E; [split; reflexivity|]. unfold is_u256 in *. split; [apply Z.div_pos; lia|].
  apply Z.div_lt_upper_bound; [lia|]. apply Z.lt_le_trans with (1 * T256); [lia|]. apply Z.mul_le_mono_nonneg_r; lia.
Qed.
Lemma amount0_u a b l r x : 0 <= a -> 0 <= b -> GetAmount0Delta a b l r = Ok x -> is_u256 x.
Proof.
  intros Ha Hb. unfold GetAmount0Delta, ordered. destruct (b <? a); cbv zeta.
  all: destruct r; intros E; apply bind_inv in E as (y & E1 & E); [now apply MulDivUp_u in E|]; injection E as <-; apply udiv_u; [now apply MulDiv_u in E1|assumption].
Qed.
Lemma amount1_u a b l r x : GetAmount1Delta a b l r = Ok x -> is_u256 x.
Proof. unfold GetAmount1Delta. destruct (ordered a b). destruct r; [apply MulDivUp_u|apply MulDiv_u]. Qed.

(** ** what a mint charges, in terms of the price *)
Lemma zero_delta0 a l r : 0 < a -> GetAmount0Delta a a l r = Ok 0.
Proof.
  intros H. unfold GetAmount0Delta, ordered. rewrite Z.ltb_irrefl. cbv zeta. unfold usub. rewrite Z.sub_diag. change (0 mod T256) with 0.
  unfold MulDivRoundingUp, MulDiv. rewrite !orb_true_r. cbn [bind]. destruct r; [reflexivity|]. unfold udiv. now rewrite Zdiv_0_l, Tauto.if_same.
Qed.
Lemma zero_delta1 a l r : GetAmount1Delta a a l r = Ok 0.
Proof.
  unfold GetAmount1Delta, ordered. rewrite Z.ltb_irrefl. unfold usub. rewrite Z.sub_diag. change (0 mod T256) with 0.
  unfold MulDivRoundingUp, MulDiv. rewrite !orb_true_r. now destruct r.
Qed.

Section Range.
  Variables tick price l u : Z.
  Hypothesis HP : priceOK tick price.
  Hypothesis Hl : MinTick <= l.
  Hypothesis Hlu : l < u.
  Hypothesis Hu : u <= MaxTick.
  Local Notation A := (rat l).
  Local Notation B := (rat u).

  Lemma range_order : 0 < A < B /\ B < 2 ^ 160 /\ 0 < price < 2 ^ 160 /\
    (tick < l -> price <= A) /\ (l <= tick -> A <= price) /\ (tick < u -> price <= B) /\ (u <= tick -> B <= price).
  Proof using HP Hl Hlu Hu.
    destruct HP as (Ht & Hp & Hm). pose proof (rat_range l ltac:(lia)) as Rl. pose proof (rat_range u ltac:(lia)) as Ru.
    pose proof (rat_lt l u Hl Hlu Hu) as Rlu. pose proof (rat_range tick ltac:(lia)) as Rt.
    assert (forall x, MinTick <= x <= MaxTick -> tick < x -> price <= rat x) as K1.
    { intros x Hx H. pose proof (rat_le (tick + 1) x ltac:(lia) ltac:(lia) ltac:(lia)). lia. }
    assert (forall x, MinTick <= x <= MaxTick -> x <= tick -> rat x <= price) as K2.
    { intros x Hx H. pose proof (rat_le x tick ltac:(lia) ltac:(lia) ltac:(lia)). lia. }
    pose proof (K1 l ltac:(lia)). pose proof (K2 l ltac:(lia)). pose proof (K1 u ltac:(lia)). pose proof (K2 u ltac:(lia)).
    clear K1 K2 HP. unfold MinSqrtRatio, MaxSqrtRatio in *. lia.
  Qed.

  Lemma mint_charge a x y : 0 < a < T255 -> rangeAmounts tick price l u a = Ok (x, y) -> charge price A B a = Ok (x, y).
  Proof using HP Hl Hlu Hu.
    intros Ha E. pose proof range_order as (O1 & O2 & O3 & O4 & O5 & O6 & O7).
    unfold rangeAmounts in E. rewrite !rat_ok in E by lia. cbn [bind] in E. unfold charge.
    rewrite !rounded0_pos, !rounded1_pos in * by lia.
    destruct (tick <? l) eqn:C1; [|destruct (tick <? u) eqn:C2].
    - replace (price <=? A) with true by lia. exact E.
    - apply bind_inv in E as (x' & E0 & E). cbn [bind] in E. apply bind_inv in E as (y' & E1 & E). injection E as -> ->.
      rewrite GetAmount1Delta_sym in E1. destruct (Z.eq_dec price A) as [e|n1].
      + replace (price <=? A) with true by lia. rewrite e, zero_delta1 in E1. injection E1 as <-. rewrite <- e, E0. reflexivity.
      + replace (price <=? A) with false by lia. destruct (Z.eq_dec price B) as [e|n2].
        * replace (price <? B) with false by lia. rewrite e, zero_delta0 in E0 by lia. injection E0 as <-. rewrite <- e, E1. reflexivity.
        * replace (price <? B) with true by lia. rewrite E0. cbn [bind]. rewrite E1. reflexivity.
    - replace (price <=? A) with false by lia. replace (price <? B) with false by lia. exact E.
  Qed.
  Lemma charge_u a x y : 0 < a < T255 -> charge price A B a = Ok (x, y) -> is_u256 x /\ is_u256 y.
  Proof using HP Hl Hlu Hu.
    intros Ha E. pose proof range_order as (O1 & O2 & O3 & _). unfold charge in E. rewrite !rounded0_pos, !rounded1_pos in E by lia.
    assert (is_u256 0) as Z0 by (split; reflexivity).
    destruct (_ <=? _); [|destruct (_ <? _)].
    - apply bind_inv in E as (x' & E0 & E). injection E as -> <-. split; [|assumption]. eapply amount0_u; [| |exact E0]; lia.
    - apply bind_inv in E as (x' & E0 & E). apply bind_inv in E as (y' & E1 & E). injection E as -> ->. split; [eapply amount0_u; [| |exact E0]; lia|eapply amount1_u; exact E1].
    - apply bind_inv in E as (x' & E0 & E). injection E as <- ->. split; [assumption|]. eapply amount1_u; exact E0.
  Qed.
  (** what a burn pays is what GetAmountsForLiquidity says *)
  Lemma burn_amounts a x y : 0 < a < T255 -> rangeAmounts tick price l u (uneg a) = Ok (x, y) ->
    GetAmountsForLiquidity price A B a = Ok (uneg x, uneg y).
  Proof using HP Hl Hlu Hu.
    intros Ha E. pose proof range_order as (O1 & O2 & O3 & O4 & O5 & O6 & O7).
    unfold rangeAmounts in E. rewrite !rat_ok in E by lia. cbn [bind] in E. unfold GetAmountsForLiquidity, ordered.
    replace (B <? A) with false by lia. rewrite !getAmount0_eq by lia. rewrite !getAmount1_eq.
    rewrite !rounded_neg0, !rounded_neg1 in E by lia.
    destruct (tick <? l) eqn:C1; [|destruct (tick <? u) eqn:C2].
    - replace (price <=? A) with true by lia. apply bind_inv in E as (x' & E0 & E). injection E as <- <-. apply bind_inv in E0 as (x2 & E0 & E1). injection E1 as <-.
      rewrite E0. cbn [bind]. rewrite uneg_uneg; [reflexivity|]. eapply amount0_u; [| |exact E0]; lia.
    - apply bind_inv in E as (x' & E0 & E). cbn [bind] in E. apply bind_inv in E as (y' & E1 & E). injection E as <- <-.
      apply bind_inv in E0 as (x2 & E0 & E2). injection E2 as <-. apply bind_inv in E1 as (y2 & E1 & E2). injection E2 as <-.
      rewrite GetAmount1Delta_sym in E1.
      assert (is_u256 x2) by (eapply amount0_u; [| |exact E0]; lia). assert (is_u256 y2) by (eapply amount1_u; exact E1).
      rewrite !uneg_uneg by assumption. destruct (Z.eq_dec price A) as [e|n1].
      + replace (price <=? A) with true by lia. rewrite e, zero_delta1 in E1. injection E1 as <-. rewrite <- e, E0. reflexivity.
      + replace (price <=? A) with false by lia. destruct (Z.eq_dec price B) as [e|n2].
        * replace (price <? B) with false by lia. rewrite e, zero_delta0 in E0 by lia. injection E0 as <-. rewrite <- e, E1. reflexivity.
        * replace (price <? B) with true by lia. rewrite E0. cbn [bind]. rewrite E1. reflexivity.
    - replace (price <=? A) with false by lia. replace (price <? B) with false by lia. apply bind_inv in E as (x' & E0 & E). injection E as <- <-. apply bind_inv in E0 as (x2 & E0 & E1). injection E1 as <-.
      rewrite E0. cbn [bind]. rewrite uneg_uneg; [reflexivity|]. eapply amount1_u; exact E0.
  Qed.
End Range.

(** ** calls that keep the price *)
Lemma slot_same p q : sameSlot p q -> slot q = slot p.
Proof. intros (A & B & C & D & _ & _ & _ & E). unfold slot. congruence. Qed.
Lemma modify_slot p l u amt q x y : modifyPositionStrategy p l u amt = Ok (q, x, y) -> slot q = slot p.
Proof.
  intros E. apply slot_same. destruct (Z.eq_dec amt 0) as [->|n].
  - unfold modifyPositionStrategy in E. apply bind_inv in E as ([] & _ & E). apply bind_inv in E as ((p1 & pos) & E1 & E). cbn [Z.eqb] in E. injection E as <- _ _.
    now apply updatePosition_slot in E1.
  - rewrite modifyPositionStrategy_eq in E by assumption. apply bind_inv in E as ([] & _ & E). apply bind_inv in E as ((p1 & pos) & E1 & E).
    apply bind_inv in E as (xy & _ & E). cbn [fst] in E. injection E as <- _ _. apply updatePosition_slot in E1 as [S _]. destruct (_ && _); [|exact S]. exact S.
Qed.
Lemma burn_slot p l u amt q x y : BurnStrategy p l u amt = Ok (q, x, y) -> slot q = slot p.
Proof.
  intros E. unfold BurnStrategy in E. apply bind_inv in E as (((p1 & x') & y') & E1 & E). apply modify_slot in E1. destruct (posGet _ _); [|discriminate].
  injection E as <- _ _. exact E1.
Qed.
Lemma collect_slot p l u q x y : CollectStrategy p l u = Ok (q, x, y) -> slot q = slot p.
Proof. unfold CollectStrategy. destruct (posGet _ _); [|discriminate]. intros E. injection E as <- _ _. reflexivity. Qed.

(** ** the cost of a mint is covered by the amounts its liquidity was computed from *)
Definition good (p : Pool) : Prop := priceOK (TickCurrent p) (SqrtRatio p).
Lemma good_slot p q : slot q = slot p -> good p -> good q.
Proof. unfold slot, good. intros E. injection E as _ _ _ -> ->. auto. Qed.

Lemma charge_scaled p a b amt0 amt1 l l' x y : 0 < p < T256 -> 0 < a <= b -> b < T256 -> 0 <= amt0 < T256 -> 0 <= amt1 < T256 ->
  GetLiquidityForAmount p a b amt0 amt1 = Ok l -> 0 <= l' <= l -> l' < T255 -> charge p a b l' = Ok (x, y) -> x <= amt0 /\ y <= amt1.
Proof.
  intros Hp Ha Hb H0 H1 E Hl' Hl C. destruct (budget_ineqs p a b amt0 amt1 l Hp Ha Hb H0 H1 E) as (R & B1 & B2 & B3).
  assert (forall d, 0 <= d -> l' * Q96 * d <= l * Q96 * d) as M0.
  { intros d Hd. apply Z.mul_le_mono_nonneg_r; [assumption|]. apply Z.mul_le_mono_nonneg_r; [discriminate|lia]. }
  assert (forall d, 0 <= d -> l' * d <= l * d) as M1 by (intros d Hd; apply Z.mul_le_mono_nonneg_r; lia).
  unfold charge in C. rewrite !rounded0_pos, !rounded1_pos in C by lia.
  destruct (p <=? a) eqn:C1; [|destruct (p <? b) eqn:C2].
  - apply bind_inv in C as (x' & Ex & [= <- <-]). split; [|lia]. specialize (M0 (b - a)). eapply charge0_le; [| | | |exact Ex]; lia.
  - apply bind_inv in C as (x' & Ex & C). apply bind_inv in C as (y' & Ey & [= <- <-]).
    destruct B2 as [B2 B2']; [lia|]. specialize (M0 (b - p)). specialize (M1 (p - a)). split.
    + eapply charge0_le; [| | | |exact Ex]; lia.
    + eapply charge1_le; [| | | | |exact Ey]; lia.
  - apply bind_inv in C as (y' & Ey & [= <- <-]). specialize (M1 (b - a)). split; [lia|]. eapply charge1_le; [| | | | |exact Ey]; lia.
Qed.

Lemma mint_budget p l u a b amt0 amt1 liq amount q x y : good p -> is_u256 amt0 -> is_u256 amt1 ->
  GetSqrtRatioAtTick l = Ok a -> GetSqrtRatioAtTick u = Ok b -> GetLiquidityForAmount (SqrtRatio p) a b amt0 amt1 = Ok liq -> 0 <= amount <= liq ->
  MintStrategy p l u amount = Ok (q, x, y) -> slot q = slot p /\ 0 <= x <= amt0 /\ 0 <= y <= amt1.
Proof.
  intros HG H0 H1 EA EB EL Hl E. unfold MintStrategy in E. apply bind_inv in E as ([] & E0 & E). apply invariant_inv in E0.
  pose proof (modify_slot _ _ _ _ _ _ _ E) as HS. split; [assumption|].
  assert (checkTicks l u = Ok tt) as Hc by (unfold modifyPositionStrategy in E; apply bind_inv in E as ([] & E1 & _); assumption).
  apply checkTicks_inv in Hc as (Hlu & Hmin & Hmax). rewrite rat_ok in EA, EB by lia. injection EA as <-. injection EB as <-.
  destruct (range_order _ _ l u HG Hmin Hlu Hmax) as (O1 & O2 & O3 & _).
  assert (0 <= liq < T256) as HL. { apply (budget_ineqs (SqrtRatio p) (rat l) (rat u) amt0 amt1 liq); unfold is_u256 in *; try lia. assumption. }
  apply usign_1 in E0; [|lia]. rewrite modifyPositionStrategy_eq in E by lia. apply bind_inv in E as ([] & _ & E). apply bind_inv in E as ((p1 & pos) & _ & E).
  apply bind_inv in E as ((x' & y') & E & E'). cbn [fst snd] in E'. injection E' as _ -> ->.
  apply mint_charge in E; [|assumption..]. pose proof (charge_u _ _ l u HG Hmin Hlu Hmax _ _ _ E0 E) as [U0 U1].
  apply (charge_scaled (SqrtRatio p) (rat l) (rat u) amt0 amt1 liq amount x y) in E; unfold is_u256 in *; try lia. assumption.
Qed.

(** ** the observer's view *)
(** [pays t0 t1 b tr b']: making the calls [tr] with balances [b] leaves [b'], and nothing was charged that the
    balances did not hold.  [t0], [t1] name the tokens. *)
Inductive pays (t0 t1 : string) : Z * Z -> trace -> Z * Z -> Prop :=
| pays_nil b : pays t0 t1 b [] b
| pays_burn b l u a r tr b' : pays t0 t1 b tr b' -> pays t0 t1 b ((OBurnStrategy l u a, r) :: tr) b'
| pays_collect a0 a1 l u x y tr b' :
    pays t0 t1 ((a0 + x) mod 2 ^ 256, (a1 + y) mod 2 ^ 256) tr b' -> pays t0 t1 (a0, a1) ((OCollectStrategy l u, (x, y)) :: tr) b'
| pays_mint a0 a1 l u a x y tr b' : 0 <= x <= a0 -> 0 <= y <= a1 ->
    pays t0 t1 (a0 - x, a1 - y) tr b' -> pays t0 t1 (a0, a1) ((OMintStrategy l u a, (x, y)) :: tr) b'
| pays_sell0 a0 a1 amount lim x out tr b' : 0 <= x <= amount -> amount <= a0 -> 0 <= out ->
    pays t0 t1 (a0 - x, (a1 + out) mod 2 ^ 256) tr b' -> pays t0 t1 (a0, a1) ((OExactInput amount t0 lim, (x, (- out) mod 2 ^ 256)) :: tr) b'
| pays_sell1 a0 a1 amount lim y out tr b' : 0 <= y <= amount -> amount <= a1 -> 0 <= out ->
    pays t0 t1 ((a0 + out) mod 2 ^ 256, a1 - y) tr b' -> pays t0 t1 (a0, a1) ((OExactInput amount t1 lim, ((- out) mod 2 ^ 256, y)) :: tr) b'.

Section Pays.
  Variables t0 t1 : string.
  Local Notation pays := (pays t0 t1).
  Lemma pays_app b tr b1 tr' b2 : pays b tr b1 -> pays b1 tr' b2 -> pays b (tr ++ tr') b2.
  Proof. induction 1; intros HX; cbn [app]; [assumption|constructor; auto..]. Qed.

  Definition bal (s : St) : Z * Z := (sAmount0 s, sAmount1 s).
  Definition funded (s : St) : Prop := is_u256 (sAmount0 s) /\ is_u256 (sAmount1 s).
  Definition paid (s : St) (tr : trace) (s' : St) : Prop := pays (bal s) tr (bal s') /\ funded s'.

  (** [m] leaves the price alone and pays from the balances of [s] *)
  Definition safe (s : St) (m : M St) : Prop := forall fuel p q t s', good p -> funded s -> runV fuel p m = Ok (q, t, s') -> slot q = slot p /\ paid s t s'.
  Lemma safe_id s : safe s (done s).
  Proof. intros fuel p q t s' HG HF E. unfold done in E. cbn [runV bind] in E. injection E as <- <- <-. split; [reflexivity|]. split; [constructor|assumption]. Qed.
  Lemma safe_seq s (m : M St) (f : St -> M St) : safe s m -> (forall s1, safe s1 (f s1)) -> safe s (mbind m f).
  Proof.
    intros H K fuel p q t s' HG HF. rewrite runV_bind. destruct (runV fuel p m) as [[[q1 t1'] s1]| |] eqn:E; cbn [bind]; try discriminate.
    destruct (runV fuel q1 (f s1)) as [[[q2 t2] s2]| |] eqn:E2; cbn [bind]; try discriminate. intros X. injection X as <- <- <-.
    destruct (H _ _ _ _ _ HG HF E) as (S1 & P1 & F1). destruct (K _ _ _ _ _ _ (good_slot _ _ S1 HG) F1 E2) as (S2 & P2 & F2).
    split; [congruence|]. split; [eapply pays_app; eassumption|assumption].
  Qed.
  Lemma safe_done s s' : bal s' = bal s -> safe s (done s').
  Proof.
    intros HB fuel p q t s2 HG HF E. unfold done in E. cbn [runV bind] in E. injection E as <- <- <-. split; [reflexivity|]. split; [rewrite HB; constructor|].
    unfold bal in HB. injection HB as H0 H1. unfold funded in *. now rewrite H0, H1.
  Qed.
  (** reads *)
  Definition reads {A} (m : M A) : Prop := forall fuel p q t a, runV fuel p m = Ok (q, t, a) -> q = p /\ t = [].
  Lemma reads_pure {A} (r : res A) : reads (pure r).
  Proof. intros fuel p q t a. unfold pure. cbn [runV]. destruct r; cbn [bind]; try discriminate. intros E. injection E as <- <- <-. auto. Qed.
  Lemma reads_look : reads look.
  Proof. intros fuel p q t a. unfold look, done. cbn [runV bind]. intros E. injection E as <- <- <-. auto. Qed.
  Lemma reads_done {A} (a : A) : reads (done a).
  Proof. intros fuel p q t b. unfold done. cbn [runV bind]. intros E. injection E as <- <- <-. auto. Qed.
  Lemma reads_bind {A B} (m : M A) (f : A -> M B) : reads m -> (forall a, reads (f a)) -> reads (mbind m f).
  Proof.
    intros H K fuel p q t b. rewrite runV_bind. destruct (runV fuel p m) as [[[q1 u] a]| |] eqn:E; cbn [bind]; try discriminate.
    destruct (runV fuel q1 (f a)) as [[[q2 u2] b2]| |] eqn:E2; cbn [bind]; try discriminate. intros X. injection X as <- <- <-.
    destruct (H _ _ _ _ _ E) as [-> ->]. destruct (K _ _ _ _ _ _ E2) as [-> ->]. auto.
  Qed.
  Lemma safe_reads {A} s (m : M A) (f : A -> M St) : reads m -> (forall a, safe s (f a)) -> safe s (mbind m f).
  Proof.
    intros H K fuel p q t b HG HF. rewrite runV_bind. destruct (runV fuel p m) as [[[q1 u] a]| |] eqn:E; cbn [bind]; try discriminate.
    destruct (runV fuel q1 (f a)) as [[[q2 u2] b2]| |] eqn:E2; cbn [bind]; try discriminate. intros X. injection X as <- <- <-.
    destruct (H _ _ _ _ _ E) as [-> ->]. exact (K _ _ _ _ _ _ HG HF E2).
  Qed.

  Lemma run_mintAmount fuel p s l u a q t s' : runV fuel p (mintAmount s l u a) = Ok (q, t, s') ->
    exists x y, MintStrategy p l u a = Ok (q, x, y) /\ t = [(OMintStrategy l u a, (x, y))] /\ bal s' = (usub (sAmount0 s) x, usub (sAmount1 s) y).
  Proof.
    unfold mintAmount, call, done. cbn [mbind runV apply]. destruct (MintStrategy p l u a) as [[[q1 x] y]| |]; cbn [bind]; try discriminate.
    intros E. injection E as <- <- <-. exists x, y. auto.
  Qed.
  Lemma run_liquidityFor fuel p s l u q t x : runV fuel p (liquidityFor s l u) = Ok (q, t, x) -> exists a b,
    q = p /\ t = [] /\ GetSqrtRatioAtTick l = Ok a /\ GetSqrtRatioAtTick u = Ok b /\ GetLiquidityForAmount (SqrtRatio p) a b (sAmount0 s) (sAmount1 s) = Ok x.
  Proof.
    unfold liquidityFor, pure, look, done. destruct (GetSqrtRatioAtTick l) as [a| |]; cbn [mbind runV bind]; try discriminate.
    destruct (GetSqrtRatioAtTick u) as [b| |]; cbn [mbind runV bind]; try discriminate. cbn [slPrice slot].
    destruct (GetLiquidityForAmount _ _ _ _ _) as [z| |] eqn:EL; cbn [bind]; try discriminate. intros E. injection E as <- <- <-. exists a, b. repeat split. exact EL.
  Qed.
  Lemma liq_nonneg p l u a b s liq : good p -> funded s -> GetSqrtRatioAtTick l = Ok a -> GetSqrtRatioAtTick u = Ok b ->
    GetLiquidityForAmount (SqrtRatio p) a b (sAmount0 s) (sAmount1 s) = Ok liq -> l < u -> 0 <= liq < T256.
  Proof.
    intros HG [F0 F1] EA EB EL Hlu.
    assert (MinTick <= l <= MaxTick) as Hl. { destruct (Z_le_dec MinTick l); [destruct (Z_le_dec l MaxTick); [lia|]|]; rewrite rat_panics in EA by lia; discriminate. }
    assert (MinTick <= u <= MaxTick) as Hu. { destruct (Z_le_dec MinTick u); [destruct (Z_le_dec u MaxTick); [lia|]|]; rewrite rat_panics in EB by lia; discriminate. }
    rewrite rat_ok in EA, EB by lia. injection EA as <-. injection EB as <-. destruct (range_order _ _ l u HG ltac:(lia) Hlu ltac:(lia)) as (O1 & O2 & O3 & _).
    apply (budget_ineqs (SqrtRatio p) (rat l) (rat u) (sAmount0 s) (sAmount1 s) liq); unfold is_u256 in *; try lia. assumption.
  Qed.
  Lemma mint_lt p l u a q x y : MintStrategy p l u a = Ok (q, x, y) -> l < u.
  Proof.
    intros E. unfold MintStrategy in E. apply bind_inv in E as ([] & _ & E). unfold modifyPositionStrategy in E. apply bind_inv in E as ([] & E1 & _).
    now apply checkTicks_inv in E1.
  Qed.
  (** the three ways of minting *)
  Lemma mint_paid fuel p s l u a b liq amount q t s' : good p -> funded s -> GetSqrtRatioAtTick l = Ok a -> GetSqrtRatioAtTick u = Ok b ->
    GetLiquidityForAmount (SqrtRatio p) a b (sAmount0 s) (sAmount1 s) = Ok liq -> (0 <= liq -> 0 <= amount <= liq) ->
    runV fuel p (mintAmount s l u amount) = Ok (q, t, s') -> slot q = slot p /\ paid s t s'.
  Proof.
    intros HG HF EA EB EL Ham E. apply run_mintAmount in E as (x & y & E & -> & HB).
    assert (0 <= amount <= liq) as Ham'. { apply Ham. apply (liq_nonneg p l u a b s liq HG HF EA EB EL). now apply mint_lt in E. }
    destruct (mint_budget p l u a b (sAmount0 s) (sAmount1 s) liq amount q x y HG (proj1 HF) (proj2 HF) EA EB EL Ham' E) as (HS & Hx & Hy).
    split; [assumption|]. destruct HF as [F0 F1]. unfold is_u256 in F0, F1.
    assert (usub (sAmount0 s) x = sAmount0 s - x) as U0 by (unfold usub; apply Z.mod_small; lia).
    assert (usub (sAmount1 s) y = sAmount1 s - y) as U1 by (unfold usub; apply Z.mod_small; lia).
    rewrite U0, U1 in HB. split.
    - rewrite HB. constructor; [assumption..|]. constructor.
    - unfold bal in HB. injection HB as H0 H1. unfold funded, is_u256. rewrite H0, H1. lia.
  Qed.
  Lemma safe_mint s l u (f : Z -> M St) :
    (forall liq, (exists amount, f liq = mintAmount s l u amount /\ (0 <= liq -> 0 <= amount <= liq)) \/ f liq = done s) ->
    safe s (mbind (liquidityFor s l u) f).
  Proof.
    intros H fuel p q t s' HG HF. rewrite runV_bind. destruct (runV fuel p (liquidityFor s l u)) as [[[q1 u1] liq]| |] eqn:E; cbn [bind]; try discriminate.
    apply run_liquidityFor in E as (a & b & -> & -> & EA & EB & EL).
    destruct (runV fuel p (f liq)) as [[[q2 u2] b2]| |] eqn:E2; cbn [bind]; try discriminate. intros X. injection X as <- <- <-. cbn [app].
    destruct (H liq) as [(amount & Ef & Ham)|Ef]; rewrite Ef in E2; [|now apply safe_id in E2].
    now apply (mint_paid fuel p s l u a b liq amount).
  Qed.
  Lemma safe_mintPosition s l u : safe s (mintPosition s l u).
  Proof. apply safe_mint. intros liq. destruct (liq =? 0); [now right|]. left. exists liq. split; [reflexivity|lia]. Qed.
  Lemma safe_mintUnchecked s l u : safe s (mintUnchecked s l u).
  Proof. apply safe_mint. intros liq. left. exists liq. split; [reflexivity|lia]. Qed.
  Lemma safe_mintHalf s l u : safe s (mintHalf s l u).
  Proof.
    apply safe_mint. intros liq. cbv zeta. destruct (_ =? 0); [now right|]. left. exists (udiv liq 2). split; [reflexivity|].
    intros H. unfold udiv. cbn [Z.eqb]. split; [apply Z.div_pos; lia|]. apply Z.div_le_upper_bound; lia.
  Qed.
  Lemma safe_twoInterval a b s : safe s (twoIntervalPositions a b s).
  Proof.
    unfold twoIntervalPositions. apply safe_reads; [apply reads_look|]. intros p. cbv zeta. destruct (around _ _ _) as [l u].
    apply safe_seq; [apply safe_mintPosition|]. intros s1. apply safe_seq.
    - destruct (negb _); [|apply safe_id]. apply safe_reads; [apply reads_look|]. intros p'. apply safe_mintPosition.
    - intros s2. destruct (negb _); [|apply safe_id]. apply safe_reads; [apply reads_look|]. intros p'. apply safe_mintPosition.
  Qed.
  Lemma safe_fillUp s sp l u : safe s (fillUp s sp l u).
  Proof.
    unfold fillUp. destruct (negb (sAmount0 s =? 0)); [|destruct (negb _); [|apply safe_id]];
      (apply safe_reads; [apply reads_look|]; intros p; cbv zeta; destruct (_ <? _); [apply safe_mintPosition|apply safe_id]).
  Qed.
  Lemma safe_fillUpPositions w s : safe s (fillUpPositions w s).
  Proof.
    unfold fillUpPositions. apply safe_reads; [apply reads_look|]. intros p. destruct (around _ _ _) as [l u].
    apply safe_seq; [apply safe_mintPosition|]. intros s1. apply safe_fillUp.
  Qed.
  Lemma safe_limitOrder w s : safe s (limitOrderPositions w s).
  Proof.
    unfold limitOrderPositions. apply safe_reads; [apply reads_look|]. intros p. cbv zeta. destruct (around _ _ _) as [l u].
    apply safe_seq; [apply safe_mintPosition|]. intros s1. apply safe_seq.
    - destruct (negb _); [|apply safe_id]. apply safe_reads; [apply reads_look|]. intros p'. cbv zeta.
      apply safe_seq; [apply safe_mintHalf|]. intros s2. apply safe_done. reflexivity.
    - intros s2. destruct (negb _); [|apply safe_id]. apply safe_reads; [apply reads_look|]. intros p'. cbv zeta.
      apply safe_seq; [apply safe_mintHalf|]. intros s3. apply safe_done. reflexivity.
  Qed.
  Ltac readss := repeat first [apply reads_pure | apply reads_look | apply reads_done | apply reads_bind; [|intros ?]].
  Lemma reads_volatility m s : reads (volatilityTicks m s).
  Proof. unfold volatilityTicks. readss. Qed.
  Lemma reads_bollinger m s : reads (bollingerTicks m s).
  Proof. unfold bollingerTicks. readss. Qed.
  Lemma reads_average m s : reads (averageTicks m s).
  Proof. unfold averageTicks. readss. Qed.
  Lemma safe_mintAt g s : (forall s, reads (g s)) -> safe s (mintAt g s).
  Proof. intros H. unfold mintAt. apply safe_reads; [apply H|]. intros t. apply safe_mintPosition. Qed.
  Lemma safe_mintAround w mint s : (forall s l u, safe s (mint s l u)) -> safe s (mintAround w mint s).
  Proof. intros H. unfold mintAround. apply safe_reads; [apply reads_look|]. intros p. destruct (around _ _ _). apply H. Qed.
  Lemma safe_bollingerFillUp m s : safe s (bollingerFillUp m s).
  Proof.
    unfold bollingerFillUp. apply safe_reads; [apply reads_bollinger|]. intros [l u]. apply safe_seq; [apply safe_mintPosition|].
    intros s1. apply safe_reads; [apply reads_look|]. intros p. destruct (_ && _); [apply safe_fillUp|apply safe_id].
  Qed.

  Definition swaps (k : Kind) : bool := match k with IntervalAroundPriceAndSwap _ => true | _ => false end.
  Lemma safe_initPositions k s : swaps k = false -> safe s (initPositions k s).
  Proof.
    destruct k; intros HK; cbn [initPositions].
    - apply safe_twoInterval.
    - apply safe_mintAt, reads_bollinger.
    - apply safe_mintAt, reads_bollinger.
    - apply safe_reads; [apply reads_look|]. intros p. destruct (around _ _ _) as [l u]. exact (safe_mintUnchecked (with_range s l u) l u).
    - apply safe_fillUpPositions.
    - apply safe_mintAt, reads_average.
    - apply safe_mintAround, safe_mintUnchecked.
    - apply safe_limitOrder.
    - apply safe_id.
    - discriminate.
    - apply safe_mintPosition.
    - apply safe_mintAt, reads_volatility.
  Qed.
  Lemma safe_rebalancePositions k s : swaps k = false -> safe s (rebalancePositions k s).
  Proof.
    destruct k; intros HK; cbn [rebalancePositions].
    - apply safe_twoInterval.
    - apply safe_mintAt, reads_bollinger.
    - apply safe_bollingerFillUp.
    - apply safe_mintPosition.
    - apply safe_fillUpPositions.
    - apply safe_mintAt, reads_average.
    - apply safe_mintAround, safe_mintPosition.
    - apply safe_limitOrder.
    - apply safe_id.
    - discriminate.
    - apply safe_mintPosition.
    - apply safe_mintAt, reads_volatility.
  Qed.
  Lemma safe_burnPositions l : forall s, safe s (burnPositions l s).
  Proof.
    induction l as [|x l IH]; intros s; cbn [burnPositions]; [apply safe_id|].
    intros fuel p q t s' HG HF. unfold call, done. cbn [mbind runV apply].
    destruct (BurnStrategy p _ _ _) as [[[p1 x0] x1]| |] eqn:E1; cbn [bind]; try discriminate.
    destruct (CollectStrategy p1 _ _) as [[[p2 c0] c1]| |] eqn:E2; cbn [bind]; try discriminate. cbn [fst snd].
    destruct (runV fuel p2 _) as [[[q2 t2] s2]| |] eqn:E3; cbn [bind]; try discriminate. intros E. injection E as <- <- <-.
    apply burn_slot in E1. apply collect_slot in E2. assert (slot p2 = slot p) as E4 by congruence.
    apply IH in E3; [|eapply good_slot; eassumption|split; apply uadd_u]. destruct E3 as (S & P & F). split; [congruence|]. split; [|assumption].
    constructor. constructor. exact P.
  Qed.
End Pays.

(** ** the strategy that swaps *)
Lemma run_swapAndMint fuel p s l u q t s' : runV fuel p (swapAndMint s l u) = Ok (q, t, s') ->
  exists a b liq x y z half, GetSqrtRatioAtTick l = Ok a /\ GetSqrtRatioAtTick u = Ok b /\
    GetLiquidityForAmount (SqrtRatio p) a b (sAmount0 s) (sAmount1 s) = Ok liq /\ GetAmountsForLiquidity (SqrtRatio p) a b liq = Ok (x, y) /\
    z = (usub (sAmount1 s) y <? ulsh (usub (sAmount0 s) x) 9) /\ half = udiv (if z : bool then usub (sAmount0 s) x else usub (sAmount1 s) y) 2 /\
    if usign half =? 1 then
      exists p1 r0 r1 s1 t2 liq2,
        ExactInputSwap fuel p half (if z then Token0 p else Token1 p) 0 = Ok (p1, r0, r1) /\
        s1 = with_amounts s (usub (sAmount0 s) r0) (usub (sAmount1 s) r1) /\
        GetLiquidityForAmount (SqrtRatio p1) a b (sAmount0 s1) (sAmount1 s1) = Ok liq2 /\
        runV fuel p1 (mintAmount s1 l u liq2) = Ok (q, t2, s') /\
        t = (OExactInput half (if z then Token0 p else Token1 p) 0, (r0, r1)) :: t2
    else runV fuel p (mintAmount s l u liq) = Ok (q, t, s').
Proof.
  unfold swapAndMint, pure, look. destruct (GetSqrtRatioAtTick l) as [a| |]; cbn [mbind runV bind]; try discriminate.
  destruct (GetSqrtRatioAtTick u) as [b| |]; cbn [mbind runV bind]; try discriminate. unfold done at 1. cbn [mbind slPrice slot].
  destruct (GetLiquidityForAmount _ _ _ _ _) as [liq| |] eqn:EL; cbn [mbind runV bind]; try discriminate.
  destruct (GetAmountsForLiquidity _ _ _ _) as [[x y]| |] eqn:EX; cbn [mbind runV bind]; try discriminate. cbv zeta. cbn [fst snd].
  intros E. exists a, b, liq, x, y. do 2 eexists. split; [reflexivity|]. split; [reflexivity|]. split; [exact EL|]. split; [exact EX|]. split; [reflexivity|]. split; [reflexivity|].
  assert (forall z half,
    runV fuel p (act s1 <- (if usign half =? 1 then
         act p <- look;
         act r <- call (OExactInput half (if z : bool then slToken0 p else slToken1 p) 0);
         done (with_amounts s (usub (sAmount0 s) (fst r)) (usub (sAmount1 s) (snd r)))
       else done s);
     act p <- look;
     act amount <- pure (GetLiquidityForAmount (slPrice p) a b (sAmount0 s1) (sAmount1 s1));
     mintAmount s1 l u amount) = Ok (q, t, s') ->
    if usign half =? 1 then
      exists p1 r0 r1 s1 t2 liq2,
        ExactInputSwap fuel p half (if z then Token0 p else Token1 p) 0 = Ok (p1, r0, r1) /\
        s1 = with_amounts s (usub (sAmount0 s) r0) (usub (sAmount1 s) r1) /\
        GetLiquidityForAmount (SqrtRatio p1) a b (sAmount0 s1) (sAmount1 s1) = Ok liq2 /\
        runV fuel p1 (mintAmount s1 l u liq2) = Ok (q, t2, s') /\
        t = (OExactInput half (if z then Token0 p else Token1 p) 0, (r0, r1)) :: t2
    else runV fuel p (mintAmount s l u liq) = Ok (q, t, s')) as K.
  { clear E. intros z half E. destruct (usign half =? 1) eqn:Es.
    - unfold look, call, done, pure in E. cbn [mbind runV apply] in E. cbn [slot slToken0 slToken1] in E.
      destruct (ExactInputSwap _ _ _ _ _) as [[[p1 r0] r1]| |] eqn:EI; cbn [bind] in E; try discriminate. cbn [mbind runV fst snd] in E.
      destruct (GetLiquidityForAmount (slPrice (slot p1)) _ _ _ _) as [liq2| |] eqn:EL2; cbn [mbind runV bind] in E; try discriminate.
      destruct (runV fuel p1 (mintAmount _ _ _ _)) as [[[q2 t2] s2]| |] eqn:EM; cbn [bind] in E; try discriminate. injection E as <- <- <-.
      exists p1, r0, r1. do 3 eexists. split; [reflexivity|]. split; [reflexivity|]. split; [exact EL2|]. split; [exact EM|reflexivity].
    - unfold look, done, pure in E. cbn [mbind runV] in E. cbn [slot slPrice] in E. rewrite EL in E. cbn [mbind] in E. exact E. }
  destruct (_ <? _); [apply (K true)|apply (K false)]; exact E.
Qed.

(** what the swapping strategy would put in without swapping is within its means *)
Lemma noSwap_within p l u s a b liq x y : good p -> funded s -> l < u -> GetSqrtRatioAtTick l = Ok a -> GetSqrtRatioAtTick u = Ok b ->
  GetLiquidityForAmount (SqrtRatio p) a b (sAmount0 s) (sAmount1 s) = Ok liq -> GetAmountsForLiquidity (SqrtRatio p) a b liq = Ok (x, y) ->
  0 <= x <= sAmount0 s /\ 0 <= y <= sAmount1 s.
Proof.
  intros HG [F0 F1] Hlu EA EB EL EX.
      assert (MinTick <= l <= MaxTick) as Hl. { destruct (Z_le_dec MinTick l); [destruct (Z_le_dec l MaxTick); [lia|]|]; rewrite rat_panics in EA by lia; discriminate. }
      assert (MinTick <= u <= MaxTick) as Hu. { destruct (Z_le_dec MinTick u); [destruct (Z_le_dec u MaxTick); [lia|]|]; rewrite rat_panics in EB by lia; discriminate. }
      rewrite rat_ok in EA, EB by lia. injection EA as <-. injection EB as <-. destruct (range_order _ _ l u HG ltac:(lia) Hlu ltac:(lia)) as (O1 & O2 & O3 & _).
      assert (is_u256 x /\ is_u256 y) as [U0 U1].
      { unfold GetAmountsForLiquidity, ordered in EX. replace (rat u <? rat l) with false in EX by lia. rewrite !getAmount0_eq in EX by lia. rewrite !getAmount1_eq in EX.
        assert (is_u256 0) as Z0 by (split; reflexivity).
        destruct (_ <=? _); [|destruct (_ <? _)].
        - apply bind_inv in EX as (x' & E0 & EX). injection EX as -> <-. split; [|assumption]. eapply amount0_u; [| |exact E0]; lia.
        - apply bind_inv in EX as (x' & E0 & EX). apply bind_inv in EX as (y' & E1 & EX). injection EX as -> ->. split; [eapply amount0_u; [| |exact E0]; lia|eapply amount1_u; exact E1].
        - apply bind_inv in EX as (x' & E0 & EX). injection EX as <- ->. split; [assumption|]. eapply amount1_u; exact E0. }
      unfold is_u256 in *. pose proof (budget_amounts (SqrtRatio p) (rat l) (rat u) (sAmount0 s) (sAmount1 s) liq x y ltac:(lia) ltac:(lia) ltac:(lia) ltac:(lia) ltac:(lia) EL EX). lia.
Qed.

Lemma swap_paid fuel p s l u q t s' h : poolOK h p -> Token0 p <> Token1 p -> funded s ->
  runV fuel p (swapAndMint s l u) = Ok (q, t, s') -> paid (Token0 p) (Token1 p) s t s'.
Proof.
  intros HP HT HF E. apply run_swapAndMint in E as (a & b & liq & x & y & z & half & EA & EB & EL & EX & _ & Eh & E).
  assert (good p) as HG by apply HP. pose proof HF as [F0 F1].
  destruct (usign half =? 1) eqn:Es.
  2: { eapply mint_paid in E; [apply E|eassumption..|]. lia. }
  destruct E as (p1 & r0 & r1 & s1 & t2 & liq2 & EI & Es1 & EL2 & EM & ->).
  - assert (l < u) as Hlu. { apply run_mintAmount in EM as (x' & y' & EM & _). now apply mint_lt in EM. }
    destruct (noSwap_within p l u s a b liq x y HG HF Hlu EA EB EL EX) as [[Hx0 Hx] [Hy0 Hy]].
    assert (0 <= half /\ half <= (if z then sAmount0 s else sAmount1 s)) as [Hh0 Hh].
    { subst half. unfold is_u256, usub in *. unfold udiv. cbn [Z.eqb]. destruct z; rewrite Z.mod_small by lia.
      all: split; [apply Z.div_pos; lia|apply Z.div_le_upper_bound; lia]. }
    assert (is_u256 half) as Hu by (unfold is_u256 in *; destruct z; lia).
    apply usign_1 in Es; [|assumption].
    unfold ExactInputSwap in EI. assert (String.eqb (if z then Token0 p else Token1 p) (Token0 p) = z) as Ez.
    { destruct z; [apply String.eqb_refl|]. apply String.eqb_neq. congruence. }
    rewrite Ez in EI. pose proof (swap_ok h p z half 0 HP Hu fuel p1 r0 r1 EI) as (HP1 & _).
    destruct (swap_amounts h p z half 0 HP Hu fuel p1 r0 r1 EI) as (inp & out & Er & Hi & Ho & Hr).
    replace (half <? T255) with true in Hr by lia. destruct Hr as (Hr & _ & Hout).
    assert (funded s1) as HF1 by (subst s1; split; apply usub_u).
    eapply mint_paid with (t0 := Token0 p) (t1 := Token1 p) in EM; [|apply HP1|exact HF1|exact EA|exact EB|exact EL2|lia]. destruct EM as (_ & PM & FM).
    split; [|assumption]. subst s1. unfold bal in *. cbn [sAmount0 sAmount1 with_amounts] in PM.
    assert (forall c, usub c (uneg out) = (c + out) mod 2 ^ 256) as KO.
    { intros c. unfold usub, uneg. rewrite Zminus_mod_idemp_r. f_equal. lia. }
    assert (forall c, is_u256 c -> inp <= c -> usub c inp = c - inp) as KI by (intros c Hc Hi2; unfold is_u256, usub in *; apply Z.mod_small; lia).
    destruct z; destruct Er as [-> ->]; rewrite KO, KI in PM by (assumption || lia); [apply pays_sell0|apply pays_sell1]; (assumption || lia).
Qed.

(** the positions of [l] are backed by the ledger *)
Definition backed (h : hist) (l : list Position) : Prop :=
  (forall lo up, sumOf (recorded lo up) l <= minted h lo up) /\ (forall x, In x l -> 0 < poAmount x).
Lemma minted_cons l u a h lo up : minted (mkE l u a :: h) lo up = (if (l =? lo) && (u =? up) then a else 0) + minted h lo up.
Proof. unfold minted. cbn [sumOn eLower eUpper eDelta]. destruct (_ && _); cbn [ind]; lia. Qed.
Lemma sum_nonneg lo up l : (forall x, In x l -> 0 < poAmount x) -> 0 <= sumOf (recorded lo up) l.
Proof.
  induction l as [|x l IH]; intros H; cbn [sumOf fold_right]; [lia|]. specialize (IH (fun y Hy => H y (or_intror Hy))). unfold sumOf in IH.
  specialize (H x (or_introl eq_refl)). unfold recorded at 1. destruct (_ && _); lia.
Qed.
Lemma burnPositions_ok fuel l : forall h p s q t s', poolOK h p -> backed h l -> runV fuel p (burnPositions l s) = Ok (q, t, s') ->
  exists h', poolOK h' q /\ Token0 q = Token0 p /\ Token1 q = Token1 p.
Proof.
  induction l as [|x l IH]; intros h p s q t s' HP [HB HA] E; cbn [burnPositions] in E.
  - unfold done in E. cbn [runV bind] in E. injection E as <- _ _. eauto.
  - unfold call, done in E. cbn [mbind runV apply] in E.
    destruct (BurnStrategy p _ _ _) as [[[p1 x0] x1]| |] eqn:E1; cbn [bind] in E; try discriminate.
    destruct (CollectStrategy p1 _ _) as [[[p2 c0] c1]| |] eqn:E2; cbn [bind fst snd] in E; try discriminate.
    destruct (runV fuel p2 _) as [[[q2 t2] s2]| |] eqn:E3; cbn [bind] in E; try discriminate. injection E as <- <- <-.
    pose proof (HA x (or_introl eq_refl)) as Hx. pose proof (sum_nonneg (poLower x) (poUpper x) l (fun y Hy => HA y (or_intror Hy))) as Hn.
    pose proof (HB (poLower x) (poUpper x)) as Hm. cbn [sumOf fold_right] in Hm. unfold recorded at 1 in Hm. rewrite !Z.eqb_refl in Hm. cbn [andb] in Hm. fold (sumOf (recorded (poLower x) (poUpper x)) l) in Hm.
    destruct (burnS_ok h p (poLower x) (poUpper x) (poAmount x) p1 x0 x1 HP) as [HP1 (S1 & S2 & _)]; [cbn [allowed]; lia|exact E1|].
    assert (poolOK (mkE (poLower x) (poUpper x) (- poAmount x) :: h) p2 /\ Token0 p2 = Token0 p1 /\ Token1 p2 = Token1 p1) as (HP2 & T0 & T1).
    { unfold CollectStrategy in E2. destruct (posGet _ _); [|discriminate]. injection E2 as <- _ _. split; [now apply poolOK_with_pos|]. cbn. auto. }
    assert (backed (mkE (poLower x) (poUpper x) (- poAmount x) :: h) l) as HB2.
    { split; [|intros y Hy; apply HA; now right]. intros lo up. rewrite minted_cons. specialize (HB lo up). cbn [sumOf fold_right] in HB. unfold recorded at 1 in HB.
      fold (sumOf (recorded lo up) l) in HB. rewrite (Z.eqb_sym (poLower x)), (Z.eqb_sym (poUpper x)). destruct (_ && _); lia. }
    destruct (IH _ _ _ _ _ _ HP2 HB2 E3) as (h' & HQ & Q0 & Q1).
    exists h'. split; [assumption|]. split; congruence.
Qed.

Lemma idle_or k : k = NoProvision \/ k <> NoProvision.
Proof. destruct k; first [now left|now right]. Qed.
(** ** C60 *)
Lemma init_pays h p k s fuel q tr r : reach h p -> Token0 p <> Token1 p -> is_u256 (sAmount0 s) -> is_u256 (sAmount1 s) ->
  runV fuel p (Init k s) = Ok (q, tr, r) ->
  pays (Token0 p) (Token1 p) (sAmount0 s, sAmount1 s) tr (sAmount0 (fst r), sAmount1 (fst r)).
Proof.
  intros R HT H0 H1. unfold Init. rewrite runV_bind. destruct (runV fuel p (initPositions k s)) as [[[q1 t1] s1]| |] eqn:E; cbn [bind]; try discriminate.
  unfold done. cbn [runV bind]. intros X. injection X as <- <- <-. rewrite app_nil_r. cbn [fst].
  pose proof (reach_ok h p R) as HP. assert (funded s) as HF by (split; assumption). assert (good p) as HG by apply HP.
  destruct (swaps k) eqn:HK.
  - destruct k; try discriminate. cbn [initPositions] in E. unfold mintAround, look, done in E. cbn [mbind runV] in E. destruct (around _ _ _) as [l u].
    now apply (swap_paid fuel p s l u q1 t1 s1 h) in E as [P _].
  - apply (safe_initPositions (Token0 p) (Token1 p) k s HK) in E; [apply E|assumption..].
Qed.
Lemma rebalance_pays h p k s fuel q tr r : reach h p -> Token0 p <> Token1 p -> is_u256 (sAmount0 s) -> is_u256 (sAmount1 s) ->
  match k with IntervalAroundPriceAndSwap _ => backed h (sPositions s) | _ => True end ->
  runV fuel p (Rebalance k s) = Ok (q, tr, r) ->
  pays (Token0 p) (Token1 p) (sAmount0 s, sAmount1 s) tr (sAmount0 (fst r), sAmount1 (fst r)).
Proof.
  intros R HT H0 H1 HB E. destruct (idle_or k) as [->|HN].
  { cbn in E. injection E as <- <- <-. constructor. }
  assert (runV fuel p (act r <- burnReset s; act s <- rebalancePositions k (fst r); done (s, Some (snd r))) = Ok (q, tr, r)) as E' by (destruct k; first [exact E|congruence]).
  clear E. unfold burnReset in E'. rewrite !runV_bind in E'. destruct (runV fuel p (burnPositions (sPositions s) s)) as [[[q1 t1] s1]| |] eqn:E1; cbn [bind] in E'; try discriminate.
  unfold done in E' at 1. cbn [runV bind fst snd] in E'. rewrite runV_bind in E'.
  destruct (runV fuel q1 (rebalancePositions k _)) as [[[q2 t2] s2]| |] eqn:E2; cbn [bind] in E'; try discriminate.
  unfold done in E'. cbn [runV bind] in E'. injection E' as <- <- <-. rewrite !app_nil_r. cbn [fst].
  pose proof (reach_ok h p R) as HP. assert (funded s) as HF by (split; assumption). assert (good p) as HG by apply HP.
  pose proof (safe_burnPositions (Token0 p) (Token1 p) _ _ _ _ _ _ _ HG HF E1) as (S1 & P1 & F1).
  eapply pays_app; [exact P1|]. change (bal s1) with (bal (with_positions s1 [])). 
  destruct (swaps k) eqn:HK.
  - destruct k; try discriminate. destruct (burnPositions_ok fuel _ h p s q1 t1 s1 HP HB E1) as (h' & HQ & Q0 & Q1).
    cbn [rebalancePositions] in E2. unfold mintAround, look, done in E2. cbn [mbind runV] in E2. destruct (around _ _ _) as [l u].
    apply (swap_paid fuel q1 _ l u q2 t2 s2 h') in E2 as [P _]; [rewrite Q0, Q1 in P; exact P|assumption|congruence|exact F1].
  - apply (safe_rebalancePositions (Token0 p) (Token1 p) k _ HK) in E2; [apply E2|eapply good_slot; eassumption|exact F1].
Qed.

(** ** C61: the snapshot counts what burning would pay *)
Lemma burn_pays p l u a q x y : good p -> 0 < a < T255 -> BurnStrategy p l u a = Ok (q, x, y) ->
  exists A B, GetSqrtRatioAtTick l = Ok A /\ GetSqrtRatioAtTick u = Ok B /\ GetAmountsForLiquidity (SqrtRatio p) A B a = Ok (x, y).
Proof.
  intros HG Ha E. unfold BurnStrategy in E. apply bind_inv in E as (((p1 & x') & y') & E1 & E).
  destruct (posGet _ _); [|discriminate]. injection E as _ <- <-.
  rewrite modifyPositionStrategy_eq in E1 by (rewrite uneg_small by lia; lia). apply bind_inv in E1 as ([] & Hc & E1). apply bind_inv in E1 as ((p2 & pos) & _ & E1).
  apply bind_inv in E1 as ((x2 & y2) & E1 & E2). cbn [fst snd] in E2. injection E2 as _ -> ->.
  apply checkTicks_inv in Hc as (Hlu & Hmin & Hmax). exists (rat l), (rat u). rewrite !rat_ok by lia. split; [reflexivity|]. split; [reflexivity|].
  now apply (burn_amounts (TickCurrent p) (SqrtRatio p)).
Qed.

(** what the burn calls of a trace returned, and what was collected beyond that *)
Definition burnt0 (c : op * (Z * Z)) : Z := match fst c with OBurnStrategy _ _ _ => fst (snd c) | _ => 0 end.
Definition burnt1 (c : op * (Z * Z)) : Z := match fst c with OBurnStrategy _ _ _ => snd (snd c) | _ => 0 end.
Lemma uadd_mod a b c : (uadd a b + c) mod T256 = (a + (b + c)) mod T256.
Proof. unfold uadd. rewrite Zplus_mod_idemp_l. f_equal. lia. Qed.
Lemma snapshot_burn l : forall s fuel p q tr s' fuel' a0 a1, good p -> (forall x, In x l -> 0 < poAmount x < 2 ^ 255) -> is_u256 a0 -> is_u256 a1 ->
  runV fuel p (burnPositions l s) = Ok (q, tr, s') ->
  runV fuel' p (sumPositions l a0 a1) = Ok (p, [], ((a0 + sumOf burnt0 tr) mod T256, (a1 + sumOf burnt1 tr) mod T256)).
Proof.
  induction l as [|x l IH]; intros s fuel p q tr s' fuel' a0 a1 HG HA H0 H1 E; cbn [burnPositions sumPositions] in *.
  - unfold done in *. cbn [runV bind] in *. injection E as <- <- <-. cbn [sumOf fold_right]. rewrite !Z.add_0_r. unfold is_u256 in *. now rewrite !Z.mod_small by lia.
  - unfold call, done in E. cbn [mbind runV apply] in E.
    destruct (BurnStrategy p _ _ _) as [[[p1 x0] x1]| |] eqn:E1; cbn [bind] in E; try discriminate.
    destruct (CollectStrategy p1 _ _) as [[[p2 c0] c1]| |] eqn:E2; cbn [bind fst snd] in E; try discriminate.
    destruct (runV fuel p2 _) as [[[q2 t2] s2]| |] eqn:E3; cbn [bind] in E; try discriminate. injection E as <- <- <-.
    pose proof (burn_slot _ _ _ _ _ _ _ E1) as S1. pose proof (collect_slot _ _ _ _ _ _ E2) as S2.
    destruct (burn_pays _ _ _ _ _ _ _ HG (HA x (or_introl eq_refl)) E1) as (A & B & EA & EB & EX).
    unfold pure, look, done. rewrite EA. cbn [mbind]. rewrite EB. cbn [mbind runV]. cbn [slot slPrice]. rewrite EX. cbn [mbind fst snd].
    assert (good p2) as HG2 by (eapply good_slot; [|exact HG]; congruence).
    specialize (IH _ _ _ _ _ _ fuel' (uadd a0 x0) (uadd a1 x1) HG2 (fun y Hy => HA y (or_intror Hy)) (uadd_u _ _) (uadd_u _ _) E3).
    assert (forall l a b r, runV fuel' p2 (sumPositions l a b) = Ok (p2, [], r) -> runV fuel' p (sumPositions l a b) = Ok (p, [], r)) as K.
    { assert (slot p2 = slot p) as ES by congruence. clear - ES. induction l as [|x l IH]; intros a b r; cbn [sumPositions].
      - unfold done. cbn [runV bind]. intros E. injection E as <-. reflexivity.
      - unfold pure, look, done. destruct (GetSqrtRatioAtTick (poLower x)); cbn [mbind runV bind]; try discriminate.
        destruct (GetSqrtRatioAtTick (poUpper x)); cbn [mbind runV bind]; try discriminate. rewrite ES.
        destruct (GetAmountsForLiquidity _ _ _ _); cbn [mbind runV bind]; try discriminate. apply IH. }
    apply K in IH. rewrite IH. cbn [sumOf fold_right]. change (burnt0 (OBurnStrategy (poLower x) (poUpper x) (poAmount x), (x0, x1))) with x0.
    change (burnt1 (OBurnStrategy (poLower x) (poUpper x) (poAmount x), (x0, x1))) with x1.
    change (burnt0 (OCollectStrategy (poLower x) (poUpper x), (c0, c1))) with 0. change (burnt1 (OCollectStrategy (poLower x) (poUpper x), (c0, c1))) with 0.
    fold (sumOf burnt0 t2). fold (sumOf burnt1 t2). rewrite !uadd_mod. reflexivity.
Qed.

Lemma snapshot_value h p k s fuel q tr r fuel' : reach h p -> is_u256 (sAmount0 s) -> is_u256 (sAmount1 s) ->
  (forall x, In x (sPositions s) -> 0 < poAmount x < 2 ^ 255) ->
  runV fuel p (BurnAll k s) = Ok (q, tr, r) ->
  runV fuel' p (GetAmounts k s) = Ok (p, [], ((sAmount0 s + sumOf burnt0 tr) mod 2 ^ 256, (sAmount1 s + sumOf burnt1 tr) mod 2 ^ 256)).
Proof.
  intros R H0 H1 HA E. assert (good p) as HG by apply (reach_ok h p R). destruct (idle_or k) as [->|HN].
  - cbn [BurnAll GetAmounts] in *. unfold done in *. cbn [runV bind] in *. injection E as <- <- <-. cbn [sumOf fold_right]. rewrite !Z.add_0_r.
    unfold is_u256 in *. change (2 ^ 256) with T256. now rewrite !Z.mod_small by lia.
  - assert (exists s', runV fuel p (burnPositions (sPositions s) s) = Ok (q, tr, s')) as (s' & E').
    { assert (forall (f : St -> St * (Z * Z)), runV fuel p (act s <- burnPositions (sPositions s) s; done (f s)) = Ok (q, tr, r) ->
        exists s', runV fuel p (burnPositions (sPositions s) s) = Ok (q, tr, s')) as K.
      { intros f. rewrite runV_bind. destruct (runV fuel p (burnPositions _ _)) as [[[q1 t1] s1]| |]; cbn [bind]; try discriminate. unfold done. cbn [runV bind].
        intros X. injection X as X1 X2 _. rewrite app_nil_r in X2. subst. eauto. }
      destruct k; cbn [BurnAll] in E; unfold burnKeep, burnReset in E; first [congruence|eapply K; exact E]. }
    assert (runV fuel' p (act r <- sumPositions (sPositions s) 0 0; done (uadd (fst r) (sAmount0 s), uadd (snd r) (sAmount1 s))) =
      Ok (p, [], ((sAmount0 s + sumOf burnt0 tr) mod 2 ^ 256, (sAmount1 s + sumOf burnt1 tr) mod 2 ^ 256))) as G.
    { rewrite runV_bind, (snapshot_burn _ s fuel p q tr s' fuel' 0 0 HG HA ltac:(split; reflexivity) ltac:(split; reflexivity) E'). cbn [bind]. unfold done. cbn [runV bind fst snd app].
      unfold uadd. rewrite !Zplus_mod_idemp_l, !Z.add_0_l, (Z.add_comm (sumOf burnt0 tr)), (Z.add_comm (sumOf burnt1 tr)). reflexivity. }
    destruct k; cbn [GetAmounts]; first [congruence|exact G].
Qed.
