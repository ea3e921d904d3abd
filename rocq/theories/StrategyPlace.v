(** StrategyPlace.v -- where the strategies place their liquidity. *)
From Coq Require Import String ZifyBool.
From Verif Require Import Base U256Z SwapMath TickMath TickMathFacts TickAccuracy Float64 Float64Facts TickData TickDataFacts Ledger Pool PoolInv PoolOps PoolHist PoolSpec
  Prices Client Strategy StrategyFacts StrategyBudget.
Ltac Zify.zify_post_hook ::= idtac.
Open Scope Z_scope.

(** multiples of the spacing: nearest to [x], next at or above, next at or below *)
Definition nearest (sp x r : Z) : Prop := r mod sp = 0 /\ 2 * Z.abs (r - x) <= sp.
Definition above (sp x r : Z) : Prop := r mod sp = 0 /\ r - sp < x <= r.
Definition below (sp x r : Z) : Prop := r mod sp = 0 /\ r <= x < r + sp.
(** the tick of a price, and the end of the scale beyond it *)
Definition tickOf (price t : Z) : Prop := exists r s, GetSqrtRatioAtTick t = Ok r /\ GetSqrtRatioAtTick (t + 1) = Ok s /\ r <= price < s.
Definition bandLow (price t : Z) : Prop := if price <? 4295128739 then t = -887272 else tickOf price t.
Definition bandHigh (price t : Z) : Prop :=
  if 1461446703485210103287273052203988822378723970342 <? price then t = 887272 else tickOf price t.
(** the band around [price]: [w] is the root of (volatility * multiplier / 1024) *)
Definition band (h : Prices) (m price l u : Z) : Prop := exists v, Volatility h = Ok v /\
  let w := Z.sqrt ((v * (m mod 2 ^ 64)) mod 2 ^ 256 / 1024) in bandLow (price - w) l /\ bandHigh (price + w) u.
Definition mean (h : Prices) : Z := Z.sqrt (Average h).


(** One attempt to invest: at [price], the balances [b] buy liquidity [L] on the range [l, u]; [L / d] of it is
    minted, with one call, unless that is zero; the balances pay. *)
Definition books := Z * Z -> trace -> Z * Z -> Prop.
Definition invest (price d l u : Z) : books := fun b tr b' => exists A B L,
  GetSqrtRatioAtTick l = Ok A /\ GetSqrtRatioAtTick u = Ok B /\ GetLiquidityForAmount price A B (fst b) (snd b) = Ok L /\
  if L / d =? 0 then tr = [] /\ b' = b
  else exists x y, tr = [(OMintStrategy l u (L / d), (x, y))] /\ 0 <= x <= fst b /\ 0 <= y <= snd b /\ b' = (fst b - x, snd b - y).
(** in sequence; under a condition on the balances *)
Definition also (R S : books) : books := fun b tr b' => exists t1 b1 t2, tr = t1 ++ t2 /\ R b t1 b1 /\ S b1 t2 b'.
Definition provided (c : Z * Z -> bool) (R : books) : books := fun b tr b' => if c b then R b tr b' else tr = [] /\ b' = b.
Definition has0 (b : Z * Z) : bool := negb (fst b =? 0).
Definition has1 (b : Z * Z) : bool := negb (snd b =? 0).
(** token 0 left over goes above the tick up to [u], otherwise token 1 left over goes from [l] up to the tick *)
Definition leftover (price c f l u : Z) : books :=
  fun b => if has0 b then provided (fun _ => c <? u) (invest price 1 c u) b
           else provided (fun b => has1 b && (l <? f)) (invest price 1 l f) b.
Definition must (R : books) : books := fun b tr b' => R b tr b' /\ tr <> [].

(** the same after selling half of the excess: without a swap the balances [b] would put in [x] and [y]; of the
    token of which more is left, counting one of token 0 as 512 of token 1, half the rest is sold *)
Definition sellAndInvest (fuel : nat) (p : Pool) (l u : Z) : books := fun b tr b' => exists A B L x y,
  GetSqrtRatioAtTick l = Ok A /\ GetSqrtRatioAtTick u = Ok B /\ GetLiquidityForAmount (SqrtRatio p) A B (fst b) (snd b) = Ok L /\
  GetAmountsForLiquidity (SqrtRatio p) A B L = Ok (x, y) /\ 0 <= x <= fst b /\ 0 <= y <= snd b /\
  let first := snd b - y <? ((fst b - x) * 512) mod 2 ^ 256 in
  let half := (if first then fst b - x else snd b - y) / 2 in
  let token := if first then Token0 p else Token1 p in
  if half =? 0 then must (invest (SqrtRatio p) 1 l u) b tr b'
  else exists p' r0 r1 t, ExactInputSwap fuel p half token 0 = Ok (p', r0, r1) /\ tr = (OExactInput half token 0, (r0, r1)) :: t /\
    must (invest (SqrtRatio p') 1 l u) ((fst b - r0) mod 2 ^ 256, (snd b - r1) mod 2 ^ 256) t b'.

(** where and what Init ([again = false]) and Rebalance ([again = true]) of strategy [k] in state [s] mint, when the
    pool has spacing [sp], price [price] and tick [t] *)
Definition investment (again : bool) (k : Kind) (s : St) (sp price t : Z) : books := fun b tr b' =>
  match k with
  | TwoInterval w w' => exists l u c f, nearest sp (t - w) l /\ nearest sp (t + w) u /\ above sp t c /\ below sp t f /\
      also (invest price 1 l u) (also (provided has0 (invest price 1 c (c + w'))) (provided has1 (invest price 1 (f - w') f))) b tr b'
  | BollingerBands m => exists l u, band (sHistory s) m (mean (sHistory s)) l u /\ invest price 1 l u b tr b'
  | BollingerBandsFillUp m => exists l u c f, band (sHistory s) m (mean (sHistory s)) l u /\ above sp t c /\ below sp t f /\
      also (invest price 1 l u) (provided (fun _ => again && (l <=? t) && (t <=? u)) (leftover price c f l u)) b tr b'
  | ConstantInterval w => if again then invest price 1 (sTickLower s) (sTickUpper s) b tr b'
      else exists l u, nearest sp (t - w) l /\ nearest sp (t + w) u /\ must (invest price 1 l u) b tr b'
  | FillUp w => exists l u c f, nearest sp (t - w) l /\ nearest sp (t + w) u /\ above sp t c /\ below sp t f /\
      also (invest price 1 l u) (leftover price c f l u) b tr b'
  | IntervalAroundAverage w => exists t' l u, tickOf (mean (sHistory s)) t' /\ nearest sp (t' - w) l /\ nearest sp (t' + w) u /\ invest price 1 l u b tr b'
  | IntervalAroundPrice w => exists l u, nearest sp (t - w) l /\ nearest sp (t + w) u /\
      (if again then invest price 1 l u else must (invest price 1 l u)) b tr b'
  | LimitOrder w => exists l u c f, nearest sp (t - w) l /\ nearest sp (t + w) u /\ above sp t c /\ below sp t f /\
      also (invest price 1 l u) (also (provided has0 (invest price 2 c (c + 10))) (provided has1 (invest price 2 (f - 10) f))) b tr b'
  | NoProvision => tr = [] /\ b' = b
  | IntervalAroundPriceAndSwap w => False (* see [placement] *)
  | V2 => invest price 1 (-887270) 887270 b tr b'
  | VolatilitySized m => exists l u, band (sHistory s) m price l u /\ invest price 1 l u b tr b'
  end.

Definition placement (again : bool) (k : Kind) (s : St) (fuel : nat) (sp : Z) (p : Pool) : books :=
  match k with
  | IntervalAroundPriceAndSwap w => fun b tr b' => exists l u, nearest sp (TickCurrent p - w) l /\ nearest sp (TickCurrent p + w) u /\ sellAndInvest fuel p l u b tr b'
  | _ => investment again k s sp (SqrtRatio p) (TickCurrent p)
  end.

(** ** reasoning *)
(** started at slot [sl] with the balances of [s], [m] keeps the slot and invests according to [R] *)
Definition goodSlot (sl : Slot) : Prop := priceOK (slTick sl) (slPrice sl).
Definition puts (sl : Slot) (s : St) (R : books) (m : M St) : Prop :=
  forall fuel p q t s', slot p = sl -> goodSlot sl -> funded s -> runV fuel p m = Ok (q, t, s') -> slot q = sl /\ R (bal s) t (bal s') /\ funded s'.
Lemma puts_seq sl s R S (m : M St) (f : St -> M St) : puts sl s R m -> (forall s1, puts sl s1 S (f s1)) -> puts sl s (also R S) (mbind m f).
Proof.
  intros H K fuel p q t b HS HG HF. rewrite runV_bind. destruct (runV fuel p m) as [[[q1 t1] s1]| |] eqn:E; cbn [bind]; try discriminate.
  destruct (runV fuel q1 (f s1)) as [[[q2 t2] s2]| |] eqn:E2; cbn [bind]; try discriminate. intros X. injection X as <- <- <-.
  destruct (H _ _ _ _ _ HS HG HF E) as (S1 & R1 & F1). destruct (K _ _ _ _ _ _ S1 HG F1 E2) as (S2 & R2 & F2). split; [assumption|]. split; [|assumption].
  exists t1, (bal s1), t2. auto.
Qed.
Lemma puts_weaken sl s (R S : books) m : puts sl s R m -> (forall b t b', R b t b' -> S b t b') -> puts sl s S m.
Proof. intros H K fuel p q t s' HS HG HF E. destruct (H _ _ _ _ _ HS HG HF E) as (A & B & C). auto. Qed.
Lemma puts_id sl s s' : bal s' = bal s -> puts sl s (fun b tr b' => tr = [] /\ b' = b) (done s').
Proof.
  intros HB fuel p q t s2 HS HG HF E. unfold done in E. cbn [runV bind] in E. injection E as <- <- <-. split; [assumption|]. split; [split; [reflexivity|assumption]|].
  unfold bal in HB. injection HB as H0 H1. unfold funded in *. now rewrite H0, H1.
Qed.
Lemma puts_then sl s R (m : M St) (f : St -> St) : puts sl s R m -> (forall x, bal (f x) = bal x) -> puts sl s R (mbind m (fun x => done (f x))).
Proof.
  intros H K. eapply puts_weaken; [eapply puts_seq; [exact H|]; intros s1; apply puts_id, K|]. intros b t b' (t1 & b1 & t2 & -> & H1 & -> & ->). now rewrite app_nil_r.
Qed.
Lemma puts_pure {A} sl s R (r : res A) (f : A -> M St) : (forall a, r = Ok a -> puts sl s R (f a)) -> puts sl s R (mbind (pure r) f).
Proof. intros H. unfold pure. destruct r as [a| |]; cbn [mbind]; [now apply H|..]; intros fuel p q t b _ _ _ E; discriminate. Qed.
Lemma puts_look sl s R (f : Slot -> M St) : puts sl s R (f sl) -> puts sl s R (mbind look f).
Proof. intros H fuel p q t b HS HG HF E. unfold look, done in E. cbn [mbind runV] in E. rewrite HS in E. exact (H _ _ _ _ _ HS HG HF E). Qed.
Lemma puts_provided sl s (c : Z * Z -> bool) R (m : M St) : (c (bal s) = true -> puts sl s R m) ->
  puts sl s (provided c R) (if c (bal s) then m else done s).
Proof.
  intros H. unfold provided. destruct (c (bal s)) eqn:E; intros fuel p q t s' HS HG HF ER; rewrite E; [now apply (H eq_refl) in ER|].
  now apply (puts_id sl s s eq_refl) in ER.
Qed.

Lemma puts_attempt sl s d l u (f : Z -> M St) : 0 < d ->
  (forall L, (f L = mintAmount s l u (L / d)) \/ (L / d = 0 /\ f L = done s)) -> puts sl s (invest (slPrice sl) d l u) (mbind (liquidityFor s l u) f).
Proof.
  intros Hd H fuel p q t s' HS HG HF. rewrite runV_bind. destruct (runV fuel p (liquidityFor s l u)) as [[[q1 u1] L]| |] eqn:E; cbn [bind]; try discriminate.
  apply run_liquidityFor in E as (a & b & -> & -> & EA & EB & EL).
  destruct (runV fuel p (f L)) as [[[q2 u2] s2]| |] eqn:E2; cbn [bind]; try discriminate. intros X. injection X as <- <- <-. cbn [app].
  assert (SqrtRatio p = slPrice sl) as EP by (rewrite <- HS; reflexivity).
  assert (good p) as HGp by (unfold good; rewrite <- HS in HG; exact HG).
  destruct (H L) as [Ef|[E0 Ef]]; rewrite Ef in E2.
  - pose proof E2 as E3. apply run_mintAmount in E3 as (x & y & EM & -> & HB).
    assert (0 <= L < T256) as HL. { apply (liq_nonneg p l u a b s L HGp HF EA EB EL). now apply mint_lt in EM. }
    assert (0 <= L / d <= L) as HLd by (split; [apply Z.div_pos; lia|apply Z.div_le_upper_bound; [lia|]; apply Z.le_trans with (1 * L); [lia|apply Z.mul_le_mono_nonneg_r; lia]]).
    pose proof (mint_budget p l u a b (sAmount0 s) (sAmount1 s) L (L / d) q2 x y HGp (proj1 HF) (proj2 HF) EA EB EL HLd EM) as (HS2 & Hx & Hy).
    destruct HF as [F0 F1]. unfold is_u256 in F0, F1.
    assert (usub (sAmount0 s) x = sAmount0 s - x) as U0 by (unfold usub; apply Z.mod_small; lia).
    assert (usub (sAmount1 s) y = sAmount1 s - y) as U1 by (unfold usub; apply Z.mod_small; lia).
    rewrite U0, U1 in HB. split; [congruence|]. split.
    + exists a, b, L. rewrite <- EP. repeat (split; [assumption|]).
      assert (L / d <> 0) as HN. { intros Z0. rewrite Z0 in EM. discriminate. }
      replace (L / d =? 0) with false by (generalize dependent (L / d); intros; lia). exists x, y. split; [reflexivity|]. split; [exact Hx|]. split; [exact Hy|]. exact HB.
    + unfold bal in HB. injection HB as H0 H1. unfold funded, is_u256. rewrite H0, H1. lia.
  - unfold done in E2. cbn [runV bind] in E2. injection E2 as <- <- <-. split; [assumption|]. split; [|assumption].
    exists a, b, L. rewrite <- EP. repeat (split; [assumption|]). rewrite E0. cbn [Z.eqb]. split; reflexivity.
Qed.
Lemma puts_mintPosition sl s l u : puts sl s (invest (slPrice sl) 1 l u) (mintPosition s l u).
Proof.
  apply puts_attempt; [reflexivity|]. intros L. rewrite Z.div_1_r. destruct (L =? 0) eqn:E; [right|now left]. split; [lia|reflexivity].
Qed.
Lemma puts_mintUnchecked sl s l u : puts sl s (must (invest (slPrice sl) 1 l u)) (mintUnchecked s l u).
Proof.
  intros fuel p q t s' HS HG HF E. assert (t <> []) as HN.
  { unfold mintUnchecked in E. rewrite runV_bind in E. destruct (runV fuel p (liquidityFor s l u)) as [[[q1 u1] L]| |]; cbn [bind] in E; try discriminate.
    destruct (runV fuel q1 (mintAmount s l u L)) as [[[q2 u2] s2]| |] eqn:E2; cbn [bind] in E; try discriminate. injection E as _ <- _.
    apply run_mintAmount in E2 as (x & y & _ & -> & _). destruct u1; discriminate. }
  assert (puts sl s (invest (slPrice sl) 1 l u) (mintUnchecked s l u)) as K by (apply puts_attempt; [reflexivity|]; intros L; rewrite Z.div_1_r; now left).
  destruct (K _ _ _ _ _ HS HG HF E) as (A & B & C). split; [assumption|]. split; [|assumption]. split; assumption.
Qed.
Lemma puts_mintHalf sl s l u : puts sl s (invest (slPrice sl) 2 l u) (mintHalf s l u).
Proof.
  apply puts_attempt; [reflexivity|]. intros L. cbv zeta. unfold udiv. cbn [Z.eqb]. destruct (L / 2 =? 0) eqn:E; [right|now left]. split; [|reflexivity].
  generalize dependent (L / 2). intros. lia.
Qed.

(** ** ticks *)
Lemma int64_small x : - 2 ^ 63 <= x < 2 ^ 63 -> int64 x = x.
Proof. intros H. unfold int64. rewrite Z.mod_small; lia. Qed.
Section Ticks.
  Variables (fee t w : Z).
  Hypothesis Hsp : 0 < TickSpaces fee.
  Hypothesis Ht : -887272 <= t <= 887272.
  Hypothesis Hw : Z.abs w < 2 ^ 50.
  Local Notation sp := (TickSpaces fee).
  Lemma sp_bound : 0 < sp <= 200.
  Proof using Hsp. clear - Hsp. unfold TickSpaces in *. destruct (fee =? 500), (fee =? 3000), (fee =? 10000); lia. Qed.
  Lemma around_near l u : around t w fee = (l, u) -> nearest sp (t - w) l /\ nearest sp (t + w) u.
  Proof using Hsp Ht Hw.
    pose proof sp_bound. unfold around, isub, iadd. rewrite !int64_small by lia. intros E. injection E as <- <-.
    destruct (Round_spec (t - w) sp) as (A1 & A2 & _); [lia..|]. destruct (Round_spec (t + w) sp) as (B1 & B2 & _); [lia..|]. split; split; assumption.
  Qed.
  Lemma ceil_above : above sp t (Ceil t sp) /\ iadd (Ceil t sp) w = Ceil t sp + w.
  Proof using Hsp Ht Hw.
    pose proof sp_bound. destruct (Ceil_spec t sp) as (A1 & A2); [lia..|]. split; [split; assumption|]. unfold iadd. apply int64_small. lia.
  Qed.
  Lemma floor_below : below sp t (Floor t sp) /\ isub (Floor t sp) w = Floor t sp - w.
  Proof using Hsp Ht Hw.
    pose proof sp_bound. destruct (Floor_spec t sp) as (A1 & A2); [lia..|]. split; [split; assumption|]. unfold isub. apply int64_small. lia.
  Qed.
End Ticks.

(** ** the strategies *)
Section Place.
  Variables (sl : Slot).
  Hypothesis Hsp : 0 < TickSpaces (slFee sl).
  Hypothesis Ht : -887272 <= slTick sl <= 887272.
  Local Notation sp := (TickSpaces (slFee sl)).
  Local Notation t := (slTick sl).
  Local Notation price := (slPrice sl).

  Lemma put_two w w' s : Z.abs w < 2 ^ 50 -> Z.abs w' < 2 ^ 50 -> puts sl s (investment false (TwoInterval w w') s sp price t) (twoIntervalPositions w w' s).
  Proof using Hsp Ht.
    intros Ha Hb. unfold twoIntervalPositions. apply puts_look. cbv zeta. destruct (around t w (slFee sl)) as [l u] eqn:E.
    destruct (around_near _ _ _ Hsp Ht Ha _ _ E) as [N1 N2]. destruct (ceil_above _ _ _ Hsp Ht Hb) as [C1 C2]. destruct (floor_below _ _ _ Hsp Ht Hb) as [F1 F2].
    eapply puts_weaken with (R := also (invest price 1 l u) (also (provided has0 (invest price 1 (Ceil t sp) (Ceil t sp + w'))) (provided has1 (invest price 1 (Floor t sp - w') (Floor t sp))))).
    - apply puts_seq; [apply puts_mintPosition|]. intros s1. apply puts_seq.
      + apply (puts_provided sl s1 has0). intros _. apply puts_look. rewrite C2. apply puts_mintPosition.
      + intros s2. apply (puts_provided sl s2 has1). intros _. apply puts_look. rewrite F2. apply puts_mintPosition.
    - intros b tr b' H. exists l, u, (Ceil t sp), (Floor t sp). auto 6.
  Qed.
  Lemma put_limit w s : Z.abs w < 2 ^ 50 -> puts sl s (investment false (LimitOrder w) s sp price t) (limitOrderPositions w s).
  Proof using Hsp Ht.
    intros Ha. assert (Z.abs 10 < 2 ^ 50) as Hb by reflexivity. unfold limitOrderPositions. apply puts_look. cbv zeta. destruct (around t w (slFee sl)) as [l u] eqn:E.
    destruct (around_near _ _ _ Hsp Ht Ha _ _ E) as [N1 N2]. destruct (ceil_above _ _ _ Hsp Ht Hb) as [C1 C2]. destruct (floor_below _ _ _ Hsp Ht Hb) as [F1 F2].
    eapply puts_weaken with (R := also (invest price 1 l u) (also (provided has0 (invest price 2 (Ceil t sp) (Ceil t sp + 10))) (provided has1 (invest price 2 (Floor t sp - 10) (Floor t sp))))).
    - apply puts_seq; [apply puts_mintPosition|]. intros s1. apply puts_seq.
      + apply (puts_provided sl s1 has0). intros _. apply puts_look. rewrite C2. apply puts_then; [apply puts_mintHalf|reflexivity].
      + intros s2. apply (puts_provided sl s2 has1). intros _. apply puts_look. rewrite F2. apply puts_then; [apply puts_mintHalf|reflexivity].
    - intros b tr b' H. exists l, u, (Ceil t sp), (Floor t sp). auto 6.
  Qed.
  Lemma put_fill l u s : puts sl s (leftover price (Ceil t sp) (Floor t sp) l u) (fillUp s sp l u).
  Proof using.
    unfold fillUp. intros fuel p q tr s' HS HG HF. unfold leftover, has0, has1, provided. cbn [bal fst snd].
    destruct (negb (sAmount0 s =? 0)).
    - unfold look, done. cbn [mbind runV]. rewrite HS. cbv zeta. destruct (Ceil t sp <? u).
      + now apply (puts_mintPosition sl s (Ceil t sp) u).
      + intros E. now apply (puts_id sl s s eq_refl) in E.
    - destruct (negb (sAmount1 s =? 0)); cbn [andb].
      + unfold look, done. cbn [mbind runV]. rewrite HS. cbv zeta. destruct (l <? Floor t sp).
        * now apply (puts_mintPosition sl s l (Floor t sp)).
        * intros E. now apply (puts_id sl s s eq_refl) in E.
      + intros E. now apply (puts_id sl s s eq_refl) in E.
  Qed.
  Lemma put_fillUp w s : Z.abs w < 2 ^ 50 -> puts sl s (investment false (FillUp w) s sp price t) (fillUpPositions w s).
  Proof using Hsp Ht.
    intros Ha. unfold fillUpPositions. apply puts_look. destruct (around t w (slFee sl)) as [l u] eqn:E. destruct (around_near _ _ _ Hsp Ht Ha _ _ E) as [N1 N2].
    assert (Z.abs 0 < 2 ^ 50) as Hb by reflexivity. destruct (ceil_above _ _ _ Hsp Ht Hb) as [C1 _]. destruct (floor_below _ _ _ Hsp Ht Hb) as [F1 _].
    eapply puts_weaken; [apply puts_seq; [apply puts_mintPosition|]; intros s1; apply put_fill|].
    intros b tr b' H. exists l, u, (Ceil t sp), (Floor t sp). auto 6.
  Qed.
End Place.

Lemma tick_of pr x : GetTickAtSqrtRatio pr = Ok x -> tickOf pr x.
Proof.
  intros E. destruct (Z_le_dec MinSqrtRatio pr) as [A|A]; [destruct (Z_lt_dec pr MaxSqrtRatio) as [B|B]|].
  - destruct (tick_inverts tickFuel pr (le_n _) (conj A B)) as (y & r & q & Ey & _ & R1 & R2 & R3). unfold GetTickAtSqrtRatio in E. rewrite E in Ey. injection Ey as <-. exists r, q. auto.
  - unfold GetTickAtSqrtRatio in E. rewrite tick_panics in E by lia. discriminate.
  - unfold GetTickAtSqrtRatio in E. rewrite tick_panics in E by lia. discriminate.
Qed.
Lemma band_ticks h m price l u : 0 <= price < T256 -> (do w <- bandWidth h m; bandTicks price w) = Ok (l, u) -> band h m price l u.
Proof.
  intros Hp E. apply bind_inv in E as (w & E1 & E). unfold bandWidth in E1. apply bind_inv in E1 as (v & Ev & E1). injection E1 as E1.
  exists v. split; [assumption|]. cbv zeta. change (Z.sqrt ((v * (m mod 2 ^ 64)) mod 2 ^ 256 / 1024)) with (usqrt (ursh (umul v (m mod W)) 10)). rewrite E1.
  assert (0 <= w < T256) as Hw.
  { subst w. unfold usqrt. pose proof (Z.mod_pos_bound (v * (m mod W)) T256 eq_refl) as HM. unfold umul, ursh. set (z := (v * (m mod W)) mod T256) in *. clearbody z.
    split; [apply Z.sqrt_nonneg|]. assert (0 <= z / 2 ^ 10 <= z) by (split; [apply Z.div_pos; lia|apply Z.div_le_upper_bound; lia]).
    pose proof (Z.sqrt_le_lin (z / 2 ^ 10)). lia. }
  unfold bandTicks in E. cbv zeta in E. apply bind_inv in E as (tl & El & E). apply bind_inv in E as (tu & Eu & E). injection E as -> ->. split.
  - unfold bandLow. destruct (price <? w) eqn:C; cbn [orb] in El.
    + replace (price - w <? 4295128739) with true by lia. injection El as <-. reflexivity.
    + unfold usub in El. rewrite Z.mod_small in El by lia. unfold MinSqrtRatio in El. destruct (price - w <? 4295128739); [injection El as <-; reflexivity|now apply tick_of].
  - unfold bandHigh. destruct (T256 <=? price + w) eqn:C; cbn [orb] in Eu.
    + replace (_ <? price + w) with true by lia. injection Eu as <-. reflexivity.
    + unfold uadd in Eu. rewrite Z.mod_small in Eu by lia. unfold MaxSqrtRatio in Eu. destruct (_ <? price + w); [injection Eu as <-; reflexivity|now apply tick_of].
Qed.

Lemma average_range h : 0 <= Average h < T256.
Proof.
  unfold Average. assert (forall l a, 0 <= a < T256 -> 0 <= fold_left uadd l a < T256) as K.
  { induction l as [|x l IH]; intros a Ha; cbn [fold_left]; [assumption|]. apply IH. apply Z.mod_pos_bound. reflexivity. }
  cbv zeta. apply udiv_u; [apply K; lia|]. apply Z.mod_pos_bound. reflexivity.
Qed.
Lemma mean_range h : 0 <= mean h < T256.
Proof. unfold mean. pose proof (average_range h). pose proof (Z.sqrt_nonneg (Average h)). pose proof (Z.sqrt_le_lin (Average h)). lia. Qed.

(** parameters for which tick arithmetic stays exact *)
Definition sane (k : Kind) : Prop :=
  match k with
  | TwoInterval a b => Z.abs a < 2 ^ 50 /\ Z.abs b < 2 ^ 50
  | ConstantInterval w | FillUp w | IntervalAroundAverage w | IntervalAroundPrice w | LimitOrder w | IntervalAroundPriceAndSwap w => Z.abs w < 2 ^ 50
  | _ => True
  end.

Lemma tickOf_range price x : tickOf price x -> -887272 <= x <= 887272.
Proof.
  intros (r & q & E & _). destruct (Z_le_dec MinTick x); [destruct (Z_le_dec x MaxTick)|]; [unfold MinTick, MaxTick in *; lia|rewrite rat_panics in E by lia; discriminate..].
Qed.
Section Kinds.
  Variables (sl : Slot).
  Hypothesis Hsp : 0 < TickSpaces (slFee sl).
  Hypothesis Ht : -887272 <= slTick sl <= 887272.
  Hypothesis Hp : 0 <= slPrice sl < T256.
  Local Notation sp := (TickSpaces (slFee sl)).
  Local Notation t := (slTick sl).
  Local Notation price := (slPrice sl).

  Lemma put_bollinger m s : puts sl s (investment false (BollingerBands m) s sp price t) (mintAt (bollingerTicks m) s).
  Proof using.
    unfold mintAt, bollingerTicks. apply puts_pure. intros [l u] E. apply band_ticks in E; [|apply mean_range]. eapply puts_weaken; [apply puts_mintPosition|].
    cbn [fst snd investment]. eauto.
  Qed.
  Lemma put_bollingerFirst m s : puts sl s (investment false (BollingerBandsFillUp m) s sp price t) (mintAt (bollingerTicks m) s).
  Proof using Hsp Ht.
    assert (Z.abs 0 < 2 ^ 50) as Hb by reflexivity. destruct (ceil_above _ _ _ Hsp Ht Hb) as [C1 _]. destruct (floor_below _ _ _ Hsp Ht Hb) as [F1 _].
    eapply puts_weaken; [apply put_bollinger|]. intros b tr b' (l & u & H1 & H2). exists l, u. do 2 eexists. split; [exact H1|]. split; [exact C1|]. split; [exact F1|].
    exists tr, b', []. rewrite app_nil_r. split; [reflexivity|]. split; [exact H2|]. split; reflexivity.
  Qed.
  Lemma put_fillBand m s : puts sl s (investment true (BollingerBandsFillUp m) s sp price t) (bollingerFillUp m s).
  Proof using Hsp Ht.
    unfold bollingerFillUp, bollingerTicks. apply puts_pure. intros [l u] E. apply band_ticks in E; [|apply mean_range].
    assert (Z.abs 0 < 2 ^ 50) as Hb by reflexivity. destruct (ceil_above _ _ _ Hsp Ht Hb) as [C1 _]. destruct (floor_below _ _ _ Hsp Ht Hb) as [F1 _].
    eapply puts_weaken.
    - apply puts_seq; [apply puts_mintPosition|]. intros s1. apply puts_look.
      apply (puts_provided sl s1 (fun _ => true && (l <=? t) && (t <=? u))). intros _. apply put_fill.
    - intros b tr b' H. exists l, u, (Ceil t sp), (Floor t sp). auto 6.
  Qed.
  Lemma put_volatility m s : puts sl s (investment false (VolatilitySized m) s sp price t) (mintAt (volatilityTicks m) s).
  Proof using Hp.
    unfold mintAt, volatilityTicks. unfold look, done. cbn [mbind]. intros fuel p q tr s' HS HG HF E. cbn [runV] in E. rewrite HS in E. revert E. 
    apply (puts_pure sl s (investment false (VolatilitySized m) s sp price t) (do w <- bandWidth (sHistory s) m; bandTicks price w) (fun x => mintPosition s (fst x) (snd x))); try assumption.
    intros [l u] E. apply band_ticks in E; [|assumption]. eapply puts_weaken; [apply puts_mintPosition|]. cbn [fst snd investment]. eauto.
  Qed.
  Lemma put_average w s : Z.abs w < 2 ^ 50 -> puts sl s (investment false (IntervalAroundAverage w) s sp price t) (mintAt (averageTicks w) s).
  Proof using Hsp.
    intros Hw. unfold mintAt, averageTicks. unfold pure. destruct (GetTickAtSqrtRatio (usqrt (Average (sHistory s)))) as [t'| |] eqn:E; cbn [mbind];
      try (intros fuel p q tr s' _ _ _ X; discriminate).
    apply tick_of in E. destruct (around t' w (slFee sl)) as [l u] eqn:EA. destruct (around_near _ _ _ Hsp (tickOf_range _ _ E) Hw _ _ EA) as [N1 N2].
    unfold look, done. cbn [mbind]. intros fuel p q tr s' HS HG HF X. cbn [runV] in X. rewrite HS, EA in X. cbn [fst snd] in X.
    destruct (puts_mintPosition sl s l u _ _ _ _ _ HS HG HF X) as (A & B & C). split; [assumption|]. split; [|assumption]. exists t', l, u. auto.
  Qed.
  Lemma put_around w (mint : St -> Z -> Z -> M St) (Q : Z -> Z -> books) s : Z.abs w < 2 ^ 50 -> (forall x l u, puts sl x (Q l u) (mint x l u)) ->
    puts sl s (fun b tr b' => exists l u, nearest sp (t - w) l /\ nearest sp (t + w) u /\ Q l u b tr b') (mintAround w mint s).
  Proof using Hsp Ht.
    intros Hw HM. unfold mintAround. apply puts_look. destruct (around t w (slFee sl)) as [l u] eqn:E. destruct (around_near _ _ _ Hsp Ht Hw _ _ E) as [N1 N2].
    eapply puts_weaken; [apply HM|]. cbv beta. eauto.
  Qed.

  Lemma put_init k s : swaps k = false -> sane k -> puts sl s (investment false k s sp price t) (initPositions k s).
  Proof using Hsp Ht Hp.
    destruct k; cbn [swaps sane initPositions]; intros HK HS.
    - apply put_two; tauto.
    - apply put_bollinger.
    - apply put_bollingerFirst.
    - apply puts_look. destruct (around t width (slFee sl)) as [l u] eqn:E. destruct (around_near _ _ _ Hsp Ht HS _ _ E) as [N1 N2].
      intros fuel p q tr s' HSl HG HF X. destruct (puts_mintUnchecked sl (with_range s l u) l u _ _ _ _ _ HSl HG HF X) as (A & B & C). split; [assumption|]. split; [|assumption].
      exists l, u. auto.
    - now apply put_fillUp.
    - now apply put_average.
    - apply (put_around width mintUnchecked (fun l u => must (invest price 1 l u))); [assumption|]. intros. apply puts_mintUnchecked.
    - now apply put_limit.
    - now apply puts_id.
    - discriminate.
    - apply puts_mintPosition.
    - apply put_volatility.
  Qed.
  Lemma put_rebalance k s : swaps k = false -> sane k -> puts sl s (investment true k s sp price t) (rebalancePositions k s).
  Proof using Hsp Ht Hp.
    destruct k; cbn [swaps sane rebalancePositions]; intros HK HS.
    - apply put_two; tauto.
    - apply put_bollinger.
    - apply put_fillBand.
    - apply puts_mintPosition.
    - now apply put_fillUp.
    - now apply put_average.
    - apply (put_around width mintPosition (fun l u => invest price 1 l u)); [assumption|]. intros. apply puts_mintPosition.
    - now apply put_limit.
    - now apply puts_id.
    - discriminate.
    - apply puts_mintPosition.
    - apply put_volatility.
  Qed.
End Kinds.

Lemma mint_all p fuel s l u A B L q t s' : good p -> funded s -> GetSqrtRatioAtTick l = Ok A -> GetSqrtRatioAtTick u = Ok B ->
  GetLiquidityForAmount (SqrtRatio p) A B (sAmount0 s) (sAmount1 s) = Ok L -> runV fuel p (mintAmount s l u L) = Ok (q, t, s') ->
  must (invest (SqrtRatio p) 1 l u) (bal s) t (bal s').
Proof.
  intros HG HF EA EB EL EM.
  assert (runV fuel p (mintUnchecked s l u) = Ok (q, t, s')) as E.
  { unfold mintUnchecked, liquidityFor, pure, look, done. rewrite EA. cbn [mbind]. rewrite EB. cbn [mbind runV]. cbn [slot slPrice]. rewrite EL. cbn [mbind]. exact EM. }
  apply (puts_mintUnchecked (slot p) s l u) in E; [apply E|reflexivity|exact HG|exact HF].
Qed.
Lemma put_swap h w s fuel p q tr s' : poolOK h p -> funded s -> 0 < TickSpaces (Fee p) -> -887272 <= TickCurrent p <= 887272 -> Z.abs w < 2 ^ 50 ->
  runV fuel p (mintAround w swapAndMint s) = Ok (q, tr, s') ->
  exists l u, nearest (TickSpaces (Fee p)) (TickCurrent p - w) l /\ nearest (TickSpaces (Fee p)) (TickCurrent p + w) u /\ sellAndInvest fuel p l u (bal s) tr (bal s').
Proof.
  intros HP HF Hsp Ht Hw E. unfold mintAround, look, done in E. cbn [mbind runV] in E. cbn [slot slTick slFee] in E. destruct (around _ _ _) as [l u] eqn:EA0.
  destruct (around_near _ _ _ Hsp Ht Hw _ _ EA0) as [N1 N2]. exists l, u. split; [assumption|]. split; [assumption|].
  apply run_swapAndMint in E as (a & b & liq & x & y & z & half & EA & EB & EL & EX & Ez & Eh & E).
  assert (good p) as HG by apply HP.
  assert (l < u) as Hlu.
  { destruct (usign half =? 1); [destruct E as (p1 & r0 & r1 & s1 & t2 & liq2 & _ & _ & _ & E & _)|]; apply run_mintAmount in E as (x' & y' & EM & _); now apply mint_lt in EM. }
  destruct (noSwap_within p l u s a b liq x y HG HF Hlu EA EB EL EX) as [[Hx0 Hx] [Hy0 Hy]].
  exists a, b, liq, x, y. cbn [bal fst snd]. do 4 (split; [assumption|]). split; [lia|]. split; [lia|]. cbv zeta.
  destruct HF as [F0 F1]. unfold is_u256 in F0, F1.
  assert (usub (sAmount0 s) x = sAmount0 s - x) as U0 by (unfold usub; apply Z.mod_small; lia).
  assert (usub (sAmount1 s) y = sAmount1 s - y) as U1 by (unfold usub; apply Z.mod_small; lia).
  rewrite U0, U1 in *. unfold ulsh in Ez. change (2 ^ 9) with 512 in Ez. cbn [Z.ltb Z.compare Pos.compare Pos.compare_cont] in Ez. change T256 with (2 ^ 256) in Ez. rewrite <- Ez.
  assert (half = (if z then sAmount0 s - x else sAmount1 s - y) / 2) as Eh' by (rewrite Eh; unfold udiv; cbn [Z.eqb]; reflexivity). rewrite <- Eh'.
  assert (0 <= half < T255) as Hh.
  { rewrite Eh'. split; [apply Z.div_pos; destruct z; lia|]. apply Z.div_lt_upper_bound; [lia|]. destruct z; lia. }
  destruct (usign half =? 1) eqn:Es.
  - apply usign_1 in Es; [|unfold is_u256; lia]. replace (half =? 0) with false by lia.
    destruct E as (p1 & r0 & r1 & s1 & t2 & liq2 & EI & Es1 & EL2 & EM & Et). exists p1, r0, r1, t2. split; [exact EI|]. split; [exact Et|].
    assert (exists z', swap fuel p z' half 0 = Ok (p1, r0, r1)) as (z' & EI') by (unfold ExactInputSwap in EI; eexists; exact EI).
    pose proof (swap_ok h p z' half 0 HP ltac:(unfold is_u256; lia) fuel p1 r0 r1 EI') as (HP1 & _).
    change ((sAmount0 s - r0) mod 2 ^ 256, (sAmount1 s - r1) mod 2 ^ 256) with (bal (with_amounts s (usub (sAmount0 s) r0) (usub (sAmount1 s) r1))). rewrite <- Es1.
    apply (mint_all p1 fuel s1 l u a b liq2 q t2); try assumption; [apply HP1|]. subst s1. split; apply usub_u.
  - assert (half = 0) as ->.
    { assert (~ (0 < half)) as N; [|lia]. intros Hp. unfold usign in Es. replace (half =? 0) with false in Es by lia. replace (half <? T255) with true in Es by lia. discriminate. }
    cbn [Z.eqb]. exact (mint_all p fuel s l u a b liq q tr s' HG (conj F0 F1) EA EB EL E).
Qed.

(** ** C63 *)
Lemma placement_eq again k s fuel sp p : swaps k = false -> placement again k s fuel sp p = investment again k s sp (SqrtRatio p) (TickCurrent p).
Proof. destruct k; cbn [swaps placement]; intros H; first [reflexivity|discriminate H]. Qed.
Lemma swaps_inv k : swaps k = true -> exists w, k = IntervalAroundPriceAndSwap w.
Proof. destruct k; cbn [swaps]; intros H; first [discriminate H|eexists; reflexivity]. Qed.
Lemma slot_facts h p : reach h p -> TickSpacing p = TickSpaces (Fee p) /\ -887272 <= TickCurrent p <= 887272 /\ 0 <= SqrtRatio p < T256 /\ good p.
Proof.
  intros R. destruct (reach_ok h p R) as (_ & _ & ESP & _ & _ & HPr & _). split; [assumption|]. split; [destruct HPr as (A & _); unfold MinTick, MaxTick in *; lia|]. split; [|exact HPr].
  destruct HPr as (A & B & C). pose proof (rat_range (TickCurrent p) ltac:(lia)). unfold MinSqrtRatio, MaxSqrtRatio in *. lia.
Qed.
Lemma init_places h p k s fuel q tr r : reach h p -> 0 < TickSpacing p -> sane k -> is_u256 (sAmount0 s) -> is_u256 (sAmount1 s) ->
  runV fuel p (Init k s) = Ok (q, tr, r) ->
  placement false k s fuel (TickSpacing p) p (sAmount0 s, sAmount1 s) tr (sAmount0 (fst r), sAmount1 (fst r)).
Proof.
  intros R Hsp HS H0 H1. unfold Init. rewrite runV_bind. destruct (runV fuel p (initPositions k s)) as [[[q1 t1] s1]| |] eqn:E; cbn [bind]; try discriminate.
  unfold done. cbn [runV bind]. intros X. injection X as _ <- <-. rewrite app_nil_r. cbn [fst].
  destruct (slot_facts h p R) as (ESP & Ht & Hp & HG). rewrite ESP in *. assert (funded s) as HF by (split; assumption).
  destruct (swaps k) eqn:HK.
  - destruct (swaps_inv k HK) as [w ->]. cbn [initPositions] in *. eapply put_swap; try eassumption. exact (reach_ok h p R).
  - destruct (put_init (slot p) Hsp Ht Hp k s HK HS fuel p q1 t1 s1 eq_refl HG HF E) as (_ & P & _). rewrite (placement_eq _ _ _ _ _ _ HK). exact P.
Qed.
Lemma burn_keeps_slot l : forall fuel p s q tr s', runV fuel p (burnPositions l s) = Ok (q, tr, s') -> slot q = slot p.
Proof.
  induction l as [|x l IH]; intros fuel p s q tr s' E; cbn [burnPositions] in E.
  - unfold done in E. cbn [runV bind] in E. now injection E as <- _ _.
  - unfold call, done in E. cbn [mbind runV apply] in E.
    destruct (BurnStrategy p _ _ _) as [[[p1 x0] x1]| |] eqn:E1; cbn [bind] in E; try discriminate.
    destruct (CollectStrategy p1 _ _) as [[[p2 c0] c1]| |] eqn:E2; cbn [bind fst snd] in E; try discriminate.
    destruct (runV fuel p2 _) as [[[q2 t2] s2]| |] eqn:E3; cbn [bind] in E; try discriminate. injection E as <- _ _.
    apply burn_slot in E1. apply collect_slot in E2. apply IH in E3. congruence.
Qed.
Lemma investment_state again k s s' sp price t b tr b' : sHistory s' = sHistory s -> sTickLower s' = sTickLower s -> sTickUpper s' = sTickUpper s ->
  investment again k s' sp price t b tr b' -> investment again k s sp price t b tr b'.
Proof. intros A B C. destruct k; cbn [investment]; rewrite ?A, ?B, ?C; auto. Qed.
Lemma rebalance_places h p k s fuel q tr r : reach h p -> 0 < TickSpacing p -> sane k -> k <> NoProvision -> is_u256 (sAmount0 s) -> is_u256 (sAmount1 s) ->
  match k with IntervalAroundPriceAndSwap _ => backed h (sPositions s) | _ => True end ->
  runV fuel p (Rebalance k s) = Ok (q, tr, r) ->
  exists q1 t1 s1 b1 t2, runV fuel p (BurnAll k s) = Ok (q1, t1, (s1, b1)) /\ tr = t1 ++ t2 /\
    placement true k s fuel (TickSpacing p) q1 b1 t2 (sAmount0 (fst r), sAmount1 (fst r)).
Proof.
  intros R Hsp HS HN H0 H1 HB E.
  assert (runV fuel p (act r <- burnReset s; act s <- rebalancePositions k (fst r); done (s, Some (snd r))) = Ok (q, tr, r)) as E' by (destruct k; first [exact E|congruence]).
  clear E. unfold burnReset in E'. rewrite !runV_bind in E'. destruct (runV fuel p (burnPositions (sPositions s) s)) as [[[q1 t1] s1]| |] eqn:E1; cbn [bind] in E'; try discriminate.
  unfold done in E' at 1. cbn [runV bind fst snd] in E'. rewrite runV_bind in E'.
  destruct (runV fuel q1 (rebalancePositions k _)) as [[[q2 t2] s2]| |] eqn:E2; cbn [bind] in E'; try discriminate.
  unfold done in E'. cbn [runV bind] in E'. injection E' as _ <- <-. rewrite !app_nil_r. cbn [fst].
  assert (exists s1', runV fuel p (BurnAll k s) = Ok (q1, t1, (s1', bal s1))) as (s1' & EB).
  { assert (forall (f : St -> St), runV fuel p (act s <- burnPositions (sPositions s) s; done (f s, (sAmount0 s, sAmount1 s))) = Ok (q1, t1, (f s1, bal s1))) as K.
    { intros f. rewrite runV_bind, E1. cbn [bind]. unfold done. cbn [runV bind]. now rewrite app_nil_r. }
    destruct k; cbn [BurnAll]; unfold burnKeep, burnReset; first [congruence|eexists; apply K]. }
  exists q1, t1, s1', (bal s1), t2. split; [exact EB|]. split; [reflexivity|].
  destruct (slot_facts h p R) as (ESP & Ht & Hp & HG). rewrite ESP in *. assert (funded s) as HF by (split; assumption).
  pose proof (safe_burnPositions (Token0 p) (Token1 p) _ _ _ _ _ _ _ HG HF E1) as (_ & _ & F1).
  pose proof (ens_burnPositions (sPositions s) s _ _ _ _ _ E1) as (_ & _ & Hs1).
  pose proof (burn_keeps_slot _ _ _ _ _ _ _ E1) as ES.
  destruct (swaps k) eqn:HK.
  - destruct (swaps_inv k HK) as [w ->]. destruct (burnPositions_ok fuel _ h p s q1 t1 s1 (reach_ok h p R) HB E1) as (h' & HQ & _ & _).
    cbn [rebalancePositions placement sane] in *. pose proof ES as EP. unfold slot in EP. injection EP as _ _ EF _ ET. rewrite <- EF, <- ET in *.
    change (bal s1) with (bal (with_positions s1 [])). eapply put_swap; try eassumption.
  - destruct (put_rebalance (slot p) Hsp Ht Hp k (with_positions s1 []) HK HS fuel q1 q2 t2 s2 ES HG F1 E2) as (_ & P & _).
    cbn [slot slFee slTick slPrice] in P. pose proof ES as EP. unfold slot in EP. assert (SqrtRatio q1 = SqrtRatio p) as EPr by congruence. assert (TickCurrent q1 = TickCurrent p) as ET by congruence. clear EP.
    apply investment_state with (s := s) in P; [|rewrite Hs1; reflexivity..]. rewrite <- EPr, <- ET in P. rewrite (placement_eq _ _ _ _ _ _ HK). exact P.
Qed.
