(** PoolHold.v -- liquidity without its fees is never worth more than the tokens it was made of. *)
From Coq Require Import String ZifyBool QArith Lqa.
From Verif Require Import Base U256Z SwapMath SwapMathFacts FullMathFacts LiqFacts TickMath TickMathFacts Float64 TickData Ledger Pool PoolInv PoolMint PoolOps
  TickDataFacts PoolTable PoolHist Prices Client Strategy Executor StrategyFacts PoolSpec StrategyBudget Solvency Cash PoolLimit.
Ltac Zify.zify_post_hook ::= idtac.
Open Scope Z_scope.

(** what one unit of liquidity on [l,u) is worth at the price [P], counted in units of token 0 times P^2 *)
Definition worthAt (P l u : Z) : Q := (worth true P l u * [P ^ 2]q + worth false P l u * [2 ^ 192]q)%Q.

(** the tokens behind a unit of liquidity at another price [C] are worth at least as much at [P] *)
Lemma clamp_best a b s c : 0 < a <= b -> 0 < s -> a <= c <= b ->
  let k := Z.max a (Z.min b s) in 0 <= (c - k) * (c * k - s * s).
Proof.
  intros Ha Hs Hc k. assert (k = a /\ s <= a \/ k = b /\ b <= s \/ k = s /\ a <= s <= b) as D by (unfold k; lia). clearbody k.
  assert (forall x y z t, 0 <= x <= y -> 0 <= z <= t -> x * z <= y * t) as M by (intros; apply Z.mul_le_mono_nonneg; lia).
  destruct D as [[-> D]|[[-> D]|[-> D]]].
  - apply Z.mul_nonneg_nonneg; [lia|]. pose proof (M s c s a ltac:(lia) ltac:(lia)). lia.
  - apply Z.mul_nonpos_nonpos; [lia|]. pose proof (M c s b s ltac:(lia) ltac:(lia)). lia.
  - replace (c * s - s * s) with ((c - s) * s) by lia. rewrite Z.mul_assoc. apply Z.mul_nonneg_nonneg; [apply Z.square_nonneg|lia].
Qed.
Lemma curves_best a b s c : 0 < a <= b -> 0 < s -> a <= c <= b ->
  let k := Z.max a (Z.min b s) in
  (curve true k * [s ^ 2]q + curve false k * [2 ^ 192]q <= curve true c * [s ^ 2]q + curve false c * [2 ^ 192]q)%Q.
Proof.
  intros Ha Hs Hc k. pose proof (clamp_best a b s c Ha Hs Hc) as H. cbv zeta in H. fold k in H. assert (0 < k) as Hk by (unfold k; lia). clearbody k.
  apply injZ_le in H. rewrite injZ_mul, !injZ_sub, !injZ_mul in H. change [0]q with 0%Q in H.
  pose proof (injZ_pos k Hk) as K. pose proof (injZ_pos c ltac:(lia)) as C. pose proof q96_pos as B. pose proof (injZ_pos s Hs) as S.
  change (2 ^ 192) with (2 ^ 96 * 2 ^ 96). rewrite Z.pow_2_r, !injZ_mul. unfold curve. generalize dependent [2 ^ 96]q. generalize dependent [k]q. generalize dependent [c]q. generalize dependent [s]q.
  intros s' S c' C k' H K w B.
  assert (w / c' * (s' * s') + c' / w * (w * w) - (w / k' * (s' * s') + k' / w * (w * w)) == w * ((c' - k') * (c' * k' - s' * s')) / (c' * k'))%Q as E by (field; lra).
  assert (0 <= w * ((c' - k') * (c' * k' - s' * s')) / (c' * k'))%Q as N.
  { apply Qle_shift_div_l; [apply Qmult_lt_0_compat; assumption|]. rewrite Qmult_0_l. apply Qmult_le_0_compat; [lra|assumption]. }
  lra.
Qed.
Lemma worth_best C P l u : MinTick <= l -> l < u -> u <= MaxTick -> 0 < P ->
  (worthAt P l u <= worth true C l u * [P ^ 2]q + worth false C l u * [2 ^ 192]q)%Q.
Proof.
  intros Hl Hlu Hu HP. pose proof (rat_range l ltac:(lia)) as Rl. pose proof (rat_lt l u Hl Hlu Hu) as Rlu.
  assert (0 < rat l) as H0 by (unfold MinSqrtRatio in *; lia).
  pose proof (curves_best (rat l) (rat u) P (clampP l u C) ltac:(lia) HP ltac:(unfold clampP; lia)) as K. cbv zeta in K.
  unfold worthAt, worth, clampP in *. revert K. generalize (curve true (Z.max (rat l) (Z.min (rat u) P))) (curve false (Z.max (rat l) (Z.min (rat u) P)))
    (curve true (Z.max (rat l) (Z.min (rat u) C))) (curve false (Z.max (rat l) (Z.min (rat u) C))) (curve true (rat u)) (curve false (rat l)) [P ^ 2]q [2 ^ 192]q.
  intros. lra.
Qed.
(** tokens that cover the liquidity at one price are worth no less than it at any other *)
Lemma cover_best C P l u a x0 x1 : MinTick <= l -> l < u -> u <= MaxTick -> 0 < P -> 0 < a ->
  (forall tk, ([a]q * worth tk C l u <= [tok tk x0 x1]q)%Q) -> ([a]q * worthAt P l u <= [x0 * P ^ 2 + x1 * 2 ^ 192]q)%Q.
Proof.
  intros Hl Hlu Hu HP Ha HX. pose proof (worth_best C P l u Hl Hlu Hu HP) as K. pose proof (HX true) as H0. pose proof (HX false) as H1. unfold tok in *.
  pose proof (injZ_pos a Ha) as A. rewrite injZ_add, !injZ_mul.
  assert (0 <= [P ^ 2]q)%Q as P2 by (change 0%Q with [0]q; apply injZ_le; apply Z.pow_nonneg; lia). assert (0 <= [2 ^ 192]q)%Q as W2 by (change 0%Q with [0]q; apply injZ_le; discriminate).
  assert ([a]q * worthAt P l u <= [a]q * (worth true C l u * [P ^ 2]q + worth false C l u * [2 ^ 192]q))%Q as K1 by (apply Qmult_le_l; [assumption|exact K]).
  pose proof (Qmult_le_compat_r _ _ _ H0 P2). pose proof (Qmult_le_compat_r _ _ _ H1 W2).
  revert K1 H H2. generalize (worth true C l u) (worth false C l u) (worthAt P l u) [P ^ 2]q [2 ^ 192]q [x0]q [x1]q [a]q. intros. lra.
Qed.
Lemma paid_out P l u a y0 y1 : 0 < P -> (forall tk, ([tok tk y0 y1]q <= [a]q * worth tk P l u)%Q) -> ([y0 * P ^ 2 + y1 * 2 ^ 192]q <= [a]q * worthAt P l u)%Q.
Proof.
  intros HP HX. pose proof (HX true) as H0. pose proof (HX false) as H1. unfold tok in *. rewrite injZ_add, !injZ_mul.
  assert (0 <= [P ^ 2]q)%Q as P2 by (change 0%Q with [0]q; apply injZ_le; apply Z.pow_nonneg; lia). assert (0 <= [2 ^ 192]q)%Q as W2 by (change 0%Q with [0]q; apply injZ_le; discriminate).
  pose proof (Qmult_le_compat_r _ _ _ H0 P2). pose proof (Qmult_le_compat_r _ _ _ H1 W2). unfold worthAt.
  revert H H2. generalize (worth true P l u) (worth false P l u) [P ^ 2]q [2 ^ 192]q [y0]q [y1]q [a]q. intros. lra.
Qed.

(** what GetAmountsForLiquidity says is at most the worth *)
Lemma amounts_within tick price l u a y0 y1 : priceOK tick price -> MinTick <= l -> l < u -> u <= MaxTick -> liqR a ->
  GetAmountsForLiquidity price (rat l) (rat u) a = Ok (y0, y1) ->
  0 <= y0 /\ 0 <= y1 /\ forall tk, ([tok tk y0 y1]q <= [a]q * worth tk price l u < [tok tk y0 y1]q + 1)%Q.
Proof.
  intros HP Hl Hlu Hu Ha E. destruct (range_order _ _ l u HP Hl Hlu Hu) as (O1 & O2 & O3 & _). unfold GetAmountsForLiquidity, ordered in E.
  replace (rat u <? rat l) with false in E by lia. rewrite !getAmount0_eq in E by lia. rewrite !getAmount1_eq in E.
  assert (forall x y : Q, (x == y -> 0 == x - y)%Q) as K0 by (intros; lra). unfold worth, tok.
  destruct (price <=? rat l) eqn:C1; [|destruct (price <? rat u) eqn:C2].
  - apply bind_inv in E as (x & Ex & E). injection E as <- <-. apply amount0_down in Ex as [Hx Rx]; [|assumption|lia|lia]. split; [lia|]. split; [lia|]. intros tk.
    replace (clampP l u price) with (rat l) by (unfold clampP; lia). destruct tk.
    + unfold floor0, Q96 in Hx. split; [apply curve0_diff'|apply curve0_lt']; lia.
    + rewrite <- (K0 (curve false (rat l))) by reflexivity. change [0]q with 0%Q. split; lra.
  - apply bind_inv in E as (x & Ex & E). apply bind_inv in E as (y & Ey & E). injection E as <- <-.
    apply amount0_down in Ex as [Hx Rx]; [|assumption|lia|lia]. apply amount1_down in Ey as [Hy Ry]; [|assumption|lia|lia]. split; [lia|]. split; [lia|]. intros tk.
    replace (clampP l u price) with price by (unfold clampP; lia). unfold floor0, floor1, Q96 in *. destruct tk; split; [apply curve0_diff'|apply curve0_lt'|apply curve1_diff'|apply curve1_lt']; lia.
  - apply bind_inv in E as (y & Ey & E). injection E as <- <-. apply amount1_down in Ey as [Hy Ry]; [|assumption|lia|lia]. split; [lia|]. split; [lia|]. intros tk.
    replace (clampP l u price) with (rat u) by (unfold clampP; lia). destruct tk.
    + rewrite <- (K0 (curve true (rat u))) by reflexivity. change [0]q with 0%Q. split; lra.
    + unfold floor1, Q96 in Hy. split; [apply curve1_diff'|apply curve1_lt']; lia.
Qed.

Lemma good_pos p : good p -> 0 < SqrtRatio p.
Proof. intros HG. destruct (range_order _ _ MinTick MaxTick HG ltac:(lia) ltac:(reflexivity) ltac:(lia)) as (_ & _ & H & _). lia. Qed.

Lemma amounts_return tick price l u a : priceOK tick price -> MinTick <= l -> l < u -> u <= MaxTick -> liqR a ->
  exists y0 y1, GetAmountsForLiquidity price (rat l) (rat u) a = Ok (y0, y1).
Proof.
  intros HP Hl Hlu Hu Ha. destruct (range_order _ _ l u HP Hl Hlu Hu) as (O1 & O2 & O3 & _). unfold GetAmountsForLiquidity, ordered.
  replace (rat u <? rat l) with false by lia. rewrite !getAmount0_eq by lia. rewrite !getAmount1_eq.
  destruct (price <=? rat l) eqn:C1; [|destruct (price <? rat u) eqn:C2].
  - destruct (amount0_down_returns (rat l) (rat u) a Ha ltac:(lia) ltac:(lia)) as (x & ->). cbn [bind]. eauto.
  - destruct (amount0_down_returns price (rat u) a Ha ltac:(lia) ltac:(lia)) as (x & ->). destruct (amount1_returns (rat l) price a false Ha ltac:(lia) ltac:(lia)) as (y & ->). cbn [bind]. eauto.
  - destruct (amount1_returns (rat l) (rat u) a false Ha ltac:(lia) ltac:(lia)) as (y & ->). cbn [bind]. eauto.
Qed.

(** ** one position *)
Lemma hold_position h p h' p' l u a q x0 x1 q' y0 y1 : reach h p -> allowed h p (OMintStrategy l u a) -> MintStrategy p l u a = Ok (q, x0, x1) ->
  reach h' p' -> allowed h' p' (OBurnStrategy l u a) -> BurnStrategy p' l u a = Ok (q', y0, y1) ->
  y0 * SqrtRatio p' ^ 2 + y1 * 2 ^ 192 <= x0 * SqrtRatio p' ^ 2 + x1 * 2 ^ 192.
Proof.
  intros HR HA E HR' HA' E'. pose proof (mint_worth h p l u a q x0 x1 HR HA E) as M. pose proof (burn_worth h' p' l u a q' y0 y1 HR' HA' E') as B.
  assert (checkTicks l u = Ok tt /\ 0 < a) as [Hc Ha].
  { unfold MintStrategy in E. apply bind_inv in E as ([] & E0 & E). apply invariant_inv in E0. apply usign_1 in E0; [|apply HA]. split; [|lia].
    unfold modifyPositionStrategy in E. apply bind_inv in E as ([] & E1 & _). exact E1. }
  apply checkTicks_inv in Hc as (Hlu & Hmin & Hmax).
  assert (0 < SqrtRatio p') as HP. { apply reach_ok in HR'. apply good_pos, HR'. }
  apply injZ_le. eapply Qle_trans; [apply (paid_out (SqrtRatio p') l u a y0 y1 HP)|apply (cover_best (SqrtRatio p) (SqrtRatio p') l u a x0 x1)]; try assumption.
  - intros tk. apply B.
  - intros tk. apply M.
Qed.

(** ** one argument for all placements: a relation between the state before and after that composes *)
Section Placing.
Variable R : Z -> St -> St -> Prop.
Hypothesis R_same : forall P s s', funded s -> sAmount0 s' = sAmount0 s -> sAmount1 s' = sAmount1 s -> sPositions s' = sPositions s -> R P s s'.
Hypothesis R_trans : forall P a b c, R P a b -> R P b c -> R P a c.
Hypothesis R_mint : forall p s l u amount q x y s', good p -> funded s -> 0 <= amount -> MintStrategy p l u amount = Ok (q, x, y) ->
  0 <= x <= sAmount0 s -> 0 <= y <= sAmount1 s ->
  sAmount0 s' = sAmount0 s - x -> sAmount1 s' = sAmount1 s - y -> sPositions s' = sPositions s ++ [mkPosition amount l u] -> R (SqrtRatio p) s s'.
Definition holds (s : St) (m : M St) : Prop := forall fuel p q t s', good p -> funded s -> runV fuel p m = Ok (q, t, s') -> slot q = slot p /\ funded s' /\ R (SqrtRatio p) s s'.
Lemma holds_same s s' : sAmount0 s' = sAmount0 s -> sAmount1 s' = sAmount1 s -> sPositions s' = sPositions s -> holds s (done s').
Proof. intros E0 E1 E2 fuel p q t s2 HG HF E. unfold done in E. cbn [runV bind] in E. injection E as <- <- <-. split; [reflexivity|]. split; [unfold funded in *; now rewrite E0, E1|now apply R_same]. Qed.
Lemma holds_id s : holds s (done s).
Proof. now apply holds_same. Qed.
Lemma holds_seq s (m : M St) (f : St -> M St) : holds s m -> (forall s1, holds s1 (f s1)) -> holds s (mbind m f).
Proof.
  intros H K fuel p q t s' HG HF. rewrite runV_bind. destruct (runV fuel p m) as [[[q1 t1'] s1]| |] eqn:E; cbn [bind]; try discriminate.
  destruct (runV fuel q1 (f s1)) as [[[q2 t2] s2]| |] eqn:E2; cbn [bind]; try discriminate. intros X. injection X as <- <- <-.
  destruct (H _ _ _ _ _ HG HF E) as (S1 & F1 & K1). destruct (K _ _ _ _ _ _ (good_slot _ _ S1 HG) F1 E2) as (S2 & F2 & K2).
  split; [congruence|]. split; [assumption|]. assert (SqrtRatio q1 = SqrtRatio p) as EP by (unfold slot in S1; now injection S1).
  rewrite EP in K2. eapply R_trans; eassumption.
Qed.
Lemma holds_reads {A} s (m : M A) (f : A -> M St) : reads m -> (forall a, holds s (f a)) -> holds s (mbind m f).
Proof.
  intros H K fuel p q t b HG HF. rewrite runV_bind. destruct (runV fuel p m) as [[[q1 u] a]| |] eqn:E; cbn [bind]; try discriminate.
  destruct (runV fuel q1 (f a)) as [[[q2 u2] b2]| |] eqn:E2; cbn [bind]; try discriminate. intros X. injection X as <- <- <-.
  destruct (H _ _ _ _ _ E) as [-> ->]. exact (K _ _ _ _ _ _ HG HF E2).
Qed.
Lemma run_mintAmount_pos fuel p s l u a q t s' : runV fuel p (mintAmount s l u a) = Ok (q, t, s') -> sPositions s' = sPositions s ++ [mkPosition a l u].
Proof.
  unfold mintAmount, call, done. cbn [mbind runV apply]. destruct (MintStrategy p l u a) as [[[q1 x] y]| |]; cbn [bind]; try discriminate.
  intros E. injection E as <- <- <-. reflexivity.
Qed.
Lemma holds_mint s l u (f : Z -> M St) :
  (forall liq, (exists amount, f liq = mintAmount s l u amount /\ (0 <= liq -> 0 <= amount <= liq)) \/ f liq = done s) ->
  holds s (mbind (liquidityFor s l u) f).
Proof.
  intros H fuel p q t s' HG HF. rewrite runV_bind. destruct (runV fuel p (liquidityFor s l u)) as [[[q1 u1] liq]| |] eqn:E; cbn [bind]; try discriminate.
  apply run_liquidityFor in E as (a & b & -> & -> & EA & EB & EL).
  destruct (runV fuel p (f liq)) as [[[q2 u2] b2]| |] eqn:E2; cbn [bind]; try discriminate. intros X. injection X as <- <- <-.
  destruct (H liq) as [(amount & Ef & Ham)|Ef]; rewrite Ef in E2; [|now apply holds_id in E2].
  pose proof (run_mintAmount_pos _ _ _ _ _ _ _ _ _ E2) as EP. apply run_mintAmount in E2 as (x & y & E & -> & HB).
  assert (0 <= amount <= liq) as Ham'. { apply Ham. apply (liq_nonneg p l u a b s liq HG HF EA EB EL). now apply mint_lt in E. }
  destruct (mint_budget p l u a b (sAmount0 s) (sAmount1 s) liq amount q2 x y HG (proj1 HF) (proj2 HF) EA EB EL Ham' E) as (HS & Hx & Hy).
  split; [assumption|]. pose proof HF as [F0 F1]. unfold is_u256 in F0, F1. unfold usub in HB. rewrite !Z.mod_small in HB by lia. unfold bal in HB. injection HB as H0 H1.
  split; [unfold funded, is_u256; rewrite H0, H1; lia|]. apply (R_mint p s l u amount q2 x y); try assumption. lia.
Qed.
Lemma holds_mintPosition s l u : holds s (mintPosition s l u).
Proof. apply holds_mint. intros liq. destruct (liq =? 0); [now right|]. left. exists liq. split; [reflexivity|lia]. Qed.
Lemma holds_mintUnchecked s l u : holds s (mintUnchecked s l u).
Proof. apply holds_mint. intros liq. left. exists liq. split; [reflexivity|lia]. Qed.
Lemma holds_mintHalf s l u : holds s (mintHalf s l u).
Proof.
  apply holds_mint. intros liq. cbv zeta. destruct (_ =? 0); [now right|]. left. exists (udiv liq 2). split; [reflexivity|].
  intros H. unfold udiv. cbn [Z.eqb]. split; [apply Z.div_pos; lia|]. apply Z.div_le_upper_bound; lia.
Qed.
Lemma holds_twoInterval a b s : holds s (twoIntervalPositions a b s).
Proof.
  unfold twoIntervalPositions. apply holds_reads; [apply reads_look|]. intros p. cbv zeta. destruct (around _ _ _) as [l u].
  apply holds_seq; [apply holds_mintPosition|]. intros s1. apply holds_seq.
  - destruct (negb _); [|apply holds_id]. apply holds_reads; [apply reads_look|]. intros p'. apply holds_mintPosition.
  - intros s2. destruct (negb _); [|apply holds_id]. apply holds_reads; [apply reads_look|]. intros p'. apply holds_mintPosition.
Qed.
Lemma holds_fillUp s sp l u : holds s (fillUp s sp l u).
Proof.
  unfold fillUp. destruct (negb (sAmount0 s =? 0)); [|destruct (negb _); [|apply holds_id]];
    (apply holds_reads; [apply reads_look|]; intros p; cbv zeta; destruct (_ <? _); [apply holds_mintPosition|apply holds_id]).
Qed.
Lemma holds_fillUpPositions w s : holds s (fillUpPositions w s).
Proof.
  unfold fillUpPositions. apply holds_reads; [apply reads_look|]. intros p. destruct (around _ _ _) as [l u].
  apply holds_seq; [apply holds_mintPosition|]. intros s1. apply holds_fillUp.
Qed.
Lemma holds_limitOrder w s : holds s (limitOrderPositions w s).
Proof.
  unfold limitOrderPositions. apply holds_reads; [apply reads_look|]. intros p. cbv zeta. destruct (around _ _ _) as [l u].
  apply holds_seq; [apply holds_mintPosition|]. intros s1. apply holds_seq.
  - destruct (negb _); [|apply holds_id]. apply holds_reads; [apply reads_look|]. intros p'. cbv zeta.
    apply holds_seq; [apply holds_mintHalf|]. intros s2. now apply holds_same.
  - intros s2. destruct (negb _); [|apply holds_id]. apply holds_reads; [apply reads_look|]. intros p'. cbv zeta.
    apply holds_seq; [apply holds_mintHalf|]. intros s3. now apply holds_same.
Qed.
Lemma holds_mintAt g s : (forall s, reads (g s)) -> holds s (mintAt g s).
Proof. intros H. unfold mintAt. apply holds_reads; [apply H|]. intros t. apply holds_mintPosition. Qed.
Lemma holds_mintAround w mint s : (forall s l u, holds s (mint s l u)) -> holds s (mintAround w mint s).
Proof. intros H. unfold mintAround. apply holds_reads; [apply reads_look|]. intros p. destruct (around _ _ _). apply H. Qed.
Lemma holds_bollingerFillUp m s : holds s (bollingerFillUp m s).
Proof.
  unfold bollingerFillUp. apply holds_reads; [apply reads_bollinger|]. intros [l u]. apply holds_seq; [apply holds_mintPosition|].
  intros s1. apply holds_reads; [apply reads_look|]. intros p. destruct (_ && _); [apply holds_fillUp|apply holds_id].
Qed.
Lemma holds_initPositions k s : swaps k = false -> holds s (initPositions k s).
Proof.
  destruct k; intros HK; cbn [initPositions].
  - apply holds_twoInterval.
  - apply holds_mintAt, reads_bollinger.
  - apply holds_mintAt, reads_bollinger.
  - apply holds_reads; [apply reads_look|]. intros p. destruct (around _ _ _) as [l u]. intros fuel p' q t s' HG HF E.
    destruct (holds_mintUnchecked (with_range s l u) l u fuel p' q t s' HG HF E) as (H1 & H2 & H3). split; [assumption|]. split; [assumption|].
    eapply R_trans; [|exact H3]. now apply R_same.
  - apply holds_fillUpPositions.
  - apply holds_mintAt, reads_average.
  - apply holds_mintAround, holds_mintUnchecked.
  - apply holds_limitOrder.
  - apply holds_id.
  - discriminate.
  - apply holds_mintPosition.
  - apply holds_mintAt, reads_volatility.
Qed.
Lemma holds_rebalancePositions k s : swaps k = false -> holds s (rebalancePositions k s).
Proof.
  destruct k; intros HK; cbn [rebalancePositions].
  - apply holds_twoInterval.
  - apply holds_mintAt, reads_bollinger.
  - apply holds_bollingerFillUp.
  - apply holds_mintPosition.
  - apply holds_fillUpPositions.
  - apply holds_mintAt, reads_average.
  - apply holds_mintAround, holds_mintPosition.
  - apply holds_limitOrder.
  - apply holds_id.
  - discriminate.
  - apply holds_mintPosition.
  - apply holds_mintAt, reads_volatility.
Qed.

End Placing.

(** ** the strategies that do not swap *)
Definition placedOK (x : Position) : Prop := 0 < poAmount x /\ MinTick <= poLower x /\ poLower x < poUpper x /\ poUpper x <= MaxTick.
Fixpoint worthPos (P : Z) (l : list Position) : Q :=
  match l with [] => 0%Q | x :: l => ([poAmount x]q * worthAt P (poLower x) (poUpper x) + worthPos P l)%Q end.
Lemma worthPos_app P l l' : (worthPos P (l ++ l') == worthPos P l + worthPos P l')%Q.
Proof. induction l as [|x l IH]; cbn [app worthPos]; [lra|]. rewrite IH. lra. Qed.
(** balances and positions together, at the price [P] *)
Definition worthSt (P : Z) (s : St) : Q := ([sAmount0 s * P ^ 2 + sAmount1 s * 2 ^ 192]q + worthPos P (sPositions s))%Q.
Definition small (s : St) : Prop := forall x, In x (sPositions s) -> poAmount x < 2 ^ 160.

Definition kept (s s' : St) : Prop :=
  funded s' /\ (exists l, sPositions s' = sPositions s ++ l) /\ (Forall placedOK (sPositions s) -> Forall placedOK (sPositions s')) /\
  (small s' -> forall P, 0 < P -> (worthSt P s' <= worthSt P s)%Q).
Lemma kept_same s s' : funded s -> sAmount0 s' = sAmount0 s -> sAmount1 s' = sAmount1 s -> sPositions s' = sPositions s -> kept s s'.
Proof.
  intros HF E0 E1 E2. split; [unfold funded in *; now rewrite E0, E1|]. split; [exists []; now rewrite app_nil_r|]. rewrite E2. split; [auto|].
  intros _ P _. unfold worthSt. rewrite E0, E1, E2. apply Qle_refl.
Qed.
Lemma kept_trans a b c : kept a b -> kept b c -> kept a c.
Proof.
  intros (_ & (l & E) & O & K) (F & (l' & E') & O' & K'). split; [assumption|]. split; [exists (l ++ l'); now rewrite E', E, app_assoc|]. split; [auto|].
  intros S P HP. eapply Qle_trans; [apply K'|apply K]; try assumption. intros x Hx. apply S. rewrite E'. apply in_or_app. now left.
Qed.
Lemma mint_covers p l u a q x y : good p -> 0 <= a -> MintStrategy p l u a = Ok (q, x, y) ->
  placedOK (mkPosition a l u) /\ (a < 2 ^ 160 -> forall tk, ([a]q * worth tk (SqrtRatio p) l u <= [tok tk x y]q < [a]q * worth tk (SqrtRatio p) l u + 1)%Q).
Proof.
  intros HG Ha E. unfold MintStrategy in E. apply bind_inv in E as ([] & E0 & E). apply invariant_inv in E0. 
  assert (checkTicks l u = Ok tt) as Hc by (unfold modifyPositionStrategy in E; apply bind_inv in E as ([] & E1 & _); assumption).
  apply checkTicks_inv in Hc as (Hlu & Hmin & Hmax). assert (0 < a) as Ha'. { unfold usign in E0. destruct (a =? 0) eqn:C; [discriminate|lia]. }
  split; [unfold placedOK; cbn [poAmount poLower poUpper]; lia|]. intros Hs tk. rewrite modifyPositionStrategy_eq in E by lia. apply bind_inv in E as ([] & _ & E).
  apply bind_inv in E as ((p1 & pos) & _ & E). apply bind_inv in E as ((x' & y') & E & E'). cbn [fst snd] in E'. injection E' as _ -> ->.
  eapply amounts_worth_up; [exact HG|assumption..|unfold liqR; lia|assumption|exact E].
Qed.
Lemma kept_mint p s l u amount q x y s' : good p -> funded s -> 0 <= amount -> MintStrategy p l u amount = Ok (q, x, y) -> 0 <= x <= sAmount0 s -> 0 <= y <= sAmount1 s ->
  sAmount0 s' = sAmount0 s - x -> sAmount1 s' = sAmount1 s - y -> sPositions s' = sPositions s ++ [mkPosition amount l u] -> kept s s'.
Proof.
  intros HG HF Ha E Hx Hy H0 H1 EP.
  destruct (mint_covers p l u amount q x y HG Ha E) as [HO HC]. destruct HF as [F0 F1]. unfold is_u256 in F0, F1.
  split; [unfold funded, is_u256; rewrite H0, H1; lia|]. split; [eauto|]. rewrite EP. split; [intros HF; apply Forall_app; auto|].
  intros S P HP. assert (amount < 2 ^ 160) as Hs. { apply (S (mkPosition amount l u)). rewrite EP. apply in_or_app. right. now left. }
  pose proof (HC Hs) as HW. destruct HO as (P1 & P2 & P3 & P4). cbn [poAmount poLower poUpper] in *.
  pose proof (cover_best (SqrtRatio p) P l u amount x y P2 P3 P4 HP P1 (fun tk => proj1 (HW tk))) as K. unfold worthSt. rewrite H0, H1, EP, worthPos_app. cbn [worthPos poAmount poLower poUpper].
  replace ((sAmount0 s - x) * P ^ 2 + (sAmount1 s - y) * 2 ^ 192) with (sAmount0 s * P ^ 2 + sAmount1 s * 2 ^ 192 - (x * P ^ 2 + y * 2 ^ 192)) by lia.
  rewrite injZ_sub. revert K. generalize [x * P ^ 2 + y * 2 ^ 192]q. intros. lra.
Qed.

(** ** what GetAmounts counts *)
Lemma uadd_le a b : 0 <= a -> 0 <= b -> 0 <= uadd a b <= a + b.
Proof. intros Ha Hb. unfold uadd. split; [apply Z.mod_pos_bound; reflexivity|]. apply Z.mod_le; [lia|reflexivity]. Qed.
Lemma sumPositions_within fuel l : forall p a0 a1 q t g0 g1, good p -> Forall placedOK l -> (forall x, In x l -> poAmount x < 2 ^ 160) -> 0 <= a0 -> 0 <= a1 ->
  runV fuel p (sumPositions l a0 a1) = Ok (q, t, (g0, g1)) ->
  0 <= g0 /\ 0 <= g1 /\ ([g0 * SqrtRatio p ^ 2 + g1 * 2 ^ 192]q <= [a0 * SqrtRatio p ^ 2 + a1 * 2 ^ 192]q + worthPos (SqrtRatio p) l)%Q.
Proof.
  induction l as [|x l IH]; intros p a0 a1 q t g0 g1 HG HF HS H0 H1 E; cbn [sumPositions] in E.
  - unfold done in E. cbn [runV bind] in E. injection E as _ _ <- <-. cbn [worthPos]. split; [assumption|]. split; [assumption|]. lra.
  - inversion HF as [|? ? (P1 & P2 & P3 & P4) HF']; subst. unfold pure, look, done in E. rewrite !rat_ok in E by lia. cbn [mbind runV bind] in E. cbn [slPrice slot] in E.
    destruct (GetAmountsForLiquidity _ _ _ _) as [[y0 y1]| |] eqn:EY; cbn [mbind runV bind fst snd] in E; try discriminate.
    pose proof (HS x (or_introl eq_refl)) as Hx.
    apply (amounts_within (TickCurrent p)) in EY; [|assumption..|unfold liqR; lia]. destruct EY as (Y0 & Y1 & HY).
    pose proof (good_pos p HG) as HP.
    pose proof (paid_out (SqrtRatio p) (poLower x) (poUpper x) (poAmount x) y0 y1 HP (fun tk => proj1 (HY tk))) as KY.
    pose proof (uadd_le a0 y0 H0 Y0) as U0. pose proof (uadd_le a1 y1 H1 Y1) as U1.
    destruct (IH p (uadd a0 y0) (uadd a1 y1) q t g0 g1 HG HF') as (G0 & G1 & K); [intros z Hz; apply HS; now right|lia|lia|exact E|].
    split; [assumption|]. split; [assumption|]. cbn [worthPos].
    assert (uadd a0 y0 * SqrtRatio p ^ 2 + uadd a1 y1 * 2 ^ 192 <= (a0 * SqrtRatio p ^ 2 + a1 * 2 ^ 192) + (y0 * SqrtRatio p ^ 2 + y1 * 2 ^ 192)) as KU.
    { assert (0 <= SqrtRatio p ^ 2) by (apply Z.pow_nonneg; lia). pose proof (Z.mul_le_mono_nonneg_r (uadd a0 y0) (a0 + y0) (SqrtRatio p ^ 2) ltac:(lia) ltac:(lia)).
      pose proof (Z.mul_le_mono_nonneg_r (uadd a1 y1) (a1 + y1) (2 ^ 192) ltac:(lia) ltac:(lia)). lia. }
    apply injZ_le in KU. rewrite (injZ_add (a0 * _ + _)) in KU. revert KU K KY.
    generalize [uadd a0 y0 * SqrtRatio p ^ 2 + uadd a1 y1 * 2 ^ 192]q [a0 * SqrtRatio p ^ 2 + a1 * 2 ^ 192]q [y0 * SqrtRatio p ^ 2 + y1 * 2 ^ 192]q [g0 * SqrtRatio p ^ 2 + g1 * 2 ^ 192]q.
    intros. lra.
Qed.
Lemma amounts_within_worth fuel p k s q t g0 g1 : good p -> funded s -> Forall placedOK (sPositions s) -> small s -> 
  runV fuel p (GetAmounts k s) = Ok (q, t, (g0, g1)) ->
  0 <= g0 /\ 0 <= g1 /\ (k <> NoProvision -> ([g0 * SqrtRatio p ^ 2 + g1 * 2 ^ 192]q <= worthSt (SqrtRatio p) s)%Q) /\ (k = NoProvision -> g0 = sAmount0 s /\ g1 = sAmount1 s).
Proof.
  intros HG [F0 F1] HF HS E. unfold is_u256 in F0, F1. assert (k = NoProvision \/ k <> NoProvision) as [->|Hk] by apply idle_or.
  - cbn [GetAmounts] in E. unfold done in E. cbn [runV bind] in E. injection E as _ _ <- <-. split; [lia|]. split; [lia|]. split; [congruence|auto].
  - assert (GetAmounts k s = (act r <- sumPositions (sPositions s) 0 0; done (uadd (fst r) (sAmount0 s), uadd (snd r) (sAmount1 s)))) as EG by (destruct k; [reflexivity..|congruence|reflexivity|reflexivity|reflexivity]).
    rewrite EG, runV_bind in E. destruct (runV fuel p (sumPositions _ _ _)) as [[[q1 t1] [c0 c1]]| |] eqn:E1; cbn [bind] in E; try discriminate.
    unfold done in E. cbn [runV bind fst snd] in E. injection E as _ _ <- <-.
    destruct (sumPositions_within fuel _ p 0 0 q1 t1 c0 c1 HG HF HS ltac:(lia) ltac:(lia) E1) as (C0 & C1 & K).
    pose proof (uadd_le c0 (sAmount0 s) C0 ltac:(lia)) as U0. pose proof (uadd_le c1 (sAmount1 s) C1 ltac:(lia)) as U1.
    split; [lia|]. split; [lia|]. split; [|congruence]. intros _.
    assert (uadd c0 (sAmount0 s) * SqrtRatio p ^ 2 + uadd c1 (sAmount1 s) * 2 ^ 192 <= (c0 * SqrtRatio p ^ 2 + c1 * 2 ^ 192) + (sAmount0 s * SqrtRatio p ^ 2 + sAmount1 s * 2 ^ 192)) as KU.
    { assert (0 <= SqrtRatio p ^ 2) by (pose proof (good_pos p HG); apply Z.pow_nonneg; lia).
      pose proof (Z.mul_le_mono_nonneg_r (uadd c0 (sAmount0 s)) (c0 + sAmount0 s) (SqrtRatio p ^ 2) ltac:(lia) ltac:(lia)).
      pose proof (Z.mul_le_mono_nonneg_r (uadd c1 (sAmount1 s)) (c1 + sAmount1 s) (2 ^ 192) ltac:(lia) ltac:(lia)). lia. }
    apply injZ_le in KU. rewrite (injZ_add (c0 * _ + _)) in KU. change (0 * SqrtRatio p ^ 2 + 0 * 2 ^ 192) with 0 in K. change [0]q with 0%Q in K. unfold worthSt. revert KU K.
    generalize [c0 * SqrtRatio p ^ 2 + c1 * 2 ^ 192]q [sAmount0 s * SqrtRatio p ^ 2 + sAmount1 s * 2 ^ 192]q [uadd c0 (sAmount0 s) * SqrtRatio p ^ 2 + uadd c1 (sAmount1 s) * 2 ^ 192]q.
    intros. lra.
Qed.

(** ** C88: the strategies *)
Lemma snapshot_holds q k s0 s1 fuel' q' t g0 g1 : good q -> swaps k = false -> funded s0 -> sPositions s0 = [] -> kept s0 s1 -> small s1 -> 
  runV fuel' q (GetAmounts k s1) = Ok (q', t, (g0, g1)) -> (k = NoProvision -> s1 = s0) ->
  0 <= g0 /\ 0 <= g1 /\ g0 * SqrtRatio q ^ 2 + g1 * 2 ^ 192 <= sAmount0 s0 * SqrtRatio q ^ 2 + sAmount1 s0 * 2 ^ 192.
Proof.
  intros HG HK HF HN (F1 & _ & HO & HW) HS E HI. rewrite HN in HO. specialize (HO (Forall_nil _)).
  destruct (amounts_within_worth fuel' q k s1 q' t g0 g1 HG F1 HO HS E) as (G0 & G1 & K & K'). split; [assumption|]. split; [assumption|].
  destruct (idle_or k) as [C|C].
  - destruct (K' C) as [-> ->]. rewrite (HI C). lia.
  - apply injZ_le. eapply Qle_trans; [apply (K C)|]. eapply Qle_trans; [apply HW; [assumption|now apply good_pos]|]. unfold worthSt. rewrite HN. cbn [worthPos]. lra.
Qed.

Lemma small_bound s : (forall x, In x (sPositions s) -> poAmount x < 2 ^ 128) -> small s.
Proof. intros H x Hx. specialize (H x Hx). lia. Qed.
Lemma with_history_kept s s1 hh : kept s s1 -> kept s (with_history s1 hh).
Proof. intros K. eapply kept_trans; [exact K|]. apply kept_same; [apply K|reflexivity..]. Qed.

Lemma init_holds h p k s fuel q tr s1 b h2 p2 hh fuel2 q2 t2 g0 g1 : reach h p -> swaps k = false -> is_u256 (sAmount0 s) -> is_u256 (sAmount1 s) -> sPositions s = [] ->
  runV fuel p (Init k s) = Ok (q, tr, (s1, b)) -> (forall x, In x (sPositions s1) -> poAmount x < 2 ^ 128) ->
  reach h2 p2 -> runV fuel2 p2 (GetAmounts k (with_history s1 hh)) = Ok (q2, t2, (g0, g1)) ->
  0 <= g0 /\ 0 <= g1 /\ g0 * SqrtRatio p2 ^ 2 + g1 * 2 ^ 192 <= sAmount0 s * SqrtRatio p2 ^ 2 + sAmount1 s * 2 ^ 192.
Proof.
  intros HR HK F0 F1 HN E HS HR2 EG. apply reach_ok in HR, HR2. unfold Init in E. rewrite runV_bind in E.
  destruct (runV fuel p (initPositions k s)) as [[[q1 t1] s1']| |] eqn:E1; cbn [bind] in E; try discriminate. unfold done in E. cbn [runV bind] in E. injection E as <- <- <- <-.
  assert (good p) as HG by apply HR. destruct (holds_initPositions (fun _ => kept) (fun _ => kept_same) (fun _ => kept_trans) kept_mint k s HK fuel p _ _ _ HG (conj F0 F1) E1) as (_ & _ & K).
  destruct (idle_or k) as [->|C].
  - cbn [initPositions] in E1. unfold done in E1. cbn [runV bind] in E1. injection E1 as <- <- <-. cbn [GetAmounts] in EG. unfold done in EG. cbn [runV bind] in EG. injection EG as _ _ <- <-.
    unfold is_u256 in *. cbn [sAmount0 sAmount1 with_history]. lia.
  - eapply snapshot_holds; [apply HR2|exact HK|exact (conj F0 F1)|exact HN|exact (with_history_kept _ _ hh K)|now apply small_bound|exact EG|congruence].
Qed.
Lemma rebalance_holds h p k s fuel q tr s1 a0 a1 h2 p2 hh fuel2 q2 t2 g0 g1 : reach h p -> swaps k = false -> is_u256 (sAmount0 s) -> is_u256 (sAmount1 s) ->
  runV fuel p (Rebalance k s) = Ok (q, tr, (s1, Some (a0, a1))) -> (forall x, In x (sPositions s1) -> poAmount x < 2 ^ 128) ->
  reach h2 p2 -> runV fuel2 p2 (GetAmounts k (with_history s1 hh)) = Ok (q2, t2, (g0, g1)) ->
  0 <= g0 /\ 0 <= g1 /\ g0 * SqrtRatio p2 ^ 2 + g1 * 2 ^ 192 <= a0 * SqrtRatio p2 ^ 2 + a1 * 2 ^ 192.
Proof.
  intros HR HK F0 F1 E HS HR2 EG. apply reach_ok in HR, HR2. assert (good p) as HG by apply HR.
  destruct (idle_or k) as [->|C]; [discriminate|].
  assert (Rebalance k s = (act r <- burnReset s; act s <- rebalancePositions k (fst r); done (s, Some (snd r)))) as ER by (destruct k; [reflexivity..|congruence|reflexivity|reflexivity|reflexivity]).
  rewrite ER, runV_bind in E. destruct (runV fuel p (burnReset s)) as [[[pb tb] [sb rb]]| |] eqn:EB; cbn [bind] in E; try discriminate.
  cbn [fst snd] in E. rewrite runV_bind in E. destruct (runV fuel pb (rebalancePositions k sb)) as [[[q1 t1] s1']| |] eqn:E1; cbn [bind] in E; try discriminate.
  unfold done in E. cbn [runV bind] in E. injection E as <- <- <- Er.
  unfold burnReset in EB. rewrite runV_bind in EB. destruct (runV fuel p (burnPositions _ _)) as [[[pc tc] sc]| |] eqn:EC; cbn [bind] in EB; try discriminate.
  unfold done in EB. cbn [runV bind] in EB. injection EB as <- <- <- <-.
  destruct (safe_burnPositions (Token0 p) (Token1 p) _ _ _ _ _ _ _ HG (conj F0 F1) EC) as (SC & _ & FC).
  injection Er as <- <-.
  destruct (holds_rebalancePositions (fun _ => kept) (fun _ => kept_same) (fun _ => kept_trans) kept_mint k (with_positions sc []) HK fuel pc _ _ _ (good_slot _ _ SC HG) FC E1) as (_ & _ & K).
  exact (snapshot_holds p2 k (with_positions sc []) (with_history s1' hh) fuel2 q2 t2 g0 g1 (proj1 (proj2 (proj2 (proj2 (proj2 (proj2 HR2)))))) HK FC eq_refl (with_history_kept _ _ hh K) (small_bound _ HS) EG (fun X => False_ind _ (C X))).
Qed.

(** ** right after the placement *)
Definition yields (P : Z) (x : Position) (y : Z * Z) : Prop := GetAmountsForLiquidity P (rat (poLower x)) (rat (poUpper x)) (poAmount x) = Ok y.
Definition fresh (P : Z) (s s' : St) : Prop :=
  exists l, sPositions s' = sPositions s ++ l /\ (small s' -> Forall placedOK l /\ exists ys, Forall2 (yields P) l ys /\ Forall (fun y => 0 <= fst y /\ 0 <= snd y) ys /\
    sAmount0 s - Z.of_nat (length l) <= sAmount0 s' + sumOf fst ys <= sAmount0 s /\
    sAmount1 s - Z.of_nat (length l) <= sAmount1 s' + sumOf snd ys <= sAmount1 s).
Lemma fresh_same P s s' : funded s -> sAmount0 s' = sAmount0 s -> sAmount1 s' = sAmount1 s -> sPositions s' = sPositions s -> fresh P s s'.
Proof.
  intros _ E0 E1 E2. exists []. split; [now rewrite app_nil_r|]. intros _. split; [constructor|]. exists []. split; [constructor|]. split; [constructor|]. cbn [length sumOf fold_right Z.of_nat]. lia.
Qed.
Lemma fresh_trans P a b c : fresh P a b -> fresh P b c -> fresh P a c.
Proof.
  intros (l & E & K) (l' & E' & K'). exists (l ++ l'). split; [now rewrite E', E, app_assoc|]. intros S.
  assert (small b) as S'. { intros x Hx. apply S. rewrite E'. apply in_or_app. now left. }
  destruct (K S') as (O & ys & F & N & A & B). destruct (K' S) as (O' & ys' & F' & N' & A' & B'). split; [now apply Forall_app|].
  exists (ys ++ ys'). split; [now apply Forall2_app|]. split; [now apply Forall_app|]. rewrite !sumOf_app, app_length, Nat2Z.inj_add. lia.
Qed.
Lemma fresh_mint p s l u amount q x y s' : good p -> funded s -> 0 <= amount -> MintStrategy p l u amount = Ok (q, x, y) -> 0 <= x <= sAmount0 s -> 0 <= y <= sAmount1 s ->
  sAmount0 s' = sAmount0 s - x -> sAmount1 s' = sAmount1 s - y -> sPositions s' = sPositions s ++ [mkPosition amount l u] -> fresh (SqrtRatio p) s s'.
Proof.
  intros HG HF Ha E Hx Hy H0 H1 EP. exists [mkPosition amount l u]. split; [assumption|]. intros S.
  assert (amount < 2 ^ 160) as Hs. { apply (S (mkPosition amount l u)). rewrite EP. apply in_or_app. right. now left. }
  destruct (mint_covers p l u amount q x y HG Ha E) as [HO HC]. split; [now constructor|]. pose proof HO as (P1 & P2 & P3 & P4). cbn [poAmount poLower poUpper] in *.
  assert (liqR amount) as HL by (unfold liqR; lia). destruct (amounts_return _ _ l u amount HG P2 P3 P4 HL) as (y0 & y1 & EY).
  exists [(y0, y1)]. split; [constructor; [exact EY|constructor]|]. apply (amounts_within (TickCurrent p)) in EY; [|assumption..]. destruct EY as (Y0 & Y1 & HY).
  split; [constructor; [cbn; lia|constructor]|]. change (Z.of_nat (length [mkPosition amount l u])) with 1. cbn [sumOf fold_right fst snd]. destruct (HC Hs true) as [A0 A1]. destruct (HC Hs false) as [B0 B1].
  destruct (HY true) as [C0 C1]. destruct (HY false) as [D0 D1]. unfold tok in *.
  assert (forall m n v, ([m]q <= v)%Q -> (v <= [n]q)%Q -> m <= n) as K by (intros m n v M N; apply injZ_le; eapply Qle_trans; eassumption).
  assert (forall m n v, (v < [m]q + 1)%Q -> ([n]q < v + 1)%Q -> n <= m + 1) as K'.
  { intros m n v M N. assert ([n]q < [m + 2]q)%Q as L by (rewrite injZ_add; change [2]q with 2%Q; lra). apply (proj1 (injZ_lt n (m + 2))) in L. clear -L. lia. }
  pose proof (K _ _ _ C0 A0). pose proof (K _ _ _ D0 B0). pose proof (K' _ _ _ C1 A1). pose proof (K' _ _ _ D1 B1). rewrite H0, H1. lia.
Qed.

Lemma sumPositions_yields fuel p l : forall ys a0 a1, Forall placedOK l -> Forall2 (yields (SqrtRatio p)) l ys ->
  0 <= a0 < T256 -> 0 <= a1 < T256 -> Forall (fun y => 0 <= fst y /\ 0 <= snd y) ys -> a0 + sumOf fst ys < T256 -> a1 + sumOf snd ys < T256 ->
  runV fuel p (sumPositions l a0 a1) = Ok (p, [], (a0 + sumOf fst ys, a1 + sumOf snd ys)).
Proof.
  induction l as [|x l IH]; intros ys a0 a1 HO HY R0 R1 HN S0 S1; inversion HY as [|x' y l' ys' Y HY']; subst; cbn [sumPositions].
  - unfold done. cbn [runV bind sumOf fold_right]. now rewrite !Z.add_0_r.
  - inversion HO as [|? ? (P1 & P2 & P3 & P4) HO']; subst. inversion HN as [|? ? (N0 & N1) HN']; subst. unfold pure, look, done. rewrite !rat_ok by lia. cbn [mbind runV bind]. cbn [slPrice slot].
    unfold yields in Y. rewrite Y. cbn [mbind runV]. cbn [sumOf fold_right] in S0, S1 |- *. fold (sumOf fst ys') in S0 |- *. fold (sumOf snd ys') in S1 |- *.
    assert (forall f, (forall y, In y ys' -> 0 <= f y) -> 0 <= sumOf f ys') as KN.
    { intros f. clear. induction ys' as [|z zs IH]; intros H; cbn [sumOf fold_right]; [lia|]. specialize (IH (fun y Hy => H y (or_intror Hy))). specialize (H z (or_introl eq_refl)). unfold sumOf in IH. lia. }
    rewrite Forall_forall in HN'. pose proof (KN fst (fun y Hy => proj1 (HN' y Hy))). pose proof (KN snd (fun y Hy => proj2 (HN' y Hy))).
    unfold uadd. rewrite !Z.mod_small by lia. rewrite (IH ys'); try assumption; try lia; [f_equal; f_equal; f_equal; lia|now apply Forall_forall].
Qed.
Lemma fresh_amounts fuel p k s s1 hh : k <> NoProvision -> funded s -> funded s1 -> sPositions s = [] -> fresh (SqrtRatio p) s s1 -> small s1 ->
  let n := Z.of_nat (length (sPositions s1)) in
  exists g0 g1, runV fuel p (GetAmounts k (with_history s1 hh)) = Ok (p, [], (g0, g1)) /\
    sAmount0 s - n <= g0 <= sAmount0 s /\ sAmount1 s - n <= g1 <= sAmount1 s.
Proof.
  intros Hk [F0 F1] [G0 G1] HN (l & E & K) S n. rewrite HN in E. cbn [app] in E. destruct (K S) as (O & ys & Y & N & A & B). rewrite <- E in *. fold n in A, B.
  assert (GetAmounts k (with_history s1 hh) = (act r <- sumPositions (sPositions s1) 0 0; done (uadd (fst r) (sAmount0 s1), uadd (snd r) (sAmount1 s1)))) as EG by (destruct k; [reflexivity..|congruence|reflexivity|reflexivity|reflexivity]).
  unfold is_u256 in *. rewrite EG, runV_bind, (sumPositions_yields fuel p (sPositions s1) ys 0 0); try assumption; try lia.
  cbn [bind]. unfold done. cbn [runV bind fst snd]. do 2 eexists. split; [reflexivity|].
  assert (forall f : Z * Z -> Z, (forall y, In y ys -> 0 <= f y) -> 0 <= sumOf f ys) as KN.
  { intros f. clear. induction ys as [|z zs IH]; intros H; cbn [sumOf fold_right]; [lia|]. specialize (IH (fun y Hy => H y (or_intror Hy))). specialize (H z (or_introl eq_refl)). unfold sumOf in IH. lia. }
  rewrite Forall_forall in N. pose proof (KN fst (fun y Hy => proj1 (N y Hy))). pose proof (KN snd (fun y Hy => proj2 (N y Hy))).
  unfold uadd. rewrite !Z.mod_small by lia. lia.
Qed.

Lemma init_fresh h p k s fuel q tr s1 b hh fuel2 : reach h p -> swaps k = false -> is_u256 (sAmount0 s) -> is_u256 (sAmount1 s) -> sPositions s = [] ->
  runV fuel p (Init k s) = Ok (q, tr, (s1, b)) -> (forall x, In x (sPositions s1) -> poAmount x < 2 ^ 128) ->
  let n := Z.of_nat (length (sPositions s1)) in
  exists g0 g1, runV fuel2 q (GetAmounts k (with_history s1 hh)) = Ok (q, [], (g0, g1)) /\ sAmount0 s - n <= g0 <= sAmount0 s /\ sAmount1 s - n <= g1 <= sAmount1 s.
Proof.
  intros HR HK F0 F1 HN E HS n. apply reach_ok in HR. unfold Init in E. rewrite runV_bind in E.
  destruct (runV fuel p (initPositions k s)) as [[[q1 t1] s1']| |] eqn:E1; cbn [bind] in E; try discriminate. unfold done in E. cbn [runV bind] in E. injection E as <- <- <- <-.
  assert (good p) as HG by apply HR. destruct (holds_initPositions fresh fresh_same fresh_trans fresh_mint k s HK fuel p _ _ _ HG (conj F0 F1) E1) as (SL & FF & K).
  destruct (idle_or k) as [->|C].
  - cbn [initPositions] in E1. unfold done in E1. cbn [runV bind] in E1. injection E1 as <- <- <-. cbn [GetAmounts]. unfold done. cbn [runV bind].
    do 2 eexists. split; [reflexivity|]. cbn [sAmount0 sAmount1 with_history]. lia.
  - assert (SqrtRatio q1 = SqrtRatio p) as EP by (unfold slot in SL; now injection SL). rewrite <- EP in K.
    exact (fresh_amounts fuel2 q1 k s s1' hh C (conj F0 F1) FF HN K (small_bound _ HS)).
Qed.
Lemma rebalance_fresh h p k s fuel q tr s1 a0 a1 hh fuel2 : reach h p -> swaps k = false -> is_u256 (sAmount0 s) -> is_u256 (sAmount1 s) ->
  runV fuel p (Rebalance k s) = Ok (q, tr, (s1, Some (a0, a1))) -> (forall x, In x (sPositions s1) -> poAmount x < 2 ^ 128) ->
  let n := Z.of_nat (length (sPositions s1)) in
  exists g0 g1, runV fuel2 q (GetAmounts k (with_history s1 hh)) = Ok (q, [], (g0, g1)) /\ a0 - n <= g0 <= a0 /\ a1 - n <= g1 <= a1.
Proof.
  intros HR HK F0 F1 E HS n. apply reach_ok in HR. assert (good p) as HG by apply HR.
  destruct (idle_or k) as [->|C]; [discriminate|].
  assert (Rebalance k s = (act r <- burnReset s; act s <- rebalancePositions k (fst r); done (s, Some (snd r)))) as ER by (destruct k; [reflexivity..|congruence|reflexivity|reflexivity|reflexivity]).
  rewrite ER, runV_bind in E. destruct (runV fuel p (burnReset s)) as [[[pb tb] [sb rb]]| |] eqn:EB; cbn [bind] in E; try discriminate.
  cbn [fst snd] in E. rewrite runV_bind in E. destruct (runV fuel pb (rebalancePositions k sb)) as [[[q1 t1] s1']| |] eqn:E1; cbn [bind] in E; try discriminate.
  unfold done in E. cbn [runV bind] in E. injection E as <- <- <- Er.
  unfold burnReset in EB. rewrite runV_bind in EB. destruct (runV fuel p (burnPositions _ _)) as [[[pc tc] sc]| |] eqn:EC; cbn [bind] in EB; try discriminate.
  unfold done in EB. cbn [runV bind] in EB. injection EB as <- <- <- <-.
  destruct (safe_burnPositions (Token0 p) (Token1 p) _ _ _ _ _ _ _ HG (conj F0 F1) EC) as (SC & _ & FC).
  injection Er as <- <-.
  destruct (holds_rebalancePositions fresh fresh_same fresh_trans fresh_mint k (with_positions sc []) HK fuel pc _ _ _ (good_slot _ _ SC HG) FC E1) as (SL & FF & K).
  assert (SqrtRatio q1 = SqrtRatio pc) as EP by (unfold slot in SL; now injection SL). rewrite <- EP in K.
  exact (fresh_amounts fuel2 q1 k (with_positions sc []) s1' hh C FC FF eq_refl K (small_bound _ HS)).
Qed.

(** ** in the value the executor records *)
Lemma value_holds fuel q g0 g1 b0 b1 q' t v : 0 < SqrtRatio q < 2 ^ 128 -> 0 <= g0 -> 0 <= g1 ->
  g0 * SqrtRatio q ^ 2 + g1 * 2 ^ 192 <= b0 * SqrtRatio q ^ 2 + b1 * 2 ^ 192 ->
  runV fuel q (valueUSD g0 g1) = Ok (q', t, v) -> v <= b0 + b1 * 2 ^ 192 / SqrtRatio q ^ 2.
Proof.
  intros HP G0 G1 HL E. unfold valueUSD, look, pure, done in E. cbn [mbind runV] in E. cbn [slot slPrice] in E. cbv zeta in E. rewrite Z.pow_2_r in *.
  set (P := SqrtRatio q) in *. assert (0 < P * P < T256) as HP2 by (split; [apply Z.mul_pos_pos; lia|apply (Z.mul_lt_mono_nonneg P (2 ^ 128) P (2 ^ 128)); lia]).
  unfold umul in E. rewrite Z.mod_small in E by lia. change Q192 with (2 ^ 192) in E. generalize dependent (P * P). intros d HL E Hd.
  destruct (MulDiv g1 (2 ^ 192) d) as [r| |] eqn:ER; cbn [mbind runV bind] in E; try discriminate. injection E as _ _ <-.
  apply MulDiv_ok in ER; [|lia..]. assert (0 <= g1 * 2 ^ 192 / d) as K0 by (apply Z.div_pos; lia).
  assert (0 <= r <= g1 * 2 ^ 192 / d) as Hr by (subst r; split; [apply Z.mod_pos_bound; reflexivity|apply Z.mod_le; [assumption|reflexivity]]).
  pose proof (uadd_le r g0 ltac:(lia) G0) as HU. enough (g0 + g1 * 2 ^ 192 / d <= b0 + b1 * 2 ^ 192 / d) by lia.
  rewrite <- !Z.div_add_l by lia. apply Z.div_le_mono; lia.
Qed.
