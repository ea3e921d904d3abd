(** LimbRunFacts.v -- the strategies and the executor on the words of uint256.Int (LimbRun.v) and on integers (Strategy.v,
    Executor.v) go hand in hand. *)
From Coq Require Import ZifyBool String.
From Verif Require Import Base U256 U256Facts U256Div U256Z LibBridge SwapMath TickMath Float64 TickData Pool PoolOps Prices Client Strategy Executor LimbMath LimbFacts LimbPool LimbPoolFacts LimbRun.
Ltac Zify.zify_post_hook ::= idtac.
Open Scope Z_scope.

(** records of words and records of integers, field by field; [R] relates the numbers *)
Section By.
Variable R : Int -> Z -> Prop.
Definition slotBy (x : SlotL) (v : Slot) : Prop :=
  slToken0L x = slToken0 v /\ slToken1L x = slToken1 v /\ slFeeL x = slFee v /\ slTickL x = slTick v /\ R (slPriceL x) (slPrice v).
Definition positionBy (x : PositionL) (v : Position) : Prop :=
  poLowerL x = poLower v /\ poUpperL x = poUpper v /\ R (poAmountL x) (poAmount v).
Definition pricesBy (p : PricesL) (q : Prices) : Prop :=
  Forall2 R (plPrices p) (prPrices q) /\ plIndex p = prIndex q /\ plLength p = prLength q.
Definition stBy (s : StL) (t : St) : Prop :=
  (R (sAmount0L s) (sAmount0 t) /\ R (sAmount1L s) (sAmount1 t)) /\
  Forall2 positionBy (sPositionsL s) (sPositions t) /\ pricesBy (sHistoryL s) (sHistory t) /\
  (sTickLowerL s = sTickLower t /\ sTickUpperL s = sTickUpper t /\ sLimitTickL s = sLimitTick t /\ sDirectionL s = sDirection t).
Definition txBy (x : TransactionL) (t : Transaction) : Prop :=
  (txTypeL x = txType t /\ txLowerL x = txLower t /\ txUpperL x = txUpper t /\ txTimeL x = txTime t) /\
  (R (txAmountL x) (txAmount t) /\ R (txAmount0L x) (txAmount0 t) /\ R (txAmount1L x) (txAmount1 t)).
Definition loopBy (x : LoopL) (l : Loop) : Prop :=
  (lStartedL x = lStarted l /\ lUpdateL x = lUpdate l /\ lSnapshotL x = lSnapshot l /\ lPriceL x = lPrice l) /\ Forall2 R (lValuesL x) (lValues l).
Definition traceBy (x : traceL) (t : trace) : Prop := Forall2 (both (opBy R) (both R R)) x t.
End By.

Section Impl.
Context (R S : Int -> Z -> Prop) (I : forall x v, R x v -> S x v).
Lemma Forall2_impl2 {A B} (P Q : A -> B -> Prop) l m : (forall x v, P x v -> Q x v) -> Forall2 P l m -> Forall2 Q l m.
Proof. intros K H. induction H; constructor; auto. Qed.
Lemma stBy_impl s t : stBy R s t -> stBy S s t.
Proof.
  intros ((A0 & A1) & P & (H & H1) & K). split; [auto|]. split; [|split; [split; [|exact H1]|exact K]]; (eapply Forall2_impl2; [|eassumption]); auto.
  intros x v (U & V & W). split; [exact U|split; [exact V|auto]].
Qed.
Lemma txBy_impl x t : txBy R x t -> txBy S x t.
Proof. unfold txBy. intuition. Qed.
Lemma traceBy_impl x t : traceBy R x t -> traceBy S x t.
Proof. apply Forall2_impl2. intros [o [a b]] [c [u v]] [O [A B]]. split; [apply (opBy_impl R S I); exact O|split; auto]. Qed.
End Impl.

Notation isSlot := (slotBy is).
Notation isSt := (stBy is).
Notation isTx := (txBy is).
Notation isLoop := (loopBy is).
Notation is2 := (both is is).

(** * two trees of pool calls *)
Inductive simM {A B} (R : A -> B -> Prop) : ML A -> M B -> Prop :=
| simM_ret m r : sim R m r -> simM R (LRet m) (MRet r)
| simM_op o c k l : opBy is o c -> (forall x v, is2 x v -> simM R (k x) (l v)) -> simM R (LOp o k) (MOp c l)
| simM_read k l : (forall x v, isSlot x v -> simM R (k x) (l v)) -> simM R (LRead k) (MRead l).

Lemma simM_bind {A B C D} (R : A -> B -> Prop) (S : C -> D -> Prop) m r k l :
  simM R m r -> (forall x v, R x v -> simM S (k x) (l v)) -> simM S (lbind m k) (mbind r l).
Proof.
  intros H K. induction H as [m r H|o c f g O _ IH|f g _ IH]; cbn [lbind mbind].
  - destruct m, r; cbn [sim] in H; try contradiction; [apply K; exact H|apply simM_ret; exact I|apply simM_ret; exact I].
  - apply simM_op; [exact O|exact IH].
  - apply simM_read. exact IH.
Qed.
Lemma simM_bindl {A B C D} (R : A -> B -> Prop) (S : C -> D -> Prop) m v k r :
  sim R m (Ok v) -> (forall x, R x v -> simM S (k x) r) -> simM S (lbind (pureL m) k) r.
Proof. intros H K. unfold pureL. destruct m; cbn [sim] in H; try contradiction. apply K. exact H. Qed.
Lemma simM_done {A B} (R : A -> B -> Prop) x v : R x v -> simM R (doneL x) (done v).
Proof. intros H. apply simM_ret. exact H. Qed.
Lemma simM_pure {A B} (R : A -> B -> Prop) m r : sim R m r -> simM R (pureL m) (pure r).
Proof. intros H. apply simM_ret. exact H. Qed.
Lemma simM_look : simM isSlot lookL look.
Proof. apply simM_read. intros x v H. apply simM_done. exact H. Qed.
Lemma simM_call o c : opBy is o c -> simM is2 (callL o) (call c).
Proof. intros H. apply simM_op; [exact H|]. intros x v K. apply simM_done. exact K. Qed.
Lemma simM_if {A B} (R : A -> B -> Prop) (b c : bool) m1 m2 r1 r2 : b = c ->
  simM R m1 r1 -> simM R m2 r2 -> simM R (if b then m1 else m2) (if c then r1 else r2).
Proof. intros -> H K. destruct c; assumption. Qed.

(** ** running them *)
Lemma sim_apply fuel q p o c : isPool q p -> opBy is o c -> sim isOut (applyL fuel q o) (apply fuel p c).
Proof.
  intros P S. assert (Z0 : forall m r, sim isPool m r -> sim isOut (do q <- m; Ok (q, NewInt 0, NewInt 0)) (do p <- r; Ok (p, 0, 0))).
  { intros m r H. eapply sim_bind; [exact H|]. intros x v K. split; [exact K|]. split; exact is_0. }
  destruct o, c; cbn [opBy] in S; try contradiction; repeat match goal with H : _ /\ _ |- _ => destruct H end; subst; cbn [applyL apply].
  - apply Z0, sim_Mint; assumption.
  - apply Z0, sim_Burn; assumption.
  - apply sim_MintStrategy; assumption.
  - apply sim_BurnStrategy; assumption.
  - apply sim_CollectStrategy; assumption.
  - apply Z0, sim_Flash; assumption.
  - apply sim_in; assumption.
  - apply sim_out; assumption.
Qed.

(** the pool, the calls and the result *)
Definition ranBy {A B} (N : Int -> Z -> Prop) (R : A -> B -> Prop) (x : PoolL * traceL * A) (v : Pool * trace * B) : Prop :=
  poolBy N (fst (fst x)) (fst (fst v)) /\ traceBy N (snd (fst x)) (snd (fst v)) /\ R (snd x) (snd v).

Lemma sim_run {A B} (R : A -> B -> Prop) fuel m r : simM R m r -> forall q p, isPool q p -> sim (ranBy is R) (runL fuel q m) (runV fuel p r).
Proof.
  intros H. induction H as [m r H|o c k l O _ IH|k l _ IH]; intros q p P; cbn [runL runV].
  - eapply sim_bind; [exact H|]. intros x v K. split; [exact P|]. split; [constructor|exact K].
  - eapply sim_bind; [apply sim_apply; eassumption|]. intros [[q' x] y] [[p' a] b] (P' & X & Y). cbn [fst snd] in *.
    eapply sim_bind; [apply (IH (x, y) (a, b)); [split; assumption|exact P']|]. intros [[q2 t] z] [[p2 u] v] (P2 & T & Z). cbn [fst snd] in *.
    split; [exact P2|]. split; [|exact Z]. constructor; [|exact T]. split; [exact O|split; assumption].
  - apply IH; [|exact P]. destruct P as ((T0 & T1 & F & _ & C) & (X & _) & _). unfold slotL, slot, slotBy. cbn [slToken0L slToken1L slFeeL slPriceL slTickL slToken0 slToken1 slFee slPrice slTick]. auto 6.
Qed.

(** * the strategies *)
Lemma sim_GetRatio t : sim is (GetSqrtRatioAtTickL t) (GetSqrtRatioAtTick t).
Proof. apply sim_ticks. Qed.
Lemma sim_GetTickAt p a : is p a -> sim eq (GetTickAtSqrtRatioL p) (GetTickAtSqrtRatio a).
Proof. intros P. unfold GetTickAtSqrtRatioL, GetTickAtSqrtRatio. rewrite (sim_tick _ p a P). apply sim_refl. Qed.
Lemma sim_SqrtL x a : is x a -> sim is (SqrtL x) (Ok (usqrt a)).
Proof. intros X. apply sim_Sqrt; [exact X|apply le_n]. Qed.
Lemma is_2 : is (NewInt 2) 2. Proof. apply is_NewInt. split; [lia|reflexivity]. Qed.
#[export] Hint Resolve sim_GetRatio sim_liquidity sim_amounts is_2 : limb.

Ltac open_st := repeat match goal with
  | H : stBy _ _ _ |- _ => destruct H as ((? & ?) & ? & ? & (? & ? & ? & ?))
  | H : slotBy _ _ _ |- _ => destruct H as (? & ? & ? & ? & ?)
  | H : positionBy _ _ _ |- _ => destruct H as (? & ? & ?)
  | H : both _ _ _ _ |- _ => destruct H as [? ?]
  end; cbn [fst snd] in *.
Ltac st_goal := unfold stBy, with_amountsL, with_amounts, with_positionsL, with_positions, with_historyL, with_history, with_rangeL, with_range, with_limitL, with_limit;
  cbn [sAmount0L sAmount1L sPositionsL sHistoryL sTickLowerL sTickUpperL sLimitTickL sDirectionL sAmount0 sAmount1 sPositions sHistory sTickLower sTickUpper sLimitTick sDirection fst snd];
  repeat match goal with |- _ /\ _ => refine (conj _ _) end; auto with limb.

Lemma sim_NewStrategy k x y a b n : is x a -> is y b -> sim isSt (NewStrategyL k x y n) (NewStrategy k a b n).
Proof. intros X Y. unfold NewStrategyL, NewStrategy. eapply sim_bind; [apply sim_NewPrices|]. intros h h' H. cbn [sim]. st_goal. Qed.

Lemma simM_sum l m : Forall2 (positionBy is) l m -> forall x y a b, is x a -> is y b -> simM is2 (sumPositionsL l x y) (sumPositions m a b).
Proof.
  intros H. induction H as [|u v l m U _ IH]; intros x y a b X Y; cbn [sumPositionsL sumPositions]; [apply simM_done; split; assumption|].
  destruct U as (L & U & A). rewrite L, U.
  eapply simM_bind; [apply simM_pure, sim_GetRatio|intros r r' Hr]. eapply simM_bind; [apply simM_pure, sim_GetRatio|intros t t' Ht].
  eapply simM_bind; [apply simM_look|intros p p' (_ & _ & _ & _ & P)].
  eapply simM_bind; [apply simM_pure, sim_amounts; eassumption|intros w w' [W1 W2]]. apply IH; auto with limb.
Qed.
Lemma simM_GetAmounts k s t : isSt s t -> simM is2 (GetAmountsL k s) (GetAmounts k t).
Proof.
  intros S. open_st. destruct k; cbn [GetAmountsL GetAmounts];
    try (eapply simM_bind; [apply simM_sum; [eassumption|exact is_0|exact is_0]|intros r r' [? ?]]); apply simM_done; split; cbn [fst snd]; auto with limb.
Qed.

Lemma simM_burn l m : Forall2 (positionBy is) l m -> forall s t, isSt s t -> simM isSt (burnPositionsL l s) (burnPositions m t).
Proof.
  intros H. induction H as [|u v l m U _ IH]; intros s t S; cbn [burnPositionsL burnPositions]; [apply simM_done; exact S|].
  destruct U as (L & U & A). rewrite L, U.
  eapply simM_bind; [apply simM_call; cbn [opBy]; auto|intros _ _ _]. eapply simM_bind; [apply simM_call; cbn [opBy]; auto|intros r r' [R1 R2]].
  apply IH. open_st. st_goal.
Qed.
Definition isBurnt : StL * (Int * Int) -> St * (Z * Z) -> Prop := both isSt is2.
Lemma simM_burnKeep s t : isSt s t -> simM isBurnt (burnKeepL s) (burnKeep t).
Proof.
  intros S. eapply simM_bind; [apply simM_burn; [exact (proj1 (proj2 S))|exact S]|]. intros s' t' S'. apply simM_done. split; [exact S'|]. open_st. split; assumption.
Qed.
Lemma simM_burnReset s t : isSt s t -> simM isBurnt (burnResetL s) (burnReset t).
Proof.
  intros S. eapply simM_bind; [apply simM_burn; [exact (proj1 (proj2 S))|exact S]|]. intros s' t' S'. apply simM_done. open_st. split; [cbn [fst]; st_goal|split; assumption].
Qed.
Lemma simM_BurnAll k s t : isSt s t -> simM isBurnt (BurnAllL k s) (BurnAll k t).
Proof.
  intros S. destruct k; cbn [BurnAllL BurnAll]; try (apply simM_burnKeep; exact S); try (apply simM_burnReset; exact S).
  apply simM_done. split; [exact S|]. open_st. split; assumption.
Qed.

Lemma simM_mintAmount s t l u x a : isSt s t -> is x a -> simM isSt (mintAmountL s l u x) (mintAmount t l u a).
Proof.
  intros S X. unfold mintAmountL, mintAmount. cbv zeta. eapply simM_bind; [apply simM_call; cbn [opBy]; auto|intros r r' [R1 R2]]. apply simM_done.
  open_st. st_goal. apply Forall2_app; [assumption|]. constructor; [|constructor]. split; [reflexivity|]. split; [reflexivity|exact X].
Qed.
Lemma simM_liquidityFor s t l u : isSt s t -> simM is (liquidityForL s l u) (liquidityFor t l u).
Proof.
  intros S. unfold liquidityForL, liquidityFor. eapply simM_bind; [apply simM_pure, sim_GetRatio|intros r r' Hr]. eapply simM_bind; [apply simM_pure, sim_GetRatio|intros w w' Hw].
  eapply simM_bind; [apply simM_look|intros p p' (_ & _ & _ & _ & P)]. open_st. apply simM_pure, sim_liquidity; assumption.
Qed.
Lemma simM_mintPosition s t l u : isSt s t -> simM isSt (mintPositionL s l u) (mintPosition t l u).
Proof.
  intros S. eapply simM_bind; [apply simM_liquidityFor; exact S|]. intros x a X. apply simM_if; [apply b_zero; exact X|apply simM_done; exact S|apply simM_mintAmount; assumption].
Qed.
Lemma simM_mintUnchecked s t l u : isSt s t -> simM isSt (mintUncheckedL s l u) (mintUnchecked t l u).
Proof. intros S. eapply simM_bind; [apply simM_liquidityFor; exact S|]. intros x a X. apply simM_mintAmount; assumption. Qed.
Lemma simM_mintHalf s t l u : isSt s t -> simM isSt (mintHalfL s l u) (mintHalf t l u).
Proof.
  intros S. eapply simM_bind; [apply simM_liquidityFor; exact S|]. intros x a X. eapply simM_bindl; [apply sim_Div; [exact X|exact is_2]|]. intros h H.
  cbv zeta. apply simM_if; [apply b_zero; exact H|apply simM_done; exact S|apply simM_mintAmount; assumption].
Qed.

Ltac see p P := eapply simM_bind; [apply simM_look|intros p ? P; let A := fresh in let B := fresh in let C := fresh in let D := fresh in let E := fresh in
  destruct P as (A & B & C & D & E); rewrite ?A, ?B, ?C, ?D; clear A B; cbv zeta].
Lemma b_left0 s t : isSt s t -> negb (IsZero (sAmount0L s)) = negb (sAmount0 t =? 0).
Proof. intros S. open_st. f_equal. apply b_zero. assumption. Qed.
Lemma b_left1 s t : isSt s t -> negb (IsZero (sAmount1L s)) = negb (sAmount1 t =? 0).
Proof. intros S. open_st. f_equal. apply b_zero. assumption. Qed.
Lemma is_with_limit s t x d : isSt s t -> isSt (with_limitL s x d) (with_limit t x d).
Proof. intros S. open_st. st_goal. Qed.

Lemma simM_twoInterval a b s t : isSt s t -> simM isSt (twoIntervalPositionsL a b s) (twoIntervalPositions a b t).
Proof.
  intros S. unfold twoIntervalPositionsL, twoIntervalPositions. see p P. destruct (around _ _ _) as [l u].
  eapply simM_bind; [apply simM_mintPosition; exact S|intros s1 t1 S1]. eapply simM_bind; [|intros s2 t2 S2].
  - apply simM_if; [apply b_left0; exact S1| |apply simM_done; exact S1]. see q Q. apply simM_mintPosition. exact S1.
  - apply simM_if; [apply b_left1; exact S2| |apply simM_done; exact S2]. see q Q. apply simM_mintPosition. exact S2.
Qed.
Lemma simM_fillUp s t sp l u : isSt s t -> simM isSt (fillUpL s sp l u) (fillUp t sp l u).
Proof.
  intros S. unfold fillUpL, fillUp. apply simM_if; [apply b_left0; exact S| |].
  - see p P. apply simM_if; [reflexivity|apply simM_mintPosition; exact S|apply simM_done; exact S].
  - apply simM_if; [apply b_left1; exact S| |apply simM_done; exact S]. see p P. apply simM_if; [reflexivity|apply simM_mintPosition; exact S|apply simM_done; exact S].
Qed.
Lemma simM_fillUpPositions w s t : isSt s t -> simM isSt (fillUpPositionsL w s) (fillUpPositions w t).
Proof.
  intros S. unfold fillUpPositionsL, fillUpPositions. see p P. destruct (around _ _ _) as [l u].
  eapply simM_bind; [apply simM_mintPosition; exact S|intros s1 t1 S1]. apply simM_fillUp. exact S1.
Qed.
Lemma simM_limitOrder w s t : isSt s t -> simM isSt (limitOrderPositionsL w s) (limitOrderPositions w t).
Proof.
  intros S. unfold limitOrderPositionsL, limitOrderPositions. see p P. destruct (around _ _ _) as [l u].
  eapply simM_bind; [apply simM_mintPosition; exact S|intros s1 t1 S1]. eapply simM_bind; [|intros s2 t2 S2].
  - apply simM_if; [apply b_left0; exact S1| |apply simM_done; exact S1]. see q Q. eapply simM_bind; [apply simM_mintHalf; exact S1|intros s2 t2 S2]. apply simM_done, is_with_limit. exact S2.
  - apply simM_if; [apply b_left1; exact S2| |apply simM_done; exact S2]. see q Q. eapply simM_bind; [apply simM_mintHalf; exact S2|intros s3 t3 S3]. apply simM_done, is_with_limit. exact S3.
Qed.

Lemma sim_bandTicks x w a b : is x a -> is w b -> sim eq (bandTicksL x w) (bandTicks a b).
Proof.
  intros X W. unfold bandTicksL, bandTicks. cbv zeta.
  assert (L : is (fst (SubOverflow x w)) (usub a b) /\ snd (SubOverflow x w) = (a <? b)).
  { destruct X as [Hx <-], W as [Hw <-]. destruct (SubOverflow_spec x w Hx Hw) as (H1 & H2 & H3). split; [split; assumption|exact H3]. }
  assert (U : is (fst (AddOverflow x w)) (uadd a b) /\ snd (AddOverflow x w) = (T256 <=? a + b)).
  { destruct X as [Hx <-], W as [Hw <-]. destruct (AddOverflow_spec x w Hx Hw) as (H1 & H2 & H3). split; [split; assumption|exact H3]. }
  destruct (SubOverflow x w) as [r0 o0], (AddOverflow x w) as [r1 o1]. cbn [fst snd] in L, U. destruct L as [L ->], U as [U ->].
  eapply sim_bind; [apply (sim_if (@eq Z)); [rewrite (b_cmp_m1 _ _ _ _ L is_MinRatio); reflexivity|intros _; apply sim_refl|intros _; apply sim_GetTickAt; exact L]|]. intros ? tl ->.
  eapply sim_bind; [apply (sim_if (@eq Z)); [rewrite (b_cmp_1 _ _ _ _ U is_MaxRatio); reflexivity|intros _; apply sim_refl|intros _; apply sim_GetTickAt; exact U]|]. intros ? tu ->. apply sim_refl.
Qed.
Lemma sim_bandWidth h h' m : is_prices h h' -> sim is (bandWidthL h m) (bandWidth h' m).
Proof.
  intros H. unfold bandWidthL, bandWidth. eapply sim_bind; [apply sim_Volatility; exact H|]. intros x v X. apply sim_SqrtL. apply is_Rsh; [|lia]. apply is_Mul; [exact X|].
  apply is_NewInt. apply Z.mod_pos_bound. reflexivity.
Qed.
Lemma sim_averagePrice {A} (R : A -> A -> Prop) h h' f g : is_prices h h' -> (forall x, is x (usqrt (Average h')) -> sim R (f x) g) ->
  sim R (do a <- AverageL h; do price <- SqrtL a; f price) g.
Proof. intros H K. eapply sim_bindl; [apply sim_Average; exact H|]. intros x X. eapply sim_bindl; [apply sim_SqrtL; exact X|]. exact K. Qed.
Lemma simM_volatilityTicks m s t : isSt s t -> simM eq (volatilityTicksL m s) (volatilityTicks m t).
Proof.
  intros S. unfold volatilityTicksL, volatilityTicks. eapply simM_bind; [apply simM_look|intros p p' (_ & _ & _ & _ & P)]. open_st.
  apply simM_pure. eapply sim_bind; [apply sim_bandWidth; eassumption|]. intros w w' W. apply sim_bandTicks; assumption.
Qed.
Lemma simM_bollingerTicks m s t : isSt s t -> simM eq (bollingerTicksL m s) (bollingerTicks m t).
Proof.
  intros S. unfold bollingerTicksL, bollingerTicks. open_st. apply simM_pure. eapply sim_bind; [apply sim_bandWidth; eassumption|]. intros w w' W.
  eapply sim_averagePrice; [eassumption|]. intros x X. apply sim_bandTicks; assumption.
Qed.
Lemma simM_averageTicks w s t : isSt s t -> simM eq (averageTicksL w s) (averageTicks w t).
Proof.
  intros S. unfold averageTicksL, averageTicks. open_st.
  eapply simM_bind; [apply simM_pure; eapply sim_averagePrice; [eassumption|]; intros x X; apply sim_GetTickAt; exact X|]. intros tick ? <-.
  see p P. apply simM_done. reflexivity.
Qed.

Lemma simM_swapAndMint s t l u : isSt s t -> simM isSt (swapAndMintL s l u) (swapAndMint t l u).
Proof.
  intros S. unfold swapAndMintL, swapAndMint. eapply simM_bind; [apply simM_pure, sim_GetRatio|intros r r' Hr]. eapply simM_bind; [apply simM_pure, sim_GetRatio|intros w w' Hw].
  see p P. pose proof S as S0. destruct S as ((? & ?) & ? & ? & (? & ? & ? & ?)). eapply simM_bind; [apply simM_pure, sim_liquidity; eassumption|intros n n' N].
  eapply simM_bind; [apply simM_pure, sim_amounts; eassumption|intros z z' [Z0 Z1]].
  assert (D0 : is (Sub (sAmount0L s) (fst z)) (usub (sAmount0 t) (fst z'))) by (apply is_Sub; assumption).
  assert (D1 : is (Sub (sAmount1L s) (snd z)) (usub (sAmount1 t) (snd z'))) by (apply is_Sub; assumption).
  eapply simM_bind.
  - apply simM_if; [apply b_cmp_gt; [apply is_Lsh; [exact D0|lia]|exact D1]| |].
    + eapply simM_bindl; [apply sim_Div; [exact D0|exact is_2]|]. intros h Hh. apply simM_if; [rewrite (sign_is _ _ Hh); reflexivity| |apply simM_done; exact S0].
      see q Q. eapply simM_bind; [apply simM_call; cbn [opBy]; split; [reflexivity|split; [exact Hh|exact is_Zero]]|intros e e' [V0 V1]]. apply simM_done. st_goal.
    + eapply simM_bindl; [apply sim_Div; [exact D1|exact is_2]|]. intros h Hh. apply simM_if; [rewrite (sign_is _ _ Hh); reflexivity| |apply simM_done; exact S0].
      see q Q. eapply simM_bind; [apply simM_call; cbn [opBy]; split; [reflexivity|split; [exact Hh|exact is_Zero]]|intros e e' [V0 V1]]. apply simM_done. st_goal.
  - intros s1 t1 S1. see q Q. pose proof S1 as S2. destruct S2 as ((B0 & B1) & _). eapply simM_bind; [apply simM_pure, sim_liquidity; eassumption|intros x a X]. apply simM_mintAmount; assumption.
Qed.
Lemma simM_bollingerFillUp m s t : isSt s t -> simM isSt (bollingerFillUpL m s) (bollingerFillUp m t).
Proof.
  intros S. unfold bollingerFillUpL, bollingerFillUp. eapply simM_bind; [apply simM_bollingerTicks; exact S|]. intros [l u] ? <-.
  eapply simM_bind; [apply simM_mintPosition; exact S|intros s1 t1 S1]. see p P. apply simM_if; [reflexivity|apply simM_fillUp; exact S1|apply simM_done; exact S1].
Qed.
Lemma simM_mintAround w f g s t : (forall l u, simM isSt (f s l u) (g t l u)) -> simM isSt (mintAroundL w f s) (mintAround w g t).
Proof. intros F. unfold mintAroundL, mintAround. see p P. destruct (around _ _ _) as [l u]. apply F. Qed.
Lemma simM_mintAt f g s t : simM eq (f s) (g t) -> isSt s t -> simM isSt (mintAtL f s) (mintAt g t).
Proof. intros F S. eapply simM_bind; [exact F|]. intros x ? <-. apply simM_mintPosition. exact S. Qed.

Lemma simM_initPositions k s t : isSt s t -> simM isSt (initPositionsL k s) (initPositions k t).
Proof.
  intros S. destruct k; cbn [initPositionsL initPositions].
  - apply simM_twoInterval; exact S.
  - apply simM_mintAt; [apply simM_bollingerTicks|]; exact S.
  - apply simM_mintAt; [apply simM_bollingerTicks|]; exact S.
  - see p P. destruct (around _ _ _) as [l u]. apply simM_mintUnchecked. open_st. st_goal.
  - apply simM_fillUpPositions; exact S.
  - apply simM_mintAt; [apply simM_averageTicks|]; exact S.
  - apply simM_mintAround. intros l u. apply simM_mintUnchecked; exact S.
  - apply simM_limitOrder; exact S.
  - apply simM_done; exact S.
  - apply simM_mintAround. intros l u. apply simM_swapAndMint; exact S.
  - apply simM_mintPosition; exact S.
  - apply simM_mintAt; [apply simM_volatilityTicks|]; exact S.
Qed.
Lemma simM_Init k s t : isSt s t -> simM isBurnt (InitL k s) (Init k t).
Proof. intros S. eapply simM_bind; [apply simM_initPositions; exact S|]. intros s1 t1 S1. apply simM_done. split; [exact S1|]. open_st. split; assumption. Qed.
Lemma simM_rebalancePositions k s t : isSt s t -> simM isSt (rebalancePositionsL k s) (rebalancePositions k t).
Proof.
  intros S. destruct k; cbn [rebalancePositionsL rebalancePositions].
  - apply simM_twoInterval; exact S.
  - apply simM_mintAt; [apply simM_bollingerTicks|]; exact S.
  - apply simM_bollingerFillUp; exact S.
  - replace (sTickLowerL s) with (sTickLower t) by (open_st; congruence). replace (sTickUpperL s) with (sTickUpper t) by (open_st; congruence). apply simM_mintPosition; exact S.
  - apply simM_fillUpPositions; exact S.
  - apply simM_mintAt; [apply simM_averageTicks|]; exact S.
  - apply simM_mintAround. intros l u. apply simM_mintPosition; exact S.
  - apply simM_limitOrder; exact S.
  - apply simM_done; exact S.
  - apply simM_mintAround. intros l u. apply simM_swapAndMint; exact S.
  - apply simM_mintPosition; exact S.
  - apply simM_mintAt; [apply simM_volatilityTicks|]; exact S.
Qed.
(** the two amounts, or none *)
Definition isSome2 (x : option (Int * Int)) (v : option (Z * Z)) : Prop :=
  match x, v with Some x, Some v => is2 x v | None, None => True | _, _ => False end.
Lemma simM_Rebalance k s t : isSt s t -> simM (both isSt isSome2) (RebalanceL k s) (Rebalance k t).
Proof.
  intros S. destruct k; cbn [RebalanceL Rebalance]; try (apply simM_done; split; [exact S|exact I]);
    (eapply simM_bind; [apply simM_burnReset; exact S|]; intros r r' [R1 R2]; eapply simM_bind; [apply simM_rebalancePositions; exact R1|]; intros s1 t1 S1; apply simM_done; split; [exact S1|exact R2]).
Qed.
Lemma simM_MakeSnapshot k s t : isSt s t -> simM isSt (MakeSnapshotL k s) (MakeSnapshot k t).
Proof.
  intros S. unfold MakeSnapshotL, MakeSnapshot. apply simM_if; [reflexivity| |apply simM_done; exact S]. eapply simM_bind; [apply simM_look|intros p p' (_ & _ & _ & _ & P)].
  open_st. eapply simM_bind; [apply simM_pure, sim_AddPrice; eassumption|]. intros h h' HH. apply simM_done. st_goal.
Qed.

(** * the executor *)
Lemma is_Q192 : is Q192L Q192. Proof. apply limb_constants. Qed.
Lemma simM_value x y a b : is x a -> is y b -> simM is (valueUSDL x y) (valueUSD a b).
Proof.
  intros X Y. unfold valueUSDL, valueUSD. eapply simM_bind; [apply simM_look|intros p p' (_ & _ & _ & _ & P)]. cbv zeta.
  eapply simM_bind; [apply simM_pure, sim_MulDiv; [exact Y|exact is_Q192|apply is_Mul; exact P]|]. intros z c Z. apply simM_done. apply is_Add; assumption.
Qed.
Lemma simM_exec x t : isTx x t -> simM is2 (execTxL x) (execTx t).
Proof.
  intros ((T & L & U & _) & (A & A0 & A1)). unfold execTxL, execTx. rewrite T, L, U, (sign_is _ _ A0), (sign_is _ _ A1).
  assert (Z0 : simM is2 (doneL (NewInt 0, NewInt 0)) (done (0, 0))) by (apply simM_done; split; exact is_0).
  apply simM_if; [reflexivity|apply simM_call; cbn [opBy]; auto|]. apply simM_if; [reflexivity|apply simM_call; cbn [opBy]; auto|].
  apply simM_if; [reflexivity| |apply simM_if; [reflexivity|apply simM_call; cbn [opBy]; auto|exact Z0]].
  apply simM_if; [reflexivity| |apply simM_if; [reflexivity| |exact Z0]].
  - see p P. apply simM_call. cbn [opBy]. split; [reflexivity|split; [exact A0|exact is_Zero]].
  - see p P. apply simM_call. cbn [opBy]. split; [reflexivity|split; [exact A1|exact is_Zero]].
Qed.

Section Run.
Context (A B : Type) (R : A -> B -> Prop) (f : StratL A) (g : Strat B) (c : Config).
Definition sameStrat : Prop := forall s t, R s t ->
  simM (both R is2) (doInitL f s) (doInit g t) /\ simM R (doRebalanceL f s) (doRebalance g t) /\ simM (both R is2) (doBurnAllL f s) (doBurnAll g t) /\
  simM is2 (doAmountsL f s) (doAmounts g t) /\ simM R (doSnapshotL f s) (doSnapshot g t).
Context (FG : sameStrat).
Definition isSl : A * LoopL -> B * Loop -> Prop := both R isLoop.

Ltac loop_goal := unfold loopBy; cbn [lStartedL lUpdateL lSnapshotL lPriceL lValuesL lStarted lUpdate lSnapshot lPrice lValues];
  repeat match goal with |- _ /\ _ => refine (conj _ _) end; try congruence; auto; try (apply Forall2_app; [assumption|constructor; [assumption|constructor]]).

Lemma simM_runLoop xs ts : Forall2 isTx xs ts -> forall s t x l, R s t -> isLoop x l -> simM isSl (runLoopL f c xs s x) (runLoop g c ts t l).
Proof.
  intros H. induction H as [|a b xs ts X _ IH]; intros s t x l S L; cbn [runLoopL runLoop]; [apply simM_done; split; assumption|].
  pose proof X as ((_ & _ & _ & T) & _). rewrite T. apply simM_if; [reflexivity|apply simM_done; split; assumption|].
  eapply (simM_bind isSl); [|intros [s1 x1] [t1 l1] [S1 L1]; cbn [fst snd] in S1, L1].
  { destruct L as ((L0 & L1 & L2 & L3) & LV). rewrite L0. apply simM_if; [reflexivity| |apply simM_done; split; [exact S|cbn [snd]; loop_goal]].
    eapply simM_bind; [apply (FG s t S)|]. intros [s1 [y0 y1]] [t1 [v0 v1]] [S1 [Y0 Y1]]. cbn [fst snd] in *.
    eapply simM_bind; [apply simM_value; eassumption|]. intros y v Y. apply simM_done. split; [exact S1|]. cbn [snd]. loop_goal. }
  eapply (simM_bind isSl); [|intros [s2 x2] [t2 l2] [S2 L2]; cbn [fst snd] in S2, L2].
  { pose proof L1 as ((M0 & M1 & M2 & M3) & MV). rewrite M3. apply simM_if; [reflexivity| |apply simM_done; split; assumption].
    eapply simM_bind; [apply (FG s1 t1 S1)|]. intros s2 t2 S2. apply simM_done. split; [exact S2|]. cbn [snd]. loop_goal. }
  eapply (simM_bind isLoop); [|intros x3 l3 L3].
  { pose proof L2 as ((M0 & M1 & M2 & M3) & MV). rewrite M2. apply simM_if; [reflexivity| |apply simM_done; assumption].
    eapply simM_bind; [apply (FG s2 t2 S2)|]. intros y v [Y0 Y1]. eapply simM_bind; [apply simM_value; eassumption|]. intros z w Z. apply simM_done. loop_goal. }
  eapply (simM_bind isSl); [|intros [s4 x4] [t4 l4] [S4 L4]; cbn [fst snd] in S4, L4].
  { pose proof L3 as ((M0 & M1 & M2 & M3) & MV). rewrite M1. apply simM_if; [reflexivity| |apply simM_done; split; assumption].
    eapply simM_bind; [apply (FG s2 t2 S2)|]. intros s4 t4 S4. apply simM_done. split; [exact S4|]. cbn [snd]. loop_goal. }
  eapply simM_bind; [apply simM_exec; exact X|intros _ _ _]. apply IH; assumption.
Qed.
Lemma simM_Run xs ts s t : Forall2 isTx xs ts -> R s t -> simM (both R (Forall2 is)) (RunL f c xs s) (Run g c ts t).
Proof.
  intros X S. unfold RunL, Run. eapply simM_bind; [apply simM_runLoop; [exact X|exact S|loop_goal]|]. intros [s1 x1] [t1 l1] [S1 [_ L1]]. cbn [fst snd] in *.
  eapply simM_bind; [apply (FG s1 t1 S1)|]. intros [s2 [y0 y1]] [t2 [v0 v1]] [S2 [Y0 Y1]]. cbn [fst snd] in *.
  eapply simM_bind; [apply simM_value; eassumption|]. intros y v Y. apply simM_done. split; [exact S2|]. cbn [snd]. apply Forall2_app; [exact L1|]. constructor; [exact Y|constructor].
Qed.
End Run.

Lemma same_strategies k : sameStrat StL St isSt (strategyOfL k) (strategyOf k).
Proof.
  intros s t S. cbn [strategyOfL strategyOf doInitL doRebalanceL doBurnAllL doAmountsL doSnapshotL doInit doRebalance doBurnAll doAmounts doSnapshot].
  repeat match goal with |- _ /\ _ => refine (conj _ _) end.
  - apply simM_Init; exact S.
  - eapply simM_bind; [apply simM_Rebalance; exact S|]. intros x v [X _]. apply simM_done. exact X.
  - apply simM_BurnAll; exact S.
  - apply simM_GetAmounts; exact S.
  - apply simM_MakeSnapshot; exact S.
Qed.

Lemma sim_Create c xs ts : Forall2 isTx xs ts -> CreateExecutionL c xs = CreateExecution c ts.
Proof.
  intros H. unfold CreateExecutionL, CreateExecution. assert (K : Forall2 isTx (rev xs) (rev ts)).
  { induction H; cbn [rev]; [constructor|]. apply Forall2_app; [assumption|]. constructor; [assumption|constructor]. }
  destruct K as [|x t ? ? ((_ & _ & _ & T) & _) _]; [reflexivity|]. rewrite T. reflexivity.
Qed.
