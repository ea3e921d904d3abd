(** LimbPoolFacts.v -- the pool on the words of uint256.Int (LimbPool.v) and the pool on integers (Pool.v) go hand in hand. *)
From Coq Require Import ZifyBool String.
From Verif Require Import Base U256 U256Facts U256Conv U256Z LibBridge SwapMath TickMath TickData Pool PoolOps LimbMath LimbFacts LimbPool.
From Verif Require TickHeap.
Ltac Zify.zify_post_hook ::= idtac.
Open Scope Z_scope.

(** records of words and records of integers, field by field; [R] relates the numbers *)
Section By.
Variable R : Int -> Z -> Prop.
Definition tickBy (x : TickL) (v : Tick) : Prop :=
  tIndex x = tkIndex v /\ R (tNet x) (tkNet v) /\ R (tGross x) (tkGross v) /\ R (tOut0 x) (tkOut0 v) /\ R (tOut1 x) (tkOut1 v).
Definition dataBy (t : TickDataL) (d : TickData) : Prop := Forall2 tickBy (ticksOf t) (ticks d) /\ spacingOf t = tickSpacing d.
Definition infoBy (i : InfoL) (j : Info) : Prop :=
  R (iLiquidity i) (pLiquidity j) /\ R (iLast0 i) (pLast0 j) /\ R (iLast1 i) (pLast1 j) /\ R (iOwed0 i) (pOwed0 j) /\ R (iOwed1 i) (pOwed1 j).
Definition posBy (m : PositionsL) (n : Positions) : Prop := Forall2 (fun a b => fst a = fst b /\ infoBy (snd a) (snd b)) m n.
Definition poolBy (q : PoolL) (p : Pool) : Prop :=
  (qToken0 q = Token0 p /\ qToken1 q = Token1 p /\ qFee q = Fee p /\ qTickSpacing q = TickSpacing p /\ qTickCurrent q = TickCurrent p) /\
  (R (qSqrtRatio q) (SqrtRatio p) /\ R (qLiquidity q) (Liquidity p) /\ R (qGrowth0 q) (FeeGrowth0 p) /\ R (qGrowth1 q) (FeeGrowth1 p)) /\
  dataBy (qData q) (Data p) /\ posBy (qPos q) (Pos p).
Definition stateBy (r : StateL) (s : State) : Prop :=
  R (rRemaining r) (sRemaining s) /\ R (rCalculated r) (sCalculated s) /\ R (rPrice r) (sPrice s) /\ rTick r = sTick s /\
  R (rGrowth r) (sGrowth s) /\ R (rLiquidity r) (sLiquidity s) /\ dataBy (rData r) (sData s).
(** a pool and two amounts *)
Definition outBy (x : PoolL * Int * Int) (v : Pool * Z * Z) : Prop :=
  poolBy (fst (fst x)) (fst (fst v)) /\ R (snd (fst x)) (snd (fst v)) /\ R (snd x) (snd v).
(** the same operation *)
Definition opBy (o : opL) (c : op) : Prop :=
  match o, c with
  | LMint l u x, OMint l' u' a | LBurn l u x, OBurn l' u' a
  | LMintStrategy l u x, OMintStrategy l' u' a | LBurnStrategy l u x, OBurnStrategy l' u' a => l = l' /\ u = u' /\ R x a
  | LCollectStrategy l u, OCollectStrategy l' u' => l = l' /\ u = u'
  | LFlash x y, OFlash a b => R x a /\ R y b
  | LExactInput x t y, OExactInput a t' b | LExactOutput x t y, OExactOutput a t' b => t = t' /\ R x a /\ R y b
  | _, _ => False
  end.
End By.

Section Impl.
Context (R S : Int -> Z -> Prop) (I : forall x v, R x v -> S x v).
Lemma tickBy_impl x v : tickBy R x v -> tickBy S x v.
Proof. unfold tickBy. intuition. Qed.
Lemma infoBy_impl x v : infoBy R x v -> infoBy S x v.
Proof. unfold infoBy. intuition. Qed.
Lemma dataBy_impl x v : dataBy R x v -> dataBy S x v.
Proof. intros [H K]. split; [|exact K]. revert H. generalize (ticksOf x), (ticks v). intros l m H. induction H; constructor; auto. apply tickBy_impl; assumption. Qed.
Lemma posBy_impl x v : posBy R x v -> posBy S x v.
Proof. intros H. induction H as [|a b x v [E K] _ IH]; constructor; auto. split; [exact E|apply infoBy_impl; exact K]. Qed.
Lemma poolBy_impl x v : poolBy R x v -> poolBy S x v.
Proof. intros (H1 & (H2 & H3 & H4 & H5) & H6 & H7). split; [exact H1|]. split; [auto|]. split; [apply dataBy_impl|apply posBy_impl]; assumption. Qed.
Lemma outBy_impl x v : outBy R x v -> outBy S x v.
Proof. intros (H1 & H2 & H3). split; [apply poolBy_impl; exact H1|auto]. Qed.
Lemma opBy_impl o c : opBy R o c -> opBy S o c.
Proof. destruct o, c; cbn [opBy]; intuition. Qed.
End Impl.

Notation isTick := (tickBy is).
Notation isData := (dataBy is).
Notation isInfo := (infoBy is).
Notation isPos := (posBy is).
Notation isPool := (poolBy is).
Notation isState := (stateBy is).
Notation isOut := (outBy is).

Lemma is_Q128 : is Q128L Q128. Proof. apply is_const. vm_compute. reflexivity. Qed.
Lemma is_0 : is (NewInt 0) 0. Proof. apply is_NewInt. split; [lia|reflexivity]. Qed.
#[export] Hint Resolve is_Q128 is_0 : limb.

Ltac fields := unfold tickBy, infoBy, poolBy, stateBy;
  cbn [tIndex tNet tGross tOut0 tOut1 tkIndex tkNet tkGross tkOut0 tkOut1 iLiquidity iLast0 iLast1 iOwed0 iOwed1 pLiquidity pLast0 pLast1 pOwed0 pOwed1 qToken0 qToken1 qFee qSqrtRatio qLiquidity qGrowth0 qGrowth1 qTickSpacing qTickCurrent qData qPos Token0 Token1 Fee SqrtRatio Liquidity FeeGrowth0 FeeGrowth1 TickSpacing TickCurrent Data Pos rRemaining rCalculated rPrice rTick rGrowth rLiquidity rData sRemaining sCalculated sPrice sTick sGrowth sLiquidity sData fst snd with_liqL with_liq];
  repeat match goal with |- _ /\ _ => refine (conj _ _) end; auto with limb.

(** * ticks *)
Lemma indices_same t d : isData t d -> TickHeap.sameIndex (indices t) d.
Proof.
  intros [H K]. split; [|exact K]. cbn [indices ticks]. revert H. generalize (ticksOf t), (ticks d). intros l m H.
  induction H as [|x v l m [E _] _ IH]; [reflexivity|]. cbn [map tkIndex]. rewrite IH, E. reflexivity.
Qed.
Lemma same_eq t d : isData t d ->
  (forall x, binarySearch (indices t) x = binarySearch d x) /\ (forall x, binarySearch2 (indices t) x = binarySearch2 d x) /\
  (forall x b, NextInitializedTickWithinOneWord (indices t) x b = NextInitializedTickWithinOneWord d x b).
Proof.
  intros H. apply indices_same in H. split; [|split]; intros.
  - apply TickHeap.same_bs. exact H.
  - apply TickHeap.same_bs2. exact H.
  - apply TickHeap.same_next. exact H.
Qed.
Lemma sim_refl {A} (r : res A) : sim eq r r.
Proof. destruct r; cbn; auto. Qed.
Lemma sim_at t d i : isData t d -> sim isTick (tickAtL t i) (tickAt d i).
Proof.
  intros [H _]. unfold tickAtL, tickAt. destruct (i <? 0); [exact Logic.I|]. generalize (Z.to_nat i). clear i.
  revert H. generalize (ticksOf t), (ticks d). intros l m H.
  induction H as [|x v l m E _ IH]; intros [|n]; unfold geti in *; cbn [nth_error]; [exact Logic.I|exact Logic.I|exact E|apply IH].
Qed.
Lemma F2_firstn {A B} (R : A -> B -> Prop) n l m : Forall2 R l m -> Forall2 R (firstn n l) (firstn n m).
Proof. intros H. revert n. induction H; intros [|n]; constructor; auto. Qed.
Lemma F2_skipn {A B} (R : A -> B -> Prop) n l m : Forall2 R l m -> Forall2 R (skipn n l) (skipn n m).
Proof. intros H. revert n. induction H; intros [|n]; cbn [skipn]; auto. Qed.
Lemma is_setAt t d i x v : isData t d -> isTick x v -> isData (with_ticksL t (setAtL (ticksOf t) i x)) (with_ticks d (setAt (ticks d) i v)).
Proof.
  intros [H K] E. split; [|exact K]. cbn [with_ticksL with_ticks ticksOf ticks]. unfold setAtL, setAt.
  apply Forall2_app; [apply F2_firstn; exact H|]. constructor; [exact E|]. apply F2_skipn. exact H.
Qed.

Lemma sim_GetTick t d i : isData t d -> sim isTick (GetTickL t i) (GetTick d i).
Proof.
  intros H. unfold GetTickL, GetTick. rewrite (proj1 (same_eq t d H)). eapply sim_bind; [apply sim_refl|]. intros ? j ->.
  eapply sim_bind; [apply sim_at; exact H|]. intros x v E. rewrite (proj1 E).
  eapply sim_bind; [apply sim_refl|]. intros _ _ _. exact E.
Qed.
Lemma sim_Cross t d i x y a b : isData t d -> is x a -> is y b -> sim (both isData is) (CrossL t i x y) (Cross d i a b).
Proof.
  intros H X Y. unfold CrossL, Cross. rewrite (proj1 (same_eq t d H)). eapply sim_bind; [apply sim_refl|]. intros ? j ->.
  eapply sim_bind; [apply sim_at; exact H|]. intros u v E. rewrite (proj1 E).
  eapply sim_bind; [apply sim_refl|]. intros _ _ _. destruct E as (E0 & E1 & E2 & E3 & E4). split; cbn [fst snd]; [|exact E1].
  apply is_setAt; [exact H|]. fields.
Qed.
Lemma is_makeTick i c n g x y a b u v : is n a -> is g b -> is x u -> is y v -> isTick (makeTickL i c n g x y) (makeTick i c a b u v).
Proof.
  intros N G X Y. unfold makeTickL, makeTick. destruct (i <=? c); fields.
Qed.
Lemma sim_Clear t d i : isData t d -> sim isData (ClearTickL t i) (ClearTick d i).
Proof.
  intros H. unfold ClearTickL, ClearTick. rewrite (proj1 (proj2 (same_eq t d H))). eapply sim_bind; [apply sim_refl|]. intros ? [j found] ->.
  destruct found; cbn [sim]; [|exact H]. destruct H as [H K]. split; [|exact K]. apply Forall2_app; [apply F2_firstn|apply F2_skipn]; exact H.
Qed.
Lemma sim_Update t d i c l x y v a b up : isData t d -> is l v -> is x a -> is y b ->
  sim (both isData eq) (UpdateTickL t i c l x y up) (UpdateTick d i c v a b up).
Proof.
  intros H L X Y. unfold UpdateTickL, UpdateTick. rewrite (proj1 (proj2 (same_eq t d H))). eapply sim_bind; [apply sim_refl|]. intros ? [j found] ->.
  cbv zeta. destruct found.
  - eapply sim_bind; [apply sim_at; exact H|]. intros u w (E0 & E1 & E2 & E3 & E4). pose proof (is_Add _ _ _ _ E2 L) as G.
    split; cbn [fst snd]; [|apply b_zero; exact G]. apply is_setAt; [exact H|].
    destruct up; fields.
  - assert (M : isTick (makeTickL i c (if up then Neg l else l) l x y) (makeTick i c (if up then uneg v else v) v a b)).
    { apply is_makeTick; auto. destruct up; [apply is_Neg|]; assumption. }
    destruct H as [H K]. destruct (j =? -2); [|destruct (j =? -1)]; (split; cbn [fst snd]; [|reflexivity]); (split; [|exact K]); cbn [with_ticksL with_ticks ticksOf ticks].
    + apply Forall2_app; [exact H|]. constructor; [exact M|constructor].
    + constructor; assumption.
    + apply Forall2_app; [apply F2_firstn; exact H|]. constructor; [exact M|]. apply F2_skipn. exact H.
Qed.
Lemma sim_Inside t d lo up c x y a b : isData t d -> is x a -> is y b ->
  sim (both is is) (GetFeeGrowthInsideL t lo up c x y) (GetFeeGrowthInside d lo up c a b).
Proof.
  intros H X Y. unfold GetFeeGrowthInsideL, GetFeeGrowthInside.
  eapply sim_bind; [apply sim_GetTick; exact H|]. intros u u' (_ & _ & _ & U0 & U1).
  eapply sim_bind; [apply sim_GetTick; exact H|]. intros w w' (_ & _ & _ & W0 & W1).
  destruct (lo <=? c), (c <? up); (split; cbn [fst snd]); eauto 10 with limb.
Qed.

(** * positions *)
Lemma sim_InfoUpdate i j l x y v a b : isInfo i j -> is l v -> is x a -> is y b -> sim isInfo (InfoUpdateL i l x y) (InfoUpdate j v a b).
Proof.
  intros (I0 & I1 & I2 & I3 & I4) L X Y. unfold InfoUpdateL, InfoUpdate. cbv zeta.
  eapply sim_bind; [solve [eauto with limb]|]. intros o0 o0' O0. eapply sim_bind; [solve [eauto with limb]|]. intros o1 o1' O1.
  cbn [sim]. fields.
Qed.
Lemma is_NewPosition : isInfo NewPositionL NewPosition.
Proof. pose proof is_0. unfold infoBy. cbn [NewPositionL NewPosition iLiquidity iLast0 iLast1 iOwed0 iOwed1 pLiquidity pLast0 pLast1 pOwed0 pOwed1]. tauto. Qed.
Definition optBy {A B} (R : A -> B -> Prop) (x : option A) (v : option B) : Prop :=
  match x, v with Some x, Some v => R x v | None, None => True | _, _ => False end.
Lemma is_get m n k : isPos m n -> optBy isInfo (posGetL m k) (posGet n k).
Proof.
  intros H. induction H as [|[k1 i] [k2 j] m n [E K] _ IH]; cbn [posGetL posGet]; [exact Logic.I|].
  cbn [fst snd] in *. subst k2. destruct (keyEq k1 k); [exact K|exact IH].
Qed.
Lemma is_put m n k i j : isPos m n -> isInfo i j -> isPos (posPutL m k i) (posPut n k j).
Proof.
  intros H I. induction H as [|[k1 i'] [k2 j'] m n [E K] H IH]; cbn [posPutL posPut].
  - constructor; [|constructor]. split; [reflexivity|exact I].
  - cbn [fst snd] in *. subst k2. destruct (keyEq k1 k); constructor; try assumption; split; auto.
Qed.

(** * pools *)
Lemma is_with_data q p t d : isPool q p -> isData t d -> isPool (with_dataL q t) (with_data p d).
Proof. intros (H1 & H2 & H3 & H4) D. split; [exact H1|]. split; [exact H2|]. split; assumption. Qed.
Lemma is_with_pos q p m n : isPool q p -> isPos m n -> isPool (with_posL q m) (with_pos p n).
Proof. intros (H1 & H2 & H3 & H4) D. split; [exact H1|]. split; [exact H2|]. split; assumption. Qed.
Lemma is_with_liq q p x v : isPool q p -> is x v -> isPool (with_liqL q x) (with_liq p v).
Proof. intros (H1 & (A & B & C & D) & H3 & H4) X. fields; apply H1. Qed.

Lemma eq_tick x a : is x a -> GetTickAtSqrtRatioL x = GetTickAtSqrtRatio a.
Proof. intros X. apply sim_tick. exact X. Qed.
Lemma sim_ratioAt t : sim is (GetSqrtRatioAtTickL t) (GetSqrtRatioAtTick t).
Proof. apply sim_ticks. Qed.

Lemma sim_NewPool t0 t1 fee x a : is x a -> sim isPool (NewPoolL t0 t1 fee x) (NewPool t0 t1 fee a).
Proof.
  intros X. unfold NewPoolL, NewPool. rewrite (eq_tick x a X). eapply sim_bind; [apply sim_refl|]. intros _ _ _.
  eapply sim_bind; [apply sim_refl|]. intros ? t ->. pose proof is_0. pose proof is_Zero.
  split; [repeat split|]. split; [auto|]. split; [split; [constructor|reflexivity]|constructor].
Qed.

Ltac part := eapply sim_bind; [|intros ? ? ?].
Lemma sim_updatePosition q p lo up x v : isPool q p -> is x v ->
  sim (both isPool isInfo) (updatePositionL q lo up x) (updatePosition p lo up v).
Proof.
  intros P X. pose proof P as ((_ & _ & _ & _ & TC) & (_ & _ & G0 & G1) & D & Q). unfold updatePositionL, updatePosition. rewrite TC.
  eapply (sim_bind (both (both isData eq) eq)).
  { rewrite (b_zero x v X). destruct (negb (v =? 0)); [|split; [split|]; cbn; auto].
    eapply sim_bind; [apply sim_Update; eassumption|]. intros [d1 c1] [d1' c1'] [D1 E1]. cbn [fst snd] in D1, E1. subst c1'.
    eapply sim_bind; [apply sim_Update; eassumption|]. intros [d2 c2] [d2' c2'] [D2 E2]. cbn [fst snd] in D2, E2. subst c2'.
    split; [split|]; cbn; auto. }
  intros [[d c1] c2] [[d' c1'] c2'] [[D1 E1] E2]. cbn [fst snd] in D1, E1, E2. subst c1' c2'.
  eapply sim_bind; [apply sim_Inside; eassumption|]. intros [i0 i1] [i0' i1'] [I0 I1]. cbn [fst snd] in I0, I1. cbv zeta.
  eapply (sim_bind isInfo).
  { apply sim_InfoUpdate; auto. pose proof (is_get _ _ (posKey lo up) Q) as G. destruct (posGetL _ _), (posGet _ _); cbn in G; try contradiction; [exact G|apply is_NewPosition]. }
  intros j j' J. eapply (sim_bind isData).
  { rewrite (sign_is x v X). destruct (usign v =? -1); [|exact D1].
    eapply (sim_bind isData).
    { destruct c1; [apply sim_Clear|]; exact D1. }
    intros d3 d3' D3. destruct c2; [apply sim_Clear|]; exact D3. }
  intros d4 d4' D4. split; cbn [fst snd]; [|exact J]. apply is_with_pos; [apply is_with_data; assumption|]. apply is_put; assumption.
Qed.

Lemma sim_modifyStrategy q p lo up x v : isPool q p -> is x v ->
  sim isOut (modifyPositionStrategyL q lo up x) (modifyPositionStrategy p lo up v).
Proof.
  intros P X. unfold modifyPositionStrategyL, modifyPositionStrategy. eapply sim_bind; [apply sim_refl|]. intros _ _ _.
  eapply sim_bind; [apply sim_updatePosition; eassumption|]. intros [q1 i] [p1 i'] [P1 _]. cbn [fst snd] in P1.
  pose proof P1 as ((_ & _ & _ & _ & TC) & (S & L & _ & _) & _ & _). rewrite (b_zero x v X), TC. pose proof is_0 as N0. pose proof is_Zero as N1.
  destruct (v =? 0); [split; auto|]. destruct (TickCurrent p1 <? lo); [|destruct (TickCurrent p1 <? up)].
  - eapply sim_bind; [apply sim_ratioAt|]. intros a a' A. eapply sim_bind; [apply sim_ratioAt|]. intros b b' B.
    eapply sim_bind; [apply sim_Rounded0; eassumption|]. intros u u' U. split; auto.
  - eapply sim_bind; [apply sim_ratioAt|]. intros b b' B. eapply sim_bind; [apply sim_Rounded0; eassumption|]. intros u u' U.
    eapply sim_bind; [apply sim_ratioAt|]. intros a a' A. eapply sim_bind; [apply sim_Rounded1; eassumption|]. intros w w' V.
    split; [|auto]. cbn [fst snd]. apply is_with_liq; [assumption|]. apply is_Add; assumption.
  - eapply sim_bind; [apply sim_ratioAt|]. intros a a' A. eapply sim_bind; [apply sim_ratioAt|]. intros b b' B.
    eapply sim_bind; [apply sim_Rounded1; eassumption|]. intros u u' U. split; auto.
Qed.

Lemma b_sgt x v : is x v -> Sgt x ZeroL = (usign v =? 1).
Proof.
  intros X. pose proof (is_range _ _ X) as RG. destruct is_Zero as [Z0 Z1]. destruct X as [H <-]. rewrite Sgt_spec by assumption. rewrite Z1.
  unfold sgn256, usign. destruct (toZ x =? 0) eqn:E; [replace (toZ x) with 0 by lia; reflexivity|].
  replace (0 <? T255) with true by reflexivity. destruct (toZ x <? T255) eqn:F; lia.
Qed.
Lemma sim_MintStrategy q p lo up x v : isPool q p -> is x v -> sim isOut (MintStrategyL q lo up x) (MintStrategy p lo up v).
Proof.
  intros P X. unfold MintStrategyL, MintStrategy. rewrite (b_sgt x v X). eapply sim_bind; [apply sim_refl|]. intros _ _ _.
  apply sim_modifyStrategy; assumption.
Qed.
Lemma sim_BurnStrategy q p lo up x v : isPool q p -> is x v -> sim isOut (BurnStrategyL q lo up x) (BurnStrategy p lo up v).
Proof.
  intros P X. unfold BurnStrategyL, BurnStrategy. eapply sim_bind; [apply sim_modifyStrategy; [exact P|apply is_Neg, X; exact x]|].
  intros [[q1 a] b] [[p1 a'] b'] (P1 & A & B). cbn [fst snd] in P1, A, B. pose proof P1 as (_ & _ & _ & Q).
  pose proof (is_get _ _ (posKey lo up) Q) as G. destruct (posGetL _ _) as [i|], (posGet _ _) as [j|]; cbn in G; try contradiction; [|exact Logic.I].
  destruct G as (I0 & I1 & I2 & I3 & I4). pose proof (is_Neg _ _ A) as NA. pose proof (is_Neg _ _ B) as NB.
  cbn [sim]. split; [|split; [exact NA|exact NB]].
  cbn [fst snd]. apply is_with_pos; [exact P1|]. apply is_put; [exact Q|]. fields.
Qed.
Lemma sim_CollectStrategy q p lo up : isPool q p -> sim isOut (CollectStrategyL q lo up) (CollectStrategy p lo up).
Proof.
  intros P. unfold CollectStrategyL, CollectStrategy. pose proof P as (_ & _ & _ & Q).
  pose proof (is_get _ _ (posKey lo up) Q) as G. destruct (posGetL _ _) as [i|], (posGet _ _) as [j|]; cbn in G; try contradiction; [|exact Logic.I].
  destruct G as (I0 & I1 & I2 & I3 & I4). cbn [sim]. split; [|split; [exact I3|exact I4]].
  cbn [fst snd]. apply is_with_pos; [exact P|]. apply is_put; [exact Q|]. pose proof is_Zero. fields.
Qed.
Lemma sim_modify q p lo up x v : isPool q p -> is x v -> sim isPool (modifyPositionL q lo up x) (modifyPosition p lo up v).
Proof.
  intros P X. pose proof P as ((_ & _ & _ & _ & TC) & (_ & L & G0 & G1) & D & Q). unfold modifyPositionL, modifyPosition. rewrite TC.
  eapply sim_bind; [apply sim_refl|]. intros _ _ _.
  eapply sim_bind; [apply sim_Update; eassumption|]. intros [d1 c1] [d1' c1'] [D1 E1]. cbn [fst snd] in D1, E1. subst c1'.
  eapply sim_bind; [apply sim_Update; eassumption|]. intros [d2 c2] [d2' c2'] [D2 E2]. cbn [fst snd] in D2, E2. subst c2'.
  eapply (sim_bind isData). { destruct c1; [apply sim_Clear|]; exact D2. } intros d3 d3' D3.
  eapply (sim_bind isData). { destruct c2; [apply sim_Clear|]; exact D3. } intros d4 d4' D4. cbv zeta.
  pose proof (is_with_data q p _ _ P D4) as P4. cbn [with_dataL with_data qTickCurrent TickCurrent qLiquidity Liquidity]. rewrite TC.
  destruct ((lo <=? TickCurrent p) && (TickCurrent p <? up)); [|exact P4]. cbn [sim]. apply is_with_liq; [exact P4|]. apply is_Add; assumption.
Qed.
Lemma sim_Mint q p lo up x v : isPool q p -> is x v -> sim isPool (MintL q lo up x) (Mint p lo up v).
Proof.
  intros P X. unfold MintL, Mint. rewrite (b_sgt x v X). eapply sim_bind; [apply sim_refl|]. intros _ _ _. apply sim_modify; assumption.
Qed.
Lemma sim_Burn q p lo up x v : isPool q p -> is x v -> sim isPool (BurnL q lo up x) (Burn p lo up v).
Proof. intros P X. apply sim_modify; [exact P|]. apply is_Neg; exact X. Qed.
Lemma sim_Flash q p x y a b : isPool q p -> is x a -> is y b -> sim isPool (FlashL q x y) (Flash p a b).
Proof.
  intros P X Y. pose proof P as ((T0 & T1 & F & TS & TC) & (S & L & G0 & G1) & D & Q). unfold FlashL, Flash. rewrite (sign_is _ _ L), F.
  assert (FE : is (NewInt (Fee p mod W)) (Fee p mod W)) by (apply is_NewInt, Z.mod_pos_bound; reflexivity).
  assert (M : is (NewInt 1000000) 1000000) by (apply is_NewInt; split; [lia|reflexivity]).
  eapply sim_bind; [apply sim_refl|]. intros _ _ _.
  eapply sim_bind; [apply sim_MulDivUp; eassumption|]. intros f0 f0' F0. eapply sim_bind; [apply sim_MulDivUp; eassumption|]. intros f1 f1' F1.
  eapply sim_bind; [apply sim_MulDiv; [exact F0|exact is_Q128|exact L]|]. intros g0 g0' H0.
  eapply sim_bind; [apply sim_MulDiv; [exact F1|exact is_Q128|exact L]|]. intros g1 g1' H1.
  cbn [sim]. fields.
Qed.

(** * swaps *)
Lemma sim_round zfo ein lim fee oth s l o r : is lim l -> is oth o -> isState s r ->
  sim isState (swapRoundL zfo ein lim fee oth s) (swapRound zfo ein l fee o r).
Proof.
  intros L O (S1 & S2 & S3 & S4 & S5 & S6 & S7). unfold swapRoundL, swapRound. rewrite S4, (proj2 (proj2 (same_eq _ _ S7))).
  eapply sim_bind; [apply sim_refl|]. intros ? [next ini] ->. cbv zeta.
  eapply sim_bind; [apply sim_ratioAt|]. intros pn pn' PN.
  set (target := if zfo then _ else _). set (target' := if zfo then (if pn' <? l then l else pn') else _).
  assert (T : is target target').
  { unfold target, target'. rewrite (b_cmp_lt _ _ _ _ PN L), (b_cmp_gt _ _ _ _ PN L). destruct zfo; [destruct (pn' <? l)|destruct (l <? pn')]; assumption. }
  clearbody target target'.
  eapply sim_bind; [apply sim_step; eassumption|]. intros [[[n i] u] f] st (N & I & U & F).
  set (rem := if ein then Sub _ _ else _). set (rem' := if ein then usub (sRemaining r) _ else _).
  assert (RM : is rem rem') by (unfold rem, rem'; destruct ein; eauto with limb). clearbody rem rem'.
  set (cal := if ein then Sub _ _ else _). set (cal' := if ein then usub (sCalculated r) _ else _).
  assert (CL : is cal cal') by (unfold cal, cal'; destruct ein; eauto with limb). clearbody cal cal'.
  eapply (sim_bind is).
  { rewrite (sign_is _ _ S6). destruct (0 <? usign (sLiquidity r)); [|exact S5].
    eapply sim_bind; [apply sim_MulDiv; [exact F|exact is_Q128|exact S6]|]. intros g g' G. cbn [sim]. apply is_Add; assumption. }
  intros g g' G. rewrite (b_cmp_eq _ _ _ _ N PN). destruct (stNext st =? pn').
  - eapply (sim_bind (both isData is)).
    { destruct ini; [|split; assumption]. eapply (sim_bind (both isData is)).
      { destruct zfo; apply sim_Cross; assumption. }
      intros [d net] [d' net'] [D NT]. cbn [fst snd] in D, NT. split; cbn [fst snd]; [exact D|]. destruct zfo; auto using is_Sub, is_Add. }
    intros [d liq] [d' liq'] [D LQ]. cbn [fst snd] in D, LQ. cbn [sim]. fields.
  - rewrite (b_cmp_eq _ _ _ _ N S3). destruct (negb (stNext st =? sPrice r)).
    + rewrite (eq_tick _ _ N). eapply sim_bind; [apply sim_refl|]. intros ? t ->. cbn [sim]. fields.
    + cbn [sim]. fields.
Qed.
Lemma sim_loop fuel zfo ein lim fee oth l o : is lim l -> is oth o -> forall s r, isState s r ->
  sim isState (swapLoopL fuel zfo ein lim fee oth s) (swapLoop fuel zfo ein l fee o r).
Proof.
  intros L O. induction fuel as [|fuel IH]; intros s r H; cbn [swapLoopL swapLoop]; pose proof H as (S1 & _ & S3 & _);
    rewrite (b_zero _ _ S1), (b_cmp_eq _ _ _ _ S3 L); (destruct (negb _ && negb _); [|exact H]); [exact Logic.I|].
  eapply sim_bind; [apply sim_round; eassumption|]. intros s' r' H'. apply IH. exact H'.
Qed.
Lemma b_cmp_m1 x y a b : is x a -> is y b -> (Cmp x y =? -1) = (a <? b).
Proof. intros [Hx <-] [Hy <-]. rewrite Cmp_spec by auto. destruct (Z.compare_spec (toZ x) (toZ y)); lia. Qed.
Lemma b_cmp_1 x y a b : is x a -> is y b -> (Cmp x y =? 1) = (b <? a).
Proof. intros [Hx <-] [Hy <-]. rewrite Cmp_spec by auto. destruct (Z.compare_spec (toZ x) (toZ y)); lia. Qed.
Lemma is_limit z x v : is x v -> is (effectiveLimitL z x) (effectiveLimit z v).
Proof.
  intros X. unfold effectiveLimitL, effectiveLimit. rewrite (b_zero x v X). destruct (v =? 0); [|exact X].
  destruct z; [apply is_Add; [apply is_MinRatio|apply is_One]|apply is_Sub; [apply is_MaxRatio|apply is_One]].
Qed.
Lemma sim_swap fuel q p z x y a b : isPool q p -> is x a -> is y b -> sim isOut (swapL fuel q z x y) (swap fuel p z a b).
Proof.
  intros P X Y. pose proof P as ((T0 & T1 & F & TS & TC) & (S & L & G0 & G1) & D & Q). unfold swapL, swap.
  pose proof (is_limit z y b Y) as E. set (lim := effectiveLimitL z y) in *. set (l := effectiveLimit z b) in *. clearbody lim l. cbv zeta.
  rewrite (b_zero _ _ X). eapply sim_bind; [apply sim_refl|]. intros _ _ _.
  rewrite (b_cmp_m1 _ _ _ _ E S), (b_cmp_1 _ _ _ _ E S), (b_cmp_1 _ _ _ _ E is_MinRatio), (b_cmp_m1 _ _ _ _ E is_MaxRatio).
  eapply sim_bind; [apply sim_refl|]. intros _ _ _. rewrite (sign_is _ _ X), F, TC.
  eapply (sim_bind isState).
  { apply sim_loop; [exact E|destruct z; assumption|]. unfold stateBy. cbn [rRemaining rCalculated rPrice rTick rGrowth rLiquidity rData sRemaining sCalculated sPrice sTick sGrowth sLiquidity sData].
    split; [exact X|]. split; [exact is_0|]. split; [exact S|]. split; [reflexivity|]. split; [destruct z; assumption|]. split; assumption. }
  intros s r (S1 & S2 & S3 & S4 & S5 & S6 & S7).
  match goal with |- sim _ (if _ then Ok (?q', _, _) else _) (if _ then Ok (?p', _, _) else _) => assert (P' : isPool q' p') end.
  { destruct z; fields. }
  destruct (Bool.eqb z (0 <=? usign a)); (split; [exact P'|]); cbn [fst snd]; split; auto using is_Sub.
Qed.
Lemma sim_in fuel q p x y a b t : isPool q p -> is x a -> is y b -> sim isOut (ExactInputSwapL fuel q x t y) (ExactInputSwap fuel p a t b).
Proof. intros P X Y. unfold ExactInputSwapL, ExactInputSwap. rewrite (proj1 (proj1 P)). apply sim_swap; assumption. Qed.
Lemma sim_out fuel q p x y a b t : isPool q p -> is x a -> is y b -> sim isOut (ExactOutputSwapL fuel q x t y) (ExactOutputSwap fuel p a t b).
Proof. intros P X Y. unfold ExactOutputSwapL, ExactOutputSwap. rewrite (proj1 (proj2 (proj1 P))). apply sim_swap; assumption. Qed.
Lemma is_PoolClone q p : isPool q p -> isPool (PoolCloneL q) (PoolClone p).
Proof.
  intros P. unfold PoolCloneL, PoolClone. apply is_with_pos; [exact P|]. destruct P as (_ & _ & _ & Q).
  induction Q as [|[k i] [k' j] m n [E K] _ IH]; cbn [map]; constructor; [|exact IH]. cbn [fst snd] in *. split; [exact E|].
  destruct K as (I0 & I1 & I2 & I3 & I4). fields.
Qed.
