(** PoolHeap.v -- /repo/lib/pool/pool.go over the tick table with pointers.

    Everything in a pool except the ticks' integers is copied by [Clone] and never shared, and stays a value:
    [hScalars] holds those fields (its own [Data] field is not used).  The functions are those of Pool.v, with
    every access to a tick's integers as an access to memory. *)
From Coq Require Import String.
From Verif Require Import Base U256Z SwapMath TickMath TickData Pool HeapProg TickHeap.
Ltac Zify.zify_post_hook ::= idtac.
Open Scope Z_scope.

Record HPool := mkHPool { hScalars : Pool; hData : HTickData }.
Definition hwith (p : HPool) (s : Pool) : HPool := mkHPool s (hData p).

(** pool.go:72-90 *)
Definition hPoolClone (p : HPool) : HPool := mkHPool (PoolClone (hScalars p)) (hClone (hData p)).
(** pool.go:48-70 *)
Definition hNewPool (token0 token1 : string) (fee sqrtRatio : Z) : res HPool :=
  do p <- NewPool token0 token1 fee sqrtRatio; Ok (mkHPool p (mkHTickData [] (TickSpaces fee))).

(** pool.go:91-119 *)
Definition hUpdatePosition (hp : HPool) (lower upper amount : Z) : prog HPool :=
  let p := hScalars hp in
  run upd <-
    (if negb (amount =? 0) then
       run r <- hUpdateTick (hData hp) lower (TickCurrent p) amount (FeeGrowth0 p) (FeeGrowth1 p) false;
       let '(d, clearLower) := r in
       run r <- hUpdateTick d upper (TickCurrent p) amount (FeeGrowth0 p) (FeeGrowth1 p) true;
       let '(d, clearUpper) := r in
       ret (d, clearLower, clearUpper)
     else ret (hData hp, false, false));
  let '(d, clearLower, clearUpper) := upd in
  run ins <- hGetFeeGrowthInside d lower upper (TickCurrent p) (FeeGrowth0 p) (FeeGrowth1 p);
  let '(inside0, inside1) := ins in
  let key := posKey lower upper in
  let pos := match posGet (Pos p) key with Some i => i | None => NewPosition end in
  run pos' <- Done (InfoUpdate pos amount inside0 inside1);
  run d <-
    (if usign amount =? -1 then
       run d <- (if clearLower then Done (hClearTick d lower) else ret d);
       (if clearUpper then Done (hClearTick d upper) else ret d)
     else ret d);
  ret (mkHPool (with_pos p (posPut (Pos p) key pos')) d).

(** pool.go:127-147 *)
Definition hModifyPositionStrategy (hp : HPool) (lower upper amount : Z) : prog (HPool * Z * Z) :=
  run _ <- Done (checkTicks lower upper);
  run hp <- hUpdatePosition hp lower upper amount;
  let p := hScalars hp in
  Done
   (if amount =? 0 then Ok (hp, 0, 0)
    else if TickCurrent p <? lower then
      do a <- GetSqrtRatioAtTick lower;
      do b <- GetSqrtRatioAtTick upper;
      do amount0 <- GetAmount0DeltaRounded a b amount;
      Ok (hp, amount0, 0)
    else if TickCurrent p <? upper then
      do b <- GetSqrtRatioAtTick upper;
      do amount0 <- GetAmount0DeltaRounded (SqrtRatio p) b amount;
      do a <- GetSqrtRatioAtTick lower;
      do amount1 <- GetAmount1DeltaRounded (SqrtRatio p) a amount;
      Ok (hwith hp (with_liq p (uadd (Liquidity p) amount)), amount0, amount1)
    else
      do a <- GetSqrtRatioAtTick lower;
      do b <- GetSqrtRatioAtTick upper;
      do amount1 <- GetAmount1DeltaRounded a b amount;
      Ok (hp, 0, amount1)).

(** pool.go:149-153 *)
Definition hMintStrategy (p : HPool) (lower upper amount : Z) : prog (HPool * Z * Z) :=
  run _ <- Done (invariant (usign amount =? 1));
  hModifyPositionStrategy p lower upper amount.

(** pool.go:156-166 *)
Definition hBurnStrategy (hp : HPool) (lower upper amount : Z) : prog (HPool * Z * Z) :=
  run r <- hModifyPositionStrategy hp lower upper (uneg amount);
  let '(hp, amount0Int, amount1Int) := r in
  let p := hScalars hp in
  let amount0 := uneg amount0Int in
  let amount1 := uneg amount1Int in
  Done match posGet (Pos p) (posKey lower upper) with
  | Some i =>
      let i' := mkInfo (pLiquidity i) (pLast0 i) (pLast1 i) (uadd (pOwed0 i) amount0) (uadd (pOwed1 i) amount1) in
      Ok (hwith hp (with_pos p (posPut (Pos p) (posKey lower upper) i')), amount0, amount1)
  | None => Panic
  end.

(** pool.go:169-181 *)
Definition hCollectStrategy (hp : HPool) (lower upper : Z) : prog (HPool * Z * Z) :=
  Done (do r <- CollectStrategy (hScalars hp) lower upper; let '(p, a, b) := r in Ok (hwith hp p, a, b)).

(** pool.go:204-219 *)
Definition hModifyPosition (hp : HPool) (lower upper amount : Z) : prog HPool :=
  let p := hScalars hp in
  run _ <- Done (checkTicks lower upper);
  run r <- hUpdateTick (hData hp) lower (TickCurrent p) amount (FeeGrowth0 p) (FeeGrowth1 p) false;
  let '(d, clearLower) := r in
  run r <- hUpdateTick d upper (TickCurrent p) amount (FeeGrowth0 p) (FeeGrowth1 p) true;
  let '(d, clearUpper) := r in
  run d <- (if clearLower then Done (hClearTick d lower) else ret d);
  run d <- (if clearUpper then Done (hClearTick d upper) else ret d);
  if (lower <=? TickCurrent p) && (TickCurrent p <? upper) then ret (mkHPool (with_liq p (uadd (Liquidity p) amount)) d)
  else ret (mkHPool p d).

(** pool.go:183-186 *)
Definition hMint (p : HPool) (lower upper amount : Z) : prog HPool :=
  run _ <- Done (invariant (usign amount =? 1));
  hModifyPosition p lower upper amount.
(** pool.go:188-192 *)
Definition hBurn (p : HPool) (lower upper amount : Z) : prog HPool := hModifyPosition p lower upper (uneg amount).
(** pool.go:223-234 *)
Definition hFlash (hp : HPool) (amount0 amount1 : Z) : prog HPool :=
  Done (do p <- Flash (hScalars hp) amount0 amount1; Ok (hwith hp p)).

(** pool.go:25-32 *)
Record HState := mkHState { hsRemaining : Z; hsCalculated : Z; hsPrice : Z; hsTick : Z; hsGrowth : Z; hsLiquidity : Z }.

(** pool.go:278-348 *)
Definition hSwapRound (d : HTickData) (zeroForOne exactInput : bool) (limit fee other : Z) (s : HState) : prog HState :=
  run nx <- Done (NextInitializedTickWithinOneWord (shadow d) (hsTick s) zeroForOne);
  let '(next, initialized) := nx in
  let tickNext := clampTick next in
  run priceNext <- Done (GetSqrtRatioAtTick tickNext);
  let target :=
    if zeroForOne then (if priceNext <? limit then limit else priceNext)
    else (if limit <? priceNext then limit else priceNext) in
  run st <- Done (ComputeSwapStep (hsPrice s) target (hsLiquidity s) (hsRemaining s) fee);
  let remaining := if exactInput then usub (hsRemaining s) (uadd (stIn st) (stFee st))
                   else uadd (hsRemaining s) (stOut st) in
  let calculated := if exactInput then usub (hsCalculated s) (stOut st)
                    else uadd (hsCalculated s) (uadd (stIn st) (stFee st)) in
  run growth <-
    Done (if 0 <? usign (hsLiquidity s) then
       do f <- MulDiv (stFee st) Q128 (hsLiquidity s); Ok (uadd (hsGrowth s) f)
     else Ok (hsGrowth s));
  if stNext st =? priceNext then
    run liq <-
      (if initialized then
         run net <- (if zeroForOne then hCross d tickNext growth other else hCross d tickNext other growth);
         ret (if zeroForOne then usub (hsLiquidity s) net else uadd (hsLiquidity s) net)
       else ret (hsLiquidity s));
    ret (mkHState remaining calculated (stNext st) (if zeroForOne then tickNext - 1 else tickNext) growth liq)
  else if negb (stNext st =? hsPrice s) then
    run t <- Done (GetTickAtSqrtRatio (stNext st));
    ret (mkHState remaining calculated (stNext st) t growth (hsLiquidity s))
  else
    ret (mkHState remaining calculated (stNext st) (hsTick s) growth (hsLiquidity s)).

(** pool.go:277-350 *)
Fixpoint hSwapLoop (fuel : nat) (d : HTickData) (zeroForOne exactInput : bool) (limit fee other : Z) (s : HState) : prog HState :=
  if negb (hsRemaining s =? 0) && negb (hsPrice s =? limit) then
    match fuel with
    | O => Done OutOfFuel
    | S fuel =>
        run s' <- hSwapRound d zeroForOne exactInput limit fee other s;
        hSwapLoop fuel d zeroForOne exactInput limit fee other s'
    end
  else ret s.

(** pool.go:238-371 *)
Definition hSwap (fuel : nat) (hp : HPool) (zeroForOne : bool) (amountSpecified limitIn : Z) : prog (HPool * Z * Z) :=
  let p := hScalars hp in
  run _ <- Done (invariant (negb (amountSpecified =? 0)));
  let limit := effectiveLimit zeroForOne limitIn in
  run _ <- Done (invariant (if zeroForOne then (limit <? SqrtRatio p) && (MinSqrtRatio <? limit)
                     else (SqrtRatio p <? limit) && (limit <? MaxSqrtRatio)));
  let exactInput := 0 <=? usign amountSpecified in
  let s0 := mkHState amountSpecified 0 (SqrtRatio p) (TickCurrent p)
              (if zeroForOne then FeeGrowth0 p else FeeGrowth1 p) (Liquidity p) in
  run s <- hSwapLoop fuel (hData hp) zeroForOne exactInput limit (Fee p) (if zeroForOne then FeeGrowth1 p else FeeGrowth0 p) s0;
  let p' := mkPool (Token0 p) (Token1 p) (Fee p) (hsPrice s) (hsLiquidity s)
              (if zeroForOne then hsGrowth s else FeeGrowth0 p) (if zeroForOne then FeeGrowth1 p else hsGrowth s)
              (TickSpacing p) (hsTick s) (Data p) (Pos p) in
  let spent := usub amountSpecified (hsRemaining s) in
  if Bool.eqb zeroForOne exactInput then ret (hwith hp p', spent, hsCalculated s) else ret (hwith hp p', hsCalculated s, spent).

(** pool.go:194-197 *)
Definition hExactInputSwap (fuel : nat) (p : HPool) (inputAmount : Z) (token : string) (limit : Z) : prog (HPool * Z * Z) :=
  hSwap fuel p (String.eqb token (Token0 (hScalars p))) inputAmount limit.
(** pool.go:199-202 *)
Definition hExactOutputSwap (fuel : nat) (p : HPool) (outputAmount : Z) (token : string) (limit : Z) : prog (HPool * Z * Z) :=
  hSwap fuel p (String.eqb token (Token1 (hScalars p))) outputAmount limit.

(** ** what a pool shows, and the simulation of every method *)
Definition viewP (h : heap) (p : HPool) : Pool := with_data (hScalars p) (view h (hData p)).
Definition validP (t : nat) (h : heap) (p : HPool) : Prop := valid t h (hticks (hData p)).
Definition ownedP (t : nat) (p : HPool) : Prop := owned t (hticks (hData p)).

Lemma sim_pure {A B} t h (r : res A) (s : res B) (R : A -> B -> Prop) :
  match r, s with Ok a, Ok b => R a b | Panic, Panic => True | OutOfFuel, OutOfFuel => True | _, _ => False end ->
  sim t h (Done r) s (fun h' a b => h' = h /\ R a b).
Proof. intros H. apply sim_done. destruct r, s; auto. Qed.
Lemma sim_bind_eq {A C D} t h (r : res A) (f : A -> prog C) (g : A -> res D) S :
  (forall a, r = Ok a -> sim t h (f a) (g a) S) -> sim t h (pbind (Done r) f) (bind r g) S.
Proof. intros H. destruct r; cbn [pbind bind]; [auto|exact I|exact I]. Qed.

Lemma sim_clears t h d (c : bool) x : valid t h (hticks d) ->
  sim t h (if c then Done (hClearTick d x) else ret d) (if c then ClearTick (view h d) x else Ok (view h d))
    (fun h' d' v => h' = h /\ valid t h (hticks d') /\ view h d' = v).
Proof. intros V. destruct c; [now apply sim_ClearTick|]. unfold sim. cbn. auto. Qed.

Lemma sim_updatePosition t h p lo up x : validP t h p ->
  sim t h (hUpdatePosition p lo up x) (updatePosition (viewP h p) lo up x)
    (fun h' p' r => validP t h' p' /\ viewP h' p' = fst r).
Proof.
  intros V. unfold hUpdatePosition, updatePosition. cbn [viewP with_data Data TickCurrent FeeGrowth0 FeeGrowth1 Pos].
  eapply (sim_bind t h _ _ _ _ (fun h' a b => valid t h' (hticks (fst (fst a))) /\ view h' (fst (fst a)) = fst (fst b) /\ snd (fst a) = snd (fst b) /\ snd a = snd b)).
  { destruct (negb (x =? 0)).
    - eapply sim_bind; [apply sim_UpdateTick; exact V|]. intros h1 [d1 c1] [v1 c1'] (V1 & E1 & Ec1). cbn [fst snd] in *. subst v1 c1'.
      eapply sim_bind; [apply sim_UpdateTick; exact V1|]. intros h2 [d2 c2] [v2 c2'] (V2 & E2 & Ec2). cbn [fst snd] in *. subst v2 c2'.
      unfold sim. cbn. auto.
    - unfold sim. cbn. auto. }
  intros h1 [[d c1] c2] [[v c1'] c2'] (V1 & E1 & Ec1 & Ec2). cbn [fst snd] in *. subst v c1' c2'.
  eapply sim_bind; [apply sim_Inside|]. intros h2 [i0 i1] b [-> <-].
  apply sim_bind_eq. intros pos Epos.
  eapply (sim_bind t h1 _ _ _ _ (fun h' d' v => h' = h1 /\ valid t h1 (hticks d') /\ view h1 d' = v)).
  { destruct (usign x =? -1); [|unfold sim; cbn; auto].
    eapply sim_bind; [apply sim_clears; exact V1|]. intros h2 d2 v2 (-> & V2 & <-). now apply sim_clears. }
  intros h2 d2 v2 (-> & V2 & <-). unfold sim. cbn [exec ret fst]. split; [exact V2|]. reflexivity.
Qed.

Lemma sim_modifyPositionStrategy t h p lo up x : validP t h p ->
  sim t h (hModifyPositionStrategy p lo up x) (modifyPositionStrategy (viewP h p) lo up x)
    (fun h' r v => validP t h' (fst (fst r)) /\ viewP h' (fst (fst r)) = fst (fst v) /\ snd (fst r) = snd (fst v) /\ snd r = snd v).
Proof.
  intros V. unfold hModifyPositionStrategy, modifyPositionStrategy. apply sim_bind_eq. intros _ _.
  eapply sim_bind; [apply sim_updatePosition; exact V|]. intros h1 p1 [v1 pos] (V1 & E1). cbn [fst] in E1. subst v1.
  apply sim_done. cbn [viewP with_data TickCurrent SqrtRatio Liquidity].
  destruct (x =? 0); [cbn [fst snd]; auto|].
  destruct (_ <? lo).
  - destruct (GetSqrtRatioAtTick lo); cbn [bind]; auto. destruct (GetSqrtRatioAtTick up); cbn [bind]; auto.
    destruct (GetAmount0DeltaRounded _ _ _); cbn [bind fst snd]; auto.
  - destruct (_ <? up).
    + destruct (GetSqrtRatioAtTick up); cbn [bind]; auto. destruct (GetAmount0DeltaRounded _ _ _); cbn [bind]; auto.
      destruct (GetSqrtRatioAtTick lo); cbn [bind]; auto. destruct (GetAmount1DeltaRounded _ _ _); cbn [bind fst snd]; auto.
    + destruct (GetSqrtRatioAtTick lo); cbn [bind]; auto. destruct (GetSqrtRatioAtTick up); cbn [bind]; auto.
      destruct (GetAmount1DeltaRounded _ _ _); cbn [bind fst snd]; auto.
Qed.

Definition simR (t : nat) : heap -> HPool * Z * Z -> Pool * Z * Z -> Prop :=
  fun h' r v => validP t h' (fst (fst r)) /\ viewP h' (fst (fst r)) = fst (fst v) /\ snd (fst r) = snd (fst v) /\ snd r = snd v.
Definition simP (t : nat) : heap -> HPool -> Pool -> Prop := fun h' r v => validP t h' r /\ viewP h' r = v.

Lemma sim_MintStrategy t h p lo up x : validP t h p ->
  sim t h (hMintStrategy p lo up x) (MintStrategy (viewP h p) lo up x) (simR t).
Proof. intros V. unfold hMintStrategy, MintStrategy. apply sim_bind_eq. intros _ _. now apply sim_modifyPositionStrategy. Qed.
Lemma sim_BurnStrategy t h p lo up x : validP t h p ->
  sim t h (hBurnStrategy p lo up x) (BurnStrategy (viewP h p) lo up x) (simR t).
Proof.
  intros V. unfold hBurnStrategy, BurnStrategy. eapply sim_bind; [apply sim_modifyPositionStrategy; exact V|].
  intros h1 [[p1 a] b] [[v1 a'] b'] (V1 & E1 & Ea & Eb). cbn [fst snd] in *. subst v1 a' b'. apply sim_done.
  cbn [viewP with_data Pos]. destruct (posGet _ _); [|exact I]. unfold simR. cbn [fst snd]. auto.
Qed.
Lemma sim_CollectStrategy t h p lo up : validP t h p ->
  sim t h (hCollectStrategy p lo up) (CollectStrategy (viewP h p) lo up) (simR t).
Proof.
  intros V. apply sim_done. unfold CollectStrategy. cbn [viewP with_data Pos]. destruct (posGet _ _); cbn [bind]; [|exact I]. unfold simR. cbn [fst snd]. auto.
Qed.
Lemma sim_Flash t h p a b : validP t h p -> sim t h (hFlash p a b) (Flash (viewP h p) a b) (simP t).
Proof.
  intros V. apply sim_done. unfold Flash. cbn [viewP with_data Liquidity Fee FeeGrowth0 FeeGrowth1].
  destruct (invariant _); cbn [bind]; auto. destruct (MulDivRoundingUp a _ _); cbn [bind]; auto. destruct (MulDivRoundingUp b _ _); cbn [bind]; auto.
  destruct (MulDiv _ _ _); cbn [bind]; auto. destruct (MulDiv _ _ _); cbn [bind]; auto. unfold simP. auto.
Qed.
Lemma sim_modifyPosition t h p lo up x : validP t h p ->
  sim t h (hModifyPosition p lo up x) (modifyPosition (viewP h p) lo up x) (simP t).
Proof.
  intros V. unfold hModifyPosition, modifyPosition. cbn [viewP with_data Data TickCurrent FeeGrowth0 FeeGrowth1 Liquidity].
  apply sim_bind_eq. intros _ _.
  eapply sim_bind; [apply sim_UpdateTick; exact V|]. intros h1 [d1 c1] [v1 c1'] (V1 & E1 & Ec1). cbn [fst snd] in *. subst v1 c1'.
  eapply sim_bind; [apply sim_UpdateTick; exact V1|]. intros h2 [d2 c2] [v2 c2'] (V2 & E2 & Ec2). cbn [fst snd] in *. subst v2 c2'.
  eapply sim_bind; [apply sim_clears; exact V2|]. intros h3 d3 v3 (-> & V3 & <-).
  eapply sim_bind; [apply sim_clears; exact V3|]. intros h4 d4 v4 (-> & V4 & <-).
  destruct (_ && _); unfold sim, simP; cbn [exec ret]; auto.
Qed.
Lemma sim_Mint t h p lo up x : validP t h p -> sim t h (hMint p lo up x) (Mint (viewP h p) lo up x) (simP t).
Proof. intros V. unfold hMint, Mint. apply sim_bind_eq. intros _ _. now apply sim_modifyPosition. Qed.
Lemma sim_Burn t h p lo up x : validP t h p -> sim t h (hBurn p lo up x) (Burn (viewP h p) lo up x) (simP t).
Proof. now apply sim_modifyPosition. Qed.

Definition viewS (h : heap) (d : HTickData) (s : HState) : State :=
  mkState (hsRemaining s) (hsCalculated s) (hsPrice s) (hsTick s) (hsGrowth s) (hsLiquidity s) (view h d).

Lemma sim_swapRound t h d z e lim fee o s : valid t h (hticks d) ->
  sim t h (hSwapRound d z e lim fee o s) (swapRound z e lim fee o (viewS h d s))
    (fun h' s' v => valid t h' (hticks d) /\ viewS h' d s' = v).
Proof.
  intros V. unfold hSwapRound, swapRound. cbn [viewS sData sTick sPrice sLiquidity sRemaining sCalculated sGrowth].
  rewrite (same_next _ _ (shadow_view h d)). apply sim_bind_eq. intros [nx ini] _. apply sim_bind_eq. intros pn _.
  apply sim_bind_eq. intros st _. apply sim_bind_eq. intros gr _.
  destruct (stNext st =? pn).
  - eapply (sim_bind t h _ _ _ _ (fun h' liq r => valid t h' (hticks d) /\ view h' d = fst r /\ liq = snd r)).
    + destruct ini; [|unfold sim; cbn; auto].
      eapply (sim_bind t h _ _ _ _ (fun h' net r => valid t h' (hticks d) /\ view h' d = fst r /\ net = snd r)).
      { destruct z; now apply sim_Cross. }
      intros h1 net [v net'] (V1 & E & ->). cbn [fst snd] in E. subst v. unfold sim. cbn. auto.
    + intros h1 liq [v l'] (V1 & E & ->). cbn [fst snd] in E. subst v. unfold sim. cbn [exec ret]. auto.
  - destruct (negb _).
    + apply sim_bind_eq. intros tk _. unfold sim. cbn [exec ret]. auto.
    + unfold sim. cbn [exec ret]. auto.
Qed.
Lemma sim_swapLoop t d z e lim fee o fuel : forall h s, valid t h (hticks d) ->
  sim t h (hSwapLoop fuel d z e lim fee o s) (swapLoop fuel z e lim fee o (viewS h d s))
    (fun h' s' v => valid t h' (hticks d) /\ viewS h' d s' = v).
Proof.
  induction fuel as [|fuel IH]; intros h s V; cbn [hSwapLoop swapLoop]; cbn [viewS sRemaining sPrice];
    destruct (negb _ && negb _); try (unfold sim; cbn [exec ret]; auto; fail).
  eapply sim_bind; [apply (sim_swapRound t h d z e lim fee o s V)|]. intros h1 s1 v1 (V1 & <-). now apply IH.
Qed.
Lemma sim_swap t h p fuel z x l : validP t h p ->
  sim t h (hSwap fuel p z x l) (swap fuel (viewP h p) z x l) (simR t).
Proof.
  intros V. unfold hSwap, swap. cbn [viewP with_data SqrtRatio TickCurrent FeeGrowth0 FeeGrowth1 Liquidity Data Fee Token0 Token1 TickSpacing Pos].
  apply sim_bind_eq. intros _ _. apply sim_bind_eq. intros _ _.
  eapply sim_bind; [refine (sim_swapLoop t (hData p) z _ _ _ _ fuel h (mkHState x 0 (SqrtRatio (hScalars p)) (TickCurrent (hScalars p)) (if z then FeeGrowth0 (hScalars p) else FeeGrowth1 (hScalars p)) (Liquidity (hScalars p))) V)|].
  intros h1 s v (V1 & <-). cbn [viewS sRemaining sCalculated sPrice sTick sGrowth sLiquidity sData].
  destruct (Bool.eqb z (0 <=? usign x)); unfold sim, simR; cbn [exec ret fst snd]; auto.
Qed.

(** ** every access is through a pointer of the receiver *)
Ltac lbind Q := eapply (localp_bind _ _ _ Q).
Ltac ldone := apply localp_done; auto.
Lemma local_clears t d (c : bool) x : owned t (hticks d) ->
  localp t (fun d' => owned t (hticks d')) (if c then Done (hClearTick d x) else ret d).
Proof. intros O. destruct c; [|exact O]. apply localp_done. intros d' E. eapply owned_Clear; eassumption. Qed.

Lemma local_updatePosition t p lo up x : ownedP t p -> localp t (ownedP t) (hUpdatePosition p lo up x).
Proof.
  intros O. unfold hUpdatePosition. lbind (fun r : HTickData * bool * bool => owned t (hticks (fst (fst r)))).
  { destruct (negb (x =? 0)); [|exact O]. eapply localp_bind; [apply local_UpdateTick; exact O|]. intros [d1 c1] O1.
    eapply localp_bind; [apply local_UpdateTick; exact O1|]. intros [d2 c2] O2. exact O2. }
  intros [[d c1] c2] O1. cbn [fst] in O1. eapply localp_bind; [apply local_Inside; exact O1|]. intros [i0 i1] _.
  lbind (fun _ : Info => True); [ldone|]. intros pos _.
  lbind (fun d' => owned t (hticks d')).
  { destruct (usign x =? -1); [|exact O1]. eapply localp_bind; [apply local_clears; exact O1|]. intros d2 O2. now apply local_clears. }
  intros d2 O2. exact O2.
Qed.
Definition ownedR (t : nat) : HPool * Z * Z -> Prop := fun r => ownedP t (fst (fst r)).
Lemma local_modifyPositionStrategy t p lo up x : ownedP t p -> localp t (ownedR t) (hModifyPositionStrategy p lo up x).
Proof.
  intros O. unfold hModifyPositionStrategy. lbind (fun _ : unit => True); [ldone|]. intros _ _.
  eapply localp_bind; [apply local_updatePosition; exact O|]. intros p1 O1. apply localp_done. intros [[p2 a] b].
  destruct (x =? 0); [intros [= <- _ _]; exact O1|].
  destruct (_ <? lo).
  - destruct (GetSqrtRatioAtTick lo); cbn [bind]; try discriminate. destruct (GetSqrtRatioAtTick up); cbn [bind]; try discriminate.
    destruct (GetAmount0DeltaRounded _ _ _); cbn [bind]; try discriminate. intros [= <- _ _]; exact O1.
  - destruct (_ <? up).
    + destruct (GetSqrtRatioAtTick up); cbn [bind]; try discriminate. destruct (GetAmount0DeltaRounded _ _ _); cbn [bind]; try discriminate.
      destruct (GetSqrtRatioAtTick lo); cbn [bind]; try discriminate. destruct (GetAmount1DeltaRounded _ _ _); cbn [bind]; try discriminate.
      intros [= <- _ _]; exact O1.
    + destruct (GetSqrtRatioAtTick lo); cbn [bind]; try discriminate. destruct (GetSqrtRatioAtTick up); cbn [bind]; try discriminate.
      destruct (GetAmount1DeltaRounded _ _ _); cbn [bind]; try discriminate. intros [= <- _ _]; exact O1.
Qed.
Lemma local_MintStrategy t p lo up x : ownedP t p -> localp t (ownedR t) (hMintStrategy p lo up x).
Proof. intros O. unfold hMintStrategy. lbind (fun _ : unit => True); [ldone|]. intros _ _. now apply local_modifyPositionStrategy. Qed.
Lemma local_BurnStrategy t p lo up x : ownedP t p -> localp t (ownedR t) (hBurnStrategy p lo up x).
Proof.
  intros O. unfold hBurnStrategy. eapply localp_bind; [apply local_modifyPositionStrategy; exact O|]. intros [[p1 a] b] O1.
  apply localp_done. intros r. destruct (posGet _ _); [|discriminate]. intros [= <-]. exact O1.
Qed.
Lemma local_CollectStrategy t p lo up : ownedP t p -> localp t (ownedR t) (hCollectStrategy p lo up).
Proof.
  intros O. apply localp_done. intros r. destruct (CollectStrategy _ _ _) as [[[q a] b]| |]; cbn [bind]; try discriminate. intros [= <-]. exact O.
Qed.
Lemma local_Flash t p a b : ownedP t p -> localp t (ownedP t) (hFlash p a b).
Proof. intros O. apply localp_done. intros r. destruct (Flash _ _ _); cbn [bind]; try discriminate. intros [= <-]. exact O. Qed.
Lemma local_modifyPosition t p lo up x : ownedP t p -> localp t (ownedP t) (hModifyPosition p lo up x).
Proof.
  intros O. unfold hModifyPosition. lbind (fun _ : unit => True); [ldone|]. intros _ _.
  eapply localp_bind; [apply local_UpdateTick; exact O|]. intros [d1 c1] O1.
  eapply localp_bind; [apply local_UpdateTick; exact O1|]. intros [d2 c2] O2.
  eapply localp_bind; [apply local_clears; exact O2|]. intros d3 O3.
  eapply localp_bind; [apply local_clears; exact O3|]. intros d4 O4. destruct (_ && _); exact O4.
Qed.
Lemma local_Mint t p lo up x : ownedP t p -> localp t (ownedP t) (hMint p lo up x).
Proof. intros O. unfold hMint. lbind (fun _ : unit => True); [ldone|]. intros _ _. now apply local_modifyPosition. Qed.
Lemma local_swapRound t d z e lim fee o s : owned t (hticks d) -> localp t (fun _ => True) (hSwapRound d z e lim fee o s).
Proof.
  intros O. unfold hSwapRound. lbind (fun _ : Z * bool => True); [ldone|]. intros [nx ini] _.
  lbind (fun _ : Z => True); [ldone|]. intros pn _. lbind (fun _ : StepResult => True); [ldone|]. intros st _.
  lbind (fun _ : Z => True); [ldone|]. intros gr _.
  destruct (stNext st =? pn).
  - lbind (fun _ : Z => True); [|intros; exact I]. destruct ini; [|exact I].
    lbind (fun _ : Z => True); [|intros; exact I]. destruct z; now apply local_Cross.
  - destruct (negb _); [|exact I]. lbind (fun _ : Z => True); [ldone|]. intros; exact I.
Qed.
Lemma local_swapLoop t d z e lim fee o fuel : owned t (hticks d) -> forall s, localp t (fun _ => True) (hSwapLoop fuel d z e lim fee o s).
Proof.
  intros O. induction fuel as [|fuel IH]; intros s; cbn [hSwapLoop]; destruct (negb _ && negb _); try exact I.
  lbind (fun _ : HState => True); [now apply local_swapRound|]. intros s' _. apply IH.
Qed.
Lemma local_swap t p fuel z x l : ownedP t p -> localp t (ownedR t) (hSwap fuel p z x l).
Proof.
  intros O. unfold hSwap. lbind (fun _ : unit => True); [ldone|]. intros _ _. lbind (fun _ : unit => True); [ldone|]. intros _ _.
  lbind (fun _ : HState => True); [now apply local_swapLoop|]. intros s _. destruct (Bool.eqb _ _); exact O.
Qed.
