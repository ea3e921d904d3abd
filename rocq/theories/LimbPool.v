(** LimbPool.v -- /repo/lib/tickdata, /repo/lib/position and /repo/lib/pool once more, with every number the code keeps
    in a *ui.Int as its four 64-bit words: the fields of ticks, positions and pools, and every call of a method of
    ui.Int or of a function of LimbMath.v, in the order of the code.  Prop_LimbPool.v proves that these functions and
    those of TickData.v and Pool.v are the same.  The conventions of TickData.v and Pool.v hold here too: values
    instead of pointers, Go's int is Z. *)
From Coq Require Import String.
From Verif Require Import Base U256 U256Conv LibBridge LimbMath.
From Verif Require TickMath TickData Pool.
Ltac Zify.zify_post_hook ::= idtac.
Open Scope Z_scope.

(** constants.go:15 *)
Definition Q128L : Int := hexInt "0x100000000000000000000000000000000".

(** * tickdata.go *)
(** tickdata.go:10-16 *)
Record TickL := mkTickL { tIndex : Z; tNet : Int; tGross : Int; tOut0 : Int; tOut1 : Int }.
(** tickdata.go:18-21 *)
Record TickDataL := mkTickDataL { ticksOf : list TickL; spacingOf : Z }.
Definition with_ticksL (t : TickDataL) (l : list TickL) : TickDataL := mkTickDataL l (spacingOf t).
(** the searches of tickdata.go:46-58, 167-261 read nothing but the field Index and the spacing: they are those of
    TickData.v on a table with these indices *)
Definition indices (t : TickDataL) : TickData.TickData :=
  TickData.mkTickData (map (fun x => TickData.mkTick (tIndex x) 0 0 0 0) (ticksOf t)) (spacingOf t).
(** t.ticks[i] *)
Definition tickAtL (t : TickDataL) (i : Z) : res TickL := if i <? 0 then Panic else geti (ticksOf t) (Z.to_nat i).
(** tickdata.go:39-44 *)
Definition NewTickDataL (spacing : Z) : TickDataL := mkTickDataL [] spacing.
(** tickdata.go:60-64 *)
Definition GetTickL (t : TickDataL) (index : Z) : res TickL :=
  do i <- TickData.binarySearch (indices t) index;
  do tick <- tickAtL t i;
  do _ <- invariant (tIndex tick =? index);
  Ok tick.
Definition setAtL (l : list TickL) (i : Z) (x : TickL) : list TickL :=
  firstn (Z.to_nat i) l ++ x :: skipn (Z.to_nat i + 1) l.
(** tickdata.go:66-73 *)
Definition CrossL (t : TickDataL) (tick : Z) (feeGrowthGlobal0 feeGrowthGlobal1 : Int) : res (TickDataL * Int) :=
  do i <- TickData.binarySearch (indices t) tick;
  do info <- tickAtL t i;
  do _ <- invariant (tIndex info =? tick);
  let info' := mkTickL (tIndex info) (tNet info) (tGross info)
                 (Sub feeGrowthGlobal0 (tOut0 info)) (Sub feeGrowthGlobal1 (tOut1 info)) in
  Ok (with_ticksL t (setAtL (ticksOf t) i info'), tNet info).
(** tickdata.go:75-94; Clone copies the words *)
Definition makeTickL (tick tickCurrent : Z) (liquidityNet liquidityGross out0 out1 : Int) : TickL :=
  if tick <=? tickCurrent then mkTickL tick liquidityNet liquidityGross out0 out1
  else mkTickL tick liquidityNet liquidityGross ZeroL ZeroL.
(** tickdata.go:96-103 *)
Definition ClearTickL (t : TickDataL) (index : Z) : res TickDataL :=
  do r <- TickData.binarySearch2 (indices t) index;
  let '(i, found) := r in
  if found then Ok (with_ticksL t (firstn (Z.to_nat i) (ticksOf t) ++ skipn (Z.to_nat i + 1) (ticksOf t)))
  else Ok t.
(** tickdata.go:105-139 *)
Definition UpdateTickL (t : TickDataL) (index tickCurrent : Z) (liquidityDelta feeGrowthGlobal0 feeGrowthGlobal1 : Int)
    (upper : bool) : res (TickDataL * bool) :=
  do r <- TickData.binarySearch2 (indices t) index;
  let '(i, found) := r in
  let z := if upper then Neg liquidityDelta else liquidityDelta in
  if found then
    do tick <- tickAtL t i;
    let net := if upper then Sub (tNet tick) liquidityDelta else Add (tNet tick) liquidityDelta in
    let gross := Add (tGross tick) liquidityDelta in
    let tick' := mkTickL (tIndex tick) net gross (tOut0 tick) (tOut1 tick) in
    Ok (with_ticksL t (setAtL (ticksOf t) i tick'), IsZero gross)
  else
    let tick := makeTickL index tickCurrent z liquidityDelta feeGrowthGlobal0 feeGrowthGlobal1 in
    if i =? -2 then Ok (with_ticksL t (ticksOf t ++ [tick]), false)
    else if i =? -1 then Ok (with_ticksL t (tick :: ticksOf t), false)
    else Ok (with_ticksL t (firstn (Z.to_nat i) (ticksOf t) ++ tick :: skipn (Z.to_nat i) (ticksOf t)), false).
(** tickdata.go:141-165 *)
Definition GetFeeGrowthInsideL (t : TickDataL) (tickLower tickUpper tickCurrent : Z) (global0 global1 : Int) : res (Int * Int) :=
  do lower <- GetTickL t tickLower;
  do upper <- GetTickL t tickUpper;
  let '(below0, below1) :=
    if tickLower <=? tickCurrent then (tOut0 lower, tOut1 lower)
    else (Sub global0 (tOut0 lower), Sub global1 (tOut1 lower)) in
  let '(above0, above1) :=
    if tickCurrent <? tickUpper then (tOut0 upper, tOut1 upper)
    else (Sub global0 (tOut0 upper), Sub global1 (tOut1 upper)) in
  Ok (Sub (Sub global0 below0) above0, Sub (Sub global1 below1) above1).

(** * position.go *)
(** position.go:19-25 *)
Record InfoL := mkInfoL { iLiquidity : Int; iLast0 : Int; iLast1 : Int; iOwed0 : Int; iOwed1 : Int }.
(** position.go:27-35 *)
Definition NewPositionL : InfoL := mkInfoL (NewInt 0) (NewInt 0) (NewInt 0) (NewInt 0) (NewInt 0).
(** position.go:9-17 *)
Definition InfoCloneL (i : InfoL) : InfoL := mkInfoL (iLiquidity i) (iLast0 i) (iLast1 i) (iOwed1 i) (iOwed1 i).
(** position.go:37-48 *)
Definition InfoUpdateL (i : InfoL) (liquidityDelta inside0 inside1 : Int) : res InfoL :=
  let liquidityNext := Add (iLiquidity i) liquidityDelta in
  let temp0 := Sub inside0 (iLast0 i) in
  let temp1 := Sub inside1 (iLast1 i) in
  do owed0 <- MulDivL temp0 (iLiquidity i) Q128L;
  do owed1 <- MulDivL temp1 (iLiquidity i) Q128L;
  Ok (mkInfoL liquidityNext inside0 inside1 (Add (iOwed0 i) owed0) (Add (iOwed1 i) owed1)).

(** * pool.go *)
(** map[string]*position.Info *)
Definition PositionsL := list (list Z * InfoL).
Fixpoint posGetL (m : PositionsL) (k : list Z) : option InfoL :=
  match m with
  | [] => None
  | (k', v) :: m => if Pool.keyEq k' k then Some v else posGetL m k
  end.
Fixpoint posPutL (m : PositionsL) (k : list Z) (v : InfoL) : PositionsL :=
  match m with
  | [] => [(k, v)]
  | (k', v') :: m => if Pool.keyEq k' k then (k', v) :: m else (k', v') :: posPutL m k v
  end.

(** pool.go:34-46 *)
Record PoolL := mkPoolL {
  qToken0 : string; qToken1 : string; qFee : Z; qSqrtRatio : Int; qLiquidity : Int;
  qGrowth0 : Int; qGrowth1 : Int; qTickSpacing : Z; qTickCurrent : Z; qData : TickDataL; qPos : PositionsL }.
Definition with_dataL (p : PoolL) (d : TickDataL) : PoolL :=
  mkPoolL (qToken0 p) (qToken1 p) (qFee p) (qSqrtRatio p) (qLiquidity p) (qGrowth0 p) (qGrowth1 p)
    (qTickSpacing p) (qTickCurrent p) d (qPos p).
Definition with_posL (p : PoolL) (m : PositionsL) : PoolL :=
  mkPoolL (qToken0 p) (qToken1 p) (qFee p) (qSqrtRatio p) (qLiquidity p) (qGrowth0 p) (qGrowth1 p)
    (qTickSpacing p) (qTickCurrent p) (qData p) m.
Definition with_liqL (p : PoolL) (l : Int) : PoolL :=
  mkPoolL (qToken0 p) (qToken1 p) (qFee p) (qSqrtRatio p) l (qGrowth0 p) (qGrowth1 p)
    (qTickSpacing p) (qTickCurrent p) (qData p) (qPos p).

(** tickmath.go:60-75 with the fuel of TickMath.v *)
Definition GetTickAtSqrtRatioL (price : Int) : res Z := GetTickAtSqrtRatioFL TickMath.tickFuel price.

(** pool.go:48-70 *)
Definition NewPoolL (token0 token1 : string) (fee : Z) (sqrtRatio : Int) : res PoolL :=
  do _ <- invariant ((0 <=? fee) && (fee <=? 1000000));
  do tickCurrent <- GetTickAtSqrtRatioL sqrtRatio;
  Ok (mkPoolL token0 token1 fee sqrtRatio (NewInt 0) ZeroL ZeroL (Pool.TickSpaces fee) tickCurrent
        (NewTickDataL (Pool.TickSpaces fee)) []).

(** pool.go:91-119 *)
Definition updatePositionL (p : PoolL) (lower upper : Z) (amount : Int) : res (PoolL * InfoL) :=
  do upd <-
    (if negb (IsZero amount) then
       do r <- UpdateTickL (qData p) lower (qTickCurrent p) amount (qGrowth0 p) (qGrowth1 p) false;
       let '(d, clearLower) := r in
       do r <- UpdateTickL d upper (qTickCurrent p) amount (qGrowth0 p) (qGrowth1 p) true;
       let '(d, clearUpper) := r in
       Ok (d, clearLower, clearUpper)
     else Ok (qData p, false, false));
  let '(d, clearLower, clearUpper) := upd in
  do ins <- GetFeeGrowthInsideL d lower upper (qTickCurrent p) (qGrowth0 p) (qGrowth1 p);
  let '(inside0, inside1) := ins in
  let key := Pool.posKey lower upper in
  let pos := match posGetL (qPos p) key with Some i => i | None => NewPositionL end in
  do pos' <- InfoUpdateL pos amount inside0 inside1;
  do d <-
    (if Sign amount =? -1 then
       do d <- (if clearLower then ClearTickL d lower else Ok d);
       (if clearUpper then ClearTickL d upper else Ok d)
     else Ok d);
  Ok (with_posL (with_dataL p d) (posPutL (qPos p) key pos'), pos').

(** pool.go:127-147 *)
Definition modifyPositionStrategyL (p : PoolL) (lower upper : Z) (amount : Int) : res (PoolL * Int * Int) :=
  do _ <- Pool.checkTicks lower upper;
  do r <- updatePositionL p lower upper amount;
  let '(p, pos) := r in
  if IsZero amount then Ok (p, ZeroL, ZeroL)
  else if qTickCurrent p <? lower then
    do a <- GetSqrtRatioAtTickL lower;
    do b <- GetSqrtRatioAtTickL upper;
    do amount0 <- GetAmount0DeltaRoundedL a b amount;
    Ok (p, amount0, NewInt 0)
  else if qTickCurrent p <? upper then
    do b <- GetSqrtRatioAtTickL upper;
    do amount0 <- GetAmount0DeltaRoundedL (qSqrtRatio p) b amount;
    do a <- GetSqrtRatioAtTickL lower;
    do amount1 <- GetAmount1DeltaRoundedL (qSqrtRatio p) a amount;
    Ok (with_liqL p (Add (qLiquidity p) amount), amount0, amount1)
  else
    do a <- GetSqrtRatioAtTickL lower;
    do b <- GetSqrtRatioAtTickL upper;
    do amount1 <- GetAmount1DeltaRoundedL a b amount;
    Ok (p, NewInt 0, amount1).

(** pool.go:149-153 *)
Definition MintStrategyL (p : PoolL) (lower upper : Z) (amount : Int) : res (PoolL * Int * Int) :=
  do _ <- invariant (Sgt amount ZeroL);
  modifyPositionStrategyL p lower upper amount.

(** pool.go:156-166 *)
Definition BurnStrategyL (p : PoolL) (lower upper : Z) (amount : Int) : res (PoolL * Int * Int) :=
  do r <- modifyPositionStrategyL p lower upper (Neg amount);
  let '(p, amount0Int, amount1Int) := r in
  let amount0 := Neg amount0Int in
  let amount1 := Neg amount1Int in
  match posGetL (qPos p) (Pool.posKey lower upper) with
  | Some i =>
      let i' := mkInfoL (iLiquidity i) (iLast0 i) (iLast1 i) (Add (iOwed0 i) amount0) (Add (iOwed1 i) amount1) in
      Ok (with_posL p (posPutL (qPos p) (Pool.posKey lower upper) i'), amount0, amount1)
  | None => Panic
  end.

(** pool.go:169-181 *)
Definition CollectStrategyL (p : PoolL) (lower upper : Z) : res (PoolL * Int * Int) :=
  match posGetL (qPos p) (Pool.posKey lower upper) with
  | Some i =>
      let i' := mkInfoL (iLiquidity i) (iLast0 i) (iLast1 i) ZeroL ZeroL in
      Ok (with_posL p (posPutL (qPos p) (Pool.posKey lower upper) i'), iOwed0 i, iOwed1 i)
  | None => Panic
  end.

(** pool.go:204-219 *)
Definition modifyPositionL (p : PoolL) (lower upper : Z) (amount : Int) : res PoolL :=
  do _ <- Pool.checkTicks lower upper;
  do r <- UpdateTickL (qData p) lower (qTickCurrent p) amount (qGrowth0 p) (qGrowth1 p) false;
  let '(d, clearLower) := r in
  do r <- UpdateTickL d upper (qTickCurrent p) amount (qGrowth0 p) (qGrowth1 p) true;
  let '(d, clearUpper) := r in
  do d <- (if clearLower then ClearTickL d lower else Ok d);
  do d <- (if clearUpper then ClearTickL d upper else Ok d);
  let p := with_dataL p d in
  if (lower <=? qTickCurrent p) && (qTickCurrent p <? upper) then Ok (with_liqL p (Add (qLiquidity p) amount))
  else Ok p.

(** pool.go:183-186 *)
Definition MintL (p : PoolL) (lower upper : Z) (amount : Int) : res PoolL :=
  do _ <- invariant (Sgt amount ZeroL);
  modifyPositionL p lower upper amount.

(** pool.go:188-192 *)
Definition BurnL (p : PoolL) (lower upper : Z) (amount : Int) : res PoolL :=
  modifyPositionL p lower upper (Neg amount).

(** pool.go:223-234 *)
Definition FlashL (p : PoolL) (amount0 amount1 : Int) : res PoolL :=
  do _ <- invariant (Sign (qLiquidity p) =? 1);
  do fee0 <- MulDivRoundingUpL amount0 (NewInt (qFee p mod W)) (NewInt 1000000);
  do fee1 <- MulDivRoundingUpL amount1 (NewInt (qFee p mod W)) (NewInt 1000000);
  do fee0Q128 <- MulDivL fee0 Q128L (qLiquidity p);
  do fee1Q128 <- MulDivL fee1 Q128L (qLiquidity p);
  Ok (mkPoolL (qToken0 p) (qToken1 p) (qFee p) (qSqrtRatio p) (qLiquidity p)
        (Add (qGrowth0 p) fee0Q128) (Add (qGrowth1 p) fee1Q128)
        (qTickSpacing p) (qTickCurrent p) (qData p) (qPos p)).

(** pool.go:25-32, with the tick table that [Cross] mutates *)
Record StateL := mkStateL {
  rRemaining : Int; rCalculated : Int; rPrice : Int; rTick : Z; rGrowth : Int; rLiquidity : Int; rData : TickDataL }.

(** pool.go:278-348 *)
Definition swapRoundL (zeroForOne exactInput : bool) (limit : Int) (fee : Z) (other : Int) (s : StateL) : res StateL :=
  do nx <- TickData.NextInitializedTickWithinOneWord (indices (rData s)) (rTick s) zeroForOne;
  let '(next, initialized) := nx in
  let tickNext := Pool.clampTick next in
  do priceNext <- GetSqrtRatioAtTickL tickNext;
  let target :=
    if zeroForOne then (if Cmp priceNext limit <? 0 then limit else priceNext)
    else (if 0 <? Cmp priceNext limit then limit else priceNext) in
  do st <- ComputeSwapStepL (rPrice s) target (rLiquidity s) (rRemaining s) fee;
  let '(price, amountIn, amountOut, feeAmount) := st in
  let remaining := if exactInput then Sub (rRemaining s) (Add amountIn feeAmount)
                   else Add (rRemaining s) amountOut in
  let calculated := if exactInput then Sub (rCalculated s) amountOut
                    else Add (rCalculated s) (Add amountIn feeAmount) in
  do growth <-
    (if 0 <? Sign (rLiquidity s) then
       do f <- MulDivL feeAmount Q128L (rLiquidity s); Ok (Add (rGrowth s) f)
     else Ok (rGrowth s));
  if Cmp price priceNext =? 0 then
    do cr <-
      (if initialized then
         do c <- (if zeroForOne then CrossL (rData s) tickNext growth other else CrossL (rData s) tickNext other growth);
         let '(d, net) := c in
         Ok (d, if zeroForOne then Sub (rLiquidity s) net else Add (rLiquidity s) net)
       else Ok (rData s, rLiquidity s));
    let '(d, liq) := cr in
    Ok (mkStateL remaining calculated price (if zeroForOne then tickNext - 1 else tickNext) growth liq d)
  else if negb (Cmp price (rPrice s) =? 0) then
    do t <- GetTickAtSqrtRatioL price;
    Ok (mkStateL remaining calculated price t growth (rLiquidity s) (rData s))
  else
    Ok (mkStateL remaining calculated price (rTick s) growth (rLiquidity s) (rData s)).

(** pool.go:277-350 *)
Fixpoint swapLoopL (fuel : nat) (zeroForOne exactInput : bool) (limit : Int) (fee : Z) (other : Int) (s : StateL) : res StateL :=
  if negb (IsZero (rRemaining s)) && negb (Cmp (rPrice s) limit =? 0) then
    match fuel with
    | O => OutOfFuel
    | S fuel =>
        do s' <- swapRoundL zeroForOne exactInput limit fee other s;
        swapLoopL fuel zeroForOne exactInput limit fee other s'
    end
  else Ok s.

(** pool.go:242-250 *)
Definition effectiveLimitL (zeroForOne : bool) (limit : Int) : Int :=
  if IsZero limit then (if zeroForOne then Add MinSqrtRatioL OneL else Sub MaxSqrtRatioL OneL) else limit.

(** pool.go:238-371 *)
Definition swapL (fuel : nat) (p : PoolL) (zeroForOne : bool) (amountSpecified limitIn : Int) : res (PoolL * Int * Int) :=
  do _ <- invariant (negb (IsZero amountSpecified));
  let limit := effectiveLimitL zeroForOne limitIn in
  do _ <- invariant (if zeroForOne then (Cmp limit (qSqrtRatio p) =? -1) && (Cmp limit MinSqrtRatioL =? 1)
                     else (Cmp limit (qSqrtRatio p) =? 1) && (Cmp limit MaxSqrtRatioL =? -1));
  let exactInput := 0 <=? Sign amountSpecified in
  let s0 := mkStateL amountSpecified (NewInt 0) (qSqrtRatio p) (qTickCurrent p)
              (if zeroForOne then qGrowth0 p else qGrowth1 p) (qLiquidity p) (qData p) in
  do s <- swapLoopL fuel zeroForOne exactInput limit (qFee p) (if zeroForOne then qGrowth1 p else qGrowth0 p) s0;
  let p' := mkPoolL (qToken0 p) (qToken1 p) (qFee p) (rPrice s) (rLiquidity s)
              (if zeroForOne then rGrowth s else qGrowth0 p) (if zeroForOne then qGrowth1 p else rGrowth s)
              (qTickSpacing p) (rTick s) (rData s) (qPos p) in
  let spent := Sub amountSpecified (rRemaining s) in
  if Bool.eqb zeroForOne exactInput then Ok (p', spent, rCalculated s) else Ok (p', rCalculated s, spent).

(** pool.go:194-197 *)
Definition ExactInputSwapL (fuel : nat) (p : PoolL) (inputAmount : Int) (token : string) (limit : Int) : res (PoolL * Int * Int) :=
  swapL fuel p (String.eqb token (qToken0 p)) inputAmount limit.

(** pool.go:199-202 *)
Definition ExactOutputSwapL (fuel : nat) (p : PoolL) (outputAmount : Int) (token : string) (limit : Int) : res (PoolL * Int * Int) :=
  swapL fuel p (String.eqb token (qToken1 p)) outputAmount limit.

(** pool.go:72-90 on values *)
Definition PoolCloneL (p : PoolL) : PoolL :=
  with_posL p (map (fun kv => (fst kv, InfoCloneL (snd kv))) (qPos p)).

(** * sequences of calls, as PoolOps.v *)
(** the exported operations with arguments in words *)
Inductive opL :=
| LMint (lower upper : Z) (amount : Int)
| LBurn (lower upper : Z) (amount : Int)
| LMintStrategy (lower upper : Z) (amount : Int)
| LBurnStrategy (lower upper : Z) (amount : Int)
| LCollectStrategy (lower upper : Z)
| LFlash (amount0 amount1 : Int)
| LExactInput (amount : Int) (token : string) (limit : Int)
| LExactOutput (amount : Int) (token : string) (limit : Int).
Definition stepL (fuel : nat) (q : PoolL) (o : opL) : res PoolL :=
  match o with
  | LMint l u a => MintL q l u a
  | LBurn l u a => BurnL q l u a
  | LMintStrategy l u a => do r <- MintStrategyL q l u a; Ok (fst (fst r))
  | LBurnStrategy l u a => do r <- BurnStrategyL q l u a; Ok (fst (fst r))
  | LCollectStrategy l u => do r <- CollectStrategyL q l u; Ok (fst (fst r))
  | LFlash a0 a1 => FlashL q a0 a1
  | LExactInput a t lim => do r <- ExactInputSwapL fuel q a t lim; Ok (fst (fst r))
  | LExactOutput a t lim => do r <- ExactOutputSwapL fuel q a t lim; Ok (fst (fst r))
  end.
Fixpoint stepsL (fuel : nat) (q : PoolL) (os : list opL) : res PoolL :=
  match os with [] => Ok q | o :: os => do q <- stepL fuel q o; stepsL fuel q os end.
