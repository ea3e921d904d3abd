(** Pool.v -- /repo/lib/position/position.go and /repo/lib/pool/pool.go.

    A method that mutates its receiver is a function returning the new value.  A panic ends the program, so
    the half-updated pool is not modelled.  Token names are strings; the position table is an association
    list (Go map: the order does not matter to any function here). *)
From Coq Require Import String.
From Verif Require Import Base U256Z SwapMath TickMath TickData.
Ltac Zify.zify_post_hook ::= idtac.
Open Scope Z_scope.

(** position.go:19-25 *)
Record Info := mkInfo { pLiquidity : Z; pLast0 : Z; pLast1 : Z; pOwed0 : Z; pOwed1 : Z }.

(** position.go:27-35 *)
Definition NewPosition : Info := mkInfo 0 0 0 0 0.

(** position.go:9-17: TokensOwed0 is taken from TokensOwed1 *)
Definition InfoClone (i : Info) : Info := mkInfo (pLiquidity i) (pLast0 i) (pLast1 i) (pOwed1 i) (pOwed1 i).

(** position.go:37-48 *)
Definition InfoUpdate (i : Info) (liquidityDelta inside0 inside1 : Z) : res Info :=
  let liquidityNext := uadd (pLiquidity i) liquidityDelta in
  let temp0 := usub inside0 (pLast0 i) in
  let temp1 := usub inside1 (pLast1 i) in
  do owed0 <- MulDiv temp0 (pLiquidity i) Q128;
  do owed1 <- MulDiv temp1 (pLiquidity i) Q128;
  Ok (mkInfo liquidityNext inside0 inside1 (uadd (pOwed0 i) owed0) (uadd (pOwed1 i) owed1)).

(** Go's conversion string(int): the UTF-8 encoding of the code point, U+FFFD for anything that is not one
    (negative, above 0x10FFFF, surrogate). *)
Definition validRune (r : Z) : bool := (0 <=? r) && (r <=? 1114111) && negb ((55296 <=? r) && (r <=? 57343)).
Definition runeString (r : Z) : list Z :=
  if negb (validRune r) then [239; 191; 189]
  else if r <? 128 then [r]
  else if r <? 2048 then [192 + r / 64; 128 + r mod 64]
  else if r <? 65536 then [224 + r / 4096; 128 + r / 64 mod 64; 128 + r mod 64]
  else [240 + r / 262144; 128 + r / 4096 mod 64; 128 + r / 64 mod 64; 128 + r mod 64].

(** pool.go:100 and 170: string(tickLower) + "-" + string(tickUpper) *)
Definition posKey (lower upper : Z) : list Z := runeString lower ++ 45 :: runeString upper.

(** map[string]*position.Info *)
Definition Positions := list (list Z * Info).
Fixpoint keyEq (a b : list Z) : bool :=
  match a, b with
  | [], [] => true
  | x :: a, y :: b => (x =? y) && keyEq a b
  | _, _ => false
  end.
Fixpoint posGet (m : Positions) (k : list Z) : option Info :=
  match m with
  | [] => None
  | (k', v) :: m => if keyEq k' k then Some v else posGet m k
  end.
Fixpoint posPut (m : Positions) (k : list Z) (v : Info) : Positions :=
  match m with
  | [] => [(k, v)]
  | (k', v') :: m => if keyEq k' k then (k', v) :: m else (k', v') :: posPut m k v
  end.

(** pool.go:34-46 *)
Record Pool := mkPool {
  Token0 : string; Token1 : string; Fee : Z; SqrtRatio : Z; Liquidity : Z;
  FeeGrowth0 : Z; FeeGrowth1 : Z; TickSpacing : Z; TickCurrent : Z; Data : TickData; Pos : Positions }.

Definition with_data (p : Pool) (d : TickData) : Pool :=
  mkPool (Token0 p) (Token1 p) (Fee p) (SqrtRatio p) (Liquidity p) (FeeGrowth0 p) (FeeGrowth1 p)
    (TickSpacing p) (TickCurrent p) d (Pos p).
Definition with_pos (p : Pool) (m : Positions) : Pool :=
  mkPool (Token0 p) (Token1 p) (Fee p) (SqrtRatio p) (Liquidity p) (FeeGrowth0 p) (FeeGrowth1 p)
    (TickSpacing p) (TickCurrent p) (Data p) m.
Definition with_liq (p : Pool) (l : Z) : Pool :=
  mkPool (Token0 p) (Token1 p) (Fee p) (SqrtRatio p) l (FeeGrowth0 p) (FeeGrowth1 p)
    (TickSpacing p) (TickCurrent p) (Data p) (Pos p).

(** constants.go:21-25 (a missing key of a Go map reads as 0) *)
Definition TickSpaces (fee : Z) : Z :=
  if fee =? 500 then 10 else if fee =? 3000 then 60 else if fee =? 10000 then 200 else 0.

(** pool.go:48-70 *)
Definition NewPool (token0 token1 : string) (fee sqrtRatio : Z) : res Pool :=
  do _ <- invariant ((0 <=? fee) && (fee <=? 1000000));
  do tickCurrent <- GetTickAtSqrtRatio sqrtRatio;
  Ok (mkPool token0 token1 fee sqrtRatio 0 0 0 (TickSpaces fee) tickCurrent (NewTickData (TickSpaces fee)) []).

(** pool.go:121-125 *)
Definition checkTicks (lower upper : Z) : res unit :=
  do _ <- invariant (lower <? upper);
  do _ <- invariant (MinTick <=? lower);
  invariant (upper <=? MaxTick).

(** pool.go:91-119 *)
Definition updatePosition (p : Pool) (lower upper amount : Z) : res (Pool * Info) :=
  do upd <-
    (if negb (amount =? 0) then
       do r <- UpdateTick (Data p) lower (TickCurrent p) amount (FeeGrowth0 p) (FeeGrowth1 p) false;
       let '(d, clearLower) := r in
       do r <- UpdateTick d upper (TickCurrent p) amount (FeeGrowth0 p) (FeeGrowth1 p) true;
       let '(d, clearUpper) := r in
       Ok (d, clearLower, clearUpper)
     else Ok (Data p, false, false));
  let '(d, clearLower, clearUpper) := upd in
  do ins <- GetFeeGrowthInside d lower upper (TickCurrent p) (FeeGrowth0 p) (FeeGrowth1 p);
  let '(inside0, inside1) := ins in
  let key := posKey lower upper in
  let pos := match posGet (Pos p) key with Some i => i | None => NewPosition end in
  do pos' <- InfoUpdate pos amount inside0 inside1;
  do d <-
    (if usign amount =? -1 then
       do d <- (if clearLower then ClearTick d lower else Ok d);
       (if clearUpper then ClearTick d upper else Ok d)
     else Ok d);
  Ok (with_pos (with_data p d) (posPut (Pos p) key pos'), pos').

(** pool.go:127-147.  The position is returned through the table (the caller mutates it there). *)
Definition modifyPositionStrategy (p : Pool) (lower upper amount : Z) : res (Pool * Z * Z) :=
  do _ <- checkTicks lower upper;
  do r <- updatePosition p lower upper amount;
  let '(p, pos) := r in
  if amount =? 0 then Ok (p, 0, 0)
  else if TickCurrent p <? lower then
    do a <- GetSqrtRatioAtTick lower;
    do b <- GetSqrtRatioAtTick upper;
    do amount0 <- GetAmount0DeltaRounded a b amount;
    Ok (p, amount0, 0)
  else if TickCurrent p <? upper then
    do b <- GetSqrtRatioAtTick upper;
    do amount0 <- GetAmount0DeltaRounded (SqrtRatio p) b amount;
    do a <- GetSqrtRatioAtTick lower;
    do amount1 <- GetAmount1DeltaRounded (SqrtRatio p) a amount;
    Ok (with_liq p (uadd (Liquidity p) amount), amount0, amount1)
  else
    do a <- GetSqrtRatioAtTick lower;
    do b <- GetSqrtRatioAtTick upper;
    do amount1 <- GetAmount1DeltaRounded a b amount;
    Ok (p, 0, amount1).

(** pool.go:149-153; [Sgt] is the signed comparison *)
Definition MintStrategy (p : Pool) (lower upper amount : Z) : res (Pool * Z * Z) :=
  do _ <- invariant (usign amount =? 1);
  modifyPositionStrategy p lower upper amount.

(** pool.go:156-166 *)
Definition BurnStrategy (p : Pool) (lower upper amount : Z) : res (Pool * Z * Z) :=
  do r <- modifyPositionStrategy p lower upper (uneg amount);
  let '(p, amount0Int, amount1Int) := r in
  let amount0 := uneg amount0Int in
  let amount1 := uneg amount1Int in
  match posGet (Pos p) (posKey lower upper) with
  | Some i =>
      let i' := mkInfo (pLiquidity i) (pLast0 i) (pLast1 i) (uadd (pOwed0 i) amount0) (uadd (pOwed1 i) amount1) in
      Ok (with_pos p (posPut (Pos p) (posKey lower upper) i'), amount0, amount1)
  | None => Panic
  end.

(** pool.go:169-181 (a missing position is a nil pointer) *)
Definition CollectStrategy (p : Pool) (lower upper : Z) : res (Pool * Z * Z) :=
  match posGet (Pos p) (posKey lower upper) with
  | Some i =>
      let i' := mkInfo (pLiquidity i) (pLast0 i) (pLast1 i) 0 0 in
      Ok (with_pos p (posPut (Pos p) (posKey lower upper) i'), pOwed0 i, pOwed1 i)
  | None => Panic
  end.

(** pool.go:204-219 *)
Definition modifyPosition (p : Pool) (lower upper amount : Z) : res Pool :=
  do _ <- checkTicks lower upper;
  do r <- UpdateTick (Data p) lower (TickCurrent p) amount (FeeGrowth0 p) (FeeGrowth1 p) false;
  let '(d, clearLower) := r in
  do r <- UpdateTick d upper (TickCurrent p) amount (FeeGrowth0 p) (FeeGrowth1 p) true;
  let '(d, clearUpper) := r in
  do d <- (if clearLower then ClearTick d lower else Ok d);
  do d <- (if clearUpper then ClearTick d upper else Ok d);
  let p := with_data p d in
  if (lower <=? TickCurrent p) && (TickCurrent p <? upper) then Ok (with_liq p (uadd (Liquidity p) amount))
  else Ok p.

(** pool.go:183-186 *)
Definition Mint (p : Pool) (lower upper amount : Z) : res Pool :=
  do _ <- invariant (usign amount =? 1);
  modifyPosition p lower upper amount.

(** pool.go:188-192 *)
Definition Burn (p : Pool) (lower upper amount : Z) : res Pool :=
  modifyPosition p lower upper (uneg amount).

(** pool.go:223-234 *)
Definition Flash (p : Pool) (amount0 amount1 : Z) : res Pool :=
  do _ <- invariant (usign (Liquidity p) =? 1);
  do fee0 <- MulDivRoundingUp amount0 (Fee p mod W) 1000000;
  do fee1 <- MulDivRoundingUp amount1 (Fee p mod W) 1000000;
  do fee0Q128 <- MulDiv fee0 Q128 (Liquidity p);
  do fee1Q128 <- MulDiv fee1 Q128 (Liquidity p);
  Ok (mkPool (Token0 p) (Token1 p) (Fee p) (SqrtRatio p) (Liquidity p)
        (uadd (FeeGrowth0 p) fee0Q128) (uadd (FeeGrowth1 p) fee1Q128)
        (TickSpacing p) (TickCurrent p) (Data p) (Pos p)).

(** pool.go:25-32, with the tick table that [Cross] mutates *)
Record State := mkState {
  sRemaining : Z; sCalculated : Z; sPrice : Z; sTick : Z; sGrowth : Z; sLiquidity : Z; sData : TickData }.

(** pool.go:282-286 *)
Definition clampTick (t : Z) : Z := if t <? MinTick then MinTick else if MaxTick <? t then MaxTick else t.

(** One round of the swap loop, pool.go:278-348; [other] is the global growth of the token that is not
    paid in. *)
Definition swapRound (zeroForOne exactInput : bool) (limit fee other : Z) (s : State) : res State :=
  do nx <- NextInitializedTickWithinOneWord (sData s) (sTick s) zeroForOne;
  let '(next, initialized) := nx in
  let tickNext := clampTick next in
  do priceNext <- GetSqrtRatioAtTick tickNext;
  let target :=
    if zeroForOne then (if priceNext <? limit then limit else priceNext)
    else (if limit <? priceNext then limit else priceNext) in
  do st <- ComputeSwapStep (sPrice s) target (sLiquidity s) (sRemaining s) fee;
  let remaining := if exactInput then usub (sRemaining s) (uadd (stIn st) (stFee st))
                   else uadd (sRemaining s) (stOut st) in
  let calculated := if exactInput then usub (sCalculated s) (stOut st)
                    else uadd (sCalculated s) (uadd (stIn st) (stFee st)) in
  do growth <-
    (if 0 <? usign (sLiquidity s) then
       do f <- MulDiv (stFee st) Q128 (sLiquidity s); Ok (uadd (sGrowth s) f)
     else Ok (sGrowth s));
  if stNext st =? priceNext then
    do cr <-
      (if initialized then
         do c <- (if zeroForOne then Cross (sData s) tickNext growth other else Cross (sData s) tickNext other growth);
         let '(d, net) := c in
         Ok (d, if zeroForOne then usub (sLiquidity s) net else uadd (sLiquidity s) net)
       else Ok (sData s, sLiquidity s));
    let '(d, liq) := cr in
    Ok (mkState remaining calculated (stNext st) (if zeroForOne then tickNext - 1 else tickNext) growth liq d)
  else if negb (stNext st =? sPrice s) then
    do t <- GetTickAtSqrtRatio (stNext st);
    Ok (mkState remaining calculated (stNext st) t growth (sLiquidity s) (sData s))
  else
    Ok (mkState remaining calculated (stNext st) (sTick s) growth (sLiquidity s) (sData s)).

(** pool.go:277-350 *)
Fixpoint swapLoop (fuel : nat) (zeroForOne exactInput : bool) (limit fee other : Z) (s : State) : res State :=
  if negb (sRemaining s =? 0) && negb (sPrice s =? limit) then
    match fuel with
    | O => OutOfFuel
    | S fuel =>
        do s' <- swapRound zeroForOne exactInput limit fee other s;
        swapLoop fuel zeroForOne exactInput limit fee other s'
    end
  else Ok s.

(** pool.go:242-250: a zero limit means the extreme price *)
Definition effectiveLimit (zeroForOne : bool) (limit : Z) : Z :=
  if limit =? 0 then (if zeroForOne then uadd MinSqrtRatio 1 else usub MaxSqrtRatio 1) else limit.

(** pool.go:238-371 *)
Definition swap (fuel : nat) (p : Pool) (zeroForOne : bool) (amountSpecified limitIn : Z) : res (Pool * Z * Z) :=
  do _ <- invariant (negb (amountSpecified =? 0));
  let limit := effectiveLimit zeroForOne limitIn in
  do _ <- invariant (if zeroForOne then (limit <? SqrtRatio p) && (MinSqrtRatio <? limit)
                     else (SqrtRatio p <? limit) && (limit <? MaxSqrtRatio));
  let exactInput := 0 <=? usign amountSpecified in
  let s0 := mkState amountSpecified 0 (SqrtRatio p) (TickCurrent p)
              (if zeroForOne then FeeGrowth0 p else FeeGrowth1 p) (Liquidity p) (Data p) in
  do s <- swapLoop fuel zeroForOne exactInput limit (Fee p) (if zeroForOne then FeeGrowth1 p else FeeGrowth0 p) s0;
  let p' := mkPool (Token0 p) (Token1 p) (Fee p) (sPrice s) (sLiquidity s)
              (if zeroForOne then sGrowth s else FeeGrowth0 p) (if zeroForOne then FeeGrowth1 p else sGrowth s)
              (TickSpacing p) (sTick s) (sData s) (Pos p) in
  let spent := usub amountSpecified (sRemaining s) in
  if Bool.eqb zeroForOne exactInput then Ok (p', spent, sCalculated s) else Ok (p', sCalculated s, spent).

(** pool.go:194-197 *)
Definition ExactInputSwap (fuel : nat) (p : Pool) (inputAmount : Z) (token : string) (limit : Z) : res (Pool * Z * Z) :=
  swap fuel p (String.eqb token (Token0 p)) inputAmount limit.

(** pool.go:199-202 *)
Definition ExactOutputSwap (fuel : nat) (p : Pool) (outputAmount : Z) (token : string) (limit : Z) : res (Pool * Z * Z) :=
  swap fuel p (String.eqb token (Token1 p)) outputAmount limit.

(** pool.go:72-90 on values (TickHeap.v models what the copies share) *)
Definition PoolClone (p : Pool) : Pool :=
  with_pos p (map (fun kv => (fst kv, InfoClone (snd kv))) (Pos p)).
