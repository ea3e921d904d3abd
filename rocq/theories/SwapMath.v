(** SwapMath.v -- /repo/lib/sqrtprice_math/sqrtprice_math.go, /repo/lib/swapmath/swapmath.go and
    /repo/lib/liquidity_amounts/liquidity_amounts.go on 256-bit integers (U256Z.v).  [x.Cmp(y) > 0] is
    [y <? x], etc. *)
From Verif Require Import Base U256Z.

(** sqrtprice_math.go:10 *)
Definition MaxUint160 : Z := 2 ^ 160 - 1.

(** sqrtprice_math.go:12-15, 17-20 *)
Definition multiplyIn256 (x y : Z) : Z := Z.land (umul x y) MaxUint256.
Definition addIn256 (x y : Z) : Z := Z.land (uadd x y) MaxUint256.

(** The exchange at the start of the functions: sqrtprice_math.go:23-25, liquidity_amounts.go:10-12 *)
Definition ordered (a b : Z) : Z * Z := if b <? a then (b, a) else (a, b).

(** sqrtprice_math.go:22-37 *)
Definition GetAmount0Delta (sqrtRatioA sqrtRatioB liquidity : Z) (roundUp : bool) : res Z :=
  let '(a, b) := ordered sqrtRatioA sqrtRatioB in
  let numerator1 := ulsh liquidity 96 in
  let numerator2 := usub b a in
  if roundUp then
    do x <- MulDivRoundingUp numerator1 numerator2 b;
    MulDivRoundingUp x 1 a
  else
    do x <- MulDiv numerator1 numerator2 b;
    Ok (udiv x a).

(** sqrtprice_math.go:39-51 *)
Definition GetAmount1Delta (sqrtRatioA sqrtRatioB liquidity : Z) (roundUp : bool) : res Z :=
  let '(a, b) := ordered sqrtRatioA sqrtRatioB in
  if roundUp then MulDivRoundingUp liquidity (usub b a) Q96
  else MulDiv liquidity (usub b a) Q96.

(** sqrtprice_math.go:72-93 *)
Definition getNextSqrtPriceFromAmount0RoundingUp (sqrtP liquidity amount : Z) (add : bool) : res Z :=
  if amount =? 0 then Ok sqrtP
  else
    let numerator1 := ulsh liquidity 96 in
    if add then
      let product := multiplyIn256 amount sqrtP in
      let denominator := addIn256 numerator1 product in
      if (udiv product amount =? sqrtP) && (numerator1 <=? denominator) then
        MulDivRoundingUp numerator1 sqrtP denominator
      else MulDivRoundingUp numerator1 1 (uadd (udiv numerator1 sqrtP) amount)
    else
      let product := multiplyIn256 amount sqrtP in
      let denominator := usub numerator1 product in
      MulDivRoundingUp numerator1 sqrtP denominator.

(** sqrtprice_math.go:95-109 *)
Definition getNextSqrtPriceFromAmount1RoundingDown (sqrtP liquidity amount : Z) (add : bool) : res Z :=
  if add then
    let quotient :=
      if amount <=? MaxUint160 then udiv (ulsh amount 96) liquidity
      else udiv (umul amount Q96) liquidity in
    Ok (uadd sqrtP quotient)
  else
    do quotient <- MulDivRoundingUp amount Q96 liquidity;
    Ok (usub sqrtP quotient).

(** sqrtprice_math.go:53-60 *)
Definition GetNextSqrtPriceFromInput (sqrtP liquidity amountIn : Z) (zeroForOne : bool) : res Z :=
  do _ <- invariant (usign sqrtP =? 1);
  do _ <- invariant (usign liquidity =? 1);
  if zeroForOne then getNextSqrtPriceFromAmount0RoundingUp sqrtP liquidity amountIn true
  else getNextSqrtPriceFromAmount1RoundingDown sqrtP liquidity amountIn true.

(** sqrtprice_math.go:62-70 *)
Definition GetNextSqrtPriceFromOutput (sqrtP liquidity amountOut : Z) (zeroForOne : bool) : res Z :=
  do _ <- invariant (usign sqrtP =? 1);
  do _ <- invariant (usign liquidity =? 1);
  if zeroForOne then getNextSqrtPriceFromAmount1RoundingDown sqrtP liquidity amountOut false
  else getNextSqrtPriceFromAmount0RoundingUp sqrtP liquidity amountOut false.

(** sqrtprice_math.go:111-117 *)
Definition GetAmount0DeltaRounded (sqrtRatioA sqrtRatioB liquidity : Z) : res Z :=
  if usign liquidity =? -1 then
    do x <- GetAmount0Delta sqrtRatioA sqrtRatioB (uneg liquidity) false; Ok (uneg x)
  else GetAmount0Delta sqrtRatioA sqrtRatioB liquidity true.

(** sqrtprice_math.go:119-125 *)
Definition GetAmount1DeltaRounded (sqrtRatioA sqrtRatioB liquidity : Z) : res Z :=
  if usign liquidity =? -1 then
    do x <- GetAmount1Delta sqrtRatioA sqrtRatioB (uneg liquidity) false; Ok (uneg x)
  else GetAmount1Delta sqrtRatioA sqrtRatioB liquidity true.

(** swapmath.go:9 *)
Definition MaxFee : Z := 1000000.

Record StepResult := mkStep { stNext : Z; stIn : Z; stOut : Z; stFee : Z }.

(** swapmath.go:11-73.  [amountRemaining] is the two's-complement value; amountIn / amountOut are nil
    until assigned, and the code assigns each before it is read (the first two alternatives of the model
    return 0 for the one not assigned there, which the later assignments overwrite). *)
Definition ComputeSwapStep (current target liquidity amountRemaining feePips : Z) : res StepResult :=
  let zeroForOne := target <=? current in
  let exactIn := 0 <=? usign amountRemaining in
  let amountRemainingNeg := uneg amountRemaining in
  let feeRate := feePips mod W in
  do first <-
    (if exactIn then
       let amountRemainingLessFee := udiv (umul amountRemaining (usub MaxFee feeRate)) MaxFee in
       do amountIn <- (if zeroForOne then GetAmount0Delta target current liquidity true
                       else GetAmount1Delta current target liquidity true);
       do next <- (if amountIn <=? amountRemainingLessFee then Ok target
                   else GetNextSqrtPriceFromInput current liquidity amountRemainingLessFee zeroForOne);
       Ok (next, amountIn, 0)
     else
       do amountOut <- (if zeroForOne then GetAmount1Delta target current liquidity false
                        else GetAmount0Delta current target liquidity false);
       do next <- (if amountOut <=? amountRemainingNeg then Ok target
                   else GetNextSqrtPriceFromOutput current liquidity amountRemainingNeg zeroForOne);
       Ok (next, 0, amountOut));
  let '(next, amountIn, amountOut) := first in
  let max := target =? next in
  do amountIn <-
    (if max && exactIn then Ok amountIn
     else if zeroForOne then GetAmount0Delta next current liquidity true
     else GetAmount1Delta current next liquidity true);
  do amountOut <-
    (if max && negb exactIn then Ok amountOut
     else if zeroForOne then GetAmount1Delta next current liquidity false
     else GetAmount0Delta current next liquidity false);
  let amountOut := if negb exactIn && (amountRemainingNeg <? amountOut) then amountRemainingNeg else amountOut in
  do feeAmount <-
    (if exactIn && negb (next =? target) then Ok (usub amountRemaining amountIn)
     else MulDivRoundingUp amountIn feeRate (usub MaxFee feeRate));
  Ok (mkStep next amountIn amountOut feeAmount).

(** liquidity_amounts.go:9-15 *)
Definition getLiquidityForAmount0 (sqrtRatioA sqrtRatioB amount0 : Z) : res Z :=
  let '(a, b) := ordered sqrtRatioA sqrtRatioB in
  do intermediate <- MulDiv a b Q96;
  MulDiv amount0 intermediate (usub b a).

(** liquidity_amounts.go:17-22 *)
Definition getLiquidityForAmount1 (sqrtRatioA sqrtRatioB amount1 : Z) : res Z :=
  let '(a, b) := ordered sqrtRatioA sqrtRatioB in
  MulDiv amount1 Q96 (usub b a).

(** liquidity_amounts.go:24-43 *)
Definition GetLiquidityForAmount (sqrtRatio sqrtRatioA sqrtRatioB amount0 amount1 : Z) : res Z :=
  let '(a, b) := ordered sqrtRatioA sqrtRatioB in
  if sqrtRatio <=? a then getLiquidityForAmount0 a b amount0
  else if sqrtRatio <? b then
    do liquidity0 <- getLiquidityForAmount0 sqrtRatio b amount0;
    do liquidity1 <- getLiquidityForAmount1 a sqrtRatio amount1;
    Ok (if liquidity0 <? liquidity1 then liquidity0 else liquidity1)
  else getLiquidityForAmount1 a b amount1.

(** liquidity_amounts.go:45-53 *)
Definition getAmount0ForLiquidity (sqrtRatioA sqrtRatioB liquidity : Z) : res Z :=
  let '(a, b) := ordered sqrtRatioA sqrtRatioB in
  do temp3 <- MulDiv (ulsh liquidity 96) (usub b a) b;
  Ok (udiv temp3 a).

(** liquidity_amounts.go:55-61 *)
Definition getAmount1ForLiquidity (sqrtRatioA sqrtRatioB liquidity : Z) : res Z :=
  let '(a, b) := ordered sqrtRatioA sqrtRatioB in
  MulDiv liquidity (usub b a) Q96.

(** liquidity_amounts.go:63-77 *)
Definition GetAmountsForLiquidity (sqrtRatio sqrtRatioA sqrtRatioB liquidity : Z) : res (Z * Z) :=
  let '(a, b) := ordered sqrtRatioA sqrtRatioB in
  if sqrtRatio <=? a then
    do amount0 <- getAmount0ForLiquidity a b liquidity; Ok (amount0, 0)
  else if sqrtRatio <? b then
    do amount0 <- getAmount0ForLiquidity sqrtRatio b liquidity;
    do amount1 <- getAmount1ForLiquidity a sqrtRatio liquidity;
    Ok (amount0, amount1)
  else
    do amount1 <- getAmount1ForLiquidity a b liquidity; Ok (0, amount1).
