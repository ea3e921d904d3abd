(** LimbMath.v -- /repo/lib/sqrtprice_math, /repo/lib/swapmath, /repo/lib/liquidity_amounts, /repo/lib/tickmath and
    /repo/lib/prices once more, this time on the four 64-bit words of uint256.Int (U256.v, U256Div.v, U256Conv.v):
    every call of a method of ui.Int is that method's model, in the order of the code.  Prop_Limb.v proves that
    these functions and those of SwapMath.v, TickMath.v, TickLog.v and Prices.v are the same. *)
From Coq Require Import String Ascii.
From Verif Require Import Base U256 U256Div U256Conv LibBridge.
From Verif Require Prices TickMath.
Open Scope Z_scope.

(** uint256.go:20-24 NewInt *)
Notation NewInt := SetUint64.

(** the bytes of a Go string literal *)
Fixpoint bytes (s : string) : list Z :=
  match s with EmptyString => nil | String c s => Z.of_N (N_of_ascii c) :: bytes s end.
(** [x, _ := ui.FromHex(s)] for a literal [s].  An error would leave x nil; there is none for the literals used
    here (limb_constants in LimbFacts.v). *)
Definition hexInt (s : string) : Int := match FromHex (bytes s) with inl z => z | inr _ => Clear end.

(** constants.go:11-17 *)
Definition OneL : Int := SetOne.
Definition ZeroL : Int := Clear.
Definition MaxUint256L : Int := hexInt "0xffffffffffffffffffffffffffffffffffffffffffffffffffffffffffffffff".
Definition Q96L : Int := Exp (NewInt 2) (NewInt 96).
Definition Q192L : Int := Exp Q96L (NewInt 2).
(** sqrtprice_math.go:10 *)
Definition MaxUint160L : Int := Sub (Exp (NewInt 2) (NewInt 160)) OneL.
(** swapmath.go:9 *)
Definition MaxFeeL : Int := Exp (NewInt 10) (NewInt 6).

(** sqrtprice_math.go:12-15 *)
Definition multiplyIn256L (x y : Int) : Int := And (Mul x y) MaxUint256L.
(** sqrtprice_math.go:17-20 *)
Definition addIn256L (x y : Int) : Int := And (Add x y) MaxUint256L.
(** sqrtprice_math.go:23-25 and its copies *)
Definition orderedL (a b : Int) : Int * Int := if 0 <? Cmp a b then (b, a) else (a, b).

(** sqrtprice_math.go:22-37 *)
Definition GetAmount0DeltaL (sqrtRatioA sqrtRatioB liquidity : Int) (roundUp : bool) : res Int :=
  let '(a, b) := orderedL sqrtRatioA sqrtRatioB in
  let numerator1 := Lsh liquidity 96 in
  let numerator2 := Sub b a in
  if roundUp then
    do x <- MulDivRoundingUpL numerator1 numerator2 b;
    MulDivRoundingUpL x OneL a
  else
    do x <- MulDivL numerator1 numerator2 b;
    Div x a.

(** sqrtprice_math.go:39-51 *)
Definition GetAmount1DeltaL (sqrtRatioA sqrtRatioB liquidity : Int) (roundUp : bool) : res Int :=
  let '(a, b) := orderedL sqrtRatioA sqrtRatioB in
  if roundUp then MulDivRoundingUpL liquidity (Sub b a) Q96L
  else MulDivL liquidity (Sub b a) Q96L.

(** sqrtprice_math.go:72-93 *)
Definition getNextSqrtPriceFromAmount0RoundingUpL (sqrtP liquidity amount : Int) (add : bool) : res Int :=
  if IsZero amount then Ok sqrtP
  else
    let numerator1 := Lsh liquidity 96 in
    if add then
      let product := multiplyIn256L amount sqrtP in
      let divided :=
        do quotient <- Div numerator1 sqrtP;
        MulDivRoundingUpL numerator1 OneL (Add quotient amount) in
      do quotient <- Div product amount;
      if Eq quotient sqrtP then
        let denominator := addIn256L numerator1 product in
        if 0 <=? Cmp denominator numerator1 then MulDivRoundingUpL numerator1 sqrtP denominator else divided
      else divided
    else
      let product := multiplyIn256L amount sqrtP in
      let denominator := Sub numerator1 product in
      MulDivRoundingUpL numerator1 sqrtP denominator.

(** sqrtprice_math.go:95-109 *)
Definition getNextSqrtPriceFromAmount1RoundingDownL (sqrtP liquidity amount : Int) (add : bool) : res Int :=
  if add then
    do quotient <- (if Cmp amount MaxUint160L <=? 0 then Div (Lsh amount 96) liquidity else Div (Mul amount Q96L) liquidity);
    Ok (Add sqrtP quotient)
  else
    do quotient <- MulDivRoundingUpL amount Q96L liquidity;
    Ok (Sub sqrtP quotient).

(** sqrtprice_math.go:53-60 *)
Definition GetNextSqrtPriceFromInputL (sqrtP liquidity amountIn : Int) (zeroForOne : bool) : res Int :=
  do _ <- invariant (Sign sqrtP =? 1);
  do _ <- invariant (Sign liquidity =? 1);
  if zeroForOne then getNextSqrtPriceFromAmount0RoundingUpL sqrtP liquidity amountIn true
  else getNextSqrtPriceFromAmount1RoundingDownL sqrtP liquidity amountIn true.

(** sqrtprice_math.go:62-70 *)
Definition GetNextSqrtPriceFromOutputL (sqrtP liquidity amountOut : Int) (zeroForOne : bool) : res Int :=
  do _ <- invariant (Sign sqrtP =? 1);
  do _ <- invariant (Sign liquidity =? 1);
  if zeroForOne then getNextSqrtPriceFromAmount1RoundingDownL sqrtP liquidity amountOut false
  else getNextSqrtPriceFromAmount0RoundingUpL sqrtP liquidity amountOut false.

(** sqrtprice_math.go:111-117 *)
Definition GetAmount0DeltaRoundedL (sqrtRatioA sqrtRatioB liquidity : Int) : res Int :=
  if Sign liquidity =? -1 then
    do x <- GetAmount0DeltaL sqrtRatioA sqrtRatioB (Neg liquidity) false; Ok (Neg x)
  else GetAmount0DeltaL sqrtRatioA sqrtRatioB liquidity true.

(** sqrtprice_math.go:119-125 *)
Definition GetAmount1DeltaRoundedL (sqrtRatioA sqrtRatioB liquidity : Int) : res Int :=
  if Sign liquidity =? -1 then
    do x <- GetAmount1DeltaL sqrtRatioA sqrtRatioB (Neg liquidity) false; Ok (Neg x)
  else GetAmount1DeltaL sqrtRatioA sqrtRatioB liquidity true.

(** swapmath.go:11-73: sqrtRatioNext, amountIn, amountOut, feeAmount.  [uint64(feePips)] is [feePips mod W].  The
    amount not assigned in the first part is nil there; it is assigned before it is read. *)
Definition ComputeSwapStepL (current target liquidity amountRemaining : Int) (feePips : Z) : res (Int * Int * Int * Int) :=
  let zeroForOne := 0 <=? Cmp current target in
  let exactIn := 0 <=? Sign amountRemaining in
  let amountRemainingNeg := Neg amountRemaining in
  let feeRate := NewInt (feePips mod W) in
  do first <-
    (if exactIn then
       do amountRemainingLessFee <- Div (Mul amountRemaining (Sub MaxFeeL feeRate)) MaxFeeL;
       do amountIn <- (if zeroForOne then GetAmount0DeltaL target current liquidity true
                       else GetAmount1DeltaL current target liquidity true);
       do next <- (if 0 <=? Cmp amountRemainingLessFee amountIn then Ok target
                   else GetNextSqrtPriceFromInputL current liquidity amountRemainingLessFee zeroForOne);
       Ok (next, amountIn, ZeroL)
     else
       do amountOut <- (if zeroForOne then GetAmount1DeltaL target current liquidity false
                        else GetAmount0DeltaL current target liquidity false);
       do next <- (if 0 <=? Cmp amountRemainingNeg amountOut then Ok target
                   else GetNextSqrtPriceFromOutputL current liquidity amountRemainingNeg zeroForOne);
       Ok (next, ZeroL, amountOut));
  let '(next, amountIn, amountOut) := first in
  let max := Cmp target next =? 0 in
  do amountIn <-
    (if max && exactIn then Ok amountIn
     else if zeroForOne then GetAmount0DeltaL next current liquidity true
     else GetAmount1DeltaL current next liquidity true);
  do amountOut <-
    (if max && negb exactIn then Ok amountOut
     else if zeroForOne then GetAmount1DeltaL next current liquidity false
     else GetAmount0DeltaL current next liquidity false);
  let amountOut := if negb exactIn && (0 <? Cmp amountOut (Neg amountRemaining)) then amountRemainingNeg else amountOut in
  do feeAmount <-
    (if exactIn && negb (Cmp next target =? 0) then Ok (Sub amountRemaining amountIn)
     else MulDivRoundingUpL amountIn feeRate (Sub MaxFeeL feeRate));
  Ok (next, amountIn, amountOut, feeAmount).

(** liquidity_amounts.go:9-15 *)
Definition getLiquidityForAmount0L (sqrtRatioA sqrtRatioB amount0 : Int) : res Int :=
  let '(a, b) := orderedL sqrtRatioA sqrtRatioB in
  do intermediate <- MulDivL a b Q96L;
  MulDivL amount0 intermediate (Sub b a).

(** liquidity_amounts.go:17-22 *)
Definition getLiquidityForAmount1L (sqrtRatioA sqrtRatioB amount1 : Int) : res Int :=
  let '(a, b) := orderedL sqrtRatioA sqrtRatioB in
  MulDivL amount1 Q96L (Sub b a).

(** liquidity_amounts.go:24-43 *)
Definition GetLiquidityForAmountL (sqrtRatio sqrtRatioA sqrtRatioB amount0 amount1 : Int) : res Int :=
  let '(a, b) := orderedL sqrtRatioA sqrtRatioB in
  if Cmp sqrtRatio a <=? 0 then getLiquidityForAmount0L a b amount0
  else if Cmp sqrtRatio b <? 0 then
    do liquidity0 <- getLiquidityForAmount0L sqrtRatio b amount0;
    do liquidity1 <- getLiquidityForAmount1L a sqrtRatio amount1;
    Ok (if Cmp liquidity0 liquidity1 <? 0 then liquidity0 else liquidity1)
  else getLiquidityForAmount1L a b amount1.

(** liquidity_amounts.go:45-53 *)
Definition getAmount0ForLiquidityL (sqrtRatioA sqrtRatioB liquidity : Int) : res Int :=
  let '(a, b) := orderedL sqrtRatioA sqrtRatioB in
  do temp3 <- MulDivL (Lsh liquidity 96) (Sub b a) b;
  Div temp3 a.

(** liquidity_amounts.go:55-61 *)
Definition getAmount1ForLiquidityL (sqrtRatioA sqrtRatioB liquidity : Int) : res Int :=
  let '(a, b) := orderedL sqrtRatioA sqrtRatioB in
  MulDivL liquidity (Sub b a) Q96L.

(** liquidity_amounts.go:63-77 *)
Definition GetAmountsForLiquidityL (sqrtRatio sqrtRatioA sqrtRatioB liquidity : Int) : res (Int * Int) :=
  let '(a, b) := orderedL sqrtRatioA sqrtRatioB in
  if Cmp sqrtRatio a <=? 0 then
    do amount0 <- getAmount0ForLiquidityL a b liquidity; Ok (amount0, ZeroL)
  else if Cmp sqrtRatio b <? 0 then
    do amount0 <- getAmount0ForLiquidityL sqrtRatio b liquidity;
    do amount1 <- getAmount1ForLiquidityL a sqrtRatio liquidity;
    Ok (amount0, amount1)
  else
    do amount1 <- getAmount1ForLiquidityL a b liquidity; Ok (ZeroL, amount1).

(** tickmath.go:214-218 *)
Definition mulShiftL (val : Int) (mulBy : string) : Int := Rsh (Mul val (hexInt mulBy)) 128.

(** tickmath.go:92-149: the masks and the hexadecimal literals, in the order of the code *)
Definition factorsL : list (Z * string) :=
  [(0x2, "0xfff97272373d413259a46990580e213a"%string);
   (0x4, "0xfff2e50f5f656932ef12357cf3c7fdcc"%string);
   (0x8, "0xffe5caca7e10e4e61c3624eaa0941cd0"%string);
   (0x10, "0xffcb9843d60f6159c9db58835c926644"%string);
   (0x20, "0xff973b41fa98c081472e6896dfb254c0"%string);
   (0x40, "0xff2ea16466c96a3843ec78b326b52861"%string);
   (0x80, "0xfe5dee046a99a2a811c461f1969c3053"%string);
   (0x100, "0xfcbe86c7900a88aedcffc83b479aa3a4"%string);
   (0x200, "0xf987a7253ac413176f2b074cf7815e54"%string);
   (0x400, "0xf3392b0822b70005940c7a398e4b70f3"%string);
   (0x800, "0xe7159475a2c29b7443b29c7fa6e889d9"%string);
   (0x1000, "0xd097f3bdfd2022b8845ad8f792aa5825"%string);
   (0x2000, "0xa9f746462d870fdf8a65dc1f90e061e5"%string);
   (0x4000, "0x70d869a156d2a1b890bb3df62baf32f7"%string);
   (0x8000, "0x31be135f97d08fd981231505542fcfa6"%string);
   (0x10000, "0x9aa508b5b7a84e1c677de54f3e99bc9"%string);
   (0x20000, "0x5d6af8dedb81196699c329225ee604"%string);
   (0x40000, "0x2216e584f5fa1ea926041bedfe98"%string);
   (0x80000, "0x48a170391f7dc42444e8fa2"%string)].

(** tickmath.go:18-21 *)
Definition Q32L : Int := NewInt (2 ^ 32).
Definition MinSqrtRatioL : Int := NewInt 4295128739.
Definition MaxSqrtRatioL : Int := fst (FromBig 1461446703485210103287273052203988822378723970342).

(** tickmath.go:81-160 *)
Definition getSqrtRatioAtTickL (tick : Z) : res Int :=
  let absTick := if tick <? 0 then - tick else tick in
  do _ <- invariant (absTick <=? TickMath.MaxTick);
  let ratio := if negb (Z.land absTick 0x1 =? 0) then hexInt "0xfffcb933bd6fad37aa2d162d1a594001"
               else hexInt "0x100000000000000000000000000000000" in
  let ratio := fold_left (fun ratio f =>
                 if negb (Z.land absTick (fst f) =? 0) then mulShiftL ratio (snd f) else ratio) factorsL ratio in
  do ratio <- (if 0 <? tick then Div MaxUint256L ratio else Ok ratio);
  do remainder <- SMod ratio Q32L;
  do quotient <- Div ratio Q32L;
  if 0 <? Sign remainder then Ok (Add quotient OneL) else Ok quotient.

(** tickmath.go:24-37: the table; reading an entry outside the array panics *)
Definition ticksL (i : Z) : res Int :=
  if (0 <=? i) && (i <? TickMath.TotalTicks) then getSqrtRatioAtTickL (i + TickMath.MinTick) else Panic.

(** tickmath.go:57-59 *)
Definition GetSqrtRatioAtTickL (tick : Z) : res Int := ticksL (tick + TickMath.MaxTick).

(** tickmath.go:65-73: the loop *)
Fixpoint searchTickL (fuel : nat) (price : Int) (l r : Z) : res Z :=
  match fuel with
  | O => OutOfFuel
  | S fuel' =>
    if l <? r then
      let mid := Z.quot (l + r + 1) 2 in
      do t <- ticksL mid;
      if 0 <? Cmp t price then searchTickL fuel' price l (mid - 1) else searchTickL fuel' price mid r
    else Ok l
  end.
(** tickmath.go:60-75 *)
Definition GetTickAtSqrtRatioFL (fuel : nat) (price : Int) : res Z :=
  do _ <- invariant ((0 <=? Cmp price MinSqrtRatioL) && (Cmp price MaxSqrtRatioL <? 0));
  do l <- searchTickL fuel price 0 (TickMath.TotalTicks - 1);
  Ok (l + TickMath.MinTick).

(** tickmath.go:202-212 *)
Definition MostSignificantBitL (x : Int) : Z :=
  snd (fold_left (fun xm power =>
         let '(x, msb) := (xm : Int * Z) in
         let min := Exp (NewInt 2) (NewInt power) in
         if 0 <=? Cmp x min then (Rsh x power, msb + power) else (x, msb))
       [128; 64; 32; 16; 8; 4; 2; 1] (x, 0)).

(** uint256.go:161-163 Uint64 *)
Definition Uint64 (z : Int) : Z := l0 z.

(** tickmath.go:176-181: one pass through the loop body, and n passes of which the first has index i *)
Definition logBitL (i : Z) (s : Int * Int) : Int * Int :=
  let '(r, log2) := s in
  let r := Rsh (Mul r r) 127 in
  let f := Rsh r 128 in
  let log2 := Or log2 (Lsh f (63 - i)) in
  (Rsh r (Uint64 f), log2).
Fixpoint logLoopL (n : nat) (i : Z) (s : Int * Int) : Int * Int :=
  match n with
  | O => s
  | S n' => logLoopL n' (i + 1) (logBitL i s)
  end.

(** tickmath.go:163-200.  [int(z.Uint64())] reads the 64 bits as signed. *)
Definition getTickAtSqrtRatioL (sqrtRatioX96 : Int) : res Z :=
  let sqrtRatioX128 := Lsh sqrtRatioX96 32 in
  let msb := MostSignificantBitL sqrtRatioX128 in
  let r := if 0 <=? Cmp (NewInt msb) (NewInt 128) then Rsh sqrtRatioX128 (msb - 127) else Lsh sqrtRatioX128 (127 - msb) in
  let log2 := Lsh (Sub (NewInt msb) (NewInt 128)) 64 in
  let '(_, log2) := logLoopL 14 0 (r, log2) in
  let logSqrt10001 := Mul log2 (hexInt "0x3627A301D71055774C85") in
  let tickLow := Prices.int64 (Uint64 (Rsh (Sub logSqrt10001 (hexInt "0x28F6481AB7F045A5AF012A19D003AAA")) 128)) in
  let tickHigh := Prices.int64 (Uint64 (Rsh (Add logSqrt10001 (hexInt "0xDB2DF09E81959A81455E260799A0632F")) 128)) in
  if tickLow =? tickHigh then Ok tickLow
  else
    do sqrtRatio <- getSqrtRatioAtTickL tickHigh;
    if Cmp sqrtRatio sqrtRatioX96 <=? 0 then Ok tickHigh else Ok tickLow.

(** prices.go:9-13 *)
Record PricesL := mkPricesL { plPrices : list Int; plIndex : Z; plLength : Z }.

(** prices.go:15-21 *)
Definition NewPricesL (len : Z) : res PricesL :=
  do _ <- invariant (0 <=? len);
  Ok (mkPricesL (repeat (NewInt 0) (Z.to_nat len)) 0 len).

(** prices.go:23-34 *)
Definition AddPriceL (p : PricesL) (price : Int) : res PricesL :=
  let priceSquareX192 := Mul price price in
  let shifted := Rsh priceSquareX192 230 in
  do _ <- invariant (IsZero shifted);
  if plIndex p <? 0 then Panic
  else
    do l <- seti (plPrices p) (Z.to_nat (plIndex p)) priceSquareX192;
    Ok (mkPricesL l (Z.rem (Prices.iadd (plIndex p) 1) (plLength p)) (plLength p)).

(** prices.go:36-43 *)
Definition AverageL (p : PricesL) : res Int :=
  let sum := fold_left Add (plPrices p) Clear in
  Div sum (NewInt (plLength p mod W)).

(** prices.go:46-68.  big.Int is Z, as in Prices.v. *)
Definition VolatilityL (p : PricesL) : res Int :=
  do avg <- AverageL p;
  do sum <- fold_left (fun s price =>
              do sum <- s;
              let diffBig := ToBig (Abs (Sub price avg)) in
              do _ <- invariant (0 <=? Z.sgn diffBig);
              Ok (sum + diffBig * diffBig)) (plPrices p) (Ok 0);
  let nMinus1 := Prices.isub (plLength p) 1 in
  if nMinus1 =? 0 then Panic
  else
    let variance := Z.sgn nMinus1 * (sum / Z.abs nMinus1) in
    do _ <- invariant (0 <=? Z.sgn variance);
    let volatility := Z.sqrt variance in
    do _ <- invariant (0 <=? Z.sgn volatility);
    Ok (fst (FromBig volatility)).
