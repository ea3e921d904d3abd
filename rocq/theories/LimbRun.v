(** LimbRun.v -- /repo/lib/strategy/*.go and /repo/lib/executor/executor.go once more, with every *uint256.Int kept as
    its four words: balances, positions, price history, transactions and snapshots.  The calls are those of the code, one
    by one, so the comparisons are Cmp, IsZero, Sign, and the overflow flags of AddOverflow and SubOverflow.

    Ticks, times, widths and fees are Go's int and appear as in Strategy.v and Executor.v, and so do the kinds of
    strategies, the configuration and the rounding of ticks.  Prop_LimbRun.v proves that the results are the same. *)
From Coq Require Import String.
From Verif Require Import Base U256 U256Div U256Z SwapMath TickMath Float64 Pool PoolOps Prices Client Strategy Executor LimbMath LimbPool.
From Verif Require Import LibBridge.
Ltac Zify.zify_post_hook ::= idtac.
Open Scope Z_scope.

(** * one pool behind its methods, as Client.v *)
(** the fields of Pool that callers read *)
Record SlotL := mkSlotL { slToken0L : string; slToken1L : string; slFeeL : Z; slPriceL : Int; slTickL : Z }.
Definition slotL (p : PoolL) : SlotL := mkSlotL (qToken0 p) (qToken1 p) (qFee p) (qSqrtRatio p) (qTickCurrent p).

Inductive ML (A : Type) : Type :=
| LRet (r : res A)
| LOp (o : opL) (k : Int * Int -> ML A)
| LRead (k : SlotL -> ML A).
Arguments LRet {A} r.
Arguments LOp {A} o k.
Arguments LRead {A} k.
Fixpoint lbind {A B} (m : ML A) (f : A -> ML B) : ML B :=
  match m with
  | LRet (Ok a) => f a
  | LRet Panic => LRet Panic
  | LRet OutOfFuel => LRet OutOfFuel
  | LOp o k => LOp o (fun r => lbind (k r) f)
  | LRead k => LRead (fun s => lbind (k s) f)
  end.
Notation "'actL' x <- a ; b" := (lbind a (fun x => b))
  (at level 200, x pattern, a at level 100, b at level 200).
Definition doneL {A} (a : A) : ML A := LRet (Ok a).
Definition callL (o : opL) : ML (Int * Int) := LOp o (fun r => doneL r).
Definition lookL : ML SlotL := LRead (fun s => doneL s).
Definition pureL {A} (r : res A) : ML A := LRet r.

(** one call; methods without results give two zeros *)
Definition applyL (fuel : nat) (q : PoolL) (o : opL) : res (PoolL * Int * Int) :=
  match o with
  | LMint l u a => do q <- MintL q l u a; Ok (q, NewInt 0, NewInt 0)
  | LBurn l u a => do q <- BurnL q l u a; Ok (q, NewInt 0, NewInt 0)
  | LMintStrategy l u a => MintStrategyL q l u a
  | LBurnStrategy l u a => BurnStrategyL q l u a
  | LCollectStrategy l u => CollectStrategyL q l u
  | LFlash a0 a1 => do q <- FlashL q a0 a1; Ok (q, NewInt 0, NewInt 0)
  | LExactInput a t lim => ExactInputSwapL fuel q a t lim
  | LExactOutput a t lim => ExactOutputSwapL fuel q a t lim
  end.
Definition traceL := list (opL * (Int * Int)).
Fixpoint runL {A} (fuel : nat) (q : PoolL) (m : ML A) : res (PoolL * traceL * A) :=
  match m with
  | LRet r => do a <- r; Ok (q, [], a)
  | LRead k => runL fuel q (k (slotL q))
  | LOp o k =>
      do r <- applyL fuel q o;
      let '(q', a0, a1) := r in
      do z <- runL fuel q' (k (a0, a1));
      let '(q'', tr, a) := z in
      Ok (q'', (o, (a0, a1)) :: tr, a)
  end.

(** uint256.go:1102-1129; the loop ends within 130 rounds (C12, C89_sqrt) *)
Definition SqrtL (x : Int) : res Int := Sqrt 130 x.

(** * the strategies *)
(** strategy.go:8-12 *)
Record PositionL := mkPositionL { poAmountL : Int; poLowerL : Z; poUpperL : Z }.

Record StL := mkStL {
  sAmount0L : Int; sAmount1L : Int; sPositionsL : list PositionL; sHistoryL : PricesL;
  sTickLowerL : Z; sTickUpperL : Z; sLimitTickL : Z; sDirectionL : bool }.
Definition with_amountsL (s : StL) (a0 a1 : Int) : StL :=
  mkStL a0 a1 (sPositionsL s) (sHistoryL s) (sTickLowerL s) (sTickUpperL s) (sLimitTickL s) (sDirectionL s).
Definition with_positionsL (s : StL) (l : list PositionL) : StL :=
  mkStL (sAmount0L s) (sAmount1L s) l (sHistoryL s) (sTickLowerL s) (sTickUpperL s) (sLimitTickL s) (sDirectionL s).
Definition with_historyL (s : StL) (p : PricesL) : StL :=
  mkStL (sAmount0L s) (sAmount1L s) (sPositionsL s) p (sTickLowerL s) (sTickUpperL s) (sLimitTickL s) (sDirectionL s).
Definition with_rangeL (s : StL) (l u : Z) : StL :=
  mkStL (sAmount0L s) (sAmount1L s) (sPositionsL s) (sHistoryL s) l u (sLimitTickL s) (sDirectionL s).
Definition with_limitL (s : StL) (t : Z) (d : bool) : StL :=
  mkStL (sAmount0L s) (sAmount1L s) (sPositionsL s) (sHistoryL s) (sTickLowerL s) (sTickUpperL s) t d.

(** the constructors New...Strategy (2_interval_around_price.go:29-38, bollinger_bands.go:24-35,
    bollinger_fill_up.go:25-36, constant_intervall_strategy.go:26-34, fill_up.go:26-34,
    interval_around_average.go:24-34, interval_around_current_price.go:44-52, limit_order.go:39-47,
    no_provision.go:24-30, swap_half_constant_interval_current_price.go:44-52, v2_strategy.go:32-39,
    volatility_sized_intervals.go:24-35); [snapshots] is the length of the price history of those that keep
    one.  They also clone the pool. *)
Definition NewStrategyL (k : Kind) (amount0 amount1 : Int) (snapshots : Z) : res StL :=
  do h <- NewPricesL (if keepsHistory k then snapshots else 0);
  Ok (mkStL amount0 amount1 [] h 0 0 0 false).

(** GetAmounts: 2_interval_around_price.go:40-52, bollinger_bands.go:47-59, bollinger_fill_up.go:48-60,
    constant_intervall_strategy.go:40-52, fill_up.go:36-48, interval_around_average.go:46-58,
    interval_around_current_price.go:30-42, limit_order.go:21-33,
    swap_half_constant_interval_current_price.go:30-42, v2_strategy.go:45-57,
    volatility_sized_intervals.go:47-59 *)
Fixpoint sumPositionsL (l : list PositionL) (amount0 amount1 : Int) : ML (Int * Int) :=
  match l with
  | [] => doneL (amount0, amount1)
  | x :: l =>
      actL a <- pureL (GetSqrtRatioAtTickL (poLowerL x));
      actL b <- pureL (GetSqrtRatioAtTickL (poUpperL x));
      actL p <- lookL;
      actL r <- pureL (GetAmountsForLiquidityL (slPriceL p) a b (poAmountL x));
      sumPositionsL l (Add amount0 (fst r)) (Add amount1 (snd r))
  end.
(** no_provision.go:36-39 for NoProvision, which has no positions *)
Definition GetAmountsL (k : Kind) (s : StL) : ML (Int * Int) :=
  match k with
  | NoProvision => doneL (sAmount0L s, sAmount1L s)
  | _ =>
      actL r <- sumPositionsL (sPositionsL s) (NewInt 0) (NewInt 0);
      doneL (Add (fst r) (sAmount0L s), Add (snd r) (sAmount1L s))
  end.

(** the loop of BurnAll and Rebalance: 2_interval_around_price.go:59-64 and 116-121, bollinger_bands.go:62-67,
    bollinger_fill_up.go:63-68, constant_intervall_strategy.go:55-60 and 91-96, fill_up.go:51-56,
    interval_around_average.go:61-66, interval_around_current_price.go:55-60 and 92-97, limit_order.go:101-106,
    swap_half_constant_interval_current_price.go:55-60 and 122-127, v2_strategy.go:60-65,
    volatility_sized_intervals.go:62-67 *)
Fixpoint burnPositionsL (l : list PositionL) (s : StL) : ML StL :=
  match l with
  | [] => doneL s
  | x :: l =>
      actL _ <- callL (LBurnStrategy (poLowerL x) (poUpperL x) (poAmountL x));
      actL r <- callL (LCollectStrategy (poLowerL x) (poUpperL x));
      burnPositionsL l (with_amountsL s (Add (sAmount0L s) (fst r)) (Add (sAmount1L s) (snd r)))
  end.

(** BurnAll that keeps the list: 2_interval_around_price.go:58-67, constant_intervall_strategy.go:54-63,
    interval_around_current_price.go:54-63 *)
Definition burnKeepL (s : StL) : ML (StL * (Int * Int)) :=
  actL s <- burnPositionsL (sPositionsL s) s;
  doneL (s, (sAmount0L s, sAmount1L s)).
(** BurnAll that resets the list: bollinger_bands.go:61-71, bollinger_fill_up.go:62-72, fill_up.go:50-60,
    interval_around_average.go:60-70, limit_order.go:100-110,
    swap_half_constant_interval_current_price.go:54-64, v2_strategy.go:59-69,
    volatility_sized_intervals.go:61-71.  The same statements begin Rebalance in
    2_interval_around_price.go:116-124, constant_intervall_strategy.go:91-98,
    interval_around_current_price.go:92-100 and swap_half_constant_interval_current_price.go:122-130. *)
Definition burnResetL (s : StL) : ML (StL * (Int * Int)) :=
  actL s <- burnPositionsL (sPositionsL s) s;
  doneL (with_positionsL s [], (sAmount0L s, sAmount1L s)).
Definition BurnAllL (k : Kind) (s : StL) : ML (StL * (Int * Int)) :=
  match k with
  | NoProvision => doneL (s, (sAmount0L s, sAmount1L s)) (* no_provision.go:41-44 *)
  | TwoInterval _ _ | ConstantInterval _ | IntervalAroundPrice _ => burnKeepL s
  | _ => burnResetL s
  end.

(** limit_order.go:76-86, and the end of every mintPosition *)
Definition mintAmountL (s : StL) (tickLower tickUpper : Z) (amount : Int) : ML StL :=
  let s := with_positionsL s (sPositionsL s ++ [mkPositionL amount tickLower tickUpper]) in
  actL r <- callL (LMintStrategy tickLower tickUpper amount);
  doneL (with_amountsL s (Sub (sAmount0L s) (fst r)) (Sub (sAmount1L s) (snd r))).

(** the liquidity the balances buy *)
Definition liquidityForL (s : StL) (tickLower tickUpper : Z) : ML Int :=
  actL a <- pureL (GetSqrtRatioAtTickL tickLower);
  actL b <- pureL (GetSqrtRatioAtTickL tickUpper);
  actL p <- lookL;
  pureL (GetLiquidityForAmountL (slPriceL p) a b (sAmount0L s) (sAmount1L s)).

(** mintPosition: 2_interval_around_price.go:69-86, bollinger_bands.go:100-117, bollinger_fill_up.go:101-118,
    fill_up.go:62-79, interval_around_average.go:82-99, limit_order.go:65-74, v2_strategy.go:71-88,
    volatility_sized_intervals.go:98-115; also constant_intervall_strategy.go:102-117 and
    interval_around_current_price.go:107-122 *)
Definition mintPositionL (s : StL) (tickLower tickUpper : Z) : ML StL :=
  actL amount <- liquidityForL s tickLower tickUpper;
  if IsZero amount then doneL s else mintAmountL s tickLower tickUpper amount.
(** without the check for zero: constant_intervall_strategy.go:73-84, interval_around_current_price.go:73-85 *)
Definition mintUncheckedL (s : StL) (tickLower tickUpper : Z) : ML StL :=
  actL amount <- liquidityForL s tickLower tickUpper;
  mintAmountL s tickLower tickUpper amount.
(** limit_order.go:88-98 *)
Definition mintHalfL (s : StL) (tickLower tickUpper : Z) : ML StL :=
  actL amount <- liquidityForL s tickLower tickUpper;
  actL amountHalf <- pureL (Div amount (NewInt 2));
  if IsZero amountHalf then doneL s else mintAmountL s tickLower tickUpper amountHalf.

(** 2_interval_around_price.go:91-108 and 127-143 *)
Definition twoIntervalPositionsL (a b : Z) (s : StL) : ML StL :=
  actL p <- lookL;
  let tickSpacing := TickSpaces (slFeeL p) in
  let '(tickLower, tickUpper) := around (slTickL p) a (slFeeL p) in
  actL s <- mintPositionL s tickLower tickUpper;
  actL s <-
    (if negb (IsZero (sAmount0L s)) then
       actL p <- lookL;
       let tickLower := Ceil (slTickL p) tickSpacing in
       mintPositionL s tickLower (iadd tickLower b)
     else doneL s);
  if negb (IsZero (sAmount1L s)) then
    actL p <- lookL;
    let tickUpper := Floor (slTickL p) tickSpacing in
    mintPositionL s (isub tickUpper b) tickUpper
  else doneL s.

(** the part after the first mint in fill_up.go:88-99 and bollinger_fill_up.go:135-146 *)
Definition fillUpL (s : StL) (tickSpacing tickLower tickUpper : Z) : ML StL :=
  if negb (IsZero (sAmount0L s)) then
    actL p <- lookL;
    let tickLower := Ceil (slTickL p) tickSpacing in
    if tickLower <? tickUpper then mintPositionL s tickLower tickUpper else doneL s
  else if negb (IsZero (sAmount1L s)) then
    actL p <- lookL;
    let tickUpper := Floor (slTickL p) tickSpacing in
    if tickLower <? tickUpper then mintPositionL s tickLower tickUpper else doneL s
  else doneL s.

(** fill_up.go:81-101 *)
Definition fillUpPositionsL (width : Z) (s : StL) : ML StL :=
  actL p <- lookL;
  let '(tickLower, tickUpper) := around (slTickL p) width (slFeeL p) in
  actL s <- mintPositionL s tickLower tickUpper;
  fillUpL s (TickSpaces (slFeeL p)) tickLower tickUpper.

(** limit_order.go:112-134 *)
Definition limitOrderPositionsL (width : Z) (s : StL) : ML StL :=
  actL p <- lookL;
  let tickSpacing := TickSpaces (slFeeL p) in
  let '(tickLower, tickUpper) := around (slTickL p) width (slFeeL p) in
  actL s <- mintPositionL s tickLower tickUpper;
  actL s <-
    (if negb (IsZero (sAmount0L s)) then
       actL p <- lookL;
       let tickLower := Ceil (slTickL p) tickSpacing in
       let tickUpper := iadd tickLower 10 in
       actL s <- mintHalfL s tickLower tickUpper;
       doneL (with_limitL s tickUpper true)
     else doneL s);
  if negb (IsZero (sAmount1L s)) then
    actL p <- lookL;
    let tickUpper := Floor (slTickL p) tickSpacing in
    let tickLower := isub tickUpper 10 in
    actL s <- mintHalfL s tickLower tickUpper;
    doneL (with_limitL s tickLower false)
  else doneL s.

(** the two ticks around [price]: volatility_sized_intervals.go:80-95, bollinger_bands.go:82-97,
    bollinger_fill_up.go:83-98 *)
Definition bandTicksL (price width : Int) : res (Z * Z) :=
  let '(sqrtRatioA, overflow0) := SubOverflow price width in
  let '(sqrtRatioB, overflow1) := AddOverflow price width in
  do tickLower <- (if overflow0 || (Cmp sqrtRatioA MinSqrtRatioL =? -1) then Ok MinTick else GetTickAtSqrtRatioL sqrtRatioA);
  do tickUpper <- (if overflow1 || (Cmp sqrtRatioB MaxSqrtRatioL =? 1) then Ok MaxTick else GetTickAtSqrtRatioL sqrtRatioB);
  Ok (tickLower, tickUpper).
(** volatility_sized_intervals.go:74-78; ui.NewInt(uint64(multiplier)) *)
Definition bandWidthL (h : PricesL) (multiplier : Z) : res Int :=
  do v <- VolatilityL h;
  SqrtL (Rsh (Mul v (NewInt (multiplier mod W))) 10).
(** volatility_sized_intervals.go:73-96 *)
Definition volatilityTicksL (multiplier : Z) (s : StL) : ML (Z * Z) :=
  actL p <- lookL;
  pureL (do w <- bandWidthL (sHistoryL s) multiplier; bandTicksL (slPriceL p) w).
(** bollinger_bands.go:73-98, bollinger_fill_up.go:74-99 *)
Definition bollingerTicksL (multiplier : Z) (s : StL) : ML (Z * Z) :=
  pureL (do w <- bandWidthL (sHistoryL s) multiplier; do a <- AverageL (sHistoryL s); do price <- SqrtL a; bandTicksL price w).
(** interval_around_average.go:72-80 *)
Definition averageTicksL (width : Z) (s : StL) : ML (Z * Z) :=
  actL tick <- pureL (do a <- AverageL (sHistoryL s); do price <- SqrtL a; GetTickAtSqrtRatioL price);
  actL p <- lookL;
  doneL (around tick width (slFeeL p)).

(** swap_half_constant_interval_current_price.go:66-107 *)
Definition swapAndMintL (s : StL) (tickLower tickUpper : Z) : ML StL :=
  actL a <- pureL (GetSqrtRatioAtTickL tickLower);
  actL b <- pureL (GetSqrtRatioAtTickL tickUpper);
  actL p <- lookL;
  actL amountNoSwap <- pureL (GetLiquidityForAmountL (slPriceL p) a b (sAmount0L s) (sAmount1L s));
  actL noSwap <- pureL (GetAmountsForLiquidityL (slPriceL p) a b amountNoSwap);
  let amount0Diff := Sub (sAmount0L s) (fst noSwap) in
  let amount0Cmp := Lsh amount0Diff 9 in
  let amount1Diff := Sub (sAmount1L s) (snd noSwap) in
  actL s <-
    (if 0 <? Cmp amount0Cmp amount1Diff then
       actL half <- pureL (Div amount0Diff (NewInt 2));
       if Sign half =? 1 then
         actL p <- lookL;
         actL r <- callL (LExactInput half (slToken0L p) ZeroL);
         doneL (with_amountsL s (Sub (sAmount0L s) (fst r)) (Sub (sAmount1L s) (snd r)))
       else doneL s
     else
       actL half <- pureL (Div amount1Diff (NewInt 2));
       if Sign half =? 1 then
         actL p <- lookL;
         actL r <- callL (LExactInput half (slToken1L p) ZeroL);
         doneL (with_amountsL s (Sub (sAmount0L s) (fst r)) (Sub (sAmount1L s) (snd r)))
       else doneL s);
  actL p <- lookL;
  actL amount <- pureL (GetLiquidityForAmountL (slPriceL p) a b (sAmount0L s) (sAmount1L s));
  mintAmountL s tickLower tickUpper amount.

(** bollinger_fill_up.go:131-147 *)
Definition bollingerFillUpL (multiplier : Z) (s : StL) : ML StL :=
  actL t <- bollingerTicksL multiplier s;
  let '(tickLower, tickUpper) := t in
  actL s <- mintPositionL s tickLower tickUpper;
  actL p <- lookL;
  if (tickLower <=? slTickL p) && (slTickL p <=? tickUpper) then fillUpL s (TickSpaces (slFeeL p)) tickLower tickUpper
  else doneL s.

Definition mintAroundL (width : Z) (mint : StL -> Z -> Z -> ML StL) (s : StL) : ML StL :=
  actL p <- lookL;
  let '(tickLower, tickUpper) := around (slTickL p) width (slFeeL p) in
  mint s tickLower tickUpper.
Definition mintAtL (getTicks : StL -> ML (Z * Z)) (s : StL) : ML StL :=
  actL t <- getTicks s;
  mintPositionL s (fst t) (snd t).

(** what Init does after reading the balances: 2_interval_around_price.go:90-108, bollinger_bands.go:122-123,
    bollinger_fill_up.go:123-124, constant_intervall_strategy.go:68-84, fill_up.go:106,
    interval_around_average.go:104-105, interval_around_current_price.go:68-85, limit_order.go:138,
    no_provision.go:46-50, swap_half_constant_interval_current_price.go:112-115, v2_strategy.go:93-96,
    volatility_sized_intervals.go:120-121 *)
Definition initPositionsL (k : Kind) (s : StL) : ML StL :=
  match k with
  | TwoInterval a b => twoIntervalPositionsL a b s
  | BollingerBands m => mintAtL (bollingerTicksL m) s
  | BollingerBandsFillUp m => mintAtL (bollingerTicksL m) s
  | ConstantInterval w =>
      actL p <- lookL;
      let '(tickLower, tickUpper) := around (slTickL p) w (slFeeL p) in
      mintUncheckedL (with_rangeL s tickLower tickUpper) tickLower tickUpper
  | FillUp w => fillUpPositionsL w s
  | IntervalAroundAverage w => mintAtL (averageTicksL w) s
  | IntervalAroundPrice w => mintAroundL w mintUncheckedL s
  | LimitOrder w => limitOrderPositionsL w s
  | NoProvision => doneL s
  | IntervalAroundPriceAndSwap w => mintAroundL w swapAndMintL s
  | V2 => mintPositionL s (-887270) 887270
  | VolatilitySized m => mintAtL (volatilityTicksL m) s
  end.
Definition InitL (k : Kind) (s : StL) : ML (StL * (Int * Int)) :=
  let curr := (sAmount0L s, sAmount1L s) in
  actL s <- initPositionsL k s;
  doneL (s, curr).

(** what Rebalance does after burning: 2_interval_around_price.go:126-143, bollinger_bands.go:130-131,
    bollinger_fill_up.go:131-147, constant_intervall_strategy.go:99-117, fill_up.go:112,
    interval_around_average.go:112-113, interval_around_current_price.go:102-122, limit_order.go:144,
    swap_half_constant_interval_current_price.go:132-136, v2_strategy.go:21-24,
    volatility_sized_intervals.go:128-129 *)
Definition rebalancePositionsL (k : Kind) (s : StL) : ML StL :=
  match k with
  | TwoInterval a b => twoIntervalPositionsL a b s
  | BollingerBands m => mintAtL (bollingerTicksL m) s
  | BollingerBandsFillUp m => bollingerFillUpL m s
  | ConstantInterval w => mintPositionL s (sTickLowerL s) (sTickUpperL s)
  | FillUp w => fillUpPositionsL w s
  | IntervalAroundAverage w => mintAtL (averageTicksL w) s
  | IntervalAroundPrice w => mintAroundL w mintPositionL s
  | LimitOrder w => limitOrderPositionsL w s
  | NoProvision => doneL s
  | IntervalAroundPriceAndSwap w => mintAroundL w swapAndMintL s
  | V2 => mintPositionL s (-887270) 887270
  | VolatilitySized m => mintAtL (volatilityTicksL m) s
  end.
(** NoProvision returns nil, nil (no_provision.go:15-18) *)
Definition RebalanceL (k : Kind) (s : StL) : ML (StL * option (Int * Int)) :=
  match k with
  | NoProvision => doneL (s, None)
  | _ =>
      actL r <- burnResetL s;
      actL s <- rebalancePositionsL k (fst r);
      doneL (s, Some (snd r))
  end.

(** MakeSnapshot: bollinger_bands.go:41-45, bollinger_fill_up.go:42-46, interval_around_average.go:40-44,
    volatility_sized_intervals.go:41-45; empty in the others *)
Definition MakeSnapshotL (k : Kind) (s : StL) : ML StL :=
  if keepsHistory k then
    actL p <- lookL;
    actL h <- pureL (AddPriceL (sHistoryL s) (slPriceL p));
    doneL (with_historyL s h)
  else doneL s.

(** * executor.go *)
(** transaction.go:23-35 (ID, SqrtPriceX96, Tick and UseX96 are not used by the executor) *)
Record TransactionL := mkTxL {
  txTypeL : string; txAmountL : Int; txAmount0L : Int; txAmount1L : Int; txLowerL : Z; txUpperL : Z; txTimeL : Z }.

(** the strategy.Strategy interface, strategy.go:14-23; the result of Rebalance is not used *)
Record StratL (S : Type) := mkStratL {
  doInitL : S -> ML (S * (Int * Int)); doRebalanceL : S -> ML S; doBurnAllL : S -> ML (S * (Int * Int));
  doAmountsL : S -> ML (Int * Int); doSnapshotL : S -> ML S }.
Arguments mkStratL {S}.
Arguments doInitL {S}.
Arguments doRebalanceL {S}.
Arguments doBurnAllL {S}.
Arguments doAmountsL {S}.
Arguments doSnapshotL {S}.
Definition strategyOfL (k : Kind) : StratL StL :=
  mkStratL (InitL k) (fun s => actL r <- RebalanceL k s; doneL (fst r)) (BurnAllL k) (GetAmountsL k) (MakeSnapshotL k).

(** executor.go:23-40 *)
Definition CreateExecutionL (c : Config) (txs : list TransactionL) : res unit :=
  match rev txs with
  | [] => Panic
  | t :: _ =>
      do _ <- invariant (negb (cUpdate c =? 0));
      invariant (0 <=? int64 (Z.quot (isub (txTimeL t) (cStart c)) (cUpdate c)))
  end.

(** executor.go:66-70, 95-99 and 124-128 *)
Definition valueUSDL (amount0 amount1 : Int) : ML Int :=
  actL p <- lookL;
  let priceSquareX192 := Mul (slPriceL p) (slPriceL p) in
  actL amount1to0 <- pureL (MulDivL amount1 Q192L priceSquareX192);
  doneL (Add amount1to0 amount0).

(** executor.go:108-123 *)
Definition execTxL (t : TransactionL) : ML (Int * Int) :=
  if String.eqb (txTypeL t) "Mint" then callL (LMint (txLowerL t) (txUpperL t) (txAmountL t))
  else if String.eqb (txTypeL t) "Burn" then callL (LBurn (txLowerL t) (txUpperL t) (txAmountL t))
  else if String.eqb (txTypeL t) "Swap" then
    if 0 <? Sign (txAmount0L t) then
      actL p <- lookL; callL (LExactInput (txAmount0L t) (slToken0L p) ZeroL)
    else if 0 <? Sign (txAmount1L t) then
      actL p <- lookL; callL (LExactInput (txAmount1L t) (slToken1L p) ZeroL)
    else doneL (NewInt 0, NewInt 0)
  else if String.eqb (txTypeL t) "Flash" then callL (LFlash (txAmount0L t) (txAmount1L t))
  else doneL (NewInt 0, NewInt 0).

Section RunL.
  Variable S : Type.
  Variable strat : StratL S.
  Variable c : Config.

  (** executor.go:47-52 *)
  Record LoopL := mkLoopL { lStartedL : bool; lUpdateL : Z; lSnapshotL : Z; lPriceL : Z; lValuesL : list Int }.

  (** executor.go:54-124 *)
  Fixpoint runLoopL (txs : list TransactionL) (s : S) (l : LoopL) : ML (S * LoopL) :=
    match txs with
    | [] => doneL (s, l)
    | t :: txs =>
        if cEnd c <? txTimeL t then doneL (s, l)
        else
          actL sl <-
            (if negb (lStartedL l) && (cStart c <=? txTimeL t) then
               actL r <- doInitL strat s;
               let '(s, (amount0, amount1)) := r in
               actL v <- valueUSDL amount0 amount1;
               doneL (s, mkLoopL true (iadd (txTimeL t) (cUpdate c)) (iadd (txTimeL t) (cSnapshot c)) (lPriceL l) (lValuesL l ++ [v]))
             else doneL (s, l));
          let '(s, l) := sl in
          actL sl <-
            (if lPriceL l <? txTimeL t then
               actL s <- doSnapshotL strat s;
               doneL (s, mkLoopL (lStartedL l) (lUpdateL l) (lSnapshotL l) (iadd (lPriceL l) (cPrice c)) (lValuesL l))
             else doneL (s, l));
          let '(s, l) := sl in
          actL l <-
            (if lSnapshotL l <=? txTimeL t then
               actL a <- doAmountsL strat s;
               actL v <- valueUSDL (fst a) (snd a);
               doneL (mkLoopL (lStartedL l) (lUpdateL l) (iadd (lSnapshotL l) (cSnapshot c)) (lPriceL l) (lValuesL l ++ [v]))
             else doneL l);
          actL sl <-
            (if lUpdateL l <=? txTimeL t then
               actL s <- doRebalanceL strat s;
               doneL (s, mkLoopL (lStartedL l) (iadd (lUpdateL l) (cUpdate c)) (lSnapshotL l) (lPriceL l) (lValuesL l))
             else doneL (s, l));
          let '(s, l) := sl in
          actL _ <- execTxL t;
          runLoopL txs s l
    end.

  (** executor.go:42-130: the final state of the strategy and e.AmountUSDSnapshots *)
  Definition RunL (txs : list TransactionL) (s : S) : ML (S * list Int) :=
    actL sl <- runLoopL txs s (mkLoopL false MaxInt64 MaxInt64 0 []);
    let '(s, l) := sl in
    actL r <- doBurnAllL strat s;
    let '(s, (amount0, amount1)) := r in
    actL v <- valueUSDL amount0 amount1;
    doneL (s, lValuesL l ++ [v]).
End RunL.
Arguments runLoopL {S}.
Arguments RunL {S}.
