(** Strategy.v -- /repo/lib/strategy/*.go.

    The twelve strategies share one state record: every one uses the balances and positions, some the price
    history, ConstantInterval the two ticks, LimitOrder the limit tick and direction.  GetAmounts, BurnAll,
    mintPosition and getTicks are copies of each other in the Go files; each distinct version is defined once
    and cites its copies.  [s.Pool] is the pool the client tree acts on. *)
From Coq Require Import String.
From Verif Require Import Base U256Z SwapMath TickMath Float64 Pool PoolOps Prices Client.
Ltac Zify.zify_post_hook ::= idtac.
Open Scope Z_scope.

(** strategy.go:8-12 *)
Record Position := mkPosition { poAmount : Z; poLower : Z; poUpper : Z }.

Record St := mkSt {
  sAmount0 : Z; sAmount1 : Z; sPositions : list Position; sHistory : Prices;
  sTickLower : Z; sTickUpper : Z; sLimitTick : Z; sDirection : bool }.
Definition with_amounts (s : St) (a0 a1 : Z) : St :=
  mkSt a0 a1 (sPositions s) (sHistory s) (sTickLower s) (sTickUpper s) (sLimitTick s) (sDirection s).
Definition with_positions (s : St) (l : list Position) : St :=
  mkSt (sAmount0 s) (sAmount1 s) l (sHistory s) (sTickLower s) (sTickUpper s) (sLimitTick s) (sDirection s).
Definition with_history (s : St) (p : Prices) : St :=
  mkSt (sAmount0 s) (sAmount1 s) (sPositions s) p (sTickLower s) (sTickUpper s) (sLimitTick s) (sDirection s).
Definition with_range (s : St) (l u : Z) : St :=
  mkSt (sAmount0 s) (sAmount1 s) (sPositions s) (sHistory s) l u (sLimitTick s) (sDirection s).
Definition with_limit (s : St) (t : Z) (d : bool) : St :=
  mkSt (sAmount0 s) (sAmount1 s) (sPositions s) (sHistory s) (sTickLower s) (sTickUpper s) t d.

(** the strategies with their parameters *)
Inductive Kind :=
| TwoInterval (a b : Z)                  (* 2_interval_around_price.go *)
| BollingerBands (multiplier : Z)        (* bollinger_bands.go *)
| BollingerBandsFillUp (multiplier : Z)  (* bollinger_fill_up.go *)
| ConstantInterval (width : Z)           (* constant_intervall_strategy.go *)
| FillUp (width : Z)                     (* fill_up.go *)
| IntervalAroundAverage (width : Z)      (* interval_around_average.go *)
| IntervalAroundPrice (width : Z)        (* interval_around_current_price.go *)
| LimitOrder (width : Z)                 (* limit_order.go *)
| NoProvision                            (* no_provision.go *)
| IntervalAroundPriceAndSwap (width : Z) (* swap_half_constant_interval_current_price.go *)
| V2                                     (* v2_strategy.go *)
| VolatilitySized (multiplier : Z).      (* volatility_sized_intervals.go *)

(** the constructors New...Strategy (2_interval_around_price.go:29-38, bollinger_bands.go:24-35,
    bollinger_fill_up.go:25-36, constant_intervall_strategy.go:26-34, fill_up.go:26-34,
    interval_around_average.go:24-34, interval_around_current_price.go:44-52, limit_order.go:39-47,
    no_provision.go:24-30, swap_half_constant_interval_current_price.go:44-52, v2_strategy.go:32-39,
    volatility_sized_intervals.go:24-35); [snapshots] is the length of the price history of those that keep
    one.  They also clone the pool. *)
Definition keepsHistory (k : Kind) : bool :=
  match k with
  | BollingerBands _ | BollingerBandsFillUp _ | IntervalAroundAverage _ | VolatilitySized _ => true
  | _ => false
  end.
Definition NewStrategy (k : Kind) (amount0 amount1 snapshots : Z) : res St :=
  do h <- NewPrices (if keepsHistory k then snapshots else 0);
  Ok (mkSt amount0 amount1 [] h 0 0 0 false).

(** GetAmounts: 2_interval_around_price.go:40-52, bollinger_bands.go:47-59, bollinger_fill_up.go:48-60,
    constant_intervall_strategy.go:40-52, fill_up.go:36-48, interval_around_average.go:46-58,
    interval_around_current_price.go:30-42, limit_order.go:21-33,
    swap_half_constant_interval_current_price.go:30-42, v2_strategy.go:45-57,
    volatility_sized_intervals.go:47-59 *)
Fixpoint sumPositions (l : list Position) (amount0 amount1 : Z) : M (Z * Z) :=
  match l with
  | [] => done (amount0, amount1)
  | x :: l =>
      act a <- pure (GetSqrtRatioAtTick (poLower x));
      act b <- pure (GetSqrtRatioAtTick (poUpper x));
      act p <- look;
      act r <- pure (GetAmountsForLiquidity (slPrice p) a b (poAmount x));
      sumPositions l (uadd amount0 (fst r)) (uadd amount1 (snd r))
  end.
(** no_provision.go:36-39 for NoProvision, which has no positions *)
Definition GetAmounts (k : Kind) (s : St) : M (Z * Z) :=
  match k with
  | NoProvision => done (sAmount0 s, sAmount1 s)
  | _ =>
      act r <- sumPositions (sPositions s) 0 0;
      done (uadd (fst r) (sAmount0 s), uadd (snd r) (sAmount1 s))
  end.

(** the loop of BurnAll and Rebalance: 2_interval_around_price.go:59-64 and 116-121, bollinger_bands.go:62-67,
    bollinger_fill_up.go:63-68, constant_intervall_strategy.go:55-60 and 91-96, fill_up.go:51-56,
    interval_around_average.go:61-66, interval_around_current_price.go:55-60 and 92-97, limit_order.go:101-106,
    swap_half_constant_interval_current_price.go:55-60 and 122-127, v2_strategy.go:60-65,
    volatility_sized_intervals.go:62-67 *)
Fixpoint burnPositions (l : list Position) (s : St) : M St :=
  match l with
  | [] => done s
  | x :: l =>
      act _ <- call (OBurnStrategy (poLower x) (poUpper x) (poAmount x));
      act r <- call (OCollectStrategy (poLower x) (poUpper x));
      burnPositions l (with_amounts s (uadd (sAmount0 s) (fst r)) (uadd (sAmount1 s) (snd r)))
  end.

(** BurnAll that keeps the list: 2_interval_around_price.go:58-67, constant_intervall_strategy.go:54-63,
    interval_around_current_price.go:54-63 *)
Definition burnKeep (s : St) : M (St * (Z * Z)) :=
  act s <- burnPositions (sPositions s) s;
  done (s, (sAmount0 s, sAmount1 s)).
(** BurnAll that resets the list: bollinger_bands.go:61-71, bollinger_fill_up.go:62-72, fill_up.go:50-60,
    interval_around_average.go:60-70, limit_order.go:100-110,
    swap_half_constant_interval_current_price.go:54-64, v2_strategy.go:59-69,
    volatility_sized_intervals.go:61-71.  The same statements begin Rebalance in
    2_interval_around_price.go:116-124, constant_intervall_strategy.go:91-98,
    interval_around_current_price.go:92-100 and swap_half_constant_interval_current_price.go:122-130. *)
Definition burnReset (s : St) : M (St * (Z * Z)) :=
  act s <- burnPositions (sPositions s) s;
  done (with_positions s [], (sAmount0 s, sAmount1 s)).
Definition BurnAll (k : Kind) (s : St) : M (St * (Z * Z)) :=
  match k with
  | NoProvision => done (s, (sAmount0 s, sAmount1 s)) (* no_provision.go:41-44 *)
  | TwoInterval _ _ | ConstantInterval _ | IntervalAroundPrice _ => burnKeep s
  | _ => burnReset s
  end.

(** limit_order.go:76-86, and the end of every mintPosition *)
Definition mintAmount (s : St) (tickLower tickUpper amount : Z) : M St :=
  let s := with_positions s (sPositions s ++ [mkPosition amount tickLower tickUpper]) in
  act r <- call (OMintStrategy tickLower tickUpper amount);
  done (with_amounts s (usub (sAmount0 s) (fst r)) (usub (sAmount1 s) (snd r))).

(** the liquidity the balances buy *)
Definition liquidityFor (s : St) (tickLower tickUpper : Z) : M Z :=
  act a <- pure (GetSqrtRatioAtTick tickLower);
  act b <- pure (GetSqrtRatioAtTick tickUpper);
  act p <- look;
  pure (GetLiquidityForAmount (slPrice p) a b (sAmount0 s) (sAmount1 s)).

(** mintPosition: 2_interval_around_price.go:69-86, bollinger_bands.go:100-117, bollinger_fill_up.go:101-118,
    fill_up.go:62-79, interval_around_average.go:82-99, limit_order.go:65-74, v2_strategy.go:71-88,
    volatility_sized_intervals.go:98-115; also constant_intervall_strategy.go:102-117 and
    interval_around_current_price.go:107-122 *)
Definition mintPosition (s : St) (tickLower tickUpper : Z) : M St :=
  act amount <- liquidityFor s tickLower tickUpper;
  if amount =? 0 then done s else mintAmount s tickLower tickUpper amount.
(** without the check for zero: constant_intervall_strategy.go:73-84, interval_around_current_price.go:73-85 *)
Definition mintUnchecked (s : St) (tickLower tickUpper : Z) : M St :=
  act amount <- liquidityFor s tickLower tickUpper;
  mintAmount s tickLower tickUpper amount.
(** limit_order.go:88-98 *)
Definition mintHalf (s : St) (tickLower tickUpper : Z) : M St :=
  act amount <- liquidityFor s tickLower tickUpper;
  let amountHalf := udiv amount 2 in
  if amountHalf =? 0 then done s else mintAmount s tickLower tickUpper amountHalf.

(** [tickmath.Round(tick - width)], [tickmath.Round(tick + width)] with cons.TickSpaces[s.Pool.Fee] *)
Definition around (tick width fee : Z) : Z * Z :=
  (Round (isub tick width) (TickSpaces fee), Round (iadd tick width) (TickSpaces fee)).

(** 2_interval_around_price.go:91-108 and 127-143 *)
Definition twoIntervalPositions (a b : Z) (s : St) : M St :=
  act p <- look;
  let tickSpacing := TickSpaces (slFee p) in
  let '(tickLower, tickUpper) := around (slTick p) a (slFee p) in
  act s <- mintPosition s tickLower tickUpper;
  act s <-
    (if negb (sAmount0 s =? 0) then
       act p <- look;
       let tickLower := Ceil (slTick p) tickSpacing in
       mintPosition s tickLower (iadd tickLower b)
     else done s);
  if negb (sAmount1 s =? 0) then
    act p <- look;
    let tickUpper := Floor (slTick p) tickSpacing in
    mintPosition s (isub tickUpper b) tickUpper
  else done s.

(** the part after the first mint in fill_up.go:88-99 and bollinger_fill_up.go:135-146 *)
Definition fillUp (s : St) (tickSpacing tickLower tickUpper : Z) : M St :=
  if negb (sAmount0 s =? 0) then
    act p <- look;
    let tickLower := Ceil (slTick p) tickSpacing in
    if tickLower <? tickUpper then mintPosition s tickLower tickUpper else done s
  else if negb (sAmount1 s =? 0) then
    act p <- look;
    let tickUpper := Floor (slTick p) tickSpacing in
    if tickLower <? tickUpper then mintPosition s tickLower tickUpper else done s
  else done s.

(** fill_up.go:81-101 *)
Definition fillUpPositions (width : Z) (s : St) : M St :=
  act p <- look;
  let '(tickLower, tickUpper) := around (slTick p) width (slFee p) in
  act s <- mintPosition s tickLower tickUpper;
  fillUp s (TickSpaces (slFee p)) tickLower tickUpper.

(** limit_order.go:112-134 *)
Definition limitOrderPositions (width : Z) (s : St) : M St :=
  act p <- look;
  let tickSpacing := TickSpaces (slFee p) in
  let '(tickLower, tickUpper) := around (slTick p) width (slFee p) in
  act s <- mintPosition s tickLower tickUpper;
  act s <-
    (if negb (sAmount0 s =? 0) then
       act p <- look;
       let tickLower := Ceil (slTick p) tickSpacing in
       let tickUpper := iadd tickLower 10 in
       act s <- mintHalf s tickLower tickUpper;
       done (with_limit s tickUpper true)
     else done s);
  if negb (sAmount1 s =? 0) then
    act p <- look;
    let tickUpper := Floor (slTick p) tickSpacing in
    let tickLower := isub tickUpper 10 in
    act s <- mintHalf s tickLower tickUpper;
    done (with_limit s tickLower false)
  else done s.

(** the two ticks around [price]: volatility_sized_intervals.go:80-95, bollinger_bands.go:82-97,
    bollinger_fill_up.go:83-98 *)
Definition bandTicks (price width : Z) : res (Z * Z) :=
  let sqrtRatioA := usub price width in
  let sqrtRatioB := uadd price width in
  do tickLower <- (if (price <? width) || (sqrtRatioA <? MinSqrtRatio) then Ok MinTick else GetTickAtSqrtRatio sqrtRatioA);
  do tickUpper <- (if (T256 <=? price + width) || (MaxSqrtRatio <? sqrtRatioB) then Ok MaxTick else GetTickAtSqrtRatio sqrtRatioB);
  Ok (tickLower, tickUpper).
(** volatility_sized_intervals.go:74-78; ui.NewInt(uint64(multiplier)) *)
Definition bandWidth (h : Prices) (multiplier : Z) : res Z :=
  do v <- Volatility h;
  Ok (usqrt (ursh (umul v (multiplier mod W)) 10)).
(** volatility_sized_intervals.go:73-96 *)
Definition volatilityTicks (multiplier : Z) (s : St) : M (Z * Z) :=
  act p <- look;
  pure (do w <- bandWidth (sHistory s) multiplier; bandTicks (slPrice p) w).
(** bollinger_bands.go:73-98, bollinger_fill_up.go:74-99 *)
Definition bollingerTicks (multiplier : Z) (s : St) : M (Z * Z) :=
  pure (do w <- bandWidth (sHistory s) multiplier; bandTicks (usqrt (Average (sHistory s))) w).
(** interval_around_average.go:72-80 *)
Definition averageTicks (width : Z) (s : St) : M (Z * Z) :=
  act tick <- pure (GetTickAtSqrtRatio (usqrt (Average (sHistory s))));
  act p <- look;
  done (around tick width (slFee p)).

(** swap_half_constant_interval_current_price.go:66-107 *)
Definition swapAndMint (s : St) (tickLower tickUpper : Z) : M St :=
  act a <- pure (GetSqrtRatioAtTick tickLower);
  act b <- pure (GetSqrtRatioAtTick tickUpper);
  act p <- look;
  act amountNoSwap <- pure (GetLiquidityForAmount (slPrice p) a b (sAmount0 s) (sAmount1 s));
  act noSwap <- pure (GetAmountsForLiquidity (slPrice p) a b amountNoSwap);
  let amount0Diff := usub (sAmount0 s) (fst noSwap) in
  let amount0Cmp := ulsh amount0Diff 9 in
  let amount1Diff := usub (sAmount1 s) (snd noSwap) in
  act s <-
    (if amount1Diff <? amount0Cmp then
       let half := udiv amount0Diff 2 in
       if usign half =? 1 then
         act p <- look;
         act r <- call (OExactInput half (slToken0 p) 0);
         done (with_amounts s (usub (sAmount0 s) (fst r)) (usub (sAmount1 s) (snd r)))
       else done s
     else
       let half := udiv amount1Diff 2 in
       if usign half =? 1 then
         act p <- look;
         act r <- call (OExactInput half (slToken1 p) 0);
         done (with_amounts s (usub (sAmount0 s) (fst r)) (usub (sAmount1 s) (snd r)))
       else done s);
  act p <- look;
  act amount <- pure (GetLiquidityForAmount (slPrice p) a b (sAmount0 s) (sAmount1 s));
  mintAmount s tickLower tickUpper amount.

(** bollinger_fill_up.go:131-147 *)
Definition bollingerFillUp (multiplier : Z) (s : St) : M St :=
  act t <- bollingerTicks multiplier s;
  let '(tickLower, tickUpper) := t in
  act s <- mintPosition s tickLower tickUpper;
  act p <- look;
  if (tickLower <=? slTick p) && (slTick p <=? tickUpper) then fillUp s (TickSpaces (slFee p)) tickLower tickUpper
  else done s.

Definition mintAround (width : Z) (mint : St -> Z -> Z -> M St) (s : St) : M St :=
  act p <- look;
  let '(tickLower, tickUpper) := around (slTick p) width (slFee p) in
  mint s tickLower tickUpper.
Definition mintAt (getTicks : St -> M (Z * Z)) (s : St) : M St :=
  act t <- getTicks s;
  mintPosition s (fst t) (snd t).

(** what Init does after reading the balances: 2_interval_around_price.go:90-108, bollinger_bands.go:122-123,
    bollinger_fill_up.go:123-124, constant_intervall_strategy.go:68-84, fill_up.go:106,
    interval_around_average.go:104-105, interval_around_current_price.go:68-85, limit_order.go:138,
    no_provision.go:46-50, swap_half_constant_interval_current_price.go:112-115, v2_strategy.go:93-96,
    volatility_sized_intervals.go:120-121 *)
Definition initPositions (k : Kind) (s : St) : M St :=
  match k with
  | TwoInterval a b => twoIntervalPositions a b s
  | BollingerBands m => mintAt (bollingerTicks m) s
  | BollingerBandsFillUp m => mintAt (bollingerTicks m) s
  | ConstantInterval w =>
      act p <- look;
      let '(tickLower, tickUpper) := around (slTick p) w (slFee p) in
      mintUnchecked (with_range s tickLower tickUpper) tickLower tickUpper
  | FillUp w => fillUpPositions w s
  | IntervalAroundAverage w => mintAt (averageTicks w) s
  | IntervalAroundPrice w => mintAround w mintUnchecked s
  | LimitOrder w => limitOrderPositions w s
  | NoProvision => done s
  | IntervalAroundPriceAndSwap w => mintAround w swapAndMint s
  | V2 => mintPosition s (-887270) 887270
  | VolatilitySized m => mintAt (volatilityTicks m) s
  end.
Definition Init (k : Kind) (s : St) : M (St * (Z * Z)) :=
  let curr := (sAmount0 s, sAmount1 s) in
  act s <- initPositions k s;
  done (s, curr).

(** what Rebalance does after burning: 2_interval_around_price.go:126-143, bollinger_bands.go:130-131,
    bollinger_fill_up.go:131-147, constant_intervall_strategy.go:99-117, fill_up.go:112,
    interval_around_average.go:112-113, interval_around_current_price.go:102-122, limit_order.go:144,
    swap_half_constant_interval_current_price.go:132-136, v2_strategy.go:21-24,
    volatility_sized_intervals.go:128-129 *)
Definition rebalancePositions (k : Kind) (s : St) : M St :=
  match k with
  | TwoInterval a b => twoIntervalPositions a b s
  | BollingerBands m => mintAt (bollingerTicks m) s
  | BollingerBandsFillUp m => bollingerFillUp m s
  | ConstantInterval w => mintPosition s (sTickLower s) (sTickUpper s)
  | FillUp w => fillUpPositions w s
  | IntervalAroundAverage w => mintAt (averageTicks w) s
  | IntervalAroundPrice w => mintAround w mintPosition s
  | LimitOrder w => limitOrderPositions w s
  | NoProvision => done s
  | IntervalAroundPriceAndSwap w => mintAround w swapAndMint s
  | V2 => mintPosition s (-887270) 887270
  | VolatilitySized m => mintAt (volatilityTicks m) s
  end.
(** NoProvision returns nil, nil (no_provision.go:15-18) *)
Definition Rebalance (k : Kind) (s : St) : M (St * option (Z * Z)) :=
  match k with
  | NoProvision => done (s, None)
  | _ =>
      act r <- burnReset s;
      act s <- rebalancePositions k (fst r);
      done (s, Some (snd r))
  end.

(** MakeSnapshot: bollinger_bands.go:41-45, bollinger_fill_up.go:42-46, interval_around_average.go:40-44,
    volatility_sized_intervals.go:41-45; empty in the others *)
Definition MakeSnapshot (k : Kind) (s : St) : M St :=
  if keepsHistory k then
    act p <- look;
    act h <- pure (AddPrice (sHistory s) (slPrice p));
    done (with_history s h)
  else done s.
