(** PtrRun.v -- the strategies and the executor with their pointers: /repo/lib/liquidity_amounts, prices, strategy and executor,
    in the style of Ptr.v.

    A strategy owns a pool and two balances, which it changes in place; it keeps the liquidity of its positions, the prices of
    its history and its multiplier.  The transactions and the exported constants are shared by all runs. *)
From Coq Require Import String.
From Verif Require Import Base U256Z SwapMath TickMath Float64 TickData Pool PoolOps Prices Client Strategy Executor Ptr.
Ltac Zify.zify_post_hook ::= idtac.
Open Scope Z_scope.
Local Notation mbind := Ptr.mbind.

(** cons.Q192 (constants.go:16): the variable after those of [globals] *)
Definition gQ192 : ptr := 9%nat.

(** ** liquidity_amounts.go *)
(** liquidity_amounts.go:9-15, 17-22 *)
Definition getLiquidityForAmount0P (sqrtRatioA sqrtRatioB amount0 : ptr) : cm ptr :=
  let* (a, b) := orderedP sqrtRatioA sqrtRatioB in
  let* intermediate := MulDivP a b gQ96 in
  let* d := new2 usub b a in
  MulDivP amount0 intermediate d.
Definition getLiquidityForAmount1P (sqrtRatioA sqrtRatioB amount1 : ptr) : cm ptr :=
  let* (a, b) := orderedP sqrtRatioA sqrtRatioB in
  let* d := new2 usub b a in
  MulDivP amount1 gQ96 d.
(** liquidity_amounts.go:24-43 *)
Definition GetLiquidityForAmountP (sqrtRatio sqrtRatioA sqrtRatioB amount0 amount1 : ptr) : cm ptr :=
  let* (a, b) := orderedP sqrtRatioA sqrtRatioB in
  let* vs := ld sqrtRatio in let* va := ld a in let* vb := ld b in
  if vs <=? va then getLiquidityForAmount0P a b amount0
  else if vs <? vb then
    let* liquidity0 := getLiquidityForAmount0P sqrtRatio b amount0 in
    let* liquidity1 := getLiquidityForAmount1P a sqrtRatio amount1 in
    let* v0 := ld liquidity0 in let* v1 := ld liquidity1 in
    mret (if v0 <? v1 then liquidity0 else liquidity1)
  else getLiquidityForAmount1P a b amount1.
(** liquidity_amounts.go:45-53, 55-61 *)
Definition getAmount0ForLiquidityP (sqrtRatioA sqrtRatioB liquidity : ptr) : cm ptr :=
  let* (a, b) := orderedP sqrtRatioA sqrtRatioB in
  let* temp1 := new1 (fun x => ulsh x 96) liquidity in
  let* temp2 := new2 usub b a in
  let* temp3 := MulDivP temp1 temp2 b in
  new2 udiv temp3 a.
Definition getAmount1ForLiquidityP (sqrtRatioA sqrtRatioB liquidity : ptr) : cm ptr :=
  let* (a, b) := orderedP sqrtRatioA sqrtRatioB in
  let* temp1 := new2 usub b a in
  MulDivP liquidity temp1 gQ96.
(** liquidity_amounts.go:63-77 *)
Definition GetAmountsForLiquidityP (sqrtRatio sqrtRatioA sqrtRatioB liquidity : ptr) : cm (ptr * ptr) :=
  let* (a, b) := orderedP sqrtRatioA sqrtRatioB in
  let* amount0 := new 0 in
  let* amount1 := new 0 in
  let* vs := ld sqrtRatio in let* va := ld a in let* vb := ld b in
  if vs <=? va then
    let* amount0 := getAmount0ForLiquidityP a b liquidity in mret (amount0, amount1)
  else if vs <? vb then
    let* amount0 := getAmount0ForLiquidityP sqrtRatio b liquidity in
    let* amount1 := getAmount1ForLiquidityP a sqrtRatio liquidity in
    mret (amount0, amount1)
  else
    let* amount1 := getAmount1ForLiquidityP a b liquidity in mret (amount0, amount1).

(** ** prices.go *)
(** prices.go:9-13 *)
Record PricesP := mkPricesP { qPrices : list ptr; qIndex : Z; qLength : Z }.
(** prices.go:15-21 *)
Fixpoint zerosP (n : nat) : cm (list ptr) :=
  match n with O => mret [] | S n => let* x := new 0 in let* l := zerosP n in mret (x :: l) end.
Definition NewPricesP (len : Z) : cm PricesP :=
  let* _ := lift (invariant (0 <=? len)) in
  let* l := zerosP (Z.to_nat len) in
  mret (mkPricesP l 0 len).
Fixpoint setNthP (l : list ptr) (i : nat) (v : ptr) : option (list ptr) :=
  match l, i with
  | [], _ => None
  | _ :: l, O => Some (v :: l)
  | x :: l, S i => match setNthP l i v with Some l' => Some (x :: l') | None => None end
  end.
(** prices.go:23-34: a new square replaces the pointer *)
Definition AddPriceP (p : PricesP) (price : ptr) : cm PricesP :=
  let* priceSquareX192 := new2 umul price price in
  let* shifted := new1 (fun x => ursh x 230) priceSquareX192 in
  let* v := ld shifted in
  let* _ := lift (invariant (v =? 0)) in
  if qIndex p <? 0 then lift Panic
  else
    match setNthP (qPrices p) (Z.to_nat (qIndex p)) priceSquareX192 with
    | Some l => mret (mkPricesP l (Z.rem (iadd (qIndex p) 1) (qLength p)) (qLength p))
    | None => lift Panic
    end.
(** prices.go:36-43 *)
Fixpoint sumP (l : list ptr) (sum : ptr) : cm unit :=
  match l with [] => mret tt | x :: l => let* _ := op2 uadd sum sum x in sumP l sum end.
Definition AverageP (p : PricesP) : cm ptr :=
  let* sum := new 0 in
  let* _ := sumP (qPrices p) sum in
  let* length := new (qLength p mod W) in
  new2 udiv sum length.
(** prices.go:46-68; big.Int is Z *)
Fixpoint squaresP (l : list ptr) (avg : ptr) (s : Z) : cm Z :=
  match l with
  | [] => mret s
  | x :: l =>
      let* diff := new2 usub x avg in
      let* _ := op1 uabs diff diff in
      let* d := ld diff in
      squaresP l avg (s + d * d)
  end.
Definition VolatilityP (p : PricesP) : cm ptr :=
  let* avg := AverageP p in
  let* sum := squaresP (qPrices p) avg 0 in
  let nMinus1 := isub (qLength p) 1 in
  if nMinus1 =? 0 then lift Panic
  else
    let variance := Z.sgn nMinus1 * (sum / Z.abs nMinus1) in
    let* _ := lift (invariant (0 <=? variance)) in
    new (Z.sqrt variance mod T256).

(** ** programs that own a pool *)
Definition pm (A : Type) := PoolP -> cm (PoolP * A).
Definition pret {A} (a : A) : pm A := fun P => mret (P, a).
Definition pbind {A B} (c : pm A) (f : A -> pm B) : pm B := fun P => let* r := c P in f (snd r) (fst r).
Notation "'go' x := c 'in' k" := (pbind c (fun x => k))
  (at level 200, x pattern, c at level 100, k at level 200).
(** a computation beside the pool *)
Definition mem {A} (c : cm A) : pm A := fun P => let* a := c in mret (P, a).
(** s.Pool, to read its fields *)
Definition theP : pm PoolP := fun P => mret (P, P).
(** a method with two results, or with none *)
Definition meth (c : PoolP -> cm (PoolP * ptr * ptr)) : pm (ptr * ptr) :=
  fun P => let* r := c P in let '(P', x, y) := r in mret (P', (x, y)).
Definition meth0 (c : PoolP -> cm PoolP) : pm unit := fun P => let* P' := c P in mret (P', tt).

(** ** strategy/*.go; see Strategy.v for the lines of each copy *)
Record PositionP := mkPositionP { oAmount : ptr; oLower : Z; oUpper : Z }.
Record StP := mkStP {
  uAmount0 : ptr; uAmount1 : ptr; uPositions : list PositionP; uHistory : PricesP; uMultiplier : ptr;
  uTickLower : Z; uTickUpper : Z; uLimitTick : Z; uDirection : bool }.
Definition with_uPositions (s : StP) (l : list PositionP) : StP :=
  mkStP (uAmount0 s) (uAmount1 s) l (uHistory s) (uMultiplier s) (uTickLower s) (uTickUpper s) (uLimitTick s) (uDirection s).
Definition with_uHistory (s : StP) (h : PricesP) : StP :=
  mkStP (uAmount0 s) (uAmount1 s) (uPositions s) h (uMultiplier s) (uTickLower s) (uTickUpper s) (uLimitTick s) (uDirection s).
Definition with_uRange (s : StP) (l u : Z) : StP :=
  mkStP (uAmount0 s) (uAmount1 s) (uPositions s) (uHistory s) (uMultiplier s) l u (uLimitTick s) (uDirection s).
Definition with_uLimit (s : StP) (t : Z) (d : bool) : StP :=
  mkStP (uAmount0 s) (uAmount1 s) (uPositions s) (uHistory s) (uMultiplier s) (uTickLower s) (uTickUpper s) t d.

(** MultiplierX10 of the strategies that have one; 0 stands for the field the others do not have *)
Definition multiplierOf (k : Kind) : Z :=
  match k with BollingerBands m | BollingerBandsFillUp m | VolatilitySized m => m mod W | _ => 0 end.
(** New...Strategy without pool.Clone() *)
Definition NewStrategyP (k : Kind) (amount0 amount1 : ptr) (snapshots : Z) : cm StP :=
  let* h := NewPricesP (if keepsHistory k then snapshots else 0) in
  let* m := new (multiplierOf k) in
  let* a0 := clone amount0 in
  let* a1 := clone amount1 in
  mret (mkStP a0 a1 [] h m 0 0 0 false).

(** TM.GetSqrtRatioAtTick returns a copy (tickmath.go:57) *)
Definition ratioP (t : Z) : cm ptr := let* v := lift (GetSqrtRatioAtTick t) in new v.

(** GetAmounts *)
Fixpoint sumPositionsP (l : list PositionP) (price amount0 amount1 : ptr) : cm unit :=
  match l with
  | [] => mret tt
  | x :: l =>
      let* a := ratioP (oLower x) in
      let* b := ratioP (oUpper x) in
      let* r := GetAmountsForLiquidityP price a b (oAmount x) in
      let* _ := op2 uadd amount0 amount0 (fst r) in
      let* _ := op2 uadd amount1 amount1 (snd r) in
      sumPositionsP l price amount0 amount1
  end.
Definition GetAmountsP (k : Kind) (s : StP) : pm (ptr * ptr) :=
  go P := theP in
  mem (match k with
       | NoProvision => let* x := clone (uAmount0 s) in let* y := clone (uAmount1 s) in mret (x, y)
       | _ =>
           let* x := new 0 in
           let* y := new 0 in
           let* _ := sumPositionsP (uPositions s) (zPrice P) x y in
           let* _ := op2 uadd x x (uAmount0 s) in
           let* _ := op2 uadd y y (uAmount1 s) in
           mret (x, y)
       end).

(** the loop of BurnAll and Rebalance *)
Fixpoint burnPositionsP (l : list PositionP) (s : StP) : pm unit :=
  match l with
  | [] => pret tt
  | x :: l =>
      go _ := meth (fun P => BurnStrategyP P (oLower x) (oUpper x) (oAmount x)) in
      go r := meth (fun P => CollectStrategyP P (oLower x) (oUpper x)) in
      go _ := mem (op2 uadd (uAmount0 s) (uAmount0 s) (fst r)) in
      go _ := mem (op2 uadd (uAmount1 s) (uAmount1 s) (snd r)) in
      burnPositionsP l s
  end.
Definition balancesP (s : StP) : cm (ptr * ptr) := let* x := clone (uAmount0 s) in let* y := clone (uAmount1 s) in mret (x, y).
Definition burnKeepP (s : StP) : pm (StP * (ptr * ptr)) :=
  go _ := burnPositionsP (uPositions s) s in
  go r := mem (balancesP s) in
  pret (s, r).
Definition burnResetP (s : StP) : pm (StP * (ptr * ptr)) :=
  go _ := burnPositionsP (uPositions s) s in
  go r := mem (balancesP s) in
  pret (with_uPositions s [], r).
Definition BurnAllP (k : Kind) (s : StP) : pm (StP * (ptr * ptr)) :=
  match k with
  | NoProvision => go r := mem (balancesP s) in pret (s, r)
  | TwoInterval _ _ | ConstantInterval _ | IntervalAroundPrice _ => burnKeepP s
  | _ => burnResetP s
  end.

(** the position keeps the pointer that the pool is given *)
Definition mintAmountP (s : StP) (tickLower tickUpper : Z) (amount : ptr) : pm StP :=
  go r := meth (fun P => MintStrategyP P tickLower tickUpper amount) in
  go _ := mem (op2 usub (uAmount0 s) (uAmount0 s) (fst r)) in
  go _ := mem (op2 usub (uAmount1 s) (uAmount1 s) (snd r)) in
  pret (with_uPositions s (uPositions s ++ [mkPositionP amount tickLower tickUpper])).
Definition liquidityForP (s : StP) (tickLower tickUpper : Z) : pm ptr :=
  go a := mem (ratioP tickLower) in
  go b := mem (ratioP tickUpper) in
  go P := theP in
  mem (GetLiquidityForAmountP (zPrice P) a b (uAmount0 s) (uAmount1 s)).
Definition mintPositionP (s : StP) (tickLower tickUpper : Z) : pm StP :=
  go amount := liquidityForP s tickLower tickUpper in
  go v := mem (ld amount) in
  if v =? 0 then pret s else mintAmountP s tickLower tickUpper amount.
Definition mintUncheckedP (s : StP) (tickLower tickUpper : Z) : pm StP :=
  go amount := liquidityForP s tickLower tickUpper in
  mintAmountP s tickLower tickUpper amount.
Definition mintHalfP (s : StP) (tickLower tickUpper : Z) : pm StP :=
  go amount := liquidityForP s tickLower tickUpper in
  go two := mem (new 2) in
  go amountHalf := mem (new2 udiv amount two) in
  go v := mem (ld amountHalf) in
  if v =? 0 then pret s else mintAmountP s tickLower tickUpper amountHalf.

Definition twoIntervalPositionsP (a b : Z) (s : StP) : pm StP :=
  go P := theP in
  let tickSpacing := TickSpaces (zFee P) in
  let '(tickLower, tickUpper) := around (zTick P) a (zFee P) in
  go s := mintPositionP s tickLower tickUpper in
  go v := mem (ld (uAmount0 s)) in
  go s :=
    (if negb (v =? 0) then
       go P := theP in
       let tickLower := Ceil (zTick P) tickSpacing in
       mintPositionP s tickLower (iadd tickLower b)
     else pret s) in
  go v := mem (ld (uAmount1 s)) in
  if negb (v =? 0) then
    go P := theP in
    let tickUpper := Floor (zTick P) tickSpacing in
    mintPositionP s (isub tickUpper b) tickUpper
  else pret s.
Definition fillUpP (s : StP) (tickSpacing tickLower tickUpper : Z) : pm StP :=
  go v := mem (ld (uAmount0 s)) in
  if negb (v =? 0) then
    go P := theP in
    let tickLower := Ceil (zTick P) tickSpacing in
    if tickLower <? tickUpper then mintPositionP s tickLower tickUpper else pret s
  else
    go v := mem (ld (uAmount1 s)) in
    if negb (v =? 0) then
      go P := theP in
      let tickUpper := Floor (zTick P) tickSpacing in
      if tickLower <? tickUpper then mintPositionP s tickLower tickUpper else pret s
    else pret s.
Definition fillUpPositionsP (width : Z) (s : StP) : pm StP :=
  go P := theP in
  let '(tickLower, tickUpper) := around (zTick P) width (zFee P) in
  let tickSpacing := TickSpaces (zFee P) in
  go s := mintPositionP s tickLower tickUpper in
  fillUpP s tickSpacing tickLower tickUpper.
Definition limitOrderPositionsP (width : Z) (s : StP) : pm StP :=
  go P := theP in
  let tickSpacing := TickSpaces (zFee P) in
  let '(tickLower, tickUpper) := around (zTick P) width (zFee P) in
  go s := mintPositionP s tickLower tickUpper in
  go v := mem (ld (uAmount0 s)) in
  go s :=
    (if negb (v =? 0) then
       go P := theP in
       let tickLower := Ceil (zTick P) tickSpacing in
       let tickUpper := iadd tickLower 10 in
       go s := mintHalfP s tickLower tickUpper in
       pret (with_uLimit s tickUpper true)
     else pret s) in
  go v := mem (ld (uAmount1 s)) in
  if negb (v =? 0) then
    go P := theP in
    let tickUpper := Floor (zTick P) tickSpacing in
    let tickLower := isub tickUpper 10 in
    go s := mintHalfP s tickLower tickUpper in
    pret (with_uLimit s tickLower false)
  else pret s.

(** the overflow flags of SubOverflow and AddOverflow, then the comparisons *)
Definition bandTicksP (price width : ptr) : cm (Z * Z) :=
  let* sqrtRatioA := new2 usub price width in
  let* sqrtRatioB := new2 uadd price width in
  let* vp := ld price in let* vw := ld width in
  let* va := ld sqrtRatioA in let* vb := ld sqrtRatioB in
  let* vmin := ld gMinSqrtRatio in let* vmax := ld gMaxSqrtRatio in
  let* tickLower := lift (if (vp <? vw) || (va <? vmin) then Ok MinTick else GetTickAtSqrtRatio va) in
  let* tickUpper := lift (if (T256 <=? vp + vw) || (vmax <? vb) then Ok MaxTick else GetTickAtSqrtRatio vb) in
  mret (tickLower, tickUpper).
Definition bandWidthP (h : PricesP) (multiplier : ptr) : cm ptr :=
  let* volatilityX192 := VolatilityP h in
  let* volatilityScaledX200 := new2 umul volatilityX192 multiplier in
  let* volatilityScaledX192 := new1 (fun x => ursh x 10) volatilityScaledX200 in
  new1 usqrt volatilityScaledX192.
Definition volatilityTicksP (s : StP) : pm (Z * Z) :=
  go P := theP in
  mem (let* w := bandWidthP (uHistory s) (uMultiplier s) in bandTicksP (zPrice P) w).
Definition bollingerTicksP (s : StP) : pm (Z * Z) :=
  mem (let* w := bandWidthP (uHistory s) (uMultiplier s) in
       let* priceX192 := AverageP (uHistory s) in
       let* sqrtPriceX96 := new1 usqrt priceX192 in
       bandTicksP sqrtPriceX96 w).
Definition averageTicksP (width : Z) (s : StP) : pm (Z * Z) :=
  go tick := mem (let* priceX192 := AverageP (uHistory s) in
                  let* sqrtPriceX96 := new1 usqrt priceX192 in
                  let* v := ld sqrtPriceX96 in
                  lift (GetTickAtSqrtRatio v)) in
  go P := theP in
  pret (around tick width (zFee P)).

(** swap_half_constant_interval_current_price.go:66-107 *)
Definition swapAndMintP (fuel : nat) (s : StP) (tickLower tickUpper : Z) : pm StP :=
  go a := mem (ratioP tickLower) in
  go b := mem (ratioP tickUpper) in
  go P := theP in
  go amountNoSwap := mem (GetLiquidityForAmountP (zPrice P) a b (uAmount0 s) (uAmount1 s)) in
  go P := theP in
  go noSwap := mem (GetAmountsForLiquidityP (zPrice P) a b amountNoSwap) in
  go amount0Diff := mem (new2 usub (uAmount0 s) (fst noSwap)) in
  go amount0Cmp := mem (new1 (fun x => ulsh x 9) amount0Diff) in
  go amount1Diff := mem (new2 usub (uAmount1 s) (snd noSwap)) in
  go v0 := mem (ld amount0Cmp) in
  go v1 := mem (ld amount1Diff) in
  go _ :=
    (if v1 <? v0 then
       go two := mem (new 2) in
       go half := mem (new2 udiv amount0Diff two) in
       go v := mem (ld half) in
       if usign v =? 1 then
         go P := theP in
         go r := meth (fun Q => ExactInputSwapP fuel Q half (zToken0 P) gZero) in
         go _ := mem (op2 usub (uAmount0 s) (uAmount0 s) (fst r)) in
         mem (op2 usub (uAmount1 s) (uAmount1 s) (snd r))
       else pret tt
     else
       go two := mem (new 2) in
       go half := mem (new2 udiv amount1Diff two) in
       go v := mem (ld half) in
       if usign v =? 1 then
         go P := theP in
         go r := meth (fun Q => ExactInputSwapP fuel Q half (zToken1 P) gZero) in
         go _ := mem (op2 usub (uAmount0 s) (uAmount0 s) (fst r)) in
         mem (op2 usub (uAmount1 s) (uAmount1 s) (snd r))
       else pret tt) in
  go P := theP in
  go amount := mem (GetLiquidityForAmountP (zPrice P) a b (uAmount0 s) (uAmount1 s)) in
  mintAmountP s tickLower tickUpper amount.

Definition bollingerFillUpP (s : StP) : pm StP :=
  go t := bollingerTicksP s in
  let '(tickLower, tickUpper) := t in
  go s := mintPositionP s tickLower tickUpper in
  go P := theP in
  if (tickLower <=? zTick P) && (zTick P <=? tickUpper) then fillUpP s (TickSpaces (zFee P)) tickLower tickUpper
  else pret s.
Definition mintAroundP (width : Z) (mint : StP -> Z -> Z -> pm StP) (s : StP) : pm StP :=
  go P := theP in
  let '(tickLower, tickUpper) := around (zTick P) width (zFee P) in
  mint s tickLower tickUpper.
Definition mintAtP (getTicks : StP -> pm (Z * Z)) (s : StP) : pm StP :=
  go t := getTicks s in
  mintPositionP s (fst t) (snd t).

Definition initPositionsP (fuel : nat) (k : Kind) (s : StP) : pm StP :=
  match k with
  | TwoInterval a b => twoIntervalPositionsP a b s
  | BollingerBands _ => mintAtP bollingerTicksP s
  | BollingerBandsFillUp _ => mintAtP bollingerTicksP s
  | ConstantInterval w =>
      go P := theP in
      let '(tickLower, tickUpper) := around (zTick P) w (zFee P) in
      mintUncheckedP (with_uRange s tickLower tickUpper) tickLower tickUpper
  | FillUp w => fillUpPositionsP w s
  | IntervalAroundAverage w => mintAtP (averageTicksP w) s
  | IntervalAroundPrice w => mintAroundP w mintUncheckedP s
  | LimitOrder w => limitOrderPositionsP w s
  | NoProvision => pret s
  | IntervalAroundPriceAndSwap w => mintAroundP w (swapAndMintP fuel) s
  | V2 => mintPositionP s (-887270) 887270
  | VolatilitySized _ => mintAtP volatilityTicksP s
  end.
Definition InitP (fuel : nat) (k : Kind) (s : StP) : pm (StP * (ptr * ptr)) :=
  go curr := mem (balancesP s) in
  go s := initPositionsP fuel k s in
  pret (s, curr).
Definition rebalancePositionsP (fuel : nat) (k : Kind) (s : StP) : pm StP :=
  match k with
  | TwoInterval a b => twoIntervalPositionsP a b s
  | BollingerBands _ => mintAtP bollingerTicksP s
  | BollingerBandsFillUp _ => bollingerFillUpP s
  | ConstantInterval w => mintPositionP s (uTickLower s) (uTickUpper s)
  | FillUp w => fillUpPositionsP w s
  | IntervalAroundAverage w => mintAtP (averageTicksP w) s
  | IntervalAroundPrice w => mintAroundP w mintPositionP s
  | LimitOrder w => limitOrderPositionsP w s
  | NoProvision => pret s
  | IntervalAroundPriceAndSwap w => mintAroundP w (swapAndMintP fuel) s
  | V2 => mintPositionP s (-887270) 887270
  | VolatilitySized _ => mintAtP volatilityTicksP s
  end.
(** the executor drops the results *)
Definition RebalanceP (fuel : nat) (k : Kind) (s : StP) : pm StP :=
  match k with
  | NoProvision => pret s
  | _ => go r := burnResetP s in rebalancePositionsP fuel k (fst r)
  end.
(** MakeSnapshot: the history squares the pool's price *)
Definition MakeSnapshotP (k : Kind) (s : StP) : pm StP :=
  if keepsHistory k then
    go P := theP in
    go h := mem (AddPriceP (uHistory s) (zPrice P)) in
    pret (with_uHistory s h)
  else pret s.

(** ** executor.go *)
Record TxP := mkTxP { xType : string; xAmount : ptr; xAmount0 : ptr; xAmount1 : ptr; xLower : Z; xUpper : Z; xTime : Z }.
(** executor.go:66-70, 95-99 and 124-128 *)
Definition valueUSDP (amount0 amount1 : ptr) : pm ptr :=
  go P := theP in
  mem (let* priceSquareX192 := new2 umul (zPrice P) (zPrice P) in
       let* amount1to0 := MulDivP amount1 gQ192 priceSquareX192 in
       new2 uadd amount1to0 amount0).
(** executor.go:108-123 *)
Definition execTxP (fuel : nat) (t : TxP) : pm unit :=
  if String.eqb (xType t) "Mint" then meth0 (fun P => MintP P (xLower t) (xUpper t) (xAmount t))
  else if String.eqb (xType t) "Burn" then meth0 (fun P => BurnP P (xLower t) (xUpper t) (xAmount t))
  else if String.eqb (xType t) "Swap" then
    go v0 := mem (ld (xAmount0 t)) in
    if 0 <? usign v0 then
      go P := theP in
      go _ := meth (fun Q => ExactInputSwapP fuel Q (xAmount0 t) (zToken0 P) gZero) in pret tt
    else
      go v1 := mem (ld (xAmount1 t)) in
      if 0 <? usign v1 then
        go P := theP in
        go _ := meth (fun Q => ExactInputSwapP fuel Q (xAmount1 t) (zToken1 P) gZero) in pret tt
      else pret tt
  else if String.eqb (xType t) "Flash" then meth0 (fun P => FlashP P (xAmount0 t) (xAmount1 t))
  else pret tt.

(** executor.go:47-52; AmountUSDSnapshots holds pointers *)
Record LoopP := mkLoopP { kStarted : bool; kUpdate : Z; kSnapshot : Z; kPrice : Z; kValues : list ptr }.
(** executor.go:54-124 *)
Fixpoint runLoopP (fuel : nat) (k : Kind) (c : Config) (txs : list TxP) (s : StP) (l : LoopP) : pm (StP * LoopP) :=
  match txs with
  | [] => pret (s, l)
  | t :: txs =>
      if cEnd c <? xTime t then pret (s, l)
      else
        go sl :=
          (if negb (kStarted l) && (cStart c <=? xTime t) then
             go r := InitP fuel k s in
             let '(s, (amount0, amount1)) := r in
             go v := valueUSDP amount0 amount1 in
             pret (s, mkLoopP true (iadd (xTime t) (cUpdate c)) (iadd (xTime t) (cSnapshot c)) (kPrice l) (kValues l ++ [v]))
           else pret (s, l)) in
        let '(s, l) := sl in
        go sl :=
          (if kPrice l <? xTime t then
             go s := MakeSnapshotP k s in
             pret (s, mkLoopP (kStarted l) (kUpdate l) (kSnapshot l) (iadd (kPrice l) (cPrice c)) (kValues l))
           else pret (s, l)) in
        let '(s, l) := sl in
        go l :=
          (if kSnapshot l <=? xTime t then
             go a := GetAmountsP k s in
             go v := valueUSDP (fst a) (snd a) in
             pret (mkLoopP (kStarted l) (kUpdate l) (iadd (kSnapshot l) (cSnapshot c)) (kPrice l) (kValues l ++ [v]))
           else pret l) in
        go sl :=
          (if kUpdate l <=? xTime t then
             go s := RebalanceP fuel k s in
             pret (s, mkLoopP (kStarted l) (iadd (kUpdate l) (cUpdate c)) (kSnapshot l) (kPrice l) (kValues l))
           else pret (s, l)) in
        let '(s, l) := sl in
        go _ := execTxP fuel t in
        runLoopP fuel k c txs s l
  end.
(** executor.go:42-130 *)
Definition RunP (fuel : nat) (k : Kind) (c : Config) (txs : list TxP) (s : StP) : pm (StP * list ptr) :=
  go sl := runLoopP fuel k c txs s (mkLoopP false MaxInt64 MaxInt64 0 []) in
  let '(s, l) := sl in
  go r := BurnAllP k s in
  let '(s, (amount0, amount1)) := r in
  go v := valueUSDP amount0 amount1 in
  pret (s, kValues l ++ [v]).
(** main.go:81-83 with its strategy, or any other: the constructor clones the pool and the start amounts *)
Definition backtestP (fuel : nat) (k : Kind) (c : Config) (P : PoolP) (amount0 amount1 : ptr) (snapshots : Z) (txs : list TxP)
  : cm (PoolP * (StP * list ptr)) :=
  let* s := NewStrategyP k amount0 amount1 snapshots in
  let* Q := PoolCloneP P in
  RunP fuel k c txs s Q.

(** main.go:75-88, with the back-tests of the goroutines one after the other; a job: its strategy, its configuration and the length of
    its price history.  All share the memory, the pool they clone, the two start amounts and the transactions. *)
Record Job := mkJob { jKind : Kind; jConfig : Config; jSnapshots : Z }.
Fixpoint backtestsP (fuel : nat) (jobs : list Job) (P : PoolP) (amount0 amount1 : ptr) (txs : list TxP) : cm (list (StP * list ptr)) :=
  match jobs with
  | [] => mret []
  | j :: jobs =>
      let* r := backtestP fuel (jKind j) (jConfig j) P amount0 amount1 (jSnapshots j) txs in
      let* rs := backtestsP fuel jobs P amount0 amount1 txs in
      mret (snd r :: rs)
  end.
(** the transactions, with their amounts in consecutive variables from [i] on (main.go:297-313) *)
Fixpoint placeTxs (i : ptr) (ts : list Transaction) : list TxP :=
  match ts with
  | [] => []
  | t :: ts => mkTxP (txType t) i (1 + i) (2 + i) (txLower t) (txUpper t) (txTime t) :: placeTxs (3 + i) ts
  end.
Definition txValues (ts : list Transaction) : list Z := flat_map (fun t => [txAmount t; txAmount0 t; txAmount1 t]) ts.
