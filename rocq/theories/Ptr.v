(** Ptr.v -- the pool with its pointers: /repo/lib/fullmath, sqrtprice_math, swapmath, tickdata, position and
    pool, where every [*ui.Int] is a pointer into memory.

    Pool.v treats the numbers of a pool as values, so that two of its fields can never be the same variable.
    In the code they are pointers: [p.Liquidity.Add(p.Liquidity, amount)] changes a variable that anything else
    may point to, [p.SqrtRatioX96 = state.sqrtPriceX96] makes two names for one variable, and NewPool keeps the
    caller's pointer.  Here a memory is the list of all variables, a pointer is a position in it, [new] appends,
    and every statement of the code that assigns a pointer or writes through one does just that.

    A method [z.Op(x, y)] reads its operands, then writes its receiver; that this is what the method does even
    if z, x and y are the same variable is C18.  [Umul] and [Udivrem] read their operands and write arrays of
    their own (fullmath.go:12-15).  Slices, the map and the structs that hold the pointers are values: each has
    one owner.  The ratio table of tickmath is never handed out: GetSqrtRatioAtTick copies (tickmath.go:57). *)
From Coq Require Import String.
From Verif Require Import Base U256Z SwapMath TickMath TickData Pool.
Ltac Zify.zify_post_hook ::= idtac.
Open Scope Z_scope.

Definition Mem := list Z.
Notation ptr := nat (only parsing).
Definition cm (A : Type) := Mem -> res (A * Mem).
Definition mret {A} (a : A) : cm A := fun m => Ok (a, m).
Definition mbind {A B} (c : cm A) (f : A -> cm B) : cm B :=
  fun m => match c m with Ok (a, m') => f a m' | Panic => Panic | OutOfFuel => OutOfFuel end.
Notation "'let*' x := c 'in' k" := (mbind c (fun x => k))
  (at level 200, x pattern, c at level 100, k at level 200).
Definition lift {A} (r : res A) : cm A :=
  fun m => match r with Ok a => Ok (a, m) | Panic => Panic | OutOfFuel => OutOfFuel end.

Fixpoint setM (m : Mem) (p : ptr) (v : Z) : Mem :=
  match m, p with
  | [], _ => []
  | _ :: m, O => v :: m
  | x :: m, S p => x :: setM m p v
  end.
(** [*p]; a nil pointer panics *)
Definition ld (p : ptr) : cm Z := fun m => match nth_error m p with Some v => Ok (v, m) | None => Panic end.
(** [*p = v] *)
Definition st (p : ptr) (v : Z) : cm unit := fun m => if (p <? length m)%nat then Ok (tt, setM m p v) else Panic.
(** new(ui.Int) holding v; ui.NewInt(v) *)
Definition new (v : Z) : cm ptr := fun m => Ok (length m, m ++ [v]).

(** The exported variables: constants.go:9-18, sqrtprice_math.go:10, swapmath.go:9, tickmath.go:19-21.  They are
    the first nine variables. *)
Definition gZero : ptr := 0%nat.
Definition gOne : ptr := 1%nat.
Definition gQ96 : ptr := 2%nat.
Definition gQ128 : ptr := 3%nat.
Definition gMaxUint256 : ptr := 4%nat.
Definition gMaxUint160 : ptr := 5%nat.
Definition gMaxFee : ptr := 6%nat.
Definition gMinSqrtRatio : ptr := 7%nat.
Definition gMaxSqrtRatio : ptr := 8%nat.
Definition globals : Mem := [0; 1; Q96; Q128; MaxUint256; MaxUint160; MaxFee; MinSqrtRatio; MaxSqrtRatio].

(** [z.Op(x, y)] and [z.Op(x)]; [new(ui.Int).Op(...)] *)
Definition op2 (f : Z -> Z -> Z) (z x y : ptr) : cm unit := let* a := ld x in let* b := ld y in st z (f a b).
Definition op1 (f : Z -> Z) (z x : ptr) : cm unit := let* a := ld x in st z (f a).
Definition new2 (f : Z -> Z -> Z) (x y : ptr) : cm ptr := let* z := new 0 in let* _ := op2 f z x y in mret z.
Definition new1 (f : Z -> Z) (x : ptr) : cm ptr := let* z := new 0 in let* _ := op1 f z x in mret z.
(** uint256.go:171-173 *)
Definition clone (x : ptr) : cm ptr := let* a := ld x in new a.
(** z.Sgt(x), uint256.go:821-833 *)
Definition usgt (z x : Z) : bool :=
  if (0 <=? usign z) && (usign x <? 0) then true else if (usign z <? 0) && (0 <=? usign x) then false else x <? z.

(** ** fullmath.go *)
(** fullmath.go:23-33 *)
Definition MulDivP (a b denominator : ptr) : cm ptr :=
  let* va := ld a in let* vb := ld b in
  if (va =? 0) || (vb =? 0) then new 0
  else let* d := ld denominator in let* q := lift (MulDiv va vb d) in new q.
(** fullmath.go:8-21: the quotient is written to [result], then one is added in place *)
Definition MulDivRoundingUpP (a b denominator : ptr) : cm ptr :=
  let* va := ld a in let* vb := ld b in
  if (va =? 0) || (vb =? 0) then new 0
  else
    let* d := ld denominator in
    let* q := lift (MulDiv va vb d) in
    let* result := new q in
    let* _ := (if negb (va * vb mod d =? 0) then op2 uadd result result gOne else mret tt) in
    mret result.

(** ** sqrtprice_math.go *)
(** sqrtprice_math.go:12-20 *)
Definition multiplyIn256P (x y : ptr) : cm ptr := let* product := new2 umul x y in new2 Z.land product gMaxUint256.
Definition addIn256P (x y : ptr) : cm ptr := let* sum := new2 uadd x y in new2 Z.land sum gMaxUint256.
(** sqrtprice_math.go:23-25: the names are exchanged, not the numbers *)
Definition orderedP (a b : ptr) : cm (ptr * ptr) :=
  let* va := ld a in let* vb := ld b in mret (if vb <? va then (b, a) else (a, b)).
(** sqrtprice_math.go:22-37 *)
Definition GetAmount0DeltaP (sqrtRatioA sqrtRatioB liquidity : ptr) (roundUp : bool) : cm ptr :=
  let* (a, b) := orderedP sqrtRatioA sqrtRatioB in
  let* numerator1 := new1 (fun x => ulsh x 96) liquidity in
  let* numerator2 := new2 usub b a in
  if roundUp then
    let* x := MulDivRoundingUpP numerator1 numerator2 b in
    MulDivRoundingUpP x gOne a
  else
    let* r := MulDivP numerator1 numerator2 b in
    let* _ := op2 udiv r r a in
    mret r.
(** sqrtprice_math.go:39-51 *)
Definition GetAmount1DeltaP (sqrtRatioA sqrtRatioB liquidity : ptr) (roundUp : bool) : cm ptr :=
  let* (a, b) := orderedP sqrtRatioA sqrtRatioB in
  let* ratio_dif := new2 usub b a in
  if roundUp then MulDivRoundingUpP liquidity ratio_dif gQ96 else MulDivP liquidity ratio_dif gQ96.
(** sqrtprice_math.go:72-93: a zero amount gives the argument's own pointer back *)
Definition getNextSqrtPriceFromAmount0RoundingUpP (sqrtP liquidity amount : ptr) (add : bool) : cm ptr :=
  let* va := ld amount in
  if va =? 0 then mret sqrtP
  else
    let* numerator1 := new1 (fun x => ulsh x 96) liquidity in
    if add then
      let* product := multiplyIn256P amount sqrtP in
      let* quotient := new2 udiv product amount in
      let* vq := ld quotient in let* vp := ld sqrtP in
      let rest := let* d0 := new2 udiv numerator1 sqrtP in
                  let* d := new2 uadd d0 amount in
                  MulDivRoundingUpP numerator1 gOne d in
      if vq =? vp then
        let* denominator := addIn256P numerator1 product in
        let* vd := ld denominator in let* vn := ld numerator1 in
        if vn <=? vd then MulDivRoundingUpP numerator1 sqrtP denominator else rest
      else rest
    else
      let* product := multiplyIn256P amount sqrtP in
      let* denominator := new2 usub numerator1 product in
      MulDivRoundingUpP numerator1 sqrtP denominator.
(** sqrtprice_math.go:95-109 *)
Definition getNextSqrtPriceFromAmount1RoundingDownP (sqrtP liquidity amount : ptr) (add : bool) : cm ptr :=
  if add then
    let* va := ld amount in let* vm := ld gMaxUint160 in
    let* n := (if va <=? vm then new1 (fun x => ulsh x 96) amount else new2 umul amount gQ96) in
    let* quotient := new2 udiv n liquidity in
    new2 uadd sqrtP quotient
  else
    let* quotient := MulDivRoundingUpP amount gQ96 liquidity in
    new2 usub sqrtP quotient.
(** sqrtprice_math.go:53-60 *)
Definition GetNextSqrtPriceFromInputP (sqrtP liquidity amountIn : ptr) (zeroForOne : bool) : cm ptr :=
  let* vs := ld sqrtP in let* _ := lift (invariant (usign vs =? 1)) in
  let* vl := ld liquidity in let* _ := lift (invariant (usign vl =? 1)) in
  if zeroForOne then getNextSqrtPriceFromAmount0RoundingUpP sqrtP liquidity amountIn true
  else getNextSqrtPriceFromAmount1RoundingDownP sqrtP liquidity amountIn true.
(** sqrtprice_math.go:62-70 *)
Definition GetNextSqrtPriceFromOutputP (sqrtP liquidity amountOut : ptr) (zeroForOne : bool) : cm ptr :=
  let* vs := ld sqrtP in let* _ := lift (invariant (usign vs =? 1)) in
  let* vl := ld liquidity in let* _ := lift (invariant (usign vl =? 1)) in
  if zeroForOne then getNextSqrtPriceFromAmount1RoundingDownP sqrtP liquidity amountOut false
  else getNextSqrtPriceFromAmount0RoundingUpP sqrtP liquidity amountOut false.
(** sqrtprice_math.go:111-125 *)
Definition GetAmount0DeltaRoundedP (sqrtRatioA sqrtRatioB liquidity : ptr) : cm ptr :=
  let* vl := ld liquidity in
  if usign vl =? -1 then
    let* n := new1 uneg liquidity in
    let* x := GetAmount0DeltaP sqrtRatioA sqrtRatioB n false in
    new1 uneg x
  else GetAmount0DeltaP sqrtRatioA sqrtRatioB liquidity true.
Definition GetAmount1DeltaRoundedP (sqrtRatioA sqrtRatioB liquidity : ptr) : cm ptr :=
  let* vl := ld liquidity in
  if usign vl =? -1 then
    let* n := new1 uneg liquidity in
    let* x := GetAmount1DeltaP sqrtRatioA sqrtRatioB n false in
    new1 uneg x
  else GetAmount1DeltaP sqrtRatioA sqrtRatioB liquidity true.

(** ** swapmath.go:11-73.  amountIn and amountOut start as nil. *)
Definition deref (o : option ptr) : cm ptr := match o with Some p => mret p | None => lift Panic end.
Record StepP := mkStepP { xNext : ptr; xIn : ptr; xOut : ptr; xFee : ptr }.
Definition ComputeSwapStepP (current target liquidity amountRemaining : ptr) (feePips : Z) : cm StepP :=
  let* vc := ld current in let* vt := ld target in
  let zeroForOne := vt <=? vc in
  let* vr := ld amountRemaining in
  let exactIn := 0 <=? usign vr in
  let* amountRemainingNeg := new1 uneg amountRemaining in
  let* first :=
    (if exactIn then
       let* fee := new (feePips mod W) in
       let* d := new2 usub gMaxFee fee in
       let* n := new2 umul amountRemaining d in
       let* amountRemainingLessFee := new2 udiv n gMaxFee in
       let* amountIn := (if zeroForOne then GetAmount0DeltaP target current liquidity true
                         else GetAmount1DeltaP current target liquidity true) in
       let* vl := ld amountRemainingLessFee in let* vi := ld amountIn in
       let* next := (if vi <=? vl then clone target
                     else GetNextSqrtPriceFromInputP current liquidity amountRemainingLessFee zeroForOne) in
       mret (next, Some amountIn, None)
     else
       let* amountOut := (if zeroForOne then GetAmount1DeltaP target current liquidity false
                          else GetAmount0DeltaP current target liquidity false) in
       let* vn := ld amountRemainingNeg in let* vo := ld amountOut in
       let* next := (if vo <=? vn then clone target
                     else GetNextSqrtPriceFromOutputP current liquidity amountRemainingNeg zeroForOne) in
       mret (next, None, Some amountOut)) in
  let '(next, amountIn, amountOut) := first in
  let* vt := ld target in let* vx := ld next in
  let max := vt =? vx in
  let* amountIn :=
    (if max && exactIn then mret amountIn
     else let* x := (if zeroForOne then GetAmount0DeltaP next current liquidity true
                     else GetAmount1DeltaP current next liquidity true) in mret (Some x)) in
  let* amountOut :=
    (if max && negb exactIn then mret amountOut
     else let* x := (if zeroForOne then GetAmount1DeltaP next current liquidity false
                     else GetAmount0DeltaP current next liquidity false) in mret (Some x)) in
  let* amountIn := deref amountIn in
  let* amountOut := deref amountOut in
  let* amountOut :=
    (if negb exactIn then
       let* vo := ld amountOut in
       let* n := new1 uneg amountRemaining in let* vn := ld n in
       if vn <? vo then clone amountRemainingNeg else mret amountOut
     else mret amountOut) in
  let* vx := ld next in let* vt := ld target in
  let* feeAmount :=
    (if exactIn && negb (vx =? vt) then new2 usub amountRemaining amountIn
     else let* fee := new (feePips mod W) in
          let* fee' := new (feePips mod W) in
          let* d := new2 usub gMaxFee fee' in
          MulDivRoundingUpP amountIn fee d) in
  mret (mkStepP next amountIn amountOut feeAmount).

(** ** tickdata.go *)
(** tickdata.go:10-21 *)
Record TickP := mkTickP { yIndex : Z; yNet : ptr; yGross : ptr; yOut0 : ptr; yOut1 : ptr }.
Record TableP := mkTableP { yTicks : list TickP; ySpacing : Z }.
Definition with_yTicks (t : TableP) (l : list TickP) : TableP := mkTableP l (ySpacing t).
(** the searches read indices only: they run on the table whose numbers are all zero *)
Definition indices (t : TableP) : TickData := mkTickData (map (fun x => mkTick (yIndex x) 0 0 0 0) (yTicks t)) (ySpacing t).
(** t.ticks[i] *)
Definition tickAtP (t : TableP) (i : Z) : res TickP := if i <? 0 then Panic else geti (yTicks t) (Z.to_nat i).
(** tickdata.go:60-64: the struct is copied, its pointers are the table's *)
Definition GetTickP (t : TableP) (index : Z) : res TickP :=
  do i <- binarySearch (indices t) index;
  do tick <- tickAtP t i;
  do _ <- invariant (yIndex tick =? index);
  Ok tick.
(** tickdata.go:66-73: returns the table's own pointer *)
Definition CrossP (t : TableP) (tick : Z) (global0 global1 : ptr) : cm ptr :=
  let* info := lift (GetTickP t tick) in
  let* _ := op2 usub (yOut0 info) global0 (yOut0 info) in
  let* _ := op2 usub (yOut1 info) global1 (yOut1 info) in
  mret (yNet info).
(** tickdata.go:75-94 *)
Definition makeTickP (tick tickCurrent : Z) (net gross out0 out1 : ptr) : cm TickP :=
  let* n := clone net in
  let* g := clone gross in
  let* a := clone (if tick <=? tickCurrent then out0 else gZero) in
  let* b := clone (if tick <=? tickCurrent then out1 else gZero) in
  mret (mkTickP tick n g a b).
(** tickdata.go:96-103 *)
Definition ClearTickP (t : TableP) (index : Z) : res TableP :=
  do r <- binarySearch2 (indices t) index;
  let '(i, found) := r in
  if found then Ok (with_yTicks t (firstn (Z.to_nat i) (yTicks t) ++ skipn (Z.to_nat i + 1) (yTicks t))) else Ok t.
(** tickdata.go:105-139 *)
Definition UpdateTickP (t : TableP) (index tickCurrent : Z) (liquidityDelta global0 global1 : ptr) (upper : bool) : cm (TableP * bool) :=
  let* r := lift (binarySearch2 (indices t) index) in
  let '(i, found) := r in
  let* z := new1 (fun x => if upper then uneg x else x) liquidityDelta in
  if found then
    let* tick := lift (tickAtP t i) in
    let* _ := op2 (if upper then usub else uadd) (yNet tick) (yNet tick) liquidityDelta in
    let* _ := op2 uadd (yGross tick) (yGross tick) liquidityDelta in
    let* g := ld (yGross tick) in
    mret (t, g =? 0)
  else
    let* tick := makeTickP index tickCurrent z liquidityDelta global0 global1 in
    if i =? -2 then mret (with_yTicks t (yTicks t ++ [tick]), false)
    else if i =? -1 then mret (with_yTicks t (tick :: yTicks t), false)
    else mret (with_yTicks t (firstn (Z.to_nat i) (yTicks t) ++ tick :: skipn (Z.to_nat i) (yTicks t)), false).
(** tickdata.go:141-165 *)
Definition GetFeeGrowthInsideP (t : TableP) (tickLower tickUpper tickCurrent : Z) (global0 global1 : ptr) : cm (ptr * ptr) :=
  let* lower := lift (GetTickP t tickLower) in
  let* upper := lift (GetTickP t tickUpper) in
  let* below0 := (if tickLower <=? tickCurrent then new1 (fun x => x) (yOut0 lower) else new2 usub global0 (yOut0 lower)) in
  let* below1 := (if tickLower <=? tickCurrent then new1 (fun x => x) (yOut1 lower) else new2 usub global1 (yOut1 lower)) in
  let* above0 := (if tickCurrent <? tickUpper then new1 (fun x => x) (yOut0 upper) else new2 usub global0 (yOut0 upper)) in
  let* above1 := (if tickCurrent <? tickUpper then new1 (fun x => x) (yOut1 upper) else new2 usub global1 (yOut1 upper)) in
  let* inside0 := new2 usub global0 below0 in
  let* _ := op2 usub inside0 inside0 above0 in
  let* inside1 := new2 usub global1 below1 in
  let* _ := op2 usub inside1 inside1 above1 in
  mret (inside0, inside1).

(** ** position.go *)
(** position.go:19-25 *)
Record InfoP := mkInfoP { iLiquidity : ptr; iLast0 : ptr; iLast1 : ptr; iOwed0 : ptr; iOwed1 : ptr }.
(** position.go:27-35 *)
Definition NewPositionP : cm InfoP :=
  let* l := new 0 in let* f0 := new 0 in let* f1 := new 0 in let* o0 := new 0 in let* o1 := new 0 in
  mret (mkInfoP l f0 f1 o0 o1).
(** position.go:9-17 *)
Definition InfoCloneP (i : InfoP) : cm InfoP :=
  let* l := clone (iLiquidity i) in let* f0 := clone (iLast0 i) in let* f1 := clone (iLast1 i) in
  let* o0 := clone (iOwed1 i) in let* o1 := clone (iOwed1 i) in
  mret (mkInfoP l f0 f1 o0 o1).
(** position.go:37-48: the first three fields get new pointers, the tokens owed change in place *)
Definition InfoUpdateP (i : InfoP) (liquidityDelta inside0 inside1 : ptr) : cm InfoP :=
  let* liquidityNext := new2 uadd (iLiquidity i) liquidityDelta in
  let* temp0 := new2 usub inside0 (iLast0 i) in
  let* temp1 := new2 usub inside1 (iLast1 i) in
  let* owed0 := MulDivP temp0 (iLiquidity i) gQ128 in
  let* owed1 := MulDivP temp1 (iLiquidity i) gQ128 in
  let* _ := op2 uadd (iOwed0 i) (iOwed0 i) owed0 in
  let* _ := op2 uadd (iOwed1 i) (iOwed1 i) owed1 in
  mret (mkInfoP liquidityNext inside0 inside1 (iOwed0 i) (iOwed1 i)).

(** ** pool.go *)
Definition PositionsP := list (list Z * InfoP).
Fixpoint posGetP (m : PositionsP) (k : list Z) : option InfoP :=
  match m with
  | [] => None
  | (k', v) :: m => if keyEq k' k then Some v else posGetP m k
  end.
Fixpoint posPutP (m : PositionsP) (k : list Z) (v : InfoP) : PositionsP :=
  match m with
  | [] => [(k, v)]
  | (k', v') :: m => if keyEq k' k then (k', v) :: m else (k', v') :: posPutP m k v
  end.
(** pool.go:34-46 *)
Record PoolP := mkPoolP {
  zToken0 : string; zToken1 : string; zFee : Z; zPrice : ptr; zLiquidity : ptr; zGrowth0 : ptr; zGrowth1 : ptr;
  zSpacing : Z; zTick : Z; zData : TableP; zPos : PositionsP }.
Definition with_zData (p : PoolP) (d : TableP) : PoolP :=
  mkPoolP (zToken0 p) (zToken1 p) (zFee p) (zPrice p) (zLiquidity p) (zGrowth0 p) (zGrowth1 p) (zSpacing p) (zTick p) d (zPos p).
Definition with_zPos (p : PoolP) (l : PositionsP) : PoolP :=
  mkPoolP (zToken0 p) (zToken1 p) (zFee p) (zPrice p) (zLiquidity p) (zGrowth0 p) (zGrowth1 p) (zSpacing p) (zTick p) (zData p) l.

(** pool.go:48-70: the caller's pointer becomes the pool's *)
Definition NewPoolP (token0 token1 : string) (fee : Z) (sqrtRatio : ptr) : cm PoolP :=
  let* _ := lift (invariant ((0 <=? fee) && (fee <=? 1000000))) in
  let* liquidity := new 0 in
  let* v := ld sqrtRatio in
  let* tickCurrent := lift (GetTickAtSqrtRatio v) in
  let* g0 := clone gZero in
  let* g1 := clone gZero in
  mret (mkPoolP token0 token1 fee sqrtRatio liquidity g0 g1 (TickSpaces fee) tickCurrent (mkTableP [] (TickSpaces fee)) []).
(** pool.go:91-119 *)
Definition updatePositionP (p : PoolP) (lower upper : Z) (amount : ptr) : cm (PoolP * InfoP) :=
  let* va := ld amount in
  let* upd :=
    (if negb (va =? 0) then
       let* r := UpdateTickP (zData p) lower (zTick p) amount (zGrowth0 p) (zGrowth1 p) false in
       let '(d, clearLower) := r in
       let* r := UpdateTickP d upper (zTick p) amount (zGrowth0 p) (zGrowth1 p) true in
       let '(d, clearUpper) := r in
       mret (d, clearLower, clearUpper)
     else mret (zData p, false, false)) in
  let '(d, clearLower, clearUpper) := upd in
  let* ins := GetFeeGrowthInsideP d lower upper (zTick p) (zGrowth0 p) (zGrowth1 p) in
  let '(inside0, inside1) := ins in
  let key := posKey lower upper in
  let* pos := (match posGetP (zPos p) key with Some i => mret i | None => NewPositionP end) in
  let* pos' := InfoUpdateP pos amount inside0 inside1 in
  let* va := ld amount in
  let* d :=
    lift (if usign va =? -1 then
            do d <- (if clearLower then ClearTickP d lower else Ok d);
            (if clearUpper then ClearTickP d upper else Ok d)
          else Ok d) in
  mret (with_zPos (with_zData p d) (posPutP (zPos p) key pos'), pos').
(** pool.go:127-147 *)
Definition modifyPositionStrategyP (p : PoolP) (lower upper : Z) (amount : ptr) : cm (PoolP * InfoP * ptr * ptr) :=
  let* _ := lift (checkTicks lower upper) in
  let* r := updatePositionP p lower upper amount in
  let '(p, pos) := r in
  let* va := ld amount in
  if va =? 0 then
    let* a0 := clone gZero in let* a1 := clone gZero in mret (p, pos, a0, a1)
  else if zTick p <? lower then
    let* va := lift (GetSqrtRatioAtTick lower) in let* a := new va in
    let* vb := lift (GetSqrtRatioAtTick upper) in let* b := new vb in
    let* amount0 := GetAmount0DeltaRoundedP a b amount in
    let* amount1 := new 0 in
    mret (p, pos, amount0, amount1)
  else if zTick p <? upper then
    let* vb := lift (GetSqrtRatioAtTick upper) in let* b := new vb in
    let* amount0 := GetAmount0DeltaRoundedP (zPrice p) b amount in
    let* va := lift (GetSqrtRatioAtTick lower) in let* a := new va in
    let* amount1 := GetAmount1DeltaRoundedP (zPrice p) a amount in
    let* _ := op2 uadd (zLiquidity p) (zLiquidity p) amount in
    mret (p, pos, amount0, amount1)
  else
    let* amount0 := new 0 in
    let* va := lift (GetSqrtRatioAtTick lower) in let* a := new va in
    let* vb := lift (GetSqrtRatioAtTick upper) in let* b := new vb in
    let* amount1 := GetAmount1DeltaRoundedP a b amount in
    mret (p, pos, amount0, amount1).
(** pool.go:149-153 *)
Definition MintStrategyP (p : PoolP) (lower upper : Z) (amount : ptr) : cm (PoolP * ptr * ptr) :=
  let* va := ld amount in let* vz := ld gZero in
  let* _ := lift (invariant (usgt va vz)) in
  let* r := modifyPositionStrategyP p lower upper amount in
  let '(p, _, a0, a1) := r in mret (p, a0, a1).
(** pool.go:156-166: [pos] is the pool's own position *)
Definition BurnStrategyP (p : PoolP) (lower upper : Z) (amount : ptr) : cm (PoolP * ptr * ptr) :=
  let* amountMinus := new1 uneg amount in
  let* r := modifyPositionStrategyP p lower upper amountMinus in
  let '(p, pos, amount0Int, amount1Int) := r in
  let* amount0 := new1 uneg amount0Int in
  let* amount1 := new1 uneg amount1Int in
  let* _ := op2 uadd (iOwed0 pos) (iOwed0 pos) amount0 in
  let* _ := op2 uadd (iOwed1 pos) (iOwed1 pos) amount1 in
  mret (p, amount0, amount1).
(** pool.go:169-181 *)
Definition CollectStrategyP (p : PoolP) (lower upper : Z) : cm (PoolP * ptr * ptr) :=
  match posGetP (zPos p) (posKey lower upper) with
  | Some pos =>
      let* amount0 := clone (iOwed0 pos) in
      let* amount1 := clone (iOwed1 pos) in
      let* _ := op1 (fun x => x) (iOwed0 pos) gZero in
      let* _ := op1 (fun x => x) (iOwed1 pos) gZero in
      mret (p, amount0, amount1)
  | None => lift Panic
  end.
(** pool.go:204-219 *)
Definition modifyPositionP (p : PoolP) (lower upper : Z) (amount : ptr) : cm PoolP :=
  let* _ := lift (checkTicks lower upper) in
  let* r := UpdateTickP (zData p) lower (zTick p) amount (zGrowth0 p) (zGrowth1 p) false in
  let '(d, clearLower) := r in
  let* r := UpdateTickP d upper (zTick p) amount (zGrowth0 p) (zGrowth1 p) true in
  let '(d, clearUpper) := r in
  let* d := lift (do d <- (if clearLower then ClearTickP d lower else Ok d); (if clearUpper then ClearTickP d upper else Ok d)) in
  let* _ := (if (lower <=? zTick p) && (zTick p <? upper) then op2 uadd (zLiquidity p) (zLiquidity p) amount else mret tt) in
  mret (with_zData p d).
(** pool.go:183-192 *)
Definition MintP (p : PoolP) (lower upper : Z) (amount : ptr) : cm PoolP :=
  let* va := ld amount in let* vz := ld gZero in
  let* _ := lift (invariant (usgt va vz)) in
  modifyPositionP p lower upper amount.
Definition BurnP (p : PoolP) (lower upper : Z) (amount : ptr) : cm PoolP :=
  let* amountMinus := new1 uneg amount in
  modifyPositionP p lower upper amountMinus.
(** pool.go:223-234 *)
Definition FlashP (p : PoolP) (amount0 amount1 : ptr) : cm PoolP :=
  let* vl := ld (zLiquidity p) in
  let* _ := lift (invariant (usign vl =? 1)) in
  let* f := new (zFee p mod W) in let* e6 := new 1000000 in
  let* fee0 := MulDivRoundingUpP amount0 f e6 in
  let* f := new (zFee p mod W) in let* e6 := new 1000000 in
  let* fee1 := MulDivRoundingUpP amount1 f e6 in
  let* fee0Q128 := MulDivP fee0 gQ128 (zLiquidity p) in
  let* fee1Q128 := MulDivP fee1 gQ128 (zLiquidity p) in
  let* _ := op2 uadd (zGrowth0 p) (zGrowth0 p) fee0Q128 in
  let* _ := op2 uadd (zGrowth1 p) (zGrowth1 p) fee1Q128 in
  mret p.
(** pool.go:25-32 *)
Record StateP := mkStateP { wRemaining : ptr; wCalculated : ptr; wPrice : ptr; wTick : Z; wGrowth : ptr; wLiquidity : ptr }.
(** pool.go:278-348 *)
Definition swapRoundP (p : PoolP) (zeroForOne exactInput : bool) (limit : ptr) (s : StateP) : cm StateP :=
  let* nx := lift (NextInitializedTickWithinOneWord (indices (zData p)) (wTick s) zeroForOne) in
  let '(next, initialized) := nx in
  let tickNext := clampTick next in
  let* v := lift (GetSqrtRatioAtTick tickNext) in
  let* priceNext := new v in
  let* vn := ld priceNext in let* vl := ld limit in
  let target :=
    if zeroForOne then (if vn <? vl then limit else priceNext) else (if vl <? vn then limit else priceNext) in
  let* x := ComputeSwapStepP (wPrice s) target (wLiquidity s) (wRemaining s) (zFee p) in
  let* rc :=
    (if exactInput then
       let* t := new2 uadd (xIn x) (xFee x) in
       let* _ := op2 usub (wRemaining s) (wRemaining s) t in
       let* _ := op2 usub (wCalculated s) (wCalculated s) (xOut x) in
       mret (wRemaining s, wCalculated s)
     else
       let* r := new2 uadd (wRemaining s) (xOut x) in
       let* t := new2 uadd (xIn x) (xFee x) in
       let* c := new2 uadd (wCalculated s) t in
       mret (r, c)) in
  let '(remaining, calculated) := rc in
  let* vliq := ld (wLiquidity s) in
  let* _ :=
    (if 0 <? usign vliq then
       let* fee := MulDivP (xFee x) gQ128 (wLiquidity s) in
       op2 uadd (wGrowth s) (wGrowth s) fee
     else mret tt) in
  let* vx := ld (xNext x) in let* vn := ld priceNext in
  if vx =? vn then
    let* _ :=
      (if initialized then
         let* net := (if zeroForOne then CrossP (zData p) tickNext (wGrowth s) (zGrowth1 p)
                      else CrossP (zData p) tickNext (zGrowth0 p) (wGrowth s)) in
         op2 (if zeroForOne then usub else uadd) (wLiquidity s) (wLiquidity s) net
       else mret tt) in
    mret (mkStateP remaining calculated (xNext x) (if zeroForOne then tickNext - 1 else tickNext) (wGrowth s) (wLiquidity s))
  else
    let* vs := ld (wPrice s) in
    if negb (vx =? vs) then
      let* t := lift (GetTickAtSqrtRatio vx) in
      mret (mkStateP remaining calculated (xNext x) t (wGrowth s) (wLiquidity s))
    else mret (mkStateP remaining calculated (xNext x) (wTick s) (wGrowth s) (wLiquidity s)).
(** pool.go:277-350 *)
Fixpoint swapLoopP (fuel : nat) (p : PoolP) (zeroForOne exactInput : bool) (limit : ptr) (s : StateP) : cm StateP :=
  let* vr := ld (wRemaining s) in let* vp := ld (wPrice s) in let* vl := ld limit in
  if negb (vr =? 0) && negb (vp =? vl) then
    match fuel with
    | O => lift OutOfFuel
    | S fuel =>
        let* s' := swapRoundP p zeroForOne exactInput limit s in
        swapLoopP fuel p zeroForOne exactInput limit s'
    end
  else mret s.
(** pool.go:238-371 *)
Definition swapP (fuel : nat) (p : PoolP) (zeroForOne : bool) (amountSpecified limitIn : ptr) : cm (PoolP * ptr * ptr) :=
  let* va := ld amountSpecified in
  let* _ := lift (invariant (negb (va =? 0))) in
  let* limit := clone limitIn in
  let* vl := ld limit in
  let* _ :=
    (if vl =? 0 then
       (if zeroForOne then op2 uadd limit gMinSqrtRatio gOne else op2 usub limit gMaxSqrtRatio gOne)
     else mret tt) in
  let* vl := ld limit in let* vp := ld (zPrice p) in
  let* vmin := ld gMinSqrtRatio in let* vmax := ld gMaxSqrtRatio in
  let* _ := lift (invariant (if zeroForOne then (vl <? vp) && (vmin <? vl) else (vp <? vl) && (vl <? vmax))) in
  let exactInput := 0 <=? usign va in
  let* rem := clone amountSpecified in
  let* calc := new 0 in
  let* price := clone (zPrice p) in
  let* growth := clone (if zeroForOne then zGrowth0 p else zGrowth1 p) in
  let* liq := clone (zLiquidity p) in
  let* s := swapLoopP fuel p zeroForOne exactInput limit (mkStateP rem calc price (zTick p) growth liq) in
  let p' := mkPoolP (zToken0 p) (zToken1 p) (zFee p) (wPrice s) (wLiquidity s)
              (if zeroForOne then wGrowth s else zGrowth0 p) (if zeroForOne then zGrowth1 p else wGrowth s)
              (zSpacing p) (wTick s) (zData p) (zPos p) in
  let* amount0 := new 0 in
  let* amount1 := new 0 in
  let* _ :=
    (if Bool.eqb zeroForOne exactInput then
       let* _ := op2 usub amount0 amountSpecified (wRemaining s) in op1 (fun x => x) amount1 (wCalculated s)
     else
       let* _ := op1 (fun x => x) amount0 (wCalculated s) in op2 usub amount1 amountSpecified (wRemaining s)) in
  mret (p', amount0, amount1).
(** pool.go:194-202 *)
Definition ExactInputSwapP (fuel : nat) (p : PoolP) (inputAmount : ptr) (token : string) (limit : ptr) : cm (PoolP * ptr * ptr) :=
  swapP fuel p (String.eqb token (zToken0 p)) inputAmount limit.
Definition ExactOutputSwapP (fuel : nat) (p : PoolP) (outputAmount : ptr) (token : string) (limit : ptr) : cm (PoolP * ptr * ptr) :=
  swapP fuel p (String.eqb token (zToken1 p)) outputAmount limit.
(** pool.go:72-90: everything is copied except the variables the ticks point to *)
Fixpoint clonePositionsP (l : PositionsP) : cm PositionsP :=
  match l with
  | [] => mret []
  | (k, i) :: l => let* j := InfoCloneP i in let* l' := clonePositionsP l in mret ((k, j) :: l')
  end.
Definition PoolCloneP (p : PoolP) : cm PoolP :=
  let* positions := clonePositionsP (zPos p) in
  let* price := clone (zPrice p) in
  let* liquidity := clone (zLiquidity p) in
  let* g0 := clone (zGrowth0 p) in
  let* g1 := clone (zGrowth1 p) in
  mret (mkPoolP (zToken0 p) (zToken1 p) (zFee p) price liquidity g0 g1 (zSpacing p) (zTick p) (zData p) positions).

(** ** a client of the pool *)
(** The client owns variables and passes them by position; what the pool returns it gets to own as well, and it may compute
    into its variables in place, as the strategies and the executor do.  A variable holds 256 bits, so it is never negative:
    [nonneg] says it where the model's integers could be. *)
Inductive call :=
| KNew (v : Z)
| KSet (f : Z -> Z -> Z) (z x y : nat)
| KMint (lower upper : Z) (amount : nat) | KBurn (lower upper : Z) (amount : nat)
| KMintStrategy (lower upper : Z) (amount : nat) | KBurnStrategy (lower upper : Z) (amount : nat) | KCollect (lower upper : Z)
| KFlash (amount0 amount1 : nat)
| KInput (amount : nat) (token : string) (limit : nat) | KOutput (amount : nat) (token : string) (limit : nat).
Definition nonneg (v : Z) : res unit := invariant (0 <=? v).
Definition own2 (xs : list ptr) (r : PoolP * ptr * ptr) : PoolP * list ptr := let '(p, a, b) := r in (p, xs ++ [a; b]).
Definition own2V (vs : list Z) (r : Pool * Z * Z) : Pool * list Z := let '(p, a, b) := r in (p, vs ++ [a; b]).
Definition callP (fuel : nat) (c : call) (p : PoolP) (xs : list ptr) : cm (PoolP * list ptr) :=
  match c with
  | KNew v => let* x := new v in mret (p, xs ++ [x])
  | KSet f z x y =>
      let* pz := lift (geti xs z) in let* px := lift (geti xs x) in let* py := lift (geti xs y) in
      let* _ := op2 f pz px py in mret (p, xs)
  | KMint lo up a => let* x := lift (geti xs a) in let* v := ld x in let* _ := lift (nonneg v) in let* p := MintP p lo up x in mret (p, xs)
  | KBurn lo up a => let* x := lift (geti xs a) in let* p := BurnP p lo up x in mret (p, xs)
  | KMintStrategy lo up a =>
      let* x := lift (geti xs a) in let* v := ld x in let* _ := lift (nonneg v) in let* r := MintStrategyP p lo up x in mret (own2 xs r)
  | KBurnStrategy lo up a => let* x := lift (geti xs a) in let* r := BurnStrategyP p lo up x in mret (own2 xs r)
  | KCollect lo up => let* r := CollectStrategyP p lo up in mret (own2 xs r)
  | KFlash a b => let* x := lift (geti xs a) in let* y := lift (geti xs b) in let* p := FlashP p x y in mret (p, xs)
  | KInput a t l => let* x := lift (geti xs a) in let* y := lift (geti xs l) in let* r := ExactInputSwapP fuel p x t y in mret (own2 xs r)
  | KOutput a t l => let* x := lift (geti xs a) in let* y := lift (geti xs l) in let* r := ExactOutputSwapP fuel p x t y in mret (own2 xs r)
  end.
(** the same calls on values: nothing is shared *)
Definition callV (fuel : nat) (c : call) (p : Pool) (vs : list Z) : res (Pool * list Z) :=
  match c with
  | KNew v => Ok (p, vs ++ [v])
  | KSet f z x y => do _ <- geti vs z; do a <- geti vs x; do b <- geti vs y; Ok (p, setM vs z (f a b))
  | KMint lo up a => do v <- geti vs a; do _ <- nonneg v; do p <- Mint p lo up v; Ok (p, vs)
  | KBurn lo up a => do v <- geti vs a; do p <- Burn p lo up v; Ok (p, vs)
  | KMintStrategy lo up a => do v <- geti vs a; do _ <- nonneg v; do r <- MintStrategy p lo up v; Ok (own2V vs r)
  | KBurnStrategy lo up a => do v <- geti vs a; do r <- BurnStrategy p lo up v; Ok (own2V vs r)
  | KCollect lo up => do r <- CollectStrategy p lo up; Ok (own2V vs r)
  | KFlash a b => do v <- geti vs a; do w <- geti vs b; do p <- Flash p v w; Ok (p, vs)
  | KInput a t l => do v <- geti vs a; do w <- geti vs l; do r <- ExactInputSwap fuel p v t w; Ok (own2V vs r)
  | KOutput a t l => do v <- geti vs a; do w <- geti vs l; do r <- ExactOutputSwap fuel p v t w; Ok (own2V vs r)
  end.
Fixpoint callsP (fuel : nat) (cs : list call) (p : PoolP) (xs : list ptr) : cm (PoolP * list ptr) :=
  match cs with
  | [] => mret (p, xs)
  | c :: cs => let* r := callP fuel c p xs in callsP fuel cs (fst r) (snd r)
  end.
Fixpoint callsV (fuel : nat) (cs : list call) (p : Pool) (vs : list Z) : res (Pool * list Z) :=
  match cs with
  | [] => Ok (p, vs)
  | c :: cs => do r <- callV fuel c p vs; callsV fuel cs (fst r) (snd r)
  end.
