(** TickData.v -- /repo/lib/tickdata/tickdata.go.

    A [Tick] holds four pointers to 256-bit integers.  Within one pool every pointer is owned by exactly
    one tick ([makeTick] clones its arguments, nothing stores the pointers elsewhere), so the model keeps
    the values; TickHeap.v models the pointers for what [Clone] shares.  Go's [int] is Z here: indices,
    ticks and spacings stay far below 2^63.  A slice read out of range, a failed [invariant] and a division
    by zero are [Panic]. *)
From Verif Require Import Base U256Z.
Ltac Zify.zify_post_hook ::= idtac.

(** tickdata.go:10-16 *)
Record Tick := mkTick { tkIndex : Z; tkNet : Z; tkGross : Z; tkOut0 : Z; tkOut1 : Z }.

(** tickdata.go:18-21 *)
Record TickData := mkTickData { ticks : list Tick; tickSpacing : Z }.

Definition with_ticks (t : TickData) (l : list Tick) : TickData := mkTickData l (tickSpacing t).

(** len(t.ticks) *)
Definition lenT (t : TickData) : Z := Z.of_nat (length (ticks t)).

(** t.ticks[i] *)
Definition tickAt (t : TickData) (i : Z) : res Tick :=
  if i <? 0 then Panic else geti (ticks t) (Z.to_nat i).

(** tickdata.go:39-44 *)
Definition NewTickData (spacing : Z) : TickData := mkTickData [] spacing.

(** tickdata.go:46-49 *)
Definition isBelowSmallest (t : TickData) (tick : Z) : res bool :=
  do _ <- invariant (0 <? lenT t);
  do x <- tickAt t 0;
  Ok (tick <? tkIndex x).

(** tickdata.go:51-54 *)
Definition isAtOrAboveLargest (t : TickData) (tick : Z) : res bool :=
  do _ <- invariant (0 <? lenT t);
  do x <- tickAt t (lenT t - 1);
  Ok (tkIndex x <=? tick).

(** tickdata.go:55-58 *)
Definition isAboveLargest (t : TickData) (tick : Z) : res bool :=
  do x <- tickAt t (lenT t - 1);
  Ok (tkIndex x <? tick).

(** The loop of binarySearch, tickdata.go:196-206.  [i == len-1 || t.ticks[i+1].Index > tick] is
    evaluated lazily, as in Go. *)
Fixpoint bsLoop (fuel : nat) (t : TickData) (tick l r : Z) : res Z :=
  match fuel with
  | O => OutOfFuel
  | S fuel =>
      let i := (l + r) ÷ 2 in
      do x <- tickAt t i;
      do here <-
        (if tkIndex x <=? tick then
           if i =? lenT t - 1 then Ok true
           else do y <- tickAt t (i + 1); Ok (tick <? tkIndex y)
         else Ok false);
      if here then Ok i
      else if tkIndex x <? tick then bsLoop fuel t tick (i + 1) r
      else bsLoop fuel t tick l (i - 1)
  end.

(** tickdata.go:191-207; the loop never needs more rounds than there are ticks (TickDataFacts.v). *)
Definition binarySearch (t : TickData) (tick : Z) : res Z :=
  do below <- isBelowSmallest t tick;
  do _ <- invariant (negb below);
  bsLoop (S (length (ticks t))) t tick 0 (lenT t - 1).

(** The loop of binarySearch2, tickdata.go:226-241. *)
Fixpoint bs2Loop (fuel : nat) (t : TickData) (tick l r : Z) : res (Z * bool) :=
  match fuel with
  | O => OutOfFuel
  | S fuel =>
      if l <? r then
        let i := l + (r - l) ÷ 2 in
        do x <- tickAt t i;
        if tick =? tkIndex x then Ok (i, true)
        else if tkIndex x <? tick then bs2Loop fuel t tick (i + 1) r
        else bs2Loop fuel t tick l i
      else
        do x <- tickAt t l;
        Ok (l, tick =? tkIndex x)
  end.

(** tickdata.go:209-243 *)
Definition binarySearch2 (t : TickData) (tick : Z) : res (Z * bool) :=
  if lenT t =? 0 then Ok (-2, false)
  else
    do below <- isBelowSmallest t tick;
    if below then Ok (-1, false)
    else
      do above <- isAboveLargest t tick;
      if above then Ok (-2, false)
      else bs2Loop (S (length (ticks t))) t tick 0 (lenT t - 1).

(** tickdata.go:60-64 *)
Definition GetTick (t : TickData) (index : Z) : res Tick :=
  do i <- binarySearch t index;
  do tick <- tickAt t i;
  do _ <- invariant (tkIndex tick =? index);
  Ok tick.

(** [t.ticks[i]] replaced: the effect of mutating the integers the i-th tick points to. *)
Definition setAt (l : list Tick) (i : Z) (x : Tick) : list Tick :=
  firstn (Z.to_nat i) l ++ x :: skipn (Z.to_nat i + 1) l.

(** tickdata.go:66-73 *)
Definition Cross (t : TickData) (tick feeGrowthGlobal0 feeGrowthGlobal1 : Z) : res (TickData * Z) :=
  do i <- binarySearch t tick;
  do info <- tickAt t i;
  do _ <- invariant (tkIndex info =? tick);
  let info' := mkTick (tkIndex info) (tkNet info) (tkGross info)
                 (usub feeGrowthGlobal0 (tkOut0 info)) (usub feeGrowthGlobal1 (tkOut1 info)) in
  Ok (with_ticks t (setAt (ticks t) i info'), tkNet info).

(** tickdata.go:75-94 *)
Definition makeTick (tick tickCurrent liquidityNet liquidityGross out0 out1 : Z) : Tick :=
  if tick <=? tickCurrent then mkTick tick liquidityNet liquidityGross out0 out1
  else mkTick tick liquidityNet liquidityGross 0 0.

(** tickdata.go:96-103 (a tick that is not there is only reported on stdout) *)
Definition ClearTick (t : TickData) (index : Z) : res TickData :=
  do r <- binarySearch2 t index;
  let '(i, found) := r in
  if found then Ok (with_ticks t (firstn (Z.to_nat i) (ticks t) ++ skipn (Z.to_nat i + 1) (ticks t)))
  else Ok t.

(** tickdata.go:105-139.  [append(t.ticks[:i+1], t.ticks[i:]...)] copies with overlap-safe memmove, so
    after [t.ticks[i] = tick] the new tick stands before the old i-th one. *)
Definition UpdateTick (t : TickData) (index tickCurrent liquidityDelta feeGrowthGlobal0 feeGrowthGlobal1 : Z)
    (upper : bool) : res (TickData * bool) :=
  do r <- binarySearch2 t index;
  let '(i, found) := r in
  let z := if upper then uneg liquidityDelta else liquidityDelta in
  if found then
    do tick <- tickAt t i;
    let net := if upper then usub (tkNet tick) liquidityDelta else uadd (tkNet tick) liquidityDelta in
    let gross := uadd (tkGross tick) liquidityDelta in
    let tick' := mkTick (tkIndex tick) net gross (tkOut0 tick) (tkOut1 tick) in
    Ok (with_ticks t (setAt (ticks t) i tick'), gross =? 0)
  else
    let tick := makeTick index tickCurrent z liquidityDelta feeGrowthGlobal0 feeGrowthGlobal1 in
    if i =? -2 then Ok (with_ticks t (ticks t ++ [tick]), false)
    else if i =? -1 then Ok (with_ticks t (tick :: ticks t), false)
    else Ok (with_ticks t (firstn (Z.to_nat i) (ticks t) ++ tick :: skipn (Z.to_nat i) (ticks t)), false).

(** tickdata.go:141-165 *)
Definition GetFeeGrowthInside (t : TickData) (tickLower tickUpper tickCurrent global0 global1 : Z) : res (Z * Z) :=
  do lower <- GetTick t tickLower;
  do upper <- GetTick t tickUpper;
  let '(below0, below1) :=
    if tickLower <=? tickCurrent then (tkOut0 lower, tkOut1 lower)
    else (usub global0 (tkOut0 lower), usub global1 (tkOut1 lower)) in
  let '(above0, above1) :=
    if tickCurrent <? tickUpper then (tkOut0 upper, tkOut1 upper)
    else (usub global0 (tkOut0 upper), usub global1 (tkOut1 upper)) in
  Ok (usub (usub global0 below0) above0, usub (usub global1 below1) above1).

(** tickdata.go:245-261 *)
Definition nextInitializedTick (t : TickData) (tick : Z) (lte : bool) : res Tick :=
  if lte then
    do below <- isBelowSmallest t tick;
    do _ <- invariant (negb below);
    do above <- isAtOrAboveLargest t tick;
    if above then tickAt t (lenT t - 1)
    else do index <- binarySearch t tick; tickAt t index
  else
    do above <- isAtOrAboveLargest t tick;
    do _ <- invariant (negb above);
    do below <- isBelowSmallest t tick;
    if below then tickAt t 0
    else do index <- binarySearch t tick; tickAt t (index + 1).

(** tickdata.go:263-275 *)
Definition minI (a b : Z) : Z := if a <? b then a else b.
Definition maxI (a b : Z) : Z := if b <? a then a else b.

(** tickdata.go:167-189.  Go's [/] truncates toward zero (and panics on 0), [>>] is arithmetic. *)
Definition NextInitializedTickWithinOneWord (t : TickData) (tick : Z) (lte : bool) : res (Z * bool) :=
  do _ <- invariant (negb (tickSpacing t =? 0));
  let compressed := tick ÷ tickSpacing t in
  if lte then
    let wordPos := Z.shiftr compressed 8 in
    let minimum := Z.shiftl wordPos 8 * tickSpacing t in
    do below <- isBelowSmallest t tick;
    if below then Ok (minimum, false)
    else
      do x <- nextInitializedTick t tick lte;
      let next := maxI minimum (tkIndex x) in
      Ok (next, next =? tkIndex x)
  else
    let wordPos := Z.shiftr (compressed + 1) 8 in
    let maximum := (Z.shiftl (wordPos + 1) 8 - 1) * tickSpacing t in
    do above <- isAtOrAboveLargest t tick;
    if above then Ok (maximum, false)
    else
      do x <- nextInitializedTick t tick lte;
      let next := minI maximum (tkIndex x) in
      Ok (next, next =? tkIndex x).
