(** TickLog.v -- getTickAtSqrtRatio, /repo/lib/tickmath/tickmath.go:163-200: the tick of a price by way of a
    binary logarithm.  Nothing in the repository calls it; GetTickAtSqrtRatio searches the table instead. *)
From Verif Require Import Base U256Z TickMath Prices.

(** tickmath.go:183, 186, 188 *)
Definition magicSqrt10001 : Z := 0x3627A301D71055774C85.
Definition magicTickLow : Z := 0x28F6481AB7F045A5AF012A19D003AAA.
Definition magicTickHigh : Z := 0xDB2DF09E81959A81455E260799A0632F.

(** tickmath.go:176-181: one pass through the loop body *)
Definition logBit (i : Z) (s : Z * Z) : Z * Z :=
  let '(r, log2) := s in
  let r := ursh (umul r r) 127 in
  let f := ursh r 128 in
  let log2 := Z.lor log2 (ulsh f (63 - i)) in
  (ursh r (f mod W), log2).
(** tickmath.go:176: n passes, the first with index i *)
Fixpoint logLoop (n : nat) (i : Z) (s : Z * Z) : Z * Z :=
  match n with
  | O => s
  | S n' => logLoop n' (i + 1) (logBit i s)
  end.

(** tickmath.go:164-174: the price brought to 128 bits, and the integer part of the logarithm *)
Definition logStart (sqrtRatioX96 : Z) : Z * Z :=
  let sqrtRatioX128 := ulsh sqrtRatioX96 32 in
  let msb := MostSignificantBit sqrtRatioX128 in
  let r := if 128 <=? msb then ursh sqrtRatioX128 (msb - 127) else ulsh sqrtRatioX128 (127 - msb) in
  (r, ulsh (usub msb 128) 64).

(** tickmath.go:183-189: the two candidates.  [int(z.Uint64())] keeps 64 bits and reads them as signed. *)
Definition tickCandidates (log2 : Z) : Z * Z :=
  let logSqrt10001 := umul log2 magicSqrt10001 in
  (int64 (ursh (usub logSqrt10001 magicTickLow) 128 mod W),
   int64 (ursh (uadd logSqrt10001 magicTickHigh) 128 mod W)).

(** tickmath.go:163-200 *)
Definition getTickAtSqrtRatio (sqrtRatioX96 : Z) : res Z :=
  let '(_, log2) := logLoop 14 0 (logStart sqrtRatioX96) in
  let '(tickLow, tickHigh) := tickCandidates log2 in
  if tickLow =? tickHigh then Ok tickLow
  else
    do sqrtRatio <- getSqrtRatioAtTick tickHigh;
    if sqrtRatio <=? sqrtRatioX96 then Ok tickHigh else Ok tickLow.
