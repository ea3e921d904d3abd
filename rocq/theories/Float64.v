(** Float64.v -- Go's float64 as the standard library's IEEE-754 binary64 specification (Coq.Floats.SpecFloat with
    precision 53 and maximal exponent 1024), and the functions of tickmath.go that go through it.
    Simplification: a rounded result of zero loses its sign (int(-0.0) and int(0.0) are both 0). *)
From Verif Require Import Base.
From Coq Require Import Floats.SpecFloat.

(** float64(i): nearest double, ties to even *)
Definition f64_of_int (z : Z) : spec_float := binary_normalize 53 1024 z 0 false.
(** float64 division and multiplication *)
Definition f64_div (x y : spec_float) : spec_float := SFdiv 53 1024 x y.
Definition f64_mul (x y : spec_float) : spec_float := SFmul 53 1024 x y.

(** math.Floor, math.Ceil, math.Round (half away from zero) on the value (-1)^s * m * 2^e; zeros, infinities, NaN and
    values with e >= 0, which are integers, are returned unchanged. *)
Definition f64_integral (f : bool -> Z -> Z -> Z) (x : spec_float) : spec_float :=
  match x with
  | S754_finite s m e => if 0 <=? e then x else f64_of_int (f s (Zpos m) (2 ^ (- e)))
  | _ => x
  end.
Definition f64_floor : spec_float -> spec_float := f64_integral (fun s m q => if s then - ((m + q - 1) / q) else m / q).
Definition f64_ceil : spec_float -> spec_float := f64_integral (fun s m q => if s then - (m / q) else (m + q - 1) / q).
Definition f64_rnd : spec_float -> spec_float :=
  f64_integral (fun s m q => let r := (2 * m + q) / (2 * q) in if s then - r else r).

(** int(f): truncation toward zero.  NaN, infinities and out of range values give the amd64 result. *)
Definition f64_to_int (x : spec_float) : Z :=
  match x with
  | S754_zero _ => 0
  | S754_finite s m e =>
      let v := if 0 <=? e then Zpos m * 2 ^ e else Zpos m / 2 ^ (- e) in
      let v := if s then - v else v in
      if (- 2 ^ 63 <=? v) && (v <? 2 ^ 63) then v else - 2 ^ 63
  | _ => - 2 ^ 63
  end.

(** tickmath.go:39-43 *)
Definition Round (ix iunit : Z) : Z :=
  let unit := f64_of_int iunit in f64_to_int (f64_mul (f64_rnd (f64_div (f64_of_int ix) unit)) unit).
(** tickmath.go:45-49 *)
Definition Ceil (ix iunit : Z) : Z :=
  let unit := f64_of_int iunit in f64_to_int (f64_mul (f64_ceil (f64_div (f64_of_int ix) unit)) unit).
(** tickmath.go:51-55 *)
Definition Floor (ix iunit : Z) : Z :=
  let unit := f64_of_int iunit in f64_to_int (f64_mul (f64_floor (f64_div (f64_of_int ix) unit)) unit).
