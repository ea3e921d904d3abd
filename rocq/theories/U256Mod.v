(** U256Mod.v -- model of /repo/uint256/mod.go (Reciprocal, reduce4, leadingZeros) and of
    MulMod / MulModWithReciprocal (/repo/uint256/uint256.go:612-679).

    Each straight-line block of Go is one definition here, statement by statement: a Go line
    [a, b = bits.Mul64(x, y)] is the line [let '(a, b) := mul64 x y in], with the Go variable names
    ([y\[i\]], [m\[i\]], [mu\[i\]] are written yi, mi, mui).  A [5]uint64 is a 5-tuple, a [8]uint64
    the eight-word list Umul returns. *)
From Verif Require Import Base U256 U256Div.

(** mod.go:13-20 *)
Definition leadingZeros (x : Int) : Z :=
  let z := lz64 (l3 x) in
  let t := lz64 (l2 x) in let z := if z =? 64 then t + 64 else z in
  let t := lz64 (l1 x) in let z := if z =? 128 then t + 128 else z in
  let t := lz64 (l0 x) in let z := if z =? 192 then t + 192 else z in
  z.

(** math/bits.Div32(hi, lo, y): panics for y <= hi (which covers y = 0). *)
Definition div32 (hi lo y : Z) : res (Z * Z) :=
  if y <=? hi then Panic
  else Ok ((hi * 4294967296 + lo) / y mod 4294967296, (hi * 4294967296 + lo) mod y).

(** mod.go:64-71: [yh := uint32(y\[3\] >> 32)] and the 32-bit starting value *)
Definition recip_r0 (y3 : Z) : res Z :=
  let yh := wshr y3 32 mod 4294967296 in
  if yh =? 2147483648 then Ok 4294967295
  else do qr <- div32 2147483648 0 yh; Ok (fst qr).

(** mod.go:75-85: first iteration *)
Definition recip_r1 (r0 y3 : Z) : Z :=
  let t1 := r0 in
  let t1 := wmul t1 t1 in
  let '(t1, _) := mul64 t1 y3 in
  let r1 := wshl r0 32 in
  let r1 := wsub r1 t1 in
  let r1 := wmul r1 2 in
  if Z.lor r1 (wshl y3 1) =? 0 then W - 1 else r1.

(** mod.go:90-104  second iteration: square of r1 times y *)
Definition recip_e2 (r1 y2 y3 : Z) : Z * Z :=
  let '(a2h, a2l) := mul64 r1 r1 in
  let '(b2h, _) := mul64 a2l y2 in
  let '(c2h, c2l) := mul64 a2l y3 in
  let '(d2h, d2l) := mul64 a2h y2 in
  let '(e2h, e2l) := mul64 a2h y3 in
  let '(b2h, c) := add64 b2h c2l 0 in
  let '(e2l, c) := add64 e2l c2h c in
  let '(e2h, _) := add64 e2h 0 c in
  let '(_, c) := add64 b2h d2l 0 in
  let '(e2l, c) := add64 e2l d2h c in
  let '(e2h, _) := add64 e2h 0 c in
  (e2h, e2l).

(** mod.go:107-112  subtract and double *)
Definition recip_t2 (r1 e2h e2l : Z) : Z * Z :=
  let '(t2l, b) := sub64 0 e2l 0 in
  let '(t2h, _) := sub64 r1 e2h b in
  let '(r2l, c) := add64 t2l t2l 0 in
  let '(r2h, _) := add64 t2h t2h c in
  (r2h, r2l).

(** mod.go:90-117: second iteration *)
Definition recip_r2 (r1 y2 y3 : Z) : Z * Z :=
  let '(e2h, e2l) := recip_e2 r1 y2 y3 in
  let '(r2h, r2l) := recip_t2 r1 e2h e2l in
  if Z.lor (Z.lor r2h r2l) (wshl y3 1) =? 0 then (W - 1, W - 1) else (r2h, r2l).

(** mod.go:122-132  third iteration: square of r2 *)
Definition recip_sq2 (r2l r2h : Z) : Z * Z * Z * Z :=
  let '(a3h, a3l) := mul64 r2l r2l in
  let '(b3h, b3l) := mul64 r2l r2h in
  let '(c3h, c3l) := mul64 r2h r2h in
  let '(a3h, c) := add64 a3h b3l 0 in
  let '(c3l, c) := add64 c3l b3h c in
  let '(c3h, _) := add64 c3h 0 c in
  let '(a3h, c) := add64 a3h b3l 0 in
  let '(c3l, c) := add64 c3l b3h c in
  let '(c3h, _) := add64 c3h 0 c in
  (a3l, a3h, c3l, c3h).

(** mod.go:143-164  multiply by y, keeping 320 bits *)
Definition recip_mul3 (x0 x1 x2 x3 y0 y1 y2 y3 : Z) : Z * Z * Z * Z * Z :=
  let '(q0, _) := mul64 x2 y0 in
  let '(q1, t0) := mul64 x3 y0 in let '(q0, c) := add64 q0 t0 0 in let '(q1, _) := add64 q1 0 c in
  let '(t1, _) := mul64 x1 y1 in let '(q0, c) := add64 q0 t1 0 in
  let '(q2, t0) := mul64 x3 y1 in let '(q1, c) := add64 q1 t0 c in let '(q2, _) := add64 q2 0 c in
  let '(t1, t0) := mul64 x2 y1 in let '(q0, c) := add64 q0 t0 0 in let '(q1, c) := add64 q1 t1 c in let '(q2, _) := add64 q2 0 c in
  let '(t1, t0) := mul64 x1 y2 in let '(q0, c) := add64 q0 t0 0 in let '(q1, c) := add64 q1 t1 c in
  let '(q3, t0) := mul64 x3 y2 in let '(q2, c) := add64 q2 t0 c in let '(q3, _) := add64 q3 0 c in
  let '(t1, _) := mul64 x0 y2 in let '(q0, c) := add64 q0 t1 0 in
  let '(t1, t0) := mul64 x2 y2 in let '(q1, c) := add64 q1 t0 c in let '(q2, c) := add64 q2 t1 c in let '(q3, _) := add64 q3 0 c in
  let '(t1, t0) := mul64 x1 y3 in let '(q1, c) := add64 q1 t0 0 in let '(q2, c) := add64 q2 t1 c in
  let '(q4, t0) := mul64 x3 y3 in let '(q3, c) := add64 q3 t0 c in let '(q4, _) := add64 q4 0 c in
  let '(t1, t0) := mul64 x0 y3 in let '(q0, c) := add64 q0 t0 0 in let '(q1, c) := add64 q1 t1 c in
  let '(t1, t0) := mul64 x2 y3 in let '(q2, c) := add64 q2 t0 c in let '(q3, c) := add64 q3 t1 c in let '(q4, _) := add64 q4 0 c in
  (q0, q1, q2, q3, q4).

(** mod.go:167-176  subtract and double *)
Definition recip_r3 (r2l r2h q0 q1 q2 q3 q4 : Z) : Z * Z * Z :=
  let '(_, b) := sub64 0 q0 0 in
  let '(_, b) := sub64 0 q1 b in
  let '(t3l, b) := sub64 0 q2 b in
  let '(t3m, b) := sub64 r2l q3 b in
  let '(t3h, _) := sub64 r2h q4 b in
  let '(r3l, c) := add64 t3l t3l 0 in
  let '(r3m, c) := add64 t3m t3m c in
  let '(r3h, _) := add64 t3h t3h c in
  (r3l, r3m, r3h).

(** mod.go:182-203  fourth iteration: square of r3 *)
Definition recip_sq3 (r3l r3m r3h : Z) : Z * Z * Z * Z * Z * Z :=
  let '(a4h, a4l) := mul64 r3l r3l in
  let '(b4h, b4l) := mul64 r3l r3m in
  let '(c4h, c4l) := mul64 r3l r3h in
  let '(d4h, d4l) := mul64 r3m r3m in
  let '(e4h, e4l) := mul64 r3m r3h in
  let '(f4h, f4l) := mul64 r3h r3h in
  let '(b4h, c) := add64 b4h c4l 0 in
  let '(e4l, c) := add64 e4l c4h c in
  let '(e4h, _) := add64 e4h 0 c in
  let '(a4h, c) := add64 a4h b4l 0 in
  let '(d4l, c) := add64 d4l b4h c in
  let '(d4h, c) := add64 d4h e4l c in
  let '(f4l, c) := add64 f4l e4h c in
  let '(f4h, _) := add64 f4h 0 c in
  let '(a4h, c) := add64 a4h b4l 0 in
  let '(d4l, c) := add64 d4l b4h c in
  let '(d4h, c) := add64 d4h e4l c in
  let '(f4l, c) := add64 f4l e4h c in
  let '(f4h, _) := add64 f4h 0 c in
  (a4l, a4h, d4l, d4h, f4l, f4h).

(** mod.go:207-231  multiply by y, keeping 448 bits *)
Definition recip_mul4 (a4l a4h d4l d4h f4l f4h y0 y1 y2 y3 : Z) : Z * Z * Z * Z * Z * Z * Z :=
  let '(x1, x0) := mul64 d4h y0 in
  let '(x3, x2) := mul64 f4h y0 in
  let '(t1, t0) := mul64 f4l y0 in let '(x1, c) := add64 x1 t0 0 in let '(x2, c) := add64 x2 t1 c in
  let '(x3, _) := add64 x3 0 c in
  let '(t1, t0) := mul64 d4h y1 in let '(x1, c) := add64 x1 t0 0 in let '(x2, c) := add64 x2 t1 c in
  let '(x4, t0) := mul64 f4h y1 in let '(x3, c) := add64 x3 t0 c in let '(x4, _) := add64 x4 0 c in
  let '(t1, t0) := mul64 d4l y1 in let '(x0, c) := add64 x0 t0 0 in let '(x1, c) := add64 x1 t1 c in
  let '(t1, t0) := mul64 f4l y1 in let '(x2, c) := add64 x2 t0 c in let '(x3, c) := add64 x3 t1 c in
  let '(x4, _) := add64 x4 0 c in
  let '(t1, t0) := mul64 a4h y2 in let '(x0, c) := add64 x0 t0 0 in let '(x1, c) := add64 x1 t1 c in
  let '(t1, t0) := mul64 d4h y2 in let '(x2, c) := add64 x2 t0 c in let '(x3, c) := add64 x3 t1 c in
  let '(x5, t0) := mul64 f4h y2 in let '(x4, c) := add64 x4 t0 c in let '(x5, _) := add64 x5 0 c in
  let '(t1, t0) := mul64 d4l y2 in let '(x1, c) := add64 x1 t0 0 in let '(x2, c) := add64 x2 t1 c in
  let '(t1, t0) := mul64 f4l y2 in let '(x3, c) := add64 x3 t0 c in let '(x4, c) := add64 x4 t1 c in
  let '(x5, _) := add64 x5 0 c in
  let '(t1, t0) := mul64 a4h y3 in let '(x1, c) := add64 x1 t0 0 in let '(x2, c) := add64 x2 t1 c in
  let '(t1, t0) := mul64 d4h y3 in let '(x3, c) := add64 x3 t0 c in let '(x4, c) := add64 x4 t1 c in
  let '(x6, t0) := mul64 f4h y3 in let '(x5, c) := add64 x5 t0 c in let '(x6, _) := add64 x6 0 c in
  let '(t1, t0) := mul64 a4l y3 in let '(x0, c) := add64 x0 t0 0 in let '(x1, c) := add64 x1 t1 c in
  let '(t1, t0) := mul64 d4l y3 in let '(x2, c) := add64 x2 t0 c in let '(x3, c) := add64 x3 t1 c in
  let '(t1, t0) := mul64 f4l y3 in let '(x4, c) := add64 x4 t0 c in let '(x5, c) := add64 x5 t1 c in
  let '(x6, _) := add64 x6 0 c in
  (x0, x1, x2, x3, x4, x5, x6).

(** mod.go:234-240  subtract *)
Definition recip_r4 (r3l r3m r3h x0 x1 x2 x3 x4 x5 x6 : Z) : Z * Z * Z * Z * Z :=
  let '(_, b) := sub64 0 x0 0 in
  let '(_, b) := sub64 0 x1 b in
  let '(r4l, b) := sub64 0 x2 b in
  let '(r4k, b) := sub64 0 x3 b in
  let '(r4j, b) := sub64 r3l x4 b in
  let '(r4i, b) := sub64 r3m x5 b in
  let '(r4h, _) := sub64 r3h x6 b in
  (r4l, r4k, r4j, r4i, r4h).

(** mod.go:250-276  candidate times y in full *)
Definition recip_full (x0 x1 x2 x3 x4 y0 y1 y2 y3 : Z) : Z * Z * Z * Z * Z * Z * Z * Z * Z :=
  let '(q1, q0) := mul64 x0 y0 in
  let '(q3, q2) := mul64 x2 y0 in
  let '(q5, q4) := mul64 x4 y0 in
  let '(t1, t0) := mul64 x1 y0 in let '(q1, c) := add64 q1 t0 0 in let '(q2, c) := add64 q2 t1 c in
  let '(t1, t0) := mul64 x3 y0 in let '(q3, c) := add64 q3 t0 c in let '(q4, c) := add64 q4 t1 c in let '(q5, _) := add64 q5 0 c in
  let '(t1, t0) := mul64 x0 y1 in let '(q1, c) := add64 q1 t0 0 in let '(q2, c) := add64 q2 t1 c in
  let '(t1, t0) := mul64 x2 y1 in let '(q3, c) := add64 q3 t0 c in let '(q4, c) := add64 q4 t1 c in
  let '(q6, t0) := mul64 x4 y1 in let '(q5, c) := add64 q5 t0 c in let '(q6, _) := add64 q6 0 c in
  let '(t1, t0) := mul64 x1 y1 in let '(q2, c) := add64 q2 t0 0 in let '(q3, c) := add64 q3 t1 c in
  let '(t1, t0) := mul64 x3 y1 in let '(q4, c) := add64 q4 t0 c in let '(q5, c) := add64 q5 t1 c in let '(q6, _) := add64 q6 0 c in
  let '(t1, t0) := mul64 x0 y2 in let '(q2, c) := add64 q2 t0 0 in let '(q3, c) := add64 q3 t1 c in
  let '(t1, t0) := mul64 x2 y2 in let '(q4, c) := add64 q4 t0 c in let '(q5, c) := add64 q5 t1 c in
  let '(q7, t0) := mul64 x4 y2 in let '(q6, c) := add64 q6 t0 c in let '(q7, _) := add64 q7 0 c in
  let '(t1, t0) := mul64 x1 y2 in let '(q3, c) := add64 q3 t0 0 in let '(q4, c) := add64 q4 t1 c in
  let '(t1, t0) := mul64 x3 y2 in let '(q5, c) := add64 q5 t0 c in let '(q6, c) := add64 q6 t1 c in let '(q7, _) := add64 q7 0 c in
  let '(t1, t0) := mul64 x0 y3 in let '(q3, c) := add64 q3 t0 0 in let '(q4, c) := add64 q4 t1 c in
  let '(t1, t0) := mul64 x2 y3 in let '(q5, c) := add64 q5 t0 c in let '(q6, c) := add64 q6 t1 c in
  let '(q8, t0) := mul64 x4 y3 in let '(q7, c) := add64 q7 t0 c in let '(q8, _) := add64 q8 0 c in
  let '(t1, t0) := mul64 x1 y3 in let '(q4, c) := add64 q4 t0 0 in let '(q5, c) := add64 q5 t1 c in
  let '(t1, t0) := mul64 x3 y3 in let '(q6, c) := add64 q6 t0 c in let '(q7, c) := add64 q7 t1 c in let '(q8, _) := add64 q8 0 c in
  (q0, q1, q2, q3, q4, q5, q6, q7, q8).

(** mod.go:281-289  does 2^574 - q borrow? *)
Definition recip_borrow (q0 q1 q2 q3 q4 q5 q6 q7 q8 : Z) : Z :=
  let '(_, b) := sub64 0 q0 0 in
  let '(_, b) := sub64 0 q1 b in
  let '(_, b) := sub64 0 q2 b in
  let '(_, b) := sub64 0 q3 b in
  let '(_, b) := sub64 0 q4 b in
  let '(_, b) := sub64 0 q5 b in
  let '(_, b) := sub64 0 q6 b in
  let '(_, b) := sub64 0 q7 b in
  let '(_, b) := sub64 4611686018427387904 q8 b in
  b.

(** mod.go:292-296  decrement *)
Definition recip_dec (r4l r4k r4j r4i r4h : Z) : Z * Z * Z * Z * Z :=
  let '(x0, t) := sub64 r4l 1 0 in
  let '(x1, t) := sub64 r4k 0 t in
  let '(x2, t) := sub64 r4j 0 t in
  let '(x3, t) := sub64 r4i 0 t in
  let '(x4, _) := sub64 r4h 0 t in
  (x0, x1, x2, x3, x4).

(** mod.go:307-311  double *)
Definition recip_dbl (r4l r4k r4j r4i r4h : Z) : Z * Z * Z * Z * Z :=
  let '(x0, c) := add64 r4l r4l 0 in
  let '(x1, c) := add64 r4k r4k c in
  let '(x2, c) := add64 r4j r4j c in
  let '(x3, c) := add64 r4i r4i c in
  let '(x4, _) := add64 r4h r4h c in
  (x0, x1, x2, x3, x4).

(** mod.go:318-327: shift right by p (0 <= p <= 62) *)
Definition recip_shr (p r4l r4k r4j r4i r4h : Z) : Z * Z * Z * Z * Z :=
  let r := p in
  let l := 64 - r in
  (Z.lor (wshr r4l r) (wshl r4k l), Z.lor (wshr r4k r) (wshl r4j l),
   Z.lor (wshr r4j r) (wshl r4i l), Z.lor (wshr r4i r) (wshl r4h l), wshr r4h r).

(** mod.go:246-301: full-precision check of the candidate and commit of the decrement *)
Definition recip_adjust (r4l r4k r4j r4i r4h y0 y1 y2 y3 : Z) : Z * Z * Z * Z * Z :=
  let '(q0, q1, q2, q3, q4, q5, q6, q7, q8) := recip_full r4l r4k r4j r4i r4h y0 y1 y2 y3 in
  let b := recip_borrow q0 q1 q2 q3 q4 q5 q6 q7 q8 in
  let '(x0, x1, x2, x3, x4) := recip_dec r4l r4k r4j r4i r4h in
  if negb (b =? 0) then (x0, x1, x2, x3, x4) else (r4l, r4k, r4j, r4i, r4h).

(** mod.go:305-339: alignment; [p] is 255 - s *)
Definition recip_align (p r4l r4k r4j r4i r4h : Z) : Z * Z * Z * Z * Z :=
  let p := Z.land p 63 - 1 in
  let '(x0, x1, x2, x3, x4) := recip_dbl r4l r4k r4j r4i r4h in
  let '(p, (r4l, r4k, r4j, r4i, r4h)) :=
    if p <? 0 then (0, (x0, x1, x2, x3, x4)) else (p, (r4l, r4k, r4j, r4i, r4h)) in
  let '(x0, x1, x2, x3, x4) := recip_shr p r4l r4k r4j r4i r4h in
  if 0 <? p then (x0, x1, x2, x3, x4) else (r4l, r4k, r4j, r4i, r4h).

(** mod.go:60-301 for the left-aligned divisor y: the aligned reciprocal r4 *)
Definition recip_newton (y : Int) : res (Z * Z * Z * Z * Z) :=
  let '(mkInt y0 y1 y2 y3) := y in
  do r0 <- recip_r0 y3;
  let r1 := recip_r1 r0 y3 in
  let '(r2h, r2l) := recip_r2 r1 y2 y3 in
  let '(x0, x1, x2, x3) := recip_sq2 r2l r2h in
  let '(q0, q1, q2, q3, q4) := recip_mul3 x0 x1 x2 x3 y0 y1 y2 y3 in
  let '(r3l, r3m, r3h) := recip_r3 r2l r2h q0 q1 q2 q3 q4 in
  let '(a4l, a4h, d4l, d4h, f4l, f4h) := recip_sq3 r3l r3m r3h in
  let '(x0, x1, x2, x3, x4, x5, x6) := recip_mul4 a4l a4h d4l d4h f4l f4h y0 y1 y2 y3 in
  let '(r4l, r4k, r4j, r4i, r4h) := recip_r4 r3l r3m r3h x0 x1 x2 x3 x4 x5 x6 in
  Ok (recip_adjust r4l r4k r4j r4i r4h y0 y1 y2 y3).

(** mod.go:28-340 *)
Definition Reciprocal (m : Int) : res (Z * Z * Z * Z * Z) :=
  if l3 m =? 0 then Ok (0, 0, 0, 0, 0)
  else
    let s := lz64 (l3 m) in
    let p := 255 - s in
    if Z.lor (Z.lor (Z.lor (l0 m) (l1 m)) (l2 m)) (Z.land (l3 m) (wsub (l3 m) 1)) =? 0 then
      Ok (W - 1, W - 1, W - 1, W - 1, wshr (W - 1) (Z.land p 63))
    else
      let y := Lsh m s in
      do r4 <- recip_newton y;
      let '(r4l, r4k, r4j, r4i, r4h) := r4 in
      Ok (recip_align p r4l r4k r4j r4i r4h).

(** mod.go:362-392  q1 * mu / 2^320, in HAC notation (the low word is dropped) *)
Definition reduce_q (x0 x1 x2 x3 x4 mu0 mu1 mu2 mu3 mu4 : Z) : Z * Z * Z * Z * Z :=
  let '(q0, _) := mul64 x3 mu0 in
  let '(q1, t0) := mul64 x4 mu0 in let '(q0, c) := add64 q0 t0 0 in let '(q1, _) := add64 q1 0 c in
  let '(t1, _) := mul64 x2 mu1 in let '(q0, c) := add64 q0 t1 0 in
  let '(q2, t0) := mul64 x4 mu1 in let '(q1, c) := add64 q1 t0 c in let '(q2, _) := add64 q2 0 c in
  let '(t1, t0) := mul64 x3 mu1 in let '(q0, c) := add64 q0 t0 0 in let '(q1, c) := add64 q1 t1 c in let '(q2, _) := add64 q2 0 c in
  let '(t1, t0) := mul64 x2 mu2 in let '(q0, c) := add64 q0 t0 0 in let '(q1, c) := add64 q1 t1 c in
  let '(q3, t0) := mul64 x4 mu2 in let '(q2, c) := add64 q2 t0 c in let '(q3, _) := add64 q3 0 c in
  let '(t1, _) := mul64 x1 mu2 in let '(q0, c) := add64 q0 t1 0 in
  let '(t1, t0) := mul64 x3 mu2 in let '(q1, c) := add64 q1 t0 c in let '(q2, c) := add64 q2 t1 c in let '(q3, _) := add64 q3 0 c in
  let '(t1, _) := mul64 x0 mu3 in let '(q0, c) := add64 q0 t1 0 in
  let '(t1, t0) := mul64 x2 mu3 in let '(q1, c) := add64 q1 t0 c in let '(q2, c) := add64 q2 t1 c in
  let '(q4, t0) := mul64 x4 mu3 in let '(q3, c) := add64 q3 t0 c in let '(q4, _) := add64 q4 0 c in
  let '(t1, t0) := mul64 x1 mu3 in let '(q0, c) := add64 q0 t0 0 in let '(q1, c) := add64 q1 t1 c in
  let '(t1, t0) := mul64 x3 mu3 in let '(q2, c) := add64 q2 t0 c in let '(q3, c) := add64 q3 t1 c in let '(q4, _) := add64 q4 0 c in
  let '(t1, t0) := mul64 x0 mu4 in let '(_, c) := add64 q0 t0 0 in let '(q1, c) := add64 q1 t1 c in
  let '(t1, t0) := mul64 x2 mu4 in let '(q2, c) := add64 q2 t0 c in let '(q3, c) := add64 q3 t1 c in
  let '(q5, t0) := mul64 x4 mu4 in let '(q4, c) := add64 q4 t0 c in let '(q5, _) := add64 q5 0 c in
  let '(t1, t0) := mul64 x1 mu4 in let '(q1, c) := add64 q1 t0 0 in let '(q2, c) := add64 q2 t1 c in
  let '(t1, t0) := mul64 x3 mu4 in let '(q3, c) := add64 q3 t0 c in let '(q4, c) := add64 q4 t1 c in let '(q5, _) := add64 q5 0 c in
  (q1, q2, q3, q4, q5).

(** mod.go:414-436  q3 * m mod 2^320 *)
Definition reduce_r2 (q0 q1 q2 q3 q4 m0 m1 m2 m3 : Z) : Z * Z * Z * Z * Z :=
  let '(r4, r3) := mul64 q0 m3 in
  let '(_, t0) := mul64 q1 m3 in let '(r4, _) := add64 r4 t0 0 in
  let '(t1, r2) := mul64 q0 m2 in let '(r3, c) := add64 r3 t1 0 in
  let '(_, t0) := mul64 q2 m2 in let '(r4, _) := add64 r4 t0 c in
  let '(t1, t0) := mul64 q1 m2 in let '(r3, c) := add64 r3 t0 0 in let '(r4, _) := add64 r4 t1 c in
  let '(t1, r1) := mul64 q0 m1 in let '(r2, c) := add64 r2 t1 0 in
  let '(t1, t0) := mul64 q2 m1 in let '(r3, c) := add64 r3 t0 c in let '(r4, _) := add64 r4 t1 c in
  let '(t1, t0) := mul64 q1 m1 in let '(r2, c) := add64 r2 t0 0 in let '(r3, c) := add64 r3 t1 c in
  let '(_, t0) := mul64 q3 m1 in let '(r4, _) := add64 r4 t0 c in
  let '(t1, r0) := mul64 q0 m0 in let '(r1, c) := add64 r1 t1 0 in
  let '(t1, t0) := mul64 q2 m0 in let '(r2, c) := add64 r2 t0 c in let '(r3, c) := add64 r3 t1 c in
  let '(_, t0) := mul64 q4 m0 in let '(r4, _) := add64 r4 t0 c in
  let '(t1, t0) := mul64 q1 m0 in let '(r1, c) := add64 r1 t0 0 in let '(r2, c) := add64 r2 t1 c in
  let '(t1, t0) := mul64 q3 m0 in let '(r3, c) := add64 r3 t0 c in let '(r4, _) := add64 r4 t1 c in
  (r0, r1, r2, r3, r4).

(** mod.go:443-447  r = r1 - r2 *)
Definition reduce_sub (x0 x1 x2 x3 x4 r0 r1 r2 r3 r4 : Z) : Z * Z * Z * Z * Z * Z :=
  let '(r0, b) := sub64 x0 r0 0 in
  let '(r1, b) := sub64 x1 r1 b in
  let '(r2, b) := sub64 x2 r2 b in
  let '(r3, b) := sub64 x3 r3 b in
  let '(r4, b) := sub64 x4 r4 b in
  (r0, r1, r2, r3, r4, b).

(** mod.go:452-456  r += m *)
Definition reduce_add (r0 r1 r2 r3 r4 m0 m1 m2 m3 : Z) : Z * Z * Z * Z * Z :=
  let '(r0, c) := add64 r0 m0 0 in
  let '(r1, c) := add64 r1 m1 c in
  let '(r2, c) := add64 r2 m2 c in
  let '(r3, c) := add64 r3 m3 c in
  let '(r4, _) := add64 r4 0 c in
  (r0, r1, r2, r3, r4).

(** mod.go:463-467  q = r - m *)
Definition reduce_step (r0 r1 r2 r3 r4 m0 m1 m2 m3 : Z) : Z * Z * Z * Z * Z * Z :=
  let '(q0, b) := sub64 r0 m0 0 in
  let '(q1, b) := sub64 r1 m1 b in
  let '(q2, b) := sub64 r2 m2 b in
  let '(q3, b) := sub64 r3 m3 b in
  let '(q4, b) := sub64 r4 0 b in
  (q0, q1, q2, q3, q4, b).

(** mod.go:461-476: while (r >= m) r -= m *)
Fixpoint reduce_loop (fuel : nat) (r0 r1 r2 r3 r4 m0 m1 m2 m3 : Z) : res Int :=
  match fuel with
  | O => OutOfFuel
  | S k =>
      let '(q0, q1, q2, q3, q4, b) := reduce_step r0 r1 r2 r3 r4 m0 m1 m2 m3 in
      if negb (b =? 0) then Ok (mkInt r0 r1 r2 r3)
      else reduce_loop k q0 q1 q2 q3 q4 m0 m1 m2 m3
  end.

(** The number of rounds the model allows; theorem C10_reduce4 shows that a true reciprocal never
    needs more, so that [OutOfFuel] does not occur. *)
Definition reduce_fuel : nat := 10.

(** mod.go:345-481 *)
Definition reduce4 (x : list Z) (m : Int) (mu : Z * Z * Z * Z * Z) : res Int :=
  match x with
  | [p0; p1; p2; p3; p4; p5; p6; p7] =>
      let '(mkInt m0 m1 m2 m3) := m in
      let '(mu0, mu1, mu2, mu3, mu4) := mu in
      let '(q0, q1, q2, q3, q4) := reduce_q p3 p4 p5 p6 p7 mu0 mu1 mu2 mu3 mu4 in
      let '(r0, r1, r2, r3, r4) := reduce_r2 q0 q1 q2 q3 q4 m0 m1 m2 m3 in
      let '(r0, r1, r2, r3, r4, b) := reduce_sub p0 p1 p2 p3 p4 r0 r1 r2 r3 r4 in
      let '(r0, r1, r2, r3, r4) :=
        if negb (b =? 0) then reduce_add r0 r1 r2 r3 r4 m0 m1 m2 m3 else (r0, r1, r2, r3, r4) in
      reduce_loop reduce_fuel r0 r1 r2 r3 r4 m0 m1 m2 m3
  | _ => Panic                     (* unreachable: Umul returns eight words *)
  end.

(** uint256.go:628-642 = 659-673, the branch m\[3\] = 0 *)
Definition mulmod_small (p : list Z) (m : Int) : res Int :=
  match p with
  | [p0; p1; p2; p3; p4; p5; p6; p7] =>
      let pl := mkInt p0 p1 p2 p3 in
      let ph := mkInt p4 p5 p6 p7 in
      if IsZero ph then Mod pl m
      else
        do qr <- Udivrem [0; 0; 0; 0; 0; 0; 0; 0] p m;
        Ok (snd qr)
  | _ => Panic                     (* unreachable: Umul returns eight words *)
  end.

(** uint256.go:616-642 *)
Definition MulModWithReciprocal (x y m : Int) (mu : Z * Z * Z * Z * Z) : res Int :=
  if IsZero x || IsZero y || IsZero m then Ok Clear
  else
    let p := Umul x y in
    if negb (l3 m =? 0) then reduce4 p m mu
    else mulmod_small p m.

(** uint256.go:647-674 *)
Definition MulMod (x y m : Int) : res Int :=
  if IsZero x || IsZero y || IsZero m then Ok Clear
  else
    let p := Umul x y in
    if negb (l3 m =? 0) then
      do mu <- Reciprocal m;
      reduce4 p m mu
    else mulmod_small p m.
