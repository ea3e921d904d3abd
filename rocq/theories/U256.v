(** U256.v -- limb-level model of /repo/uint256/uint256.go (everything except division, which is in
    U256Div.v, Barrett reduction, U256Mod.v, and the byte/string codecs, U256Conv.v).

    [Int] is Go's [type Int [4]uint64] (uint256.go:17), little endian.  A Go method [z.Op(x, y)]
    overwrites [*z] and returns it; the model function returns the new value of [*z].
    (Aliasing of [z] with [x], [y]: see Alias.v.) *)
From Verif Require Import Base.

Record Int : Type := mkInt { l0 : Z; l1 : Z; l2 : Z; l3 : Z }.

(** uint256.go:846-849, 898-913 *)
Definition SetUint64 (v : Z) : Int := mkInt v 0 0 0.
Definition Clear : Int := mkInt 0 0 0 0.
Definition SetOne : Int := mkInt 1 0 0 0.
Definition SetAllOne : Int := mkInt (W-1) (W-1) (W-1) (W-1).

(** uint256.go:166-168 *)
Definition Uint64WithOverflow (z : Int) : Z * bool :=
  (l0 z, negb (Z.lor (Z.lor (l1 z) (l2 z)) (l3 z) =? 0)).

(** uint256.go:176-183 *)
Definition Add (x y : Int) : Int :=
  let '(z0, c) := add64 (l0 x) (l0 y) 0 in
  let '(z1, c) := add64 (l1 x) (l1 y) c in
  let '(z2, c) := add64 (l2 x) (l2 y) c in
  let '(z3, _) := add64 (l3 x) (l3 y) c in
  mkInt z0 z1 z2 z3.

(** uint256.go:186-193 *)
Definition AddOverflow (x y : Int) : Int * bool :=
  let '(z0, c) := add64 (l0 x) (l0 y) 0 in
  let '(z1, c) := add64 (l1 x) (l1 y) c in
  let '(z2, c) := add64 (l2 x) (l2 y) c in
  let '(z3, c) := add64 (l3 x) (l3 y) c in
  (mkInt z0 z1 z2 z3, negb (c =? 0)).

(** uint256.go:247-255 *)
Definition AddUint64 (x : Int) (y : Z) : Int :=
  let '(z0, c) := add64 (l0 x) y 0 in
  let '(z1, c) := add64 (l1 x) 0 c in
  let '(z2, c) := add64 (l2 x) 0 c in
  let '(z3, _) := add64 (l3 x) 0 c in
  mkInt z0 z1 z2 z3.

(** uint256.go:270-277 *)
Definition SubUint64 (x : Int) (y : Z) : Int :=
  let '(z0, c) := sub64 (l0 x) y 0 in
  let '(z1, c) := sub64 (l1 x) 0 c in
  let '(z2, c) := sub64 (l2 x) 0 c in
  let '(z3, _) := sub64 (l3 x) 0 c in
  mkInt z0 z1 z2 z3.

(** uint256.go:280-287 *)
Definition SubOverflow (x y : Int) : Int * bool :=
  let '(z0, c) := sub64 (l0 x) (l0 y) 0 in
  let '(z1, c) := sub64 (l1 x) (l1 y) c in
  let '(z2, c) := sub64 (l2 x) (l2 y) c in
  let '(z3, c) := sub64 (l3 x) (l3 y) c in
  (mkInt z0 z1 z2 z3, negb (c =? 0)).

(** uint256.go:290-297 *)
Definition Sub (x y : Int) : Int :=
  let '(z0, c) := sub64 (l0 x) (l0 y) 0 in
  let '(z1, c) := sub64 (l1 x) (l1 y) c in
  let '(z2, c) := sub64 (l2 x) (l2 y) c in
  let '(z3, _) := sub64 (l3 x) (l3 y) c in
  mkInt z0 z1 z2 z3.

(** uint256.go:300-307: (hi, lo) *)
Definition UmulStep (z x y carry : Z) : Z * Z :=
  let '(hi, lo) := mul64 x y in
  let '(lo, carry) := add64 lo carry 0 in
  let '(hi, _) := add64 hi 0 carry in
  let '(lo, carry) := add64 lo z 0 in
  let '(hi, _) := add64 hi 0 carry in
  (hi, lo).

(** uint256.go:310-315 *)
Definition UmulHop (z x y : Z) : Z * Z :=
  let '(hi, lo) := mul64 x y in
  let '(lo, carry) := add64 lo z 0 in
  let '(hi, _) := add64 hi 0 carry in
  (hi, lo).

(** uint256.go:318-346: the eight result words, least significant first *)
Definition Umul (x y : Int) : list Z :=
  let '(carry, r0) := mul64 (l0 x) (l0 y) in
  let '(carry, res1) := UmulHop carry (l1 x) (l0 y) in
  let '(carry, res2) := UmulHop carry (l2 x) (l0 y) in
  let '(carry4, res3) := UmulHop carry (l3 x) (l0 y) in

  let '(carry, r1) := UmulHop res1 (l0 x) (l1 y) in
  let '(carry, res2) := UmulStep res2 (l1 x) (l1 y) carry in
  let '(carry, res3) := UmulStep res3 (l2 x) (l1 y) carry in
  let '(carry5, res4) := UmulStep carry4 (l3 x) (l1 y) carry in

  let '(carry, r2) := UmulHop res2 (l0 x) (l2 y) in
  let '(carry, res3) := UmulStep res3 (l1 x) (l2 y) carry in
  let '(carry, res4) := UmulStep res4 (l2 x) (l2 y) carry in
  let '(carry6, res5) := UmulStep carry5 (l3 x) (l2 y) carry in

  let '(carry, r3) := UmulHop res3 (l0 x) (l3 y) in
  let '(carry, r4) := UmulStep res4 (l1 x) (l3 y) carry in
  let '(carry, r5) := UmulStep res5 (l2 x) (l3 y) carry in
  let '(r7, r6) := UmulStep carry6 (l3 x) (l3 y) carry in
  [r0; r1; r2; r3; r4; r5; r6; r7].

(** uint256.go:349-371 *)
Definition Mul (x y : Int) : Int :=
  let '(carry, r0) := mul64 (l0 x) (l0 y) in
  let '(carry, res1) := UmulHop carry (l1 x) (l0 y) in
  let '(carry, res2) := UmulHop carry (l2 x) (l0 y) in
  let res3 := wadd (wmul (l3 x) (l0 y)) carry in

  let '(carry, r1) := UmulHop res1 (l0 x) (l1 y) in
  let '(carry, res2) := UmulStep res2 (l1 x) (l1 y) carry in
  let res3 := wadd (wadd res3 (wmul (l2 x) (l1 y))) carry in

  let '(carry, r2) := UmulHop res2 (l0 x) (l2 y) in
  let res3 := wadd (wadd res3 (wmul (l1 x) (l2 y))) carry in

  let r3 := wadd res3 (wmul (l0 x) (l3 y)) in
  mkInt r0 r1 r2 r3.

(** uint256.go:374-378.  [copy(z[:], p[:4])] takes the four low words. *)
Definition MulOverflow (x y : Int) : Int * bool :=
  match Umul x y with
  | [p0; p1; p2; p3; p4; p5; p6; p7] =>
      (mkInt p0 p1 p2 p3, negb (Z.lor (Z.lor (Z.lor p4 p5) p6) p7 =? 0))
  | _ => (Clear, false) (* unreachable: Umul always returns eight words *)
  end.

(** uint256.go:380-399 *)
Definition squared (z : Int) : Int :=
  let '(carry0, r0) := mul64 (l0 z) (l0 z) in
  let '(carry0, res1) := UmulHop carry0 (l0 z) (l1 z) in
  let '(carry0, res2) := UmulHop carry0 (l0 z) (l2 z) in
  let '(carry1, r1) := UmulHop res1 (l0 z) (l1 z) in
  let '(carry1, res2) := UmulStep res2 (l1 z) (l1 z) carry1 in
  let '(carry2, r2) := UmulHop res2 (l0 z) (l2 z) in
  let r3 := wadd (wadd (wadd (wmul 2 (wadd (wmul (l0 z) (l3 z)) (wmul (l1 z) (l2 z)))) carry0)
                       carry1) carry2 in
  mkInt r0 r1 r2 r3.

(** the array access [z[i]] of a [*Int]; an index above 3 panics *)
Definition limb (z : Int) (i : Z) : res Z :=
  if i =? 0 then Ok (l0 z) else if i =? 1 then Ok (l1 z) else
  if i =? 2 then Ok (l2 z) else if i =? 3 then Ok (l3 z) else Panic.

(** uint256.go:403-405 *)
Definition isBitSet (z : Int) (n : Z) : res bool :=
  do w <- limb z (n / 64);
  Ok (negb (Z.land w (wshl 1 (n mod 64)) =? 0)).

(** uint256.go:690-692 and 682-687 *)
Definition Neg (x : Int) : Int := Sub Clear x.
Definition Abs (x : Int) : Int := if l3 x <? 9223372036854775808 then x else Sub Clear x.

(** uint256.go:893-895 *)
Definition IsZero (z : Int) : bool := Z.lor (Z.lor (Z.lor (l0 z) (l1 z)) (l2 z)) (l3 z) =? 0.

(** uint256.go:725-733 *)
Definition Sign (z : Int) : Z :=
  if IsZero z then 0 else if l3 z <? 9223372036854775808 then 1 else -1.

(** uint256.go:736-752 *)
Definition BitLen (z : Int) : Z :=
  if negb (l3 z =? 0) then 192 + len64 (l3 z)
  else if negb (l2 z =? 0) then 128 + len64 (l2 z)
  else if negb (l1 z =? 0) then 64 + len64 (l1 z)
  else len64 (l0 z).
Definition ByteLen (z : Int) : Z := (BitLen z + 7) / 8.

(** uint256.go:754-789 *)
Definition lsh64 (x : Int) : Int := mkInt 0 (l0 x) (l1 x) (l2 x).
Definition lsh128 (x : Int) : Int := mkInt 0 0 (l0 x) (l1 x).
Definition lsh192 (x : Int) : Int := mkInt 0 0 0 (l0 x).
Definition rsh64 (x : Int) : Int := mkInt (l1 x) (l2 x) (l3 x) 0.
Definition rsh128 (x : Int) : Int := mkInt (l2 x) (l3 x) 0 0.
Definition rsh192 (x : Int) : Int := mkInt (l3 x) 0 0 0.
Definition srsh64 (x : Int) : Int := mkInt (l1 x) (l2 x) (l3 x) (W-1).
Definition srsh128 (x : Int) : Int := mkInt (l2 x) (l3 x) (W-1) (W-1).
Definition srsh192 (x : Int) : Int := mkInt (l3 x) (W-1) (W-1) (W-1).

(** uint256.go:792-795 *)
Definition Not (x : Int) : Int := mkInt (wnot (l0 x)) (wnot (l1 x)) (wnot (l2 x)) (wnot (l3 x)).

(** uint256.go:836-843 *)
Definition Lt (z x : Int) : bool :=
  let '(_, c) := sub64 (l0 z) (l0 x) 0 in
  let '(_, c) := sub64 (l1 z) (l1 x) c in
  let '(_, c) := sub64 (l2 z) (l2 x) c in
  let '(_, c) := sub64 (l3 z) (l3 x) c in
  negb (c =? 0).

(** uint256.go:798-800 *)
Definition Gt (z x : Int) : bool := Lt x z.

(** uint256.go:804-817 *)
Definition Slt (z x : Int) : bool :=
  let zSign := Sign z in
  let xSign := Sign x in
  if (0 <=? zSign) && (xSign <? 0) then false
  else if (zSign <? 0) && (0 <=? xSign) then true
  else Lt z x.

(** uint256.go:821-833 *)
Definition Sgt (z x : Int) : bool :=
  let zSign := Sign z in
  let xSign := Sign x in
  if (0 <=? zSign) && (xSign <? 0) then true
  else if (zSign <? 0) && (0 <=? xSign) then false
  else Gt z x.

(** uint256.go:852-854 *)
Definition Eq (z x : Int) : bool :=
  (l0 z =? l0 x) && (l1 z =? l1 x) && (l2 z =? l2 x) && (l3 z =? l3 x).

(** uint256.go:862-875 *)
Definition Cmp (z x : Int) : Z :=
  let '(d0, c) := sub64 (l0 z) (l0 x) 0 in
  let '(d1, c) := sub64 (l1 z) (l1 x) c in
  let '(d2, c) := sub64 (l2 z) (l2 x) c in
  let '(d3, c) := sub64 (l3 z) (l3 x) c in
  if c =? 1 then -1
  else if Z.lor (Z.lor (Z.lor d0 d1) d2) d3 =? 0 then 0 else 1.

(** uint256.go:878-890 *)
Definition LtUint64 (z : Int) (n : Z) : bool :=
  (l0 z <? n) && (Z.lor (Z.lor (l1 z) (l2 z)) (l3 z) =? 0).
Definition GtUint64 (z : Int) (n : Z) : bool :=
  (n <? l0 z) || negb (Z.lor (Z.lor (l1 z) (l2 z)) (l3 z) =? 0).
Definition IsUint64 (z : Int) : bool := Z.lor (Z.lor (l1 z) (l2 z)) (l3 z) =? 0.

(** uint256.go:916-972.  The labels sh64/sh128/sh192 are the four branches below; in the branches
    that jump over an assignment the variables [a], [b] still hold their initial value 0. *)
Definition Lsh (x : Int) (n : Z) : Int :=
  if Z.land n 63 =? 0 then
    if n =? 0 then x
    else if n =? 64 then lsh64 x
    else if n =? 128 then lsh128 x
    else if n =? 192 then lsh192 x
    else Clear
  else if 192 <? n then
    if 256 <? n then Clear
    else
      let z := lsh192 x in let n := n - 192 in
      mkInt (l0 z) (l1 z) (l2 z) (Z.lor (wshl (l3 z) n) 0)
  else if 128 <? n then
      let z := lsh128 x in let n := n - 128 in
      let a := wshr (l2 z) (64 - n) in
      let z2 := Z.lor (wshl (l2 z) n) 0 in
      mkInt (l0 z) (l1 z) z2 (Z.lor (wshl (l3 z) n) a)
  else if 64 <? n then
      let z := lsh64 x in let n := n - 64 in
      let b := wshr (l1 z) (64 - n) in
      let z1 := Z.lor (wshl (l1 z) n) 0 in
      let a := wshr (l2 z) (64 - n) in
      let z2 := Z.lor (wshl (l2 z) n) b in
      mkInt (l0 z) z1 z2 (Z.lor (wshl (l3 z) n) a)
  else
      let z := x in
      let a := wshr (l0 z) (64 - n) in
      let z0 := wshl (l0 z) n in
      let b := wshr (l1 z) (64 - n) in
      let z1 := Z.lor (wshl (l1 z) n) a in
      let a := wshr (l2 z) (64 - n) in
      let z2 := Z.lor (wshl (l2 z) n) b in
      mkInt z0 z1 z2 (Z.lor (wshl (l3 z) n) a).

(** uint256.go:975-1031 *)
Definition Rsh (x : Int) (n : Z) : Int :=
  if Z.land n 63 =? 0 then
    if n =? 0 then x
    else if n =? 64 then rsh64 x
    else if n =? 128 then rsh128 x
    else if n =? 192 then rsh192 x
    else Clear
  else if 192 <? n then
    if 256 <? n then Clear
    else
      let z := rsh192 x in let n := n - 192 in
      mkInt (Z.lor (wshr (l0 z) n) 0) (l1 z) (l2 z) (l3 z)
  else if 128 <? n then
      let z := rsh128 x in let n := n - 128 in
      let a := wshl (l1 z) (64 - n) in
      let z1 := Z.lor (wshr (l1 z) n) 0 in
      mkInt (Z.lor (wshr (l0 z) n) a) z1 (l2 z) (l3 z)
  else if 64 <? n then
      let z := rsh64 x in let n := n - 64 in
      let b := wshl (l2 z) (64 - n) in
      let z2 := Z.lor (wshr (l2 z) n) 0 in
      let a := wshl (l1 z) (64 - n) in
      let z1 := Z.lor (wshr (l1 z) n) b in
      mkInt (Z.lor (wshr (l0 z) n) a) z1 z2 (l3 z)
  else
      let z := x in
      let a := wshl (l3 z) (64 - n) in
      let z3 := wshr (l3 z) n in
      let b := wshl (l2 z) (64 - n) in
      let z2 := Z.lor (wshr (l2 z) n) a in
      let a := wshl (l1 z) (64 - n) in
      let z1 := Z.lor (wshr (l1 z) n) b in
      mkInt (Z.lor (wshr (l0 z) n) a) z1 z2 z3.

(** uint256.go:1036-1092.  The initial value of [a] is MaxUint64 << (64 - n%64). *)
Definition SRsh (x : Int) (n : Z) : res Int :=
  do neg <- isBitSet x 255;
  Ok (
  if negb neg then Rsh x n
  else if n mod 64 =? 0 then
    if n =? 0 then x
    else if n =? 64 then srsh64 x
    else if n =? 128 then srsh128 x
    else if n =? 192 then srsh192 x
    else SetAllOne
  else
    let a := wshl (W-1) (64 - n mod 64) in
    if 192 <? n then
      if 256 <? n then SetAllOne
      else
        let z := srsh192 x in let n := n - 192 in
        mkInt (Z.lor (wshr (l0 z) n) a) (l1 z) (l2 z) (l3 z)
    else if 128 <? n then
        let z := srsh128 x in let n := n - 128 in
        let '(z1, a) := (Z.lor (wshr (l1 z) n) a, wshl (l1 z) (64 - n)) in
        mkInt (Z.lor (wshr (l0 z) n) a) z1 (l2 z) (l3 z)
    else if 64 <? n then
        let z := srsh64 x in let n := n - 64 in
        let '(z2, a) := (Z.lor (wshr (l2 z) n) a, wshl (l2 z) (64 - n)) in
        let '(z1, a) := (Z.lor (wshr (l1 z) n) a, wshl (l1 z) (64 - n)) in
        mkInt (Z.lor (wshr (l0 z) n) a) z1 z2 (l3 z)
    else
        let z := x in
        let '(z3, a) := (Z.lor (wshr (l3 z) n) a, wshl (l3 z) (64 - n)) in
        let '(z2, a) := (Z.lor (wshr (l2 z) n) a, wshl (l2 z) (64 - n)) in
        let '(z1, a) := (Z.lor (wshr (l1 z) n) a, wshl (l1 z) (64 - n)) in
        mkInt (Z.lor (wshr (l0 z) n) a) z1 z2 z3).

(** uint256.go:1101-1125 *)
Definition Or (x y : Int) : Int :=
  mkInt (Z.lor (l0 x) (l0 y)) (Z.lor (l1 x) (l1 y)) (Z.lor (l2 x) (l2 y)) (Z.lor (l3 x) (l3 y)).
Definition And (x y : Int) : Int :=
  mkInt (Z.land (l0 x) (l0 y)) (Z.land (l1 x) (l1 y)) (Z.land (l2 x) (l2 y)) (Z.land (l3 x) (l3 y)).
Definition Xor (x y : Int) : Int :=
  mkInt (Z.lxor (l0 x) (l0 y)) (Z.lxor (l1 x) (l1 y)) (Z.lxor (l2 x) (l2 y)) (Z.lxor (l3 x) (l3 y)).

(** uint256.go:1131-1144 (0xff00000000000000 = 18374686479671623680) *)
Definition Byte (z n : Int) : res Int :=
  let '(number, overflow) := Uint64WithOverflow n in
  if negb overflow then
    if number <? 32 then
      do w <- limb z (4 - 1 - number / 8);
      let offset := wshl (Z.land (l0 n) 7) 3 in
      Ok (mkInt (wshr (Z.land w (wshr 18374686479671623680 offset)) (56 - offset)) 0 0 0)
    else Ok Clear
  else Ok Clear.

(** One iteration of the loops of Exp, uint256.go:1155-1158 *)
Definition exp_step (word : Z) (rm : Int * Int) : Int * Int :=
  let '(r, m) := rm in
  ((if Z.land word 1 =? 1 then Mul r m else r), squared m).

(** The four loops [for ; curBit < expBitLen && curBit < hi; curBit++] of Exp: [n] iterations,
    where [n] is computed by the caller from the loop condition. *)
Fixpoint exp_loop (n : nat) (word : Z) (rm : Int * Int) : Int * Int :=
  match n with
  | O => rm
  | S k => exp_loop k (wshr word 1) (exp_step word rm)
  end.

(** uint256.go:1147-1190 *)
Definition Exp (base exponent : Int) : Int :=
  let bl := BitLen exponent in
  let iters (lo hi : Z) := Z.to_nat (Z.min bl hi - lo) in
  let rm := exp_loop (iters 0 64) (l0 exponent) (SetOne, base) in
  let rm := exp_loop (iters 64 128) (l1 exponent) rm in
  let rm := exp_loop (iters 128 192) (l2 exponent) rm in
  let rm := exp_loop (iters 192 256) (l3 exponent) rm in
  fst rm.

(** uint256.go:1196-1211 *)
Definition ExtendSign (x byteNum : Int) : res Int :=
  if GtUint64 byteNum 31 then Ok x
  else
    let bit := wadd (wmul (l0 byteNum) 8) 7 in
    let mask := SubUint64 (Lsh SetOne bit) 1 in
    do s <- isBitSet x bit;
    Ok (if s then Or x (Not mask) else And x mask).
