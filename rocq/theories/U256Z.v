(** U256Z.v -- the 256-bit operations used by the library packages as functions on integers in
    [0, 2^256), and /repo/lib/fullmath/fullmath.go and /repo/lib/constants/constants.go on top of them.
    LibBridge.v proves that each operation is what the limb-level function of /repo/uint256 computes,
    panics included. *)
From Verif Require Import Base.

Definition uadd (a b : Z) : Z := (a + b) mod T256.            (* uint256.go:176-182 Add *)
Definition usub (a b : Z) : Z := (a - b) mod T256.            (* uint256.go:297-303 Sub *)
Definition umul (a b : Z) : Z := (a * b) mod T256.            (* uint256.go:349-376 Mul *)
Definition uneg (a : Z) : Z := (- a) mod T256.                (* uint256.go:690-692 Neg *)
Definition udiv (a b : Z) : Z := if b =? 0 then 0 else a / b. (* uint256.go:539-557 Div *)
Definition ulsh (a n : Z) : Z := (a * 2 ^ n) mod T256.        (* uint256.go Lsh *)
Definition ursh (a n : Z) : Z := a / 2 ^ n.                   (* uint256.go Rsh *)
(** uint256.go:725-733 Sign: two's complement *)
Definition usign (a : Z) : Z := if a =? 0 then 0 else if a <? T255 then 1 else -1.

(** number of significant 64-bit words of a value *)
Definition words (v : Z) : Z := if v =? 0 then 0 else Z.log2 v / 64 + 1.

(** Does Udivrem(quot, n, d) (uint256.go:484-533) with a five-word quot return?  Otherwise it panics with
    an index out of range. *)
Definition udivrem5_ok (n d : Z) : bool :=
  negb (d =? 0) && negb (n =? 0) && (words n <? 9) && (words d <=? words n + 1) && (words n + 1 - words d <=? 5).

(** constants.go:9-19 *)
Definition Q96 : Z := 79228162514264337593543950336.
Definition Q128 : Z := 340282366920938463463374607431768211456.
Definition MaxUint256 : Z := T256 - 1.
Definition E6 : Z := 1000000.

(** fullmath.go:23-33 *)
Definition MulDiv (a b denominator : Z) : res Z :=
  if (a =? 0) || (b =? 0) then Ok 0
  else if udivrem5_ok (a * b) denominator then Ok ((a * b / denominator) mod T256)
  else Panic.

(** fullmath.go:8-21 *)
Definition MulDivRoundingUp (a b denominator : Z) : res Z :=
  if (a =? 0) || (b =? 0) then Ok 0
  else if udivrem5_ok (a * b) denominator then
    let result := (a * b / denominator) mod T256 in
    Ok (if negb ((a * b) mod denominator =? 0) then uadd result 1 else result)
  else Panic.
