(** Fuzz.v -- the fuzzing harness /repo/uint256/fuzz.go on the memory of Alias.v.

    The harness calls a method with a fresh receiver, with a receiver that holds garbage, and with the
    receiver aliasing each operand, and compares with big.Int.  [crash] panics.  big.Int is trusted: its
    operations are those of [Z] (Sqrt the integer square root, Div and Mod the division by a positive
    number, Lsh the product with a power of two).  Every method called here ends with [return z] or with the
    call of a method on [z] that does, so the pointer returned is the receiver.  The text of the panic is
    not modelled. *)
From Verif Require Import Base U256 U256Div U256Mod U256Conv Alias.

(** fuzz.go:26-33: a method of [Int] with its receiver as first argument, returning a pointer *)
Definition op1 := ptr -> ptr -> cmd ptr.
Definition op2 := ptr -> ptr -> ptr -> cmd ptr.
Definition op3 := ptr -> ptr -> ptr -> ptr -> cmd ptr.
Definition ret (c : cmd unit) (z : ptr) : cmd ptr := let! _ := c in cret z.

(** [x != y] on arrays of words *)
Definition same (a b : Int) : bool := (l0 a =? l0 b) && (l1 a =? l1 b) && (l2 a =? l2 b) && (l3 a =? l3 b).
(** fuzz.go:36-46 *)
Definition crashUnless (b : bool) : cmd unit := if b then cret tt else clift Panic.
(** [if *p != v { crash(...) }] *)
Definition expect (p : ptr) (v : Int) : cmd unit := let! a := ldI p in crashUnless (same a v).
(** [ret = op(...)] and [if ret != receiver { crash(...) }] *)
Definition calls (c : cmd ptr) (z : ptr) : cmd unit := let! r := c in crashUnless (r =? z)%nat.

(** fuzz.go:48-80.  The parameters are copies, and so are the variables orig. *)
Definition checkUnaryOp (op : op1) (bigOp : Z -> Z) (vx : Int) : cmd unit :=
  let! x := new vx in
  let! result := new Clear in
  let! _ := calls (op result x) result in
  let! _ := expect x vx in
  let! x1 := ldI x in
  let expected := fst (FromBig (bigOp (ToBig x1))) in
  let! _ := expect result expected in
  let! garbage := new Clear in
  let! one := new (mkInt 1 0 0 0) in
  let! _ := mSub garbage garbage one in
  let! _ := calls (op garbage x) garbage in
  let! _ := expect garbage expected in
  let! _ := calls (op x x) x in
  expect x expected.

(** fuzz.go:82-136 *)
Definition checkDualArgOp (op : op2) (bigOp : Z -> Z -> Z) (vx vy : Int) : cmd unit :=
  let! x := new vx in
  let! y := new vy in
  let! origX := new vx in
  let! result := new Clear in
  let! _ := calls (op result x y) result in
  let! _ := expect x vx in
  let! _ := expect y vy in
  let! x1 := ldI x in
  let! y1 := ldI y in
  let expected := fst (FromBig (bigOp (ToBig x1) (ToBig y1))) in
  let! _ := expect result expected in
  let! garbage := new Clear in
  let! _ := mXor garbage x y in
  let! _ := calls (op garbage x y) garbage in
  let! _ := expect garbage expected in
  let! _ := expect x vx in
  let! _ := expect y vy in
  let! _ := calls (op x x y) x in
  let! _ := expect x expected in
  let! _ := calls (op y origX y) y in
  expect y expected.

(** fuzz.go:138-203 *)
Definition checkThreeArgOp (op : op3) (bigOp : Z -> Z -> Z -> Z) (vx vy vz : Int) : cmd unit :=
  let! x := new vx in
  let! y := new vy in
  let! z := new vz in
  let! origX := new vx in
  let! origY := new vy in
  let! result := new Clear in
  let! _ := calls (op result x y z) result in
  let! _ := expect x vx in
  let! _ := expect y vy in
  let! _ := expect z vz in
  let! x1 := ldI x in
  let! y1 := ldI y in
  let! z1 := ldI z in
  let expected := fst (FromBig (bigOp (ToBig x1) (ToBig y1) (ToBig z1))) in
  let! _ := expect result expected in
  let! garbage := new Clear in
  let! _ := mXor garbage x y in
  let! _ := calls (op garbage x y z) garbage in
  let! _ := expect garbage expected in
  let! _ := expect x vx in
  let! _ := expect y vy in
  let! _ := expect z vz in
  let! _ := calls (op x x y z) x in
  let! _ := expect x expected in
  let! _ := calls (op y origX y z) y in
  let! _ := expect y expected in
  let! _ := calls (op z origX origY z) z in
  expect z expected.

(** the bytes of [x.SetBytes(data[i:j])] *)
Definition setSub (buf : slice) (i j : nat) : cmd Int := let! s := clift (sub buf i j) in clift (SetBytes s).

(** fuzz.go:224-229; [fuel] bounds the loop of Sqrt *)
Definition fuzzUnaryOp (fuel : nat) (buf : slice) : cmd Z :=
  let! x := setSub buf 0 32 in
  let! _ := checkUnaryOp (fun z x => ret (mSqrt fuel z x) z) Z.sqrt x in
  cret 1.

(** fuzz.go:241-250 *)
Definition lsh (z x y : ptr) : cmd ptr := let! n := rd y I0 in ret (mLsh z x n) z.
Definition bigLsh (x y : Z) : Z :=
  let n := y mod W in
  let n := if 256 <? n then 256 else n in
  x * 2 ^ n.
(** fuzz.go:231-262 *)
Definition fuzzBinaryOp (buf : slice) : cmd Z :=
  let! x := setSub buf 0 32 in
  let! y := setSub buf 32 (length (vis buf)) in
  let! _ :=
    (if IsZero y then cret tt
     else
       let! _ := checkDualArgOp (fun z x y => ret (mDiv z x y) z) Z.div x y in
       checkDualArgOp (fun z x y => ret (mMod z x y) z) Z.modulo x y) in
  let! _ := checkDualArgOp (fun z x y => ret (mMul z x y) z) Z.mul x y in
  let! _ := checkDualArgOp lsh bigLsh x y in
  let! _ := checkDualArgOp (fun z x y => ret (mAdd z x y) z) Z.add x y in
  let! _ := checkDualArgOp (fun z x y => ret (mSub z x y) z) Z.sub x y in
  cret 1.

(** fuzz.go:264-278 *)
Definition bigMulMod (x y z : Z) : Z := (x * y) mod z.
Definition bigAddMod (x y z : Z) : Z := (x + y) mod z.
(** fuzz.go:280-296 *)
Definition fuzzTernaryOp (buf : slice) : cmd Z :=
  let! x := setSub buf 0 32 in
  let! y := setSub buf 32 64 in
  let! z := setSub buf 64 (length (vis buf)) in
  if IsZero z then cret 0
  else
    let! _ := checkThreeArgOp (fun f1 f2 f3 f4 => ret (mMulMod f1 f2 f3 f4) f1) bigMulMod x y z in
    let! _ := checkThreeArgOp (fun f1 f2 f3 f4 => ret (mAddMod f1 f2 f3 f4) f1) bigAddMod x y z in
    cret 1.

(** fuzz.go:205-222.  Both branches of the first test return: the switch over the length after it, with the
    calls of fuzzBinaryOp and fuzzTernaryOp, is never reached. *)
Definition Fuzz (fuel : nat) (buf : slice) : cmd Z :=
  if (length (vis buf) <? 32)%nat then cret 0
  else fuzzUnaryOp fuel buf.
