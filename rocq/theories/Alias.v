(** Alias.v -- the in-place methods of /repo/uint256/uint256.go on a shared memory.

    U256.v and U256Div.v give the value a method leaves in its receiver as a function of the values of
    the operands.  Here the same methods are modelled statement by statement on a memory, so that the
    receiver and the operands may be the same variable: a pointer is an index into the list of live
    [Int] variables, a word write changes one word of one variable and is seen by every later read
    through any pointer.

    A local [Int] (or word) whose address is never taken is a let-bound value; [new(Int)], [Clone] and
    locals whose address is passed to a method are fresh variables appended to the memory, where they
    stay as garbage.  Methods that only read ([Lt], [Eq], [Sign], [Umul], [Udivrem], ...) read their
    operands and are the value-level functions of U256.v / U256Div.v on what was read; [Udivrem]
    (uint256.go:484-533) copies u and d into its own arrays first and writes no variable of the caller
    except the quotient array, which is a local of its callers below. *)
From Verif Require Import Base U256 U256Div U256Mod.

Definition mem := list Int.
Definition ptr := nat.
Definition cmd (A : Type) := mem -> res (A * mem).
Definition cret {A} (a : A) : cmd A := fun h => Ok (a, h).
Definition cbind {A B} (c : cmd A) (f : A -> cmd B) : cmd B :=
  fun h => match c h with
           | Ok (a, h') => f a h'
           | Panic => Panic
           | OutOfFuel => OutOfFuel
           end.
Notation "'let!' x := c 'in' k" := (cbind c (fun x => k))
  (at level 200, x pattern, c at level 100, k at level 200).
Definition clift {A} (r : res A) : cmd A :=
  fun h => match r with Ok a => Ok (a, h) | Panic => Panic | OutOfFuel => OutOfFuel end.

(** memory update *)
Fixpoint setn (h : mem) (p : nat) (v : Int) : mem :=
  match h, p with
  | [], _ => []
  | _ :: t, O => v :: t
  | a :: t, S k => a :: setn t k v
  end.
(** [*p] as a value; a nil or dangling pointer panics *)
Definition ldI (p : ptr) : cmd Int :=
  fun h => match nth_error h p with Some v => Ok (v, h) | None => Panic end.
(** [*p = v] *)
Definition stI (p : ptr) (v : Int) : cmd unit :=
  fun h => if (p <? length h)%nat then Ok (tt, setn h p v) else Panic.
(** [p[i]] and [p[i] = w] for a constant index *)
Inductive ix := I0 | I1 | I2 | I3.
Definition getl (v : Int) (i : ix) : Z :=
  match i with I0 => l0 v | I1 => l1 v | I2 => l2 v | I3 => l3 v end.
Definition setl (v : Int) (i : ix) (w : Z) : Int :=
  match i with
  | I0 => mkInt w (l1 v) (l2 v) (l3 v)
  | I1 => mkInt (l0 v) w (l2 v) (l3 v)
  | I2 => mkInt (l0 v) (l1 v) w (l3 v)
  | I3 => mkInt (l0 v) (l1 v) (l2 v) w
  end.
Definition rd (p : ptr) (i : ix) : cmd Z := let! v := ldI p in cret (getl v i).
Definition wr (p : ptr) (i : ix) (w : Z) : cmd unit := let! v := ldI p in stI p (setl v i w).
(** new(Int) (or a local whose address is taken) with an initial value *)
Definition new (v : Int) : cmd ptr := fun h => Ok (length h, h ++ [v]).

(** [z[3], z[2], z[1], z[0] = a3, a2, a1, a0]: the right-hand sides are evaluated first *)
Definition wr4 (z : ptr) (a3 a2 a1 a0 : Z) : cmd unit :=
  let! _ := wr z I3 a3 in
  let! _ := wr z I2 a2 in
  let! _ := wr z I1 a1 in
  wr z I0 a0.

(** uint256.go:846-849, 898-913, 1095-1098 *)
Definition mSetUint64 (z : ptr) (v : Z) : cmd unit := wr4 z 0 0 0 v.
Definition mClear (z : ptr) : cmd unit := wr4 z 0 0 0 0.
Definition mSetAllOne (z : ptr) : cmd unit := wr4 z (W-1) (W-1) (W-1) (W-1).
Definition mSetOne (z : ptr) : cmd unit := wr4 z 0 0 0 1.
Definition mSet (z x : ptr) : cmd unit := let! v := ldI x in stI z v.
(** uint256.go:171-173 *)
Definition mClone (z : ptr) : cmd ptr := let! v := ldI z in new v.

(** one statement [z[i], carry = bits.Add64(x[i], y[i], carry)] *)
Definition addStep (z x y : ptr) (i : ix) (carry : Z) : cmd Z :=
  let! a := rd x i in
  let! b := rd y i in
  let '(s, c) := add64 a b carry in
  let! _ := wr z i s in
  cret c.
Definition subStep (z x y : ptr) (i : ix) (carry : Z) : cmd Z :=
  let! a := rd x i in
  let! b := rd y i in
  let '(s, c) := sub64 a b carry in
  let! _ := wr z i s in
  cret c.

(** uint256.go:176-183 *)
Definition mAdd (z x y : ptr) : cmd unit :=
  let! c := addStep z x y I0 0 in
  let! c := addStep z x y I1 c in
  let! c := addStep z x y I2 c in
  let! _ := addStep z x y I3 c in
  cret tt.
(** uint256.go:186-193 *)
Definition mAddOverflow (z x y : ptr) : cmd bool :=
  let! c := addStep z x y I0 0 in
  let! c := addStep z x y I1 c in
  let! c := addStep z x y I2 c in
  let! c := addStep z x y I3 c in
  cret (negb (c =? 0)).
(** uint256.go:280-287 *)
Definition mSubOverflow (z x y : ptr) : cmd bool :=
  let! c := subStep z x y I0 0 in
  let! c := subStep z x y I1 c in
  let! c := subStep z x y I2 c in
  let! c := subStep z x y I3 c in
  cret (negb (c =? 0)).
(** uint256.go:290-297 *)
Definition mSub (z x y : ptr) : cmd unit :=
  let! c := subStep z x y I0 0 in
  let! c := subStep z x y I1 c in
  let! c := subStep z x y I2 c in
  let! _ := subStep z x y I3 c in
  cret tt.
(** [z[i], carry = bits.Add64(x[i], y, carry)] with a word y *)
Definition addStepW (z x : ptr) (y : Z) (i : ix) (carry : Z) : cmd Z :=
  let! a := rd x i in
  let '(s, c) := add64 a y carry in
  let! _ := wr z i s in
  cret c.
Definition subStepW (z x : ptr) (y : Z) (i : ix) (carry : Z) : cmd Z :=
  let! a := rd x i in
  let '(s, c) := sub64 a y carry in
  let! _ := wr z i s in
  cret c.
(** uint256.go:247-255 *)
Definition mAddUint64 (z x : ptr) (y : Z) : cmd unit :=
  let! c := addStepW z x y I0 0 in
  let! c := addStepW z x 0 I1 c in
  let! c := addStepW z x 0 I2 c in
  let! _ := addStepW z x 0 I3 c in
  cret tt.
(** uint256.go:270-277 *)
Definition mSubUint64 (z x : ptr) (y : Z) : cmd unit :=
  let! c := subStepW z x y I0 0 in
  let! c := subStepW z x 0 I1 c in
  let! c := subStepW z x 0 I2 c in
  let! _ := subStepW z x 0 I3 c in
  cret tt.

(** uint256.go:349-371: the products are collected in the local [res], then [z.Set(&res)] *)
Definition mMul (z x y : ptr) : cmd unit :=
  let! xv := ldI x in
  let! yv := ldI y in
  let! res := new (Mul xv yv) in
  mSet z res.
(** uint256.go:374-378: [copy(z[:], p[:4])] *)
Definition mMulOverflow (z x y : ptr) : cmd bool :=
  let! xv := ldI x in
  let! yv := ldI y in
  match Umul xv yv with
  | [p0; p1; p2; p3; p4; p5; p6; p7] =>
      let! _ := wr z I0 p0 in
      let! _ := wr z I1 p1 in
      let! _ := wr z I2 p2 in
      let! _ := wr z I3 p3 in
      cret (negb (Z.lor (Z.lor (Z.lor p4 p5) p6) p7 =? 0))
  | _ => clift Panic
  end.
(** uint256.go:380-399 *)
Definition msquared (z : ptr) : cmd unit :=
  let! zv := ldI z in
  let! res := new (squared zv) in
  mSet z res.

(** uint256.go:754-795: parallel assignments *)
Definition mlsh64 (z x : ptr) : cmd unit :=
  let! a := rd x I2 in let! b := rd x I1 in let! c := rd x I0 in wr4 z a b c 0.
Definition mlsh128 (z x : ptr) : cmd unit :=
  let! a := rd x I1 in let! b := rd x I0 in wr4 z a b 0 0.
Definition mlsh192 (z x : ptr) : cmd unit :=
  let! a := rd x I0 in wr4 z a 0 0 0.
Definition mrsh64 (z x : ptr) : cmd unit :=
  let! a := rd x I3 in let! b := rd x I2 in let! c := rd x I1 in wr4 z 0 a b c.
Definition mrsh128 (z x : ptr) : cmd unit :=
  let! a := rd x I3 in let! b := rd x I2 in wr4 z 0 0 a b.
Definition mrsh192 (z x : ptr) : cmd unit :=
  let! a := rd x I3 in wr4 z 0 0 0 a.
Definition msrsh64 (z x : ptr) : cmd unit :=
  let! a := rd x I3 in let! b := rd x I2 in let! c := rd x I1 in wr4 z (W-1) a b c.
Definition msrsh128 (z x : ptr) : cmd unit :=
  let! a := rd x I3 in let! b := rd x I2 in wr4 z (W-1) (W-1) a b.
Definition msrsh192 (z x : ptr) : cmd unit :=
  let! a := rd x I3 in wr4 z (W-1) (W-1) (W-1) a.
Definition mNot (z x : ptr) : cmd unit :=
  let! a := rd x I3 in let! b := rd x I2 in let! c := rd x I1 in let! d := rd x I0 in
  wr4 z (wnot a) (wnot b) (wnot c) (wnot d).

(** [z[i] = (z[i] << n) | a] *)
Definition orShl (z : ptr) (i : ix) (n a : Z) : cmd unit :=
  let! w := rd z i in wr z i (Z.lor (wshl w n) a).
Definition orShr (z : ptr) (i : ix) (n a : Z) : cmd unit :=
  let! w := rd z i in wr z i (Z.lor (wshr w n) a).
(** the statements from the labels of Lsh to its end, uint256.go:955-971; [a], [b] as they stand there *)
Definition lsh_sh192 (z : ptr) (n a : Z) : cmd unit := orShl z I3 n a.
Definition lsh_sh128 (z : ptr) (n b : Z) : cmd unit :=
  let! w := rd z I2 in
  let a := wshr w (64 - n) in
  let! _ := orShl z I2 n b in
  lsh_sh192 z n a.
Definition lsh_sh64 (z : ptr) (n a : Z) : cmd unit :=
  let! w := rd z I1 in
  let b := wshr w (64 - n) in
  let! _ := orShl z I1 n a in
  lsh_sh128 z n b.
(** uint256.go:916-972 *)
Definition mLsh (z x : ptr) (n : Z) : cmd unit :=
  if Z.land n 63 =? 0 then
    if n =? 0 then mSet z x
    else if n =? 64 then mlsh64 z x
    else if n =? 128 then mlsh128 z x
    else if n =? 192 then mlsh192 z x
    else mClear z
  else if 192 <? n then
    if 256 <? n then mClear z
    else let! _ := mlsh192 z x in lsh_sh192 z (n - 192) 0
  else if 128 <? n then let! _ := mlsh128 z x in lsh_sh128 z (n - 128) 0
  else if 64 <? n then let! _ := mlsh64 z x in lsh_sh64 z (n - 64) 0
  else
    let! _ := mSet z x in
    let! w := rd z I0 in
    let a := wshr w (64 - n) in
    let! w := rd z I0 in
    let! _ := wr z I0 (wshl w n) in
    lsh_sh64 z n a.

(** uint256.go:1014-1030 *)
Definition rsh_sh192 (z : ptr) (n a : Z) : cmd unit := orShr z I0 n a.
Definition rsh_sh128 (z : ptr) (n b : Z) : cmd unit :=
  let! w := rd z I1 in
  let a := wshl w (64 - n) in
  let! _ := orShr z I1 n b in
  rsh_sh192 z n a.
Definition rsh_sh64 (z : ptr) (n a : Z) : cmd unit :=
  let! w := rd z I2 in
  let b := wshl w (64 - n) in
  let! _ := orShr z I2 n a in
  rsh_sh128 z n b.
(** uint256.go:975-1031 *)
Definition mRsh (z x : ptr) (n : Z) : cmd unit :=
  if Z.land n 63 =? 0 then
    if n =? 0 then mSet z x
    else if n =? 64 then mrsh64 z x
    else if n =? 128 then mrsh128 z x
    else if n =? 192 then mrsh192 z x
    else mClear z
  else if 192 <? n then
    if 256 <? n then mClear z
    else let! _ := mrsh192 z x in rsh_sh192 z (n - 192) 0
  else if 128 <? n then let! _ := mrsh128 z x in rsh_sh128 z (n - 128) 0
  else if 64 <? n then let! _ := mrsh64 z x in rsh_sh64 z (n - 64) 0
  else
    let! _ := mSet z x in
    let! w := rd z I3 in
    let a := wshl w (64 - n) in
    let! w := rd z I3 in
    let! _ := wr z I3 (wshr w n) in
    rsh_sh64 z n a.

(** uint256.go:1076-1091: [z[i], a = (z[i]>>n)|a, z[i]<<(64-n)] *)
Definition srStep (z : ptr) (i : ix) (n a : Z) : cmd Z :=
  let! w := rd z i in
  let! _ := wr z i (Z.lor (wshr w n) a) in
  cret (wshl w (64 - n)).
Definition srsh_sh192 (z : ptr) (n a : Z) : cmd unit := orShr z I0 n a.
Definition srsh_sh128 (z : ptr) (n a : Z) : cmd unit :=
  let! a := srStep z I1 n a in srsh_sh192 z n a.
Definition srsh_sh64 (z : ptr) (n a : Z) : cmd unit :=
  let! a := srStep z I2 n a in srsh_sh128 z n a.
(** uint256.go:1036-1092 *)
Definition mSRsh (z x : ptr) (n : Z) : cmd unit :=
  let! xv := ldI x in
  let! neg := clift (isBitSet xv 255) in
  if negb neg then mRsh z x n
  else if n mod 64 =? 0 then
    if n =? 0 then mSet z x
    else if n =? 64 then msrsh64 z x
    else if n =? 128 then msrsh128 z x
    else if n =? 192 then msrsh192 z x
    else mSetAllOne z
  else
    let a := wshl (W-1) (64 - n mod 64) in
    if 192 <? n then
      if 256 <? n then mSetAllOne z
      else let! _ := msrsh192 z x in srsh_sh192 z (n - 192) a
    else if 128 <? n then let! _ := msrsh128 z x in srsh_sh128 z (n - 128) a
    else if 64 <? n then let! _ := msrsh64 z x in srsh_sh64 z (n - 64) a
    else
      let! _ := mSet z x in
      let! a := srStep z I3 n a in
      srsh_sh64 z n a.

(** uint256.go:1101-1125 *)
Definition bitStep (f : Z -> Z -> Z) (z x y : ptr) (i : ix) : cmd unit :=
  let! a := rd x i in
  let! b := rd y i in
  wr z i (f a b).
Definition mbit (f : Z -> Z -> Z) (z x y : ptr) : cmd unit :=
  let! _ := bitStep f z x y I0 in
  let! _ := bitStep f z x y I1 in
  let! _ := bitStep f z x y I2 in
  bitStep f z x y I3.
Definition mOr := mbit Z.lor.
Definition mAnd := mbit Z.land.
Definition mXor := mbit Z.lxor.

(** uint256.go:1131-1144.  Note that [n[0]] is read before [z[0]] is written. *)
Definition mByte (z n : ptr) : cmd unit :=
  let! nv := ldI n in
  let '(number, overflow) := Uint64WithOverflow nv in
  if negb overflow then
    if number <? 32 then
      let! zv := ldI z in
      let! w := clift (limb zv (4 - 1 - number / 8)) in
      let! n0 := rd n I0 in
      let offset := wshl (Z.land n0 7) 3 in
      let! _ := wr z I0 (wshr (Z.land w (wshr 18374686479671623680 offset)) (56 - offset)) in
      let! _ := wr z I3 0 in
      let! _ := wr z I2 0 in
      wr z I1 0
    else mClear z
  else mClear z.

(** uint256.go:690-692, 682-687: [new(Int)] is a fresh zero *)
Definition mNeg (z x : ptr) : cmd unit := let! o := new Clear in mSub z o x.
Definition mAbs (z x : ptr) : cmd unit :=
  let! w := rd x I3 in
  if w <? 9223372036854775808 then mSet z x
  else let! o := new Clear in mSub z o x.

(** uint256.go:539-557 *)
Definition mDiv (z x y : ptr) : cmd unit :=
  let! xv := ldI x in
  let! yv := ldI y in
  if IsZero yv || Gt yv xv then mClear z
  else if Eq xv yv then mSetOne z
  else if IsUint64 xv then
    let! a := rd x I0 in
    let! b := rd y I0 in
    if b =? 0 then clift Panic else mSetUint64 z (a / b)
  else
    let! qr := clift (Udivrem [0; 0; 0; 0] (limbs xv) yv) in
    let! quot := new (of_words (fst qr)) in
    mSet z quot.

(** uint256.go:561-588 *)
Definition mMod (z x y : ptr) : cmd unit :=
  let! xv := ldI x in
  let! yv := ldI y in
  if IsZero xv || IsZero yv then mClear z
  else
    let c := Cmp xv yv in
    if c =? -1 then
      (* copy(z[:], x[:]) *)
      let! v := ldI x in stI z v
    else if c =? 0 then mClear z
    else if IsUint64 xv then
      let! a := rd x I0 in
      let! b := rd y I0 in
      if b =? 0 then clift Panic else mSetUint64 z (a mod b)
    else
      let! qr := clift (Udivrem [0; 0; 0; 0] (limbs xv) yv) in
      let! rem := new (snd qr) in
      mSet z rem.

(** uint256.go:593-610 *)
Definition mSMod (z x y : ptr) : cmd unit :=
  let! yv := ldI y in
  let ys := Sign yv in
  let! xv := ldI x in
  let xs := Sign xv in
  let! x := (if xs =? -1 then let! t := new Clear in let! _ := mNeg t x in cret t else cret x) in
  let! y := (if ys =? -1 then let! t := new Clear in let! _ := mNeg t y in cret t else cret y) in
  let! _ := mMod z x y in
  if xs =? -1 then mNeg z z else cret tt.

(** uint256.go:697-719 *)
Definition mSDiv (z n d : ptr) : cmd unit :=
  let! nv := ldI n in
  let! dv := ldI d in
  if 0 <? Sign nv then
    if 0 <? Sign dv then mDiv z n d
    else
      let! t := new Clear in
      let! _ := mNeg t d in
      let! _ := mDiv z n t in
      mNeg z z
  else if Sign dv <? 0 then
    let! t := new Clear in
    let! _ := mNeg t n in
    let! u := new Clear in
    let! _ := mNeg u d in
    mDiv z t u
  else
    let! t := new Clear in
    let! _ := mNeg t n in
    let! _ := mDiv z t d in
    mNeg z z.

(** uint256.go:197-244.  [s] and [t] are locals whose address is taken. *)
Definition mAddMod (z x y m : ptr) : cmd unit :=
  let! xv := ldI x in
  let! yv := ldI y in
  let! mv := ldI m in
  if negb (l3 mv =? 0) && (l3 xv <=? l3 mv) && (l3 yv <=? l3 mv) then
    let! s := new Clear in
    let! t := new Clear in
    let! _ := mSet s x in
    let! overflow := mSubOverflow s s m in
    let! _ := (if overflow then mSet s x else cret tt) in
    let! _ := mSet t y in
    let! overflow := mSubOverflow t t m in
    let! _ := (if overflow then mSet t y else cret tt) in
    let! overflow := mAddOverflow s s t in
    let! _ := (if overflow then mSub s s m else cret tt) in
    let! _ := mSet t s in
    let! overflow := mSubOverflow s s m in
    let! _ := (if overflow then mSet s t else cret tt) in
    mSet z s
  else if IsZero mv then mClear z
  else
    let! m := (if (z =? m)%nat then mClone m else cret m) in
    let! overflow := mAddOverflow z x y in
    if overflow then
      let! zv := ldI z in
      let! mv := ldI m in
      let! qr := clift (Udivrem [0; 0; 0; 0; 0] (limbs zv ++ [1]) mv) in
      let! rem := new (snd qr) in
      mSet z rem
    else mMod z z m.

(** uint256.go:628-641 = 659-673: [pl] and [ph] are locals whose address is taken *)
Definition mmulmod_small (z m : ptr) (p : list Z) : cmd unit :=
  match p with
  | [p0; p1; p2; p3; p4; p5; p6; p7] =>
      let! pl := new (mkInt p0 p1 p2 p3) in
      let! ph := new (mkInt p4 p5 p6 p7) in
      let! phv := ldI ph in
      if IsZero phv then mMod z pl m
      else
        let! mv := ldI m in
        let! qr := clift (Udivrem [0; 0; 0; 0; 0; 0; 0; 0] p mv) in
        let! rem := new (snd qr) in
        mSet z rem
  | _ => clift Panic               (* unreachable: Umul returns eight words *)
  end.

(** uint256.go:647-674; Reciprocal and reduce4 (mod.go) only read m *)
Definition mMulMod (z x y m : ptr) : cmd unit :=
  let! xv := ldI x in
  let! yv := ldI y in
  let! mv := ldI m in
  if IsZero xv || IsZero yv || IsZero mv then mClear z
  else
    let p := Umul xv yv in
    if negb (l3 mv =? 0) then
      let! mu := clift (Reciprocal mv) in
      let! rv := clift (reduce4 p mv mu) in
      let! r := new rv in
      mSet z r
    else mmulmod_small z m p.

(** uint256.go:616-642; [mu] is a [5]uint64, not an Int, and is only read *)
Definition mMulModWithReciprocal (z x y m : ptr) (mu : Z * Z * Z * Z * Z) : cmd unit :=
  let! xv := ldI x in
  let! yv := ldI y in
  let! mv := ldI m in
  if IsZero xv || IsZero yv || IsZero mv then mClear z
  else
    let p := Umul xv yv in
    if negb (l3 mv =? 0) then
      let! rv := clift (reduce4 p mv mu) in
      let! r := new rv in
      mSet z r
    else mmulmod_small z m p.

(** One of the four loops of Exp (uint256.go:1154-1187), [n] iterations *)
Fixpoint mexp_loop (n : nat) (res mult : ptr) (word : Z) : cmd unit :=
  match n with
  | O => cret tt
  | S k =>
      let! _ := (if Z.land word 1 =? 1 then mMul res res mult else cret tt) in
      let! _ := msquared mult in
      mexp_loop k res mult (wshr word 1)
  end.
(** uint256.go:1147-1190 *)
Definition mExp (z base exponent : ptr) : cmd unit :=
  let! res := new (mkInt 1 0 0 0) in
  let! b := ldI base in
  let! mult := new b in
  let! ev := ldI exponent in
  let bl := BitLen ev in
  let iters (lo hi : Z) := Z.to_nat (Z.min bl hi - lo) in
  let! w := rd exponent I0 in
  let! _ := mexp_loop (iters 0 64) res mult w in
  let! w := rd exponent I1 in
  let! _ := mexp_loop (iters 64 128) res mult w in
  let! w := rd exponent I2 in
  let! _ := mexp_loop (iters 128 192) res mult w in
  let! w := rd exponent I3 in
  let! _ := mexp_loop (iters 192 256) res mult w in
  mSet z res.

(** uint256.go:1196-1211 *)
Definition mExtendSign (z x byteNum : ptr) : cmd unit :=
  let! bv := ldI byteNum in
  if GtUint64 bv 31 then mSet z x
  else
    let! w := rd byteNum I0 in
    let bit := wadd (wmul w 8) 7 in
    let! mask := new Clear in
    let! _ := mSetOne mask in
    let! _ := mLsh mask mask bit in
    let! _ := mSubUint64 mask mask 1 in
    let! xv := ldI x in
    let! s := clift (isBitSet xv bit) in
    if s then let! _ := mNot mask mask in mOr z x mask
    else mAnd z x mask.

(** uint256.go:1229-1235, the inlined one-bit right shift *)
Definition mrsh1 (z : ptr) : cmd unit :=
  let! w := rd z I3 in
  let a := wshl w 63 in
  let! w := rd z I3 in
  let! _ := wr z I3 (wshr w 1) in
  let! w := rd z I2 in
  let b := wshl w 63 in
  let! _ := orShr z I2 1 a in
  let! w := rd z I1 in
  let a := wshl w 63 in
  let! _ := orShr z I1 1 b in
  orShr z I0 1 a.
(** uint256.go:1225-1244: the variables [z1], [z2] are pointers and are swapped *)
Fixpoint msqrt_loop (fuel : nat) (z x z1 z2 : ptr) : cmd unit :=
  match fuel with
  | O => clift OutOfFuel
  | S f =>
      let! _ := mDiv z2 x z1 in
      let! _ := mAdd z2 z2 z1 in
      let! _ := mrsh1 z2 in
      let! v2 := ldI z2 in
      let! v1 := ldI z1 in
      if 0 <=? Cmp v2 v1 then mSet z z1
      else msqrt_loop f z x z2 z1
  end.
(** uint256.go:1214-1245 *)
Definition mSqrt (fuel : nat) (z x : ptr) : cmd unit :=
  let! xv := ldI x in
  if LtUint64 xv 2 then mSet z x
  else
    let! z1 := new (mkInt 1 0 0 0) in
    let! z2 := new Clear in
    let! _ := mLsh z1 z1 ((BitLen xv + 1) / 2) in
    msqrt_loop fuel z x z1 z2.
