(** Base.v -- Go-level basics shared by every model file.

    - [res]: the outcome of a Go call.  [Ok v] = returned [v]; [Panic] = a Go run-time panic
      (index out of range, nil dereference, integer division by zero, or an explicit
      [invariant.Invariant] failure, /repo/lib/invariant/invariant.go:3-7);
      [OutOfFuel] = the model's loop budget ran out (the Go loop has no budget, so a theorem that
      mentions a result excludes it, and "for every fuel the result is [OutOfFuel]" means that the Go
      loop never ends).
    - 64-bit words and the functions of Go's [math/bits] that /repo/uint256 uses.  These are the
      documented behaviours of the Go standard library (trusted, see DESIGN.md). *)
From Coq Require Export ZArith List Bool Lia.
From Coq Require Import ZifyBool.
Export ListNotations.
Open Scope Z_scope.

Inductive res (A : Type) : Type :=
| Ok (a : A)
| Panic
| OutOfFuel.
Arguments Ok {A} a.
Arguments Panic {A}.
Arguments OutOfFuel {A}.

Definition bind {A B} (x : res A) (f : A -> res B) : res B :=
  match x with
  | Ok a => f a
  | Panic => Panic
  | OutOfFuel => OutOfFuel
  end.

Notation "'do' x <- a ; b" := (bind a (fun x => b))
  (at level 200, x pattern, a at level 100, b at level 200).

(** invariant.Invariant(condition, message): /repo/lib/invariant/invariant.go:3-7. *)
Definition invariant (c : bool) : res unit := if c then Ok tt else Panic.

(** 2^64, 2^128, 2^192, 2^256, ... as literals, so that [lia] sees constants. *)
Notation W := 18446744073709551616 (only parsing).
Notation W2 := 340282366920938463463374607431768211456 (only parsing).
Notation W3 := 6277101735386680763835789423207666416102355444464034512896 (only parsing).
Notation W4 := 115792089237316195423570985008687907853269984665640564039457584007913129639936 (only parsing).
Notation W5 := 2135987035920910082395021706169552114602704522356652769947041607822219725780640550022962086936576 (only parsing).
Notation T256 := W4 (only parsing).
Notation T255 := 57896044618658097711785492504343953926634992332820282019728792003956564819968 (only parsing).

Lemma W_pow : W = 2 ^ 64. Proof. reflexivity. Qed.
Lemma W2_pow : W2 = 2 ^ 128. Proof. reflexivity. Qed.
Lemma W3_pow : W3 = 2 ^ 192. Proof. reflexivity. Qed.
Lemma W4_pow : W4 = 2 ^ 256. Proof. reflexivity. Qed.
Lemma T255_pow : T255 = 2 ^ 255. Proof. reflexivity. Qed.

Definition is_w (x : Z) : Prop := 0 <= x < W.
Definition is_u256 (x : Z) : Prop := 0 <= x < T256.

(** math/bits.Add64 (carry must be 0 or 1). *)
Definition add64 (x y c : Z) : Z * Z := ((x + y + c) mod W, (x + y + c) / W).
(** math/bits.Sub64 (borrow must be 0 or 1). *)
Definition sub64 (x y b : Z) : Z * Z :=
  ((x - y - b) mod W, if x <? y + b then 1 else 0).
(** math/bits.Mul64: (hi, lo). *)
Definition mul64 (x y : Z) : Z * Z := ((x * y) / W, (x * y) mod W).
(** math/bits.Div64(hi, lo, y): panics for y = 0 or y <= hi. *)
Definition div64 (hi lo y : Z) : res (Z * Z) :=
  if (y =? 0) || (y <=? hi) then Panic else Ok ((hi * W + lo) / y, (hi * W + lo) mod y).
(** math/bits.Len64 and LeadingZeros64. *)
Definition len64 (x : Z) : Z := if x =? 0 then 0 else Z.log2 x + 1.
Definition lz64 (x : Z) : Z := 64 - len64 x.

(** Go's operators on uint64: wrap-around +, -, *; shifts by any count (a count >= 64 gives 0);
    bitwise complement. *)
Definition wadd (x y : Z) : Z := (x + y) mod W.
Definition wsub (x y : Z) : Z := (x - y) mod W.
Definition wmul (x y : Z) : Z := (x * y) mod W.
Definition wshl (x n : Z) : Z := Z.shiftl x n mod W.
Definition wshr (x n : Z) : Z := Z.shiftr x n.
Definition wnot (x : Z) : Z := (W - 1) - x.

(** Slice access [l[i]]: a Go slice read panics when [i] is not below the length. *)
Definition geti {A} (l : list A) (i : nat) : res A :=
  match nth_error l i with Some a => Ok a | None => Panic end.
(** Slice write [l[i] = v]. *)
Fixpoint seti {A} (l : list A) (i : nat) (v : A) : res (list A) :=
  match l, i with
  | [], _ => Panic
  | _ :: t, O => Ok (v :: t)
  | a :: t, S k => match seti t k v with Ok t' => Ok (a :: t') | Panic => Panic | OutOfFuel => OutOfFuel end
  end.

(** The number a little-endian word list denotes. *)
Fixpoint lval (l : list Z) : Z :=
  match l with [] => 0 | a :: t => a + W * lval t end.
