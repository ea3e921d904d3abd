(** Prices.v -- /repo/lib/prices/prices.go. *)
From Verif Require Import Base U256Z.
Ltac Zify.zify_post_hook ::= idtac.

(** Go's int is 64 bits wide and wraps *)
Definition int64 (z : Z) : Z := (z + 2 ^ 63) mod 2 ^ 64 - 2 ^ 63.
Definition iadd (a b : Z) : Z := int64 (a + b).
Definition isub (a b : Z) : Z := int64 (a - b).
Definition MaxInt64 : Z := 2 ^ 63 - 1.

Definition uabs (a : Z) : Z := if a <? T255 then a else uneg a.   (* uint256.go:696-702 Abs *)
Definition usqrt (a : Z) : Z := Z.sqrt a.                         (* uint256.go:1102-1129 Sqrt, C12 *)

(** prices.go:9-13 *)
Record Prices := mkPrices { prPrices : list Z; prIndex : Z; prLength : Z }.

(** prices.go:15-21 (make panics on a negative length) *)
Definition NewPrices (len : Z) : res Prices :=
  do _ <- invariant (0 <=? len);
  Ok (mkPrices (repeat 0 (Z.to_nat len)) 0 len).

(** [l[i] = v]; [None] if out of range *)
Fixpoint setNth (l : list Z) (i : nat) (v : Z) : option (list Z) :=
  match l, i with
  | [], _ => None
  | _ :: l, O => Some (v :: l)
  | x :: l, S i => match setNth l i v with Some l' => Some (x :: l') | None => None end
  end.

(** prices.go:23-34 *)
Definition AddPrice (p : Prices) (price : Z) : res Prices :=
  let priceSquareX192 := umul price price in
  let shifted := ursh priceSquareX192 230 in
  do _ <- invariant (shifted =? 0);
  if prIndex p <? 0 then Panic
  else
    match setNth (prPrices p) (Z.to_nat (prIndex p)) priceSquareX192 with
    | Some l => Ok (mkPrices l (Z.rem (iadd (prIndex p) 1) (prLength p)) (prLength p))
    | None => Panic
    end.

(** prices.go:36-43; [uint64(p.length)] *)
Definition Average (p : Prices) : Z :=
  let sum := fold_left uadd (prPrices p) 0 in
  udiv sum (prLength p mod W).

(** prices.go:46-68.  big.Int is Z; Div panics on zero and is Euclidean ([sum] is not negative, and [n-1] is
    negative only for an empty history, whose sum is 0).  The three sign checks of the code hold by
    construction. *)
Definition Volatility (p : Prices) : res Z :=
  let avg := Average p in
  let sum := fold_left (fun s price => let diff := uabs (usub price avg) in s + diff * diff) (prPrices p) 0 in
  let nMinus1 := isub (prLength p) 1 in
  if nMinus1 =? 0 then Panic
  else
    let variance := Z.sgn nMinus1 * (sum / Z.abs nMinus1) in
    do _ <- invariant (0 <=? variance);
    Ok (Z.sqrt variance mod T256).
