(** Decimal.v -- decimal amounts: /repo/lib/transaction/transaction.go and the reading side in
    /repo/main.go:286-337 (getTransactions, stringToUint256, IntPow).

    math/big's Int.String and Int.SetString(s, 10), strconv.FormatBool/ParseBool and
    encoding/json are modelled by their documentation: json.Unmarshal is taken to give back the
    TransactionInput that json.Marshal was given (an omitted empty field is read as empty). *)
From Coq Require Import String.
From Verif Require Import Base U256 U256Conv Prices.
Open Scope Z_scope.

(** the decimal digits of [v >= 0] in front of [acc] *)
Fixpoint decLoop (fuel : nat) (v : Z) (acc : list Z) : list Z :=
  match fuel with
  | O => acc
  | S f => let acc := 48 + v mod 10 :: acc in if v <? 10 then acc else decLoop f (v / 10) acc
  end.
Definition decDigits (v : Z) : list Z := decLoop (Z.to_nat (Z.log2 v) + 1) v [].
(** big.Int.String() *)
Definition bigString (v : Z) : list Z := if v <? 0 then 45 :: decDigits (- v) else decDigits v.

Fixpoint decParse (acc : Z) (s : list Z) : option Z :=
  match s with
  | [] => Some acc
  | c :: r => if (48 <=? c) && (c <=? 57) then decParse (acc * 10 + (c - 48)) r else None
  end.
Definition decNumber (s : list Z) : option Z := match s with [] => None | _ => decParse 0 s end.
(** big.Int.SetString(s, 10): an optional sign and at least one digit; [None] = (nil, false), after
    which the receiver is undefined *)
Definition bigSetString (s : list Z) : option Z :=
  match s with
  | c :: r => if c =? 43 then decNumber r
              else if c =? 45 then option_map Z.opp (decNumber r) else decNumber s
  | [] => None
  end.

(** main.go:317-322; the code ignores a failed SetString, [None] stands for the undefined value *)
Definition stringToUint256 (amount : list Z) : option Int :=
  match bigSetString amount with
  | Some b => Some (fst (FromBig b))
  | None => None
  end.

(** transaction.go:9-21 *)
Record TransactionInput := mkTxIn {
  inType : string; inID : string; inTimestamp : Z; inAmount0 : list Z; inAmount1 : list Z; inAmount : list Z;
  inSqrtPriceX96 : list Z; inTick : Z; inTickLower : Z; inTickUpper : Z; inUseX96 : string }.

(** transaction.go:23-35; an amount read from a missing or malformed string is undefined *)
Record Transaction := mkTrans {
  tType : string; tAmount : option Int; tAmount0 : option Int; tAmount1 : option Int; tID : string;
  tSqrtPriceX96 : option Int; tTick : Z; tTickLower : Z; tTickUpper : Z; tTimestamp : Z; tUseX96 : bool }.

(** [z.SToBig().String()]; a nil pointer panics *)
Definition amountString (z : option Int) : res (list Z) :=
  match z with Some z => Ok (bigString (SToBig z)) | None => Panic end.
(** strconv.FormatBool; strconv.ParseBool(s) with the error ignored ([useX96, _ :=]) *)
Definition FormatBool (b : bool) : string := if b then "true" else "false".
Definition ParseBool (s : string) : bool :=
  existsb (String.eqb s) ["1"; "t"; "T"; "TRUE"; "true"; "True"]%string.

(** transaction.go:37-76: the TransactionInput handed to json.Marshal *)
Definition MarshalJSON (t : Transaction) : res TransactionInput :=
  if String.eqb (tType t) "Swap" then
    do a0 <- amountString (tAmount0 t); do a1 <- amountString (tAmount1 t); do p <- amountString (tSqrtPriceX96 t);
    Ok (mkTxIn (tType t) (tID t) (tTimestamp t) a0 a1 [] p (tTick t) 0 0 (FormatBool (tUseX96 t)))
  else if String.eqb (tType t) "Mint" || String.eqb (tType t) "Burn" then
    do a <- amountString (tAmount t); do a1 <- amountString (tAmount1 t); do a0 <- amountString (tAmount0 t);
    Ok (mkTxIn (tType t) (tID t) (tTimestamp t) a0 a1 a [] 0 (tTickLower t) (tTickUpper t) ""%string)
  else if String.eqb (tType t) "Flash" then
    do a0 <- amountString (tAmount0 t); do a1 <- amountString (tAmount1 t);
    Ok (mkTxIn (tType t) (tID t) (tTimestamp t) a0 a1 [] [] 0 0 0 ""%string)
  else Panic.

(** main.go:297-311, the body of the loop *)
Definition readTransaction (i : TransactionInput) : Transaction :=
  mkTrans (inType i) (stringToUint256 (inAmount i)) (stringToUint256 (inAmount0 i)) (stringToUint256 (inAmount1 i))
    (inID i) (stringToUint256 (inSqrtPriceX96 i)) (inTick i) (inTickLower i) (inTickUpper i) (inTimestamp i)
    (ParseBool (inUseX96 i)).

(** main.go:325-335; Go's int wraps, also in [i++] *)
Fixpoint powLoop (fuel : nat) (n m i result : Z) : res Z :=
  match fuel with
  | O => OutOfFuel
  | S f => if i <=? m then powLoop f n m (iadd i 1) (int64 (result * n)) else Ok result
  end.
Definition IntPow (fuel : nat) (n m : Z) : res Z := if m =? 0 then Ok 1 else powLoop fuel n m 2 n.
