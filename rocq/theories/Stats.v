(** Stats.v -- the statistics of a run and the file of results: /repo/main.go:96-284, /repo/lib/result/result.go.

    [new(big.Float).SetInt(x).Float64()] is the nearest double (big.Float takes a precision that holds x).  math.Max,
    math.Min, math.Sqrt and sort.Float64s are modelled by their documentation.  math.Log is a parameter [ln]: no
    property depends on how it is computed. *)
From Coq Require Import Floats.SpecFloat.
From Verif Require Import Base Float64 Prices.
Ltac Zify.zify_post_hook ::= idtac.
Open Scope Z_scope.

(** float64 addition, subtraction, square root, comparison *)
Definition f64_add : spec_float -> spec_float -> spec_float := SFadd 53 1024.
Definition f64_sub : spec_float -> spec_float -> spec_float := SFsub 53 1024.
Definition f64_sqrt : spec_float -> spec_float := SFsqrt 53 1024.
Definition f64_lt : spec_float -> spec_float -> bool := SFltb.
Definition f64_zero : spec_float := S754_zero false.
Definition isNaN (x : spec_float) : bool := match x with S754_nan => true | _ => false end.
(** math.Max, math.Min *)
Definition f64_max (x y : spec_float) : spec_float :=
  match x, y with
  | S754_infinity false, _ | _, S754_infinity false => S754_infinity false
  | S754_nan, _ | _, S754_nan => S754_nan
  | S754_zero s, S754_zero _ => if s then y else x
  | _, _ => if f64_lt y x then x else y
  end.
Definition f64_min (x y : spec_float) : spec_float :=
  match x, y with
  | S754_infinity true, _ | _, S754_infinity true => S754_infinity true
  | S754_nan, _ | _, S754_nan => S754_nan
  | S754_zero s, S754_zero _ => if s then x else y
  | _, _ => if f64_lt x y then x else y
  end.
(** sort.Float64s: increasing, NaN before everything else; inserting one by one gives the sorted list *)
Definition f64_less (x y : spec_float) : bool := f64_lt x y || (isNaN x && negb (isNaN y)).
Fixpoint insert (x : spec_float) (l : list spec_float) : list spec_float :=
  match l with
  | [] => [x]
  | y :: l' => if f64_less y x then y :: insert x l' else x :: l
  end.
Definition Float64s (l : list spec_float) : list spec_float := fold_right insert [] l.

Section Stats.
  Variable ln : spec_float -> spec_float.

  (** main.go:96-107 *)
  Fixpoint getReturns (prices : list Z) : list spec_float :=
    match prices with
    | a :: (b :: _) as rest => ln (f64_div (f64_of_int b) (f64_of_int a)) :: getReturns rest
    | _ => []
    end.

  (** main.go:120-124: one round of the loop, on (maxPrice, maxDrawdown) *)
  Definition drawdownStep (acc : spec_float * spec_float) (price : spec_float) : spec_float * spec_float :=
    let maxPrice := f64_max (fst acc) price in
    let drawdown := f64_div (f64_sub price maxPrice) maxPrice in
    (maxPrice, f64_min (snd acc) drawdown).
  (** main.go:109-126 *)
  Definition calculateMaximumDrawdown (prices : list Z) : spec_float :=
    match prices with
    | [] | [_] => f64_zero
    | first :: _ => snd (fold_left drawdownStep (map f64_of_int prices) (f64_of_int first, f64_zero))
    end.

  (** main.go:128-145 *)
  Definition calculateDownDeviation (prices : list Z) : spec_float :=
    if Z.of_nat (length prices) <=? 2 then f64_zero
    else
      let returns := getReturns prices in
      let sum := fold_left (fun sum r => if f64_lt r f64_zero then f64_add sum (f64_mul r r) else sum) returns f64_zero in
      f64_sqrt (f64_div sum (f64_of_int (Z.of_nat (length returns)))).

  (** main.go:147-157 *)
  Definition calculateVar (prices : list Z) : res spec_float :=
    if Z.of_nat (length prices) <=? 2 then Ok f64_zero
    else
      let returns := Float64s (getReturns prices) in
      match nth_error returns (Z.to_nat (Z.of_nat (length returns) / 20)) with
      | Some x => Ok x
      | None => Panic
      end.

  (** main.go:159-182 *)
  Definition calculateStd (prices : list Z) : spec_float :=
    if Z.of_nat (length prices) <=? 2 then f64_zero
    else
      let returns := getReturns prices in
      let n := Z.of_nat (length returns) in
      let sum1 := fold_left (fun sum r => f64_add sum (f64_mul r r)) returns f64_zero in
      let sum1 := f64_div sum1 (f64_of_int (n - 1)) in
      let sum2 := fold_left f64_add returns f64_zero in
      let sum2 := f64_mul sum2 sum2 in
      let sum2 := f64_div sum2 (f64_of_int (int64 (n * (n - 1)))) in
      f64_sqrt (f64_sub sum1 sum2).

  (** main.go:192-200: the loop of runAndAppend, from index [i] on, keeping every [step]-th value *)
  Fixpoint sampleFrom (step i : Z) (l : list Z) : list Z :=
    match l with
    | [] => []
    | x :: l => if Z.rem i step =? 0 then x :: sampleFrom step (i + 1) l else sampleFrom step (i + 1) l
    end.

  (** result.go:17-34; end_amount is the decimal representation of [EndAmount] *)
  Record RunResult := mkRunResult {
    UpdateInterval : Z; MultiplierX10 : Z; HistoryWindow : Z; Return : spec_float; EndAmount : Z; MaxDrawdown : spec_float;
    StdHourly : spec_float; StdDaily : spec_float; StdWeekly : spec_float;
    DownHourly : spec_float; DownDaily : spec_float; DownWeekly : spec_float;
    VarHourly : spec_float; VarDaily : spec_float; VarWeekly : spec_float }.

  (** main.go:185-250: runAndAppend after execution.Run, with createResult; [values] are the AmountUSDSnapshots *)
  Definition resultOf (mul duration updateInterval : Z) (values : list Z) : res RunResult :=
    let hourly := values in
    let daily := sampleFrom 24 0 values in
    let weekly := sampleFrom (24 * 7) 0 values in
    do varHourly <- calculateVar hourly;
    do varDaily <- calculateVar daily;
    do varWeekly <- calculateVar weekly;
    match values, rev values with
    | first :: _, last :: _ =>
        let amountStart := f64_of_int first in
        let amountEnd := f64_of_int last in
        let roi := f64_div (f64_sub amountEnd amountStart) amountStart in
        Ok (mkRunResult updateInterval mul duration roi last (calculateMaximumDrawdown hourly)
              (calculateStd hourly) (calculateStd daily) (calculateStd weekly)
              (calculateDownDeviation hourly) (calculateDownDeviation daily) (calculateDownDeviation weekly)
              varHourly varDaily varWeekly)
    | _, _ => Panic
    end.
End Stats.

(** encoding/json refuses NaN and infinities *)
Definition isFinite (x : spec_float) : bool := match x with S754_zero _ | S754_finite _ _ _ => true | _ => false end.
Definition encodable (r : RunResult) : bool :=
  forallb isFinite [Return r; MaxDrawdown r; StdHourly r; StdDaily r; StdWeekly r; DownHourly r; DownDaily r; DownWeekly r;
    VarHourly r; VarDaily r; VarWeekly r].
(** main.go:252-284: the results in the file, or nothing at all: Encode writes only after encoding everything, and the
    error is dropped *)
Definition saveFile (results : list RunResult) : option (list RunResult) :=
  if forallb encodable results then Some results else None.
