(** Prop_Stats.v -- the statistics of a run and the file of results: C64-C68.
    [fin x v]: the float x is finite and its value is v * 2^-1074 (every finite double is an integer multiple of
    2^-1074), so 2^1074 is the number 1. *)
From Coq Require Import Floats.SpecFloat.
From Verif Require Import Base U256Z Float64 FloatSpec Pool Prices Client Strategy Executor StrategyFacts PoolSpec Stats StatsFacts StatsRisk StatsRun StatsError.
Open Scope Z_scope.

(** ** C64: maximum drawdown *)

(** Between -1 and 0; up to 2^-50 it is the smallest (q - p) / p over all pairs of a price p and a later price q;
    exactly 0 if the value never falls. *)
Theorem C64_drawdown first rest : Forall (fun p => 0 <= p < 2 ^ 256) (first :: rest) -> 0 < first ->
  exists v, fin (calculateMaximumDrawdown (first :: rest)) v /\ - 2 ^ 1074 <= v <= 0
    /\ (forall i j p q, (i <= j)%nat -> nth_error (first :: rest) i = Some p -> nth_error (first :: rest) j = Some q -> v * p <= (q - p) * 2 ^ 1074 + p * 2 ^ 1024)
    /\ (exists i j p q, (i <= j)%nat /\ nth_error (first :: rest) i = Some p /\ nth_error (first :: rest) j = Some q /\ 0 < p /\ (q - p) * 2 ^ 1074 - p * 2 ^ 1024 <= v * p)
    /\ ((forall i p q, nth_error (first :: rest) i = Some p -> nth_error (first :: rest) (S i) = Some q -> p <= q) -> v = 0).
Proof. exact (drawdown_spec first rest). Qed.
Print Assumptions C64_drawdown.
(** a run that starts with nothing has no drawdown, whatever comes after *)
Theorem C64_zero_start_refuted q rest : Forall (fun p => 0 <= p < 2 ^ 256) (q :: rest) -> calculateMaximumDrawdown (0 :: q :: rest) = S754_nan.
Proof. exact (drawdown_nan q rest). Qed.
Print Assumptions C64_zero_start_refuted.
(** 100, 50, 200, 20: from 200 down to 20 *)
Example C64_case : exists v, fin (calculateMaximumDrawdown [100; 50; 200; 20]) v /\ v * 10 < - 9 * 2 ^ 1074 + 2 ^ 1030 /\ - 9 * 2 ^ 1074 - 2 ^ 1030 < v * 10.
Proof. eexists. split; [vm_compute; split; reflexivity|]. split; vm_compute; reflexivity. Qed.

(** ** C65: the samples *)

(** Each field is the statistic of the hourly values, of those at 0, 24, 48, ..., or of those at 0, 168, 336, ...; the
    end amount is the last value. *)
Theorem C65_fields ln mul duration interval values r : resultOf ln mul duration interval values = Ok r ->
  UpdateInterval r = interval /\ MultiplierX10 r = mul /\ HistoryWindow r = duration /\ EndAmount r = last values 0 /\ MaxDrawdown r = calculateMaximumDrawdown values
  /\ StdHourly r = calculateStd ln values /\ DownHourly r = calculateDownDeviation ln values /\ calculateVar ln values = Ok (VarHourly r)
  /\ (exists daily, (forall k, nth_error daily k = nth_error values (24 * k)) /\
        StdDaily r = calculateStd ln daily /\ DownDaily r = calculateDownDeviation ln daily /\ calculateVar ln daily = Ok (VarDaily r))
  /\ (exists weekly, (forall k, nth_error weekly k = nth_error values (168 * k)) /\
        StdWeekly r = calculateStd ln weekly /\ DownWeekly r = calculateDownDeviation ln weekly /\ calculateVar ln weekly = Ok (VarWeekly r)).
Proof. exact (result_fields ln mul duration interval values r). Qed.
Print Assumptions C65_fields.
(** There is a result unless nothing was recorded, and a run always records something, each time a 256-bit number. *)
Theorem C65_total ln mul duration interval values : (exists r, resultOf ln mul duration interval values = Ok r) <-> values <> [].
Proof. exact (result_total ln mul duration interval values). Qed.
Print Assumptions C65_total.
Theorem C65_after_run S (strat : Strat S) c txs s fuel p q tr r : runV fuel p (Run strat c txs s) = Ok (q, tr, r) ->
  Forall (fun v => 0 <= v < 2 ^ 256) (snd r) /\ snd r <> [].
Proof. exact (run_values strat c txs s fuel p q tr r). Qed.
Print Assumptions C65_after_run.

(** [logarithm ln]: ln is finite and below 1024 in absolute value on positive finite doubles.  [val x]: the value of x.
    [flat]: a logarithm that knows 1, 2 and 1/2, for the examples; Ln2 is the double nearest to the logarithm of 2 *)
Definition Ln2 : spec_float := S754_finite false 6243314768165359 (-53).
Definition one : spec_float := f64_of_int 1.
Definition flat (x : spec_float) : spec_float :=
  if f64_lt one x then Ln2 else if f64_lt x one then SFopp Ln2 else f64_zero.
Example flat_logarithm : logarithm flat.
Proof.
  intros x v _ _. unfold flat. destruct (f64_lt one x); [|destruct (f64_lt x one)].
  - exists (6243314768165359 * 2 ^ (-53 + 1074)). split; [split; reflexivity|reflexivity].
  - exists (- (6243314768165359 * 2 ^ (-53 + 1074))). split; [split; reflexivity|reflexivity].
  - exists 0. split; reflexivity.
Qed.
Example C65_case : exists r, resultOf flat 10 0 3600 (map (fun i => 1000 + Z.of_nat i) (seq 0 200)) = Ok r /\ EndAmount r = 1199 /\
  sampleFrom 168 0 (map (fun i => 1000 + Z.of_nat i) (seq 0 200)) = [1000; 1168].
Proof. eexists. split; [vm_compute; reflexivity|]. split; vm_compute; reflexivity. Qed.

(** ** C66: value at risk *)

(** It never fails; from three prices on it is one of the returns, at most (n-1)/20 of them are smaller, and more
    than that are not larger. *)
Theorem C66_total ln prices : exists x, calculateVar ln prices = Ok x.
Proof. exact (var_total ln prices). Qed.
Print Assumptions C66_total.
Theorem C66_rank ln prices x : logarithm ln -> Forall (fun p => 0 < p < 2 ^ 256) prices -> 2 < Z.of_nat (length prices) -> calculateVar ln prices = Ok x ->
  In x (getReturns ln prices) /\ fin x (val x)
  /\ Z.of_nat (length (filter (fun y => val y <? val x) (getReturns ln prices))) <= (Z.of_nat (length prices) - 1) / 20
     < Z.of_nat (length (filter (fun y => val y <=? val x) (getReturns ln prices))).
Proof. exact (var_rank ln prices x). Qed.
Print Assumptions C66_rank.
(** the returns: the logarithm of each price over the one before *)
Theorem C66_returns ln prices : length (getReturns ln prices) = pred (length prices) /\
  forall i a b, nth_error prices i = Some a -> nth_error prices (S i) = Some b ->
    nth_error (getReturns ln prices) i = Some (ln (f64_div (f64_of_int b) (f64_of_int a))).
Proof. split; [exact (returns_length ln prices)|exact (returns_nth ln prices)]. Qed.
Print Assumptions C66_returns.
(** 40 returns, two of them negative: the third smallest *)
Example C66_case : calculateVar flat (map (fun i => 1000 - 500 * (Z.of_nat i mod 20 / 19)) (seq 0 41)) = Ok f64_zero.
Proof. vm_compute. reflexivity. Qed.

(** ** C67: deviations *)

(** With n returns r, the down deviation v satisfies v^2 = (sum of r^2 over the negative returns) / n up to a relative
    error of n * 2^-48 (and an absolute one of 2^-1072). *)
Theorem C67_down ln prices : logarithm ln -> Forall (fun p => 0 < p < 2 ^ 256) prices -> 2 < Z.of_nat (length prices) < 2 ^ 31 ->
  exists v, fin (calculateDownDeviation ln prices) v /\ 0 <= v /\
    let n := Z.of_nat (length prices) - 1 in
    let Q := fold_right (fun r s => val r * val r + s) 0 (filter (fun r => val r <? 0) (getReturns ln prices)) in
    2 ^ 48 * Z.abs (v * v * n - Q) <= n * Q + 2 ^ 50 * n * 2 ^ 1074.
Proof. exact (down_deviation_error ln prices). Qed.
Print Assumptions C67_down.
(** none if the value never falls *)
Theorem C67_down_zero ln prices : logarithm ln -> (forall x v, fin x v -> 2 ^ 1074 <= v -> exists r, fin (ln x) r /\ 0 <= r) ->
  Forall (fun p => 0 < p < 2 ^ 256) prices -> Z.of_nat (length prices) < 2 ^ 53 ->
  (forall i a b, nth_error prices i = Some a -> nth_error prices (S i) = Some b -> a <= b) -> fin (calculateDownDeviation ln prices) 0.
Proof. exact (down_deviation_zero ln prices). Qed.
Print Assumptions C67_down_zero.
(** The standard deviation v satisfies v^2 = (n * sum r^2 - (sum r)^2) / (n * (n-1)), the sample variance, up to
    about 2^-46 * sum r^2; or it is undefined, and then the variance is below that bound. *)
Theorem C67_std ln prices : logarithm ln -> Forall (fun p => 0 < p < 2 ^ 256) prices -> 2 < Z.of_nat (length prices) < 2 ^ 31 ->
  let n := Z.of_nat (length prices) - 1 in
  let Q := fold_right (fun r s => val r * val r + s) 0 (getReturns ln prices) in
  let T := fold_right (fun r s => val r + s) 0 (getReturns ln prices) in
  (exists v, fin (calculateStd ln prices) v /\ 0 <= v /\ 2 ^ 46 * Z.abs (v * v * (n * (n - 1)) - (n * Q - T * T)) <= n * n * (Q + 2 ^ 50 * 2 ^ 1074))
  \/ calculateStd ln prices = S754_nan /\ 2 ^ 46 * (n * Q - T * T) <= n * n * (Q + 2 ^ 50 * 2 ^ 1074).
Proof. exact (std_error ln prices). Qed.
Print Assumptions C67_std.
(** both are zero with two prices or fewer *)
Theorem C67_short ln prices : Z.of_nat (length prices) <= 2 -> calculateStd ln prices = f64_zero /\ calculateDownDeviation ln prices = f64_zero /\ calculateVar ln prices = Ok f64_zero.
Proof. intros H. apply Z.leb_le in H. unfold calculateStd, calculateDownDeviation, calculateVar. rewrite H. repeat split. Qed.
Print Assumptions C67_short.
(** undefined it is for a value that doubles every hour for 21 hours, whose deviation is zero: the difference of the
    two rounded terms is negative *)
Theorem C67_std_refuted ln : ln (f64_of_int 2) = Ln2 -> calculateStd ln (map (fun i => 10 ^ 6 * 2 ^ Z.of_nat i) (seq 0 22)) = S754_nan.
Proof.
  intros H. assert (getReturns ln (map (fun i => 10 ^ 6 * 2 ^ Z.of_nat i) (seq 0 22)) = repeat (ln (f64_of_int 2)) 21) as E.
  { cbn [seq map getReturns]. repeat match goal with |- context [f64_div ?a ?b] => let c := eval vm_compute in (f64_div a b) in change (f64_div a b) with c end. reflexivity. }
  unfold calculateStd. rewrite E, H. vm_compute. reflexivity.
Qed.
Print Assumptions C67_std_refuted.
Example C67_case : exists v, fin (calculateStd flat [1000; 2000; 1000; 2000]) v /\ 2 ^ 1073 < v < 2 ^ 1074.
Proof. eexists. split; [vm_compute; split; reflexivity|]. split; vm_compute; reflexivity. Qed.
Example C67_case_down : exists v, fin (calculateDownDeviation flat [1000; 2000; 1000; 2000]) v /\ 2 ^ 1072 < v < 2 ^ 1074.
Proof. eexists. split; [vm_compute; split; reflexivity|]. split; vm_compute; reflexivity. Qed.

(** ** C68: the return, and the file *)

(** (end - start) / start with an error below 2^-50 of the larger amount; at least -1; of the right sign *)
Theorem C68_return ln mul duration interval first rest r : resultOf ln mul duration interval (first :: rest) = Ok r ->
  Forall (fun p => 0 <= p < 2 ^ 256) (first :: rest) -> 0 < first ->
  exists w, fin (Return r) w /\ - 2 ^ 1074 <= w
    /\ Z.abs (w * first - (EndAmount r - first) * 2 ^ 1074) <= Z.max first (EndAmount r) * 2 ^ 1024
    /\ (EndAmount r <= first -> w <= 0) /\ (first <= EndAmount r -> 0 <= w).
Proof. exact (result_return ln mul duration interval first rest r). Qed.
Print Assumptions C68_return.
(** with positive values only the standard deviations can be undefined *)
Theorem C68_numbers ln mul duration interval values r : logarithm ln -> Forall (fun p => 0 < p < 2 ^ 256) values -> Z.of_nat (length values) < 2 ^ 31 ->
  resultOf ln mul duration interval values = Ok r -> StdHourly r <> S754_nan -> StdDaily r <> S754_nan -> StdWeekly r <> S754_nan ->
  forall x, In x [Return r; MaxDrawdown r; StdHourly r; StdDaily r; StdWeekly r; DownHourly r; DownDaily r; DownWeekly r; VarHourly r; VarDaily r; VarWeekly r] ->
  x <> S754_nan /\ forall s, x <> S754_infinity s.
Proof. exact (result_numbers ln mul duration interval values r). Qed.
Print Assumptions C68_numbers.
(** the file holds all results if every number of them is defined *)
Theorem C68_saved results :
  (forall r x, In r results -> In x [Return r; MaxDrawdown r; StdHourly r; StdDaily r; StdWeekly r; DownHourly r; DownDaily r; DownWeekly r; VarHourly r; VarDaily r; VarWeekly r] ->
     x <> S754_nan /\ forall s, x <> S754_infinity s) -> saveFile results = Some results.
Proof. exact (save_all results). Qed.
Print Assumptions C68_saved.
(** and none of them if a single one is not *)
Theorem C68_lost results r x : In r results ->
  In x [Return r; MaxDrawdown r; StdHourly r; StdDaily r; StdWeekly r; DownHourly r; DownDaily r; DownWeekly r; VarHourly r; VarDaily r; VarWeekly r] ->
  x = S754_nan \/ (exists s, x = S754_infinity s) -> saveFile results = None.
Proof. exact (save_nothing results r x). Qed.
Print Assumptions C68_lost.
Example C68_case : exists r, resultOf flat 10 0 3600 [1000; 2000; 1000; 500; 3000] = Ok r /\ saveFile [r; r] = Some [r; r] /\
  exists w, fin (Return r) w /\ w = 2 * 2 ^ 1074.
Proof. eexists. split; [vm_compute; reflexivity|]. split; [vm_compute; reflexivity|]. eexists. split; [vm_compute; split; reflexivity|vm_compute; reflexivity]. Qed.
(** the doubling run of C67 beside a good one *)
Example C68_case_lost : exists r b, resultOf flat 10 0 3600 [1000; 2000; 1000; 500; 3000] = Ok r /\
  resultOf flat 10 0 3600 (map (fun i => 10 ^ 6 * 2 ^ Z.of_nat i) (seq 0 22)) = Ok b /\ saveFile [r; b] = None.
Proof. eexists. eexists. split; [vm_compute; reflexivity|]. split; [vm_compute; reflexivity|]. vm_compute. reflexivity. Qed.
