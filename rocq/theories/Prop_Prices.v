(** Prop_Prices.v -- the price history: C47, C48. *)
From Verif Require Import Base U256Z Prices PricesFacts.
Open Scope Z_scope.

(** prices added one after the other *)
Fixpoint added (p : Prices) (prices : list Z) : res Prices :=
  match prices with
  | [] => Ok p
  | x :: l => match AddPrice p x with Ok p' => added p' l | Panic => Panic | OutOfFuel => OutOfFuel end
  end.
Lemma added_addAll prices : forall p, added p prices = addAll p prices.
Proof. induction prices as [|x l IH]; intros p; cbn [added addAll]; [reflexivity|]. destruct (AddPrice p x); cbn [bind]; auto. Qed.

(** After any prices, the slots read from the next one to be overwritten are the last [n] of [n] zeros followed
    by the squares of the prices, in order. *)
Theorem C47_ring_buffer n prices p p' : 0 < n < 2 ^ 63 -> NewPrices n = Ok p -> added p prices = Ok p' ->
  skipn (Z.to_nat (prIndex p')) (prPrices p') ++ firstn (Z.to_nat (prIndex p')) (prPrices p') =
    skipn (length prices) (repeat 0 (Z.to_nat n) ++ map (fun x => (x * x) mod 2 ^ 256) prices) /\
  length (prPrices p') = Z.to_nat n /\ 0 <= prIndex p' < n /\ prLength p' = n.
Proof. exact (ring_spec n prices p p' _ (added_addAll prices p)). Qed.
Print Assumptions C47_ring_buffer.

(** adding needs nothing but an accepted price, so every list of accepted prices can be added *)
Theorem C47_never_full n prices p : 0 < n < 2 ^ 63 -> NewPrices n = Ok p ->
  ((exists p', added p prices = Ok p') <-> Forall (fun x => (x * x) mod 2 ^ 256 < 2 ^ 230) prices).
Proof. exact (addAll_total n prices p _ (added_addAll prices p)). Qed.
Print Assumptions C47_never_full.

(** For histories of up to 2^26 entries nothing overflows: Average is the floor of the mean of the last [n]
    (zeros included while fewer were added), and Volatility the floor of the sample standard deviation around
    that floored mean. *)
Theorem C47_average n prices p p' : 0 < n <= 2 ^ 26 -> NewPrices n = Ok p -> added p prices = Ok p' ->
  Average p' = fold_right Z.add 0 (skipn (length prices) (repeat 0 (Z.to_nat n) ++ map (fun x => (x * x) mod 2 ^ 256) prices)) / n.
Proof. exact (average_spec n prices p p' _ (added_addAll prices p)). Qed.
Print Assumptions C47_average.
Theorem C47_volatility n prices p p' : 1 < n <= 2 ^ 26 -> NewPrices n = Ok p -> added p prices = Ok p' ->
  let w := skipn (length prices) (repeat 0 (Z.to_nat n) ++ map (fun x => (x * x) mod 2 ^ 256) prices) in
  let mean := fold_right Z.add 0 w / n in
  Volatility p' = Ok (Z.sqrt (fold_right Z.add 0 (map (fun v => (v - mean) * (v - mean)) w) / (n - 1))).
Proof. exact (volatility_spec n prices p p' _ (added_addAll prices p)). Qed.
Print Assumptions C47_volatility.
(** a history of one entry has no volatility: the division by n - 1 panics *)
Theorem C47_volatility_of_one prices p p' : NewPrices 1 = Ok p -> added p prices = Ok p' -> Volatility p' = Panic.
Proof. exact (volatility_one_spec prices p p' _ (added_addAll prices p)). Qed.
Print Assumptions C47_volatility_of_one.

Example C47_case : exists p p', NewPrices 3 = Ok p /\ added p [5; 7; 11; 13] = Ok p' /\ prPrices p' = [169; 49; 121] /\ prIndex p' = 1 /\
  Average p' = 113 /\ Volatility p' = Ok 60.
Proof. eexists. eexists. split; [vm_compute; reflexivity|]. split; [vm_compute; reflexivity|]. repeat split; vm_compute; reflexivity. Qed.
Example C47_case_short : exists p p', NewPrices 3 = Ok p /\ added p [5] = Ok p' /\ prPrices p' = [25; 0; 0] /\ Average p' = 8.
Proof. eexists. eexists. split; [vm_compute; reflexivity|]. split; [vm_compute; reflexivity|]. repeat split; vm_compute; reflexivity. Qed.

(** Add accepts exactly the prices whose square is below 2^230 after wrapping.  Below 2^128, where nothing
    wraps, these are the prices below 2^115, and the exact square is stored. *)
Theorem C48_accepted n prices p p' x : 0 < n < 2 ^ 63 -> NewPrices n = Ok p -> added p prices = Ok p' ->
  ((exists p'', AddPrice p' x = Ok p'') <-> (x * x) mod 2 ^ 256 < 2 ^ 230) /\
  (AddPrice p' x = Panic <-> 2 ^ 230 <= (x * x) mod 2 ^ 256) /\
  (0 <= x < 2 ^ 128 -> ((exists p'', AddPrice p' x = Ok p'') <-> x < 2 ^ 115) /\ (x * x) mod 2 ^ 256 = x * x).
Proof. exact (accepted_spec n prices p p' _ (added_addAll prices p) x). Qed.
Print Assumptions C48_accepted.
(** the check does not notice that the square itself overflowed *)
Theorem C48_overflow_detected_refuted :
  ~ (forall n p x p', 0 < n < 2 ^ 63 -> NewPrices n = Ok p -> 0 <= x < 2 ^ 160 -> AddPrice p x = Ok p' -> x * x < 2 ^ 256).
Proof. exact overflow_unnoticed. Qed.
Print Assumptions C48_overflow_detected_refuted.
Example C48_case : exists p p', NewPrices 2 = Ok p /\ AddPrice p (2 ^ 128) = Ok p' /\ prPrices p' = [0; 0] /\
  AddPrice p (2 ^ 115) = Panic /\ exists p'', AddPrice p (2 ^ 115 - 1) = Ok p''.
Proof. eexists. eexists. split; [vm_compute; reflexivity|]. split; [vm_compute; reflexivity|]. split; [vm_compute; reflexivity|]. split; [vm_compute; reflexivity|]. eexists. vm_compute. reflexivity. Qed.
