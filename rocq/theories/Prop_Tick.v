(** Prop_Tick.v -- properties C26-C29 and C56 (tickmath). *)
From Verif Require Import Base U256Z TickMath TickMathFacts TickAccuracy TickConst Float64 Float64Facts.

Theorem C26_strictly_increasing t u r s : t < u -> GetSqrtRatioAtTick t = Ok r -> GetSqrtRatioAtTick u = Ok s -> r < s.
Proof. exact (ratio_monotone t u r s). Qed.
Print Assumptions C26_strictly_increasing.
Theorem C26_domain t :
  (-887272 <= t <= 887272 -> exists r, GetSqrtRatioAtTick t = Ok r /\
     4295128739 <= r <= 1461446703485210103287273052203988822378723970342) /\
  (~ (-887272 <= t <= 887272) -> GetSqrtRatioAtTick t = Panic).
Proof. exact (ratio_domain t). Qed.
Print Assumptions C26_domain.
Theorem C26_ends : GetSqrtRatioAtTick (-887272) = Ok 4295128739 /\
  GetSqrtRatioAtTick 887272 = Ok 1461446703485210103287273052203988822378723970342 /\ GetSqrtRatioAtTick 0 = Ok (2 ^ 96).
Proof. exact ratio_ends. Qed.
Print Assumptions C26_ends.
Example C26_case : GetSqrtRatioAtTick 1 = Ok 79232123823359799118286999568 /\
  GetSqrtRatioAtTick (-200001) = Ok 3598571895512902374531288.
Proof. vm_compute. auto. Qed.

(** for every bound on the number of loop iterations from 22 upwards, so the loop itself terminates *)
Theorem C27_inverts fuel price : (22 <= fuel)%nat ->
  4295128739 <= price < 1461446703485210103287273052203988822378723970342 ->
  exists t r s, GetTickAtSqrtRatioF fuel price = Ok t /\ -887272 <= t < 887272 /\
    GetSqrtRatioAtTick t = Ok r /\ GetSqrtRatioAtTick (t + 1) = Ok s /\ r <= price < s.
Proof. exact (tick_inverts fuel price). Qed.
Print Assumptions C27_inverts.
Theorem C27_unique price t u r s r' s' :
  GetSqrtRatioAtTick t = Ok r -> GetSqrtRatioAtTick (t + 1) = Ok s -> r <= price < s ->
  GetSqrtRatioAtTick u = Ok r' -> GetSqrtRatioAtTick (u + 1) = Ok s' -> r' <= price < s' -> t = u.
Proof. exact (tick_only price t u r s r' s'). Qed.
Print Assumptions C27_unique.
Theorem C27_panics fuel price : ~ (4295128739 <= price < 1461446703485210103287273052203988822378723970342) ->
  GetTickAtSqrtRatioF fuel price = Panic.
Proof. exact (tick_panics fuel price). Qed.
Print Assumptions C27_panics.
Theorem C27_roundtrip t r : t < 887272 -> GetSqrtRatioAtTick t = Ok r -> GetTickAtSqrtRatio r = Ok t.
Proof. exact (tick_roundtrip t r). Qed.
Print Assumptions C27_roundtrip.
Example C27_case : GetTickAtSqrtRatio 3598571895512902374531287 = Ok (-200002) /\
  GetTickAtSqrtRatio 3598571895512902374531288 = Ok (-200001) /\ GetTickAtSqrtRatio (2 ^ 159) = Ok 873409.
Proof. vm_compute. auto. Qed.

(** With X = sqrt(1.0001^t) * 2^96 and e = 2^-58:  X / sqrt(1+e) <= r <= X * sqrt(1+e) + 1; squared and cleared of
    denominators. *)
Theorem C28_accuracy t r : GetSqrtRatioAtTick t = Ok r ->
  (0 <= t -> (r - 1) * (r - 1) * 10000 ^ t * 2 ^ 58 <= 2 ^ 192 * 10001 ^ t * (2 ^ 58 + 1) /\
             2 ^ 192 * 10001 ^ t * 2 ^ 58 <= r * r * 10000 ^ t * (2 ^ 58 + 1)) /\
  (t < 0 -> (r - 1) * (r - 1) * 10001 ^ (- t) * 2 ^ 58 <= 2 ^ 192 * 10000 ^ (- t) * (2 ^ 58 + 1) /\
            2 ^ 192 * 10000 ^ (- t) * 2 ^ 58 <= r * r * 10001 ^ (- t) * (2 ^ 58 + 1)).
Proof. exact (ratio_accuracy t r). Qed.
Print Assumptions C28_accuracy.
(** the constant multiplied in for bit [i] of the tick is the integer nearest to
    2^128 * (1/1.0001)^(2^i / 2), and bit [i] is the one tested for it *)
Theorem C28_constants i f : nth_error (c0 :: map snd factors) i = Some f ->
  (2 * f - 1) * (2 * f - 1) * 10001 ^ (2 ^ Z.of_nat i) < 4 * 2 ^ 256 * 10000 ^ (2 ^ Z.of_nat i) /\
  4 * 2 ^ 256 * 10000 ^ (2 ^ Z.of_nat i) < (2 * f + 1) * (2 * f + 1) * 10001 ^ (2 ^ Z.of_nat i).
Proof. exact (constants_rounded i f). Qed.
Print Assumptions C28_constants.
Theorem C28_bits : map fst factors = map (fun i => 2 ^ Z.of_nat i) (seq 1 19).
Proof. reflexivity. Qed.
Print Assumptions C28_bits.
Example C28_case : GetSqrtRatioAtTick 60 = Ok 79466191966197645195421774833.
Proof. vm_compute. reflexivity. Qed.

(** any tick below 2^51 in magnitude and any spacing up to 2^51 *)
Theorem C29_floor x u : Z.abs x < 2 ^ 51 -> 0 < u <= 2 ^ 51 -> Floor x u mod u = 0 /\ Floor x u <= x < Floor x u + u.
Proof. exact (Floor_spec x u). Qed.
Print Assumptions C29_floor.
Theorem C29_ceil x u : Z.abs x < 2 ^ 51 -> 0 < u <= 2 ^ 51 -> Ceil x u mod u = 0 /\ Ceil x u - u < x <= Ceil x u.
Proof. exact (Ceil_spec x u). Qed.
Print Assumptions C29_ceil.
(** nearest multiple; a tie goes away from zero *)
Theorem C29_round x u : Z.abs x < 2 ^ 51 -> 0 < u <= 2 ^ 51 ->
  Round x u mod u = 0 /\ 2 * Z.abs (Round x u - x) <= u /\
  (2 * Z.abs (Round x u - x) = u -> Z.abs x < Z.abs (Round x u)).
Proof. exact (Round_spec x u). Qed.
Print Assumptions C29_round.
Example C29_case : Round (-887272) 60 = -887280 /\ Round 90 60 = 120 /\ Round (-30) 60 = -60 /\
  Ceil 61 60 = 120 /\ Ceil (-61) 60 = -60 /\ Floor (-61) 60 = -120 /\ Floor (2 ^ 50 + 1) 3 = 2 ^ 50 - 1.
Proof. vm_compute. auto 10. Qed.
(** float64 does lose the answer once the quotient needs more than 53 bits *)
Example C29_limit : Floor (2 ^ 62 - 1) 1 = 2 ^ 62. Proof. vm_compute. reflexivity. Qed.

Theorem C56_log2 x : 0 < x < 2 ^ 256 -> 2 ^ MostSignificantBit x <= x < 2 ^ (MostSignificantBit x + 1).
Proof. exact (msb_bracket x). Qed.
Print Assumptions C56_log2.
Theorem C56_zero : MostSignificantBit 0 = 0.
Proof. exact msb_zero. Qed.
Print Assumptions C56_zero.
Example C56_case : MostSignificantBit (2 ^ 200 + 5) = 200 /\ MostSignificantBit 1 = 0.
Proof. vm_compute. auto. Qed.
