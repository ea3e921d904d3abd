(** Prop_Math.v -- properties C19-C25, C41 and C57 (fullmath, sqrtprice_math, swapmath, liquidity_amounts).
    Reading guide: [MulDivL], [MulDivRoundingUpL] are the limb-level functions; the others work on integers
    in [0, 2^256) with explicit wrap-around (LibBridge.v ties the two levels together).  Prices are Q64.96
    square-root prices.  [words_of k v]: v has k significant 64-bit words. *)
From Verif Require Import Base U256 U256Facts U256DivSpec U256Z LibBridge FullMathFacts SwapMath SwapMathFacts SwapStep SwapStepReturns LiqFacts MathSpec.

Theorem C19_muldiv_exact a b d z : wf a -> wf b -> wf d -> MulDivL a b d = Ok z ->
  wf z /\ (0 < toZ d -> toZ z = (toZ a * toZ b / toZ d) mod T256) /\
  (toZ d = 0 -> toZ a * toZ b = 0 /\ toZ z = 0).
Proof. exact (MulDivL_exact a b d z). Qed.
Print Assumptions C19_muldiv_exact.
(** the ceiling of n/d is -((-n)/d) with Coq's floor division *)
Theorem C19_muldiv_up_exact a b d z : wf a -> wf b -> wf d -> MulDivRoundingUpL a b d = Ok z ->
  wf z /\ (0 < toZ d -> toZ z = (- ((- (toZ a * toZ b)) / toZ d)) mod T256) /\
  (toZ d = 0 -> toZ a * toZ b = 0 /\ toZ z = 0).
Proof. exact (MulDivRoundingUpL_exact a b d z). Qed.
Print Assumptions C19_muldiv_up_exact.
Example C19_case :
  MulDivL (ofZ (2 ^ 200)) (ofZ (2 ^ 150 + 1)) (ofZ (2 ^ 100 + 7)) = Ok (ofZ (2 ^ 200 * (2 ^ 150 + 1) / (2 ^ 100 + 7))) /\
  MulDivRoundingUpL (ofZ 7) (ofZ 5) (ofZ 4) = Ok (ofZ 9).
Proof. vm_compute. auto. Qed.
(** a quotient of more than 256 bits is silently reduced *)
Example C19_truncation : MulDivL (ofZ (2 ^ 150)) (ofZ (2 ^ 150)) (ofZ 1) = Ok (ofZ 0).
Proof. vm_compute. reflexivity. Qed.

Theorem C20_panic_set a b d np nd : wf a -> wf b -> wf d -> words_of np (toZ a * toZ b) -> words_of nd (toZ d) ->
  (MulDivL a b d = Panic <-> toZ a * toZ b <> 0 /\ (nd = 0 \/ np + 1 < nd \/ nd + 4 < np)%nat) /\
  (MulDivRoundingUpL a b d = Panic <-> MulDivL a b d = Panic) /\
  MulDivL a b d <> OutOfFuel /\ MulDivRoundingUpL a b d <> OutOfFuel.
Proof. exact (MulDivL_panics a b d np nd). Qed.
Print Assumptions C20_panic_set.
Theorem C20_safe_region a b d : wf a -> wf b -> wf d -> 0 < toZ d -> toZ a * toZ b < T256 * toZ d ->
  toZ d < 2 ^ 128 \/ toZ d <= toZ a * toZ b ->
  exists z z', MulDivL a b d = Ok z /\ MulDivRoundingUpL a b d = Ok z' /\ toZ z = toZ a * toZ b / toZ d.
Proof. exact (MulDivL_safe a b d). Qed.
Print Assumptions C20_safe_region.
(** "a nonzero denominator and a fitting quotient never panic" is false *)
Theorem C20_never_panics_refuted : exists a b d, wf a /\ wf b /\ wf d /\ 0 < toZ d /\
  toZ a * toZ b < T256 * toZ d /\ MulDivL a b d = Panic /\ MulDivRoundingUpL a b d = Panic.
Proof.
  exact (ex_intro _ (ofZ 7) (ex_intro _ (ofZ 1) (ex_intro _ (ofZ (2 ^ 128))
    (conj (wf_ofZ _) (conj (wf_ofZ _) (conj (wf_ofZ _) (conj eq_refl (conj eq_refl (conj eq_refl eq_refl))))))))).
Qed.
Print Assumptions C20_never_panics_refuted.
(** the same panic reached from the price math: token0 needed for a one-unit price move at 2^128 *)
Example C20_reached : GetAmount0Delta (2 ^ 128) (2 ^ 128 + 1) 1 true = Panic.
Proof. vm_compute. reflexivity. Qed.

Theorem C21_amount0 a b l : 0 <= l < 2 ^ 160 -> 0 < a <= b -> b < 2 ^ 160 ->
  (forall x, GetAmount0Delta a b l false = Ok x -> x * (a * b) <= l * 2 ^ 96 * (b - a) < (x + 1) * (a * b)) /\
  (forall x, GetAmount0Delta a b l true = Ok x -> (x - 1) * (a * b) < l * 2 ^ 96 * (b - a) <= x * (a * b)) /\
  (forall u, GetAmount0Delta b a l u = GetAmount0Delta a b l u).
Proof. exact (amount0_bracket a b l). Qed.
Print Assumptions C21_amount0.
Theorem C21_amount1 a b l : 0 <= l < 2 ^ 160 -> 0 <= a <= b -> b < 2 ^ 160 ->
  (forall x, GetAmount1Delta a b l false = Ok x -> x * 2 ^ 96 <= l * (b - a) < (x + 1) * 2 ^ 96) /\
  (forall x, GetAmount1Delta a b l true = Ok x -> (x - 1) * 2 ^ 96 < l * (b - a) <= x * 2 ^ 96) /\
  (forall u, GetAmount1Delta b a l u = GetAmount1Delta a b l u).
Proof. exact (amount1_bracket a b l). Qed.
Print Assumptions C21_amount1.
Theorem C21_signed a b l : 0 < l < T255 ->
  GetAmount0DeltaRounded a b l = GetAmount0Delta a b l true /\
  GetAmount1DeltaRounded a b l = GetAmount1Delta a b l true /\
  GetAmount0DeltaRounded a b (uneg l) = rmap uneg (GetAmount0Delta a b l false) /\
  GetAmount1DeltaRounded a b (uneg l) = rmap uneg (GetAmount1Delta a b l false).
Proof. exact (amount_signed a b l). Qed.
Print Assumptions C21_signed.
Example C21_case : GetAmount0Delta (2 ^ 96) (2 ^ 96 + 12345678901234567890) 1000000000000000000 true = Ok 155824375 /\
  GetAmount0Delta (2 ^ 96) (2 ^ 96 + 12345678901234567890) 1000000000000000000 false = Ok 155824374 /\
  GetAmount1Delta (2 ^ 96) (2 ^ 97) 1000 true = Ok 1000.
Proof. vm_compute. auto. Qed.

(** selling token0: the exact next price is L*P/(L + x*P), L = l*2^96 *)
Theorem C22_input_down P l x r : 2 ^ 32 <= P < 2 ^ 160 -> 0 <= l < 2 ^ 160 -> 0 <= x < T255 ->
  GetNextSqrtPriceFromInput P l x true = Ok r ->
  l * 2 ^ 96 * (P - r) <= x * (P * r) /\ 0 < r <= P /\
  (r - 1) * (l * 2 ^ 96 / P + x) < l * 2 ^ 96 /\
  (l * 2 ^ 96 + x * P < T256 -> (r - 1) * (l * 2 ^ 96 + x * P) < l * 2 ^ 96 * P).
Proof. exact (input_down_full P l x r). Qed.
Print Assumptions C22_input_down.
Theorem C22_input_up P l x r : 2 ^ 32 <= P < 2 ^ 160 -> 0 < l < 2 ^ 160 -> 0 <= x < 2 ^ 160 ->
  P + x * 2 ^ 96 / l < T256 ->
  GetNextSqrtPriceFromInput P l x false = Ok r -> r = P + x * 2 ^ 96 / l.
Proof. exact (input_up_exact P l x r). Qed.
Print Assumptions C22_input_up.
Theorem C22_output_down P l x r : 2 ^ 32 <= P < 2 ^ 160 -> 0 < l < 2 ^ 160 -> 0 <= x ->
  - (- (x * 2 ^ 96) / l) <= P ->
  GetNextSqrtPriceFromOutput P l x true = Ok r -> r = P + (- (x * 2 ^ 96)) / l.
Proof. exact (output_down_exact P l x r). Qed.
Print Assumptions C22_output_down.
Theorem C22_output_up P l x r : 2 ^ 32 <= P < 2 ^ 160 -> 0 < l < 2 ^ 160 -> 0 < x -> x * P < l * 2 ^ 96 ->
  l * 2 ^ 96 * P <= (T256 - 1) * (l * 2 ^ 96 - x * P) ->
  GetNextSqrtPriceFromOutput P l x false = Ok r ->
  (r - 1) * (l * 2 ^ 96 - x * P) < l * 2 ^ 96 * P <= r * (l * 2 ^ 96 - x * P).
Proof. exact (output_up_exact P l x r). Qed.
Print Assumptions C22_output_up.
Example C22_case :
  GetNextSqrtPriceFromInput (2 ^ 96) (10 ^ 18) (10 ^ 15) true = Ok 79149013500763574019524425911 /\
  GetNextSqrtPriceFromInput (2 ^ 96) (10 ^ 18) (10 ^ 15) false = Ok 79307390676778601931137494286 /\
  GetNextSqrtPriceFromOutput (2 ^ 96) (10 ^ 18) (10 ^ 15) true = Ok 79148934351750073255950406385 /\
  GetNextSqrtPriceFromOutput (2 ^ 96) (10 ^ 18) (10 ^ 15) false = Ok 79307469984248586179723674011.
Proof. vm_compute. auto. Qed.
(** the contract's requirement x*P < L is missing in the code: a larger output wraps around *)
Example C22_output_up_wraps : GetNextSqrtPriceFromOutput (2 ^ 96) (10 ^ 18) (2 * 10 ^ 18) false = Ok 1.
Proof. vm_compute. reflexivity. Qed.

Theorem C23_within_target P T l rem f s : 2 ^ 32 <= P < 2 ^ 160 -> 2 ^ 32 <= T < 2 ^ 160 -> 0 <= l < 2 ^ 160 ->
  0 <= rem < T256 -> 0 <= f < 1000000 -> ComputeSwapStep P T l rem f = Ok s ->
  if T <=? P then T <= stNext s <= P else P <= stNext s <= T.
Proof.
  exact (fun HP HT Hl Hr Hf E => match Z_lt_le_dec rem T255 with
    | left C => proj1 (step_exactin P T l rem f s HP HT Hl (conj (proj1 Hr) C) (conj (proj1 Hf) (Z.lt_le_incl _ _ (proj2 Hf))) E)
    | right C => proj1 (step_exactout P T l rem f s HP HT Hl (conj C (proj2 Hr)) Hf E) end).
Qed.
Print Assumptions C23_within_target.

(** Everything the code guarantees about one exact-input step: the price, the two amounts as the exact
    ceiling / floor of the price move, the budget, and the fee. *)
Theorem C24_exact_input P T l rem f s : 2 ^ 32 <= P < 2 ^ 160 -> 2 ^ 32 <= T < 2 ^ 160 -> 0 <= l < 2 ^ 160 ->
  0 <= rem < T255 -> 0 <= f <= 1000000 -> ComputeSwapStep P T l rem f = Ok s ->
  let z := T <=? P in let r := stNext s in
  (if z then T <= r <= P else P <= r <= T) /\
  (if z then l * Q96 * (P - r) <= stIn s * (r * P) < l * Q96 * (P - r) + r * P
   else l * (r - P) <= stIn s * Q96 < l * (r - P) + Q96) /\
  (if z then stOut s * Q96 <= l * (P - r) < (stOut s + 1) * Q96
   else stOut s * (P * r) <= l * Q96 * (r - P) < (stOut s + 1) * (P * r)) /\
  0 <= stIn s /\ 0 <= stOut s < T256 /\ 0 <= stFee s /\
  stIn s + stFee s <= rem /\
  stIn s * f <= stFee s * (1000000 - f) /\
  (r = T -> f < 1000000 -> stFee s * (1000000 - f) < stIn s * f + (1000000 - f)) /\
  (r <> T -> stIn s + stFee s = rem).
Proof. exact (step_exactin P T l rem f s). Qed.
Print Assumptions C24_exact_input.
Theorem C24_exact_output P T l rem f s : 2 ^ 32 <= P < 2 ^ 160 -> 2 ^ 32 <= T < 2 ^ 160 -> 0 <= l < 2 ^ 160 ->
  T255 <= rem < T256 -> 0 <= f < 1000000 -> ComputeSwapStep P T l rem f = Ok s ->
  let z := T <=? P in let r := stNext s in let want := T256 - rem in
  (if z then T <= r <= P else P <= r <= T) /\
  (if z then l * Q96 * (P - r) <= stIn s * (r * P) < l * Q96 * (P - r) + r * P
   else l * (r - P) <= stIn s * Q96 < l * (r - P) + Q96) /\
  (if z then stOut s * Q96 <= l * (P - r) else stOut s * (P * r) <= l * Q96 * (r - P)) /\
  0 <= stIn s < 2 ^ 225 /\ 0 <= stOut s <= want /\
  stIn s * f <= stFee s * (1000000 - f) < stIn s * f + (1000000 - f) /\
  (r <> T -> stOut s = want).
Proof. exact (step_exactout P T l rem f s). Qed.
Print Assumptions C24_exact_output.

(** the fee when the target is reached is the least f' with f'*(10^6-f) >= amountIn*f *)
Theorem C25_fee_exact P T l rem f s : 2 ^ 32 <= P < 2 ^ 160 -> 2 ^ 32 <= T < 2 ^ 160 -> 0 <= l < 2 ^ 160 ->
  0 <= rem < T256 -> 0 <= f < 1000000 -> ComputeSwapStep P T l rem f = Ok s ->
  stIn s * f <= stFee s * (1000000 - f) /\
  (stNext s = T \/ T255 <= rem -> forall g, stIn s * f <= g * (1000000 - f) -> stFee s <= g).
Proof. exact (step_fee_least P T l rem f s). Qed.
Print Assumptions C25_fee_exact.
Example C23_case :
  ComputeSwapStep (2 ^ 96) (2 ^ 95) (10 ^ 18) (10 ^ 15) 3000 =
    Ok (mkStep 79149250711305166342700278159 997000000000000 996006981039903 3000000000000) /\
  ComputeSwapStep (2 ^ 96) (2 ^ 97) (10 ^ 18) (T256 - 10 ^ 15) 3000 =
    Ok (mkStep 79307469984248586179723674011 1001001001001002 1000000000000000 3012039120365) /\
  ComputeSwapStep (2 ^ 96) (2 ^ 96 - 5) (10 ^ 18) (10 ^ 15) 3000 =
    Ok (mkStep (2 ^ 96 - 5) 1 0 1).
Proof. vm_compute. auto. Qed.

(** [charge p a b l]: what minting l on the price range [a,b] costs at price p *)
Theorem C41_budget p a b amt0 amt1 l x y : 0 < p < T256 -> 0 < a <= b -> b < T256 ->
  0 <= amt0 < T256 -> 0 <= amt1 < T256 ->
  GetLiquidityForAmount p a b amt0 amt1 = Ok l -> l < T255 -> charge p a b l = Ok (x, y) ->
  x <= amt0 /\ y <= amt1.
Proof. exact (budget_charge p a b amt0 amt1 l x y). Qed.
Print Assumptions C41_budget.
Theorem C41_amounts_for_liquidity p a b amt0 amt1 l x y : 0 < p < T256 -> 0 < a <= b -> b < T256 ->
  0 <= amt0 < T256 -> 0 <= amt1 < T256 ->
  GetLiquidityForAmount p a b amt0 amt1 = Ok l -> GetAmountsForLiquidity p a b l = Ok (x, y) ->
  x <= amt0 /\ y <= amt1.
Proof. exact (budget_amounts p a b amt0 amt1 l x y). Qed.
Print Assumptions C41_amounts_for_liquidity.
Example C41_case : let l := 1999999999999999999 in
  GetLiquidityForAmount (2 ^ 96 + 7) (2 ^ 95) (2 ^ 97) (10 ^ 18) (10 ^ 18) = Ok l /\
  charge (2 ^ 96 + 7) (2 ^ 95) (2 ^ 97) l = Ok (10 ^ 18, 10 ^ 18).
Proof. vm_compute. auto. Qed.

Theorem C57_step_returns P T l rem f : 2 ^ 32 <= P < 2 ^ 128 -> 2 ^ 32 <= T < 2 ^ 128 -> 0 <= l < 2 ^ 128 ->
  0 <= f < 1000000 -> 0 <= rem < 2 ^ 128 \/ T256 - 2 ^ 128 <= rem < T256 ->
  exists s, ComputeSwapStep P T l rem f = Ok s.
Proof. exact (step_returns P T l rem f). Qed.
Print Assumptions C57_step_returns.
Theorem C57_panics_above_refuted : exists P T l rem f, 2 ^ 32 <= P < 2 ^ 160 /\ 2 ^ 32 <= T < 2 ^ 160 /\
  0 < l < 2 ^ 128 /\ 0 <= f < 1000000 /\ 0 < rem < 2 ^ 128 /\ ComputeSwapStep P T l rem f = Panic.
Proof. exact step_panics_witness. Qed.
Print Assumptions C57_panics_above_refuted.
