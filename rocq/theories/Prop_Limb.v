(** Prop_Limb.v -- C89: the price, tick and swap arithmetic on the words of uint256.Int is the arithmetic on integers. *)
From Verif Require Import Base U256 U256Facts U256Div U256Conv U256Z LibBridge SwapMath TickMath TickLog Prices LimbMath LimbFacts.
Ltac Zify.zify_post_hook ::= idtac.
Open Scope Z_scope.

(** [spells z v]: the four words of [z] are 64-bit words and spell the integer [v] *)
Definition spells (z : Int) (v : Z) : Prop :=
  (0 <= l0 z < 2 ^ 64 /\ 0 <= l1 z < 2 ^ 64 /\ 0 <= l2 z < 2 ^ 64 /\ 0 <= l3 z < 2 ^ 64) /\
  l0 z + 2 ^ 64 * l1 z + 2 ^ 128 * l2 z + 2 ^ 192 * l3 z = v.
(** both return, with related results, or both panic, or both run out of fuel *)
Definition alike {A B} (R : A -> B -> Prop) (m : res A) (r : res B) : Prop :=
  (exists x v, m = Ok x /\ r = Ok v /\ R x v) \/ (m = Panic /\ r = Panic) \/ (m = OutOfFuel /\ r = OutOfFuel).

Lemma spells_is z v : spells z v <-> is z v.
Proof. unfold spells, is, wf, is_w. change (2 ^ 128) with (W * W). change (2 ^ 192) with (W * W * W). change (2 ^ 64) with W. unfold toZ. reflexivity. Qed.
Lemma alike_sim {A B} (R S : A -> B -> Prop) m r : (forall x v, R x v -> S x v) -> sim R m r -> alike S m r.
Proof.
  intros H. unfold alike. destruct m, r; cbn [sim]; intros K; try contradiction; [left; eexists _, _; eauto|right; left; auto|right; right; auto].
Qed.

Lemma alike_is m r : sim is m r -> alike spells m r.
Proof. apply alike_sim. intros x v. apply spells_is. Qed.
Lemma alike_pair m r : sim (both is is) m r -> alike (fun x v => spells (fst x) (fst v) /\ spells (snd x) (snd v)) m r.
Proof. apply alike_sim. intros x v [H K]. split; apply spells_is; assumption. Qed.
Lemma is_spells z v : spells z v -> is z v.
Proof. apply spells_is. Qed.
#[local] Hint Resolve is_spells : core.

(** * C89: /repo/lib/sqrtprice_math *)
Theorem C89_amounts x y l a b v up : spells x a -> spells y b -> spells l v ->
  alike spells (GetAmount0DeltaL x y l up) (GetAmount0Delta a b v up) /\
  alike spells (GetAmount1DeltaL x y l up) (GetAmount1Delta a b v up) /\
  alike spells (GetAmount0DeltaRoundedL x y l) (GetAmount0DeltaRounded a b v) /\
  alike spells (GetAmount1DeltaRoundedL x y l) (GetAmount1DeltaRounded a b v).
Proof.
  exact (fun X Y L => conj (alike_is _ _ (sim_Amount0 x y l a b v up (is_spells _ _ X) (is_spells _ _ Y) (is_spells _ _ L)))
    (conj (alike_is _ _ (sim_Amount1 x y l a b v up (is_spells _ _ X) (is_spells _ _ Y) (is_spells _ _ L)))
    (conj (alike_is _ _ (sim_Rounded0 x y l a b v (is_spells _ _ X) (is_spells _ _ Y) (is_spells _ _ L)))
          (alike_is _ _ (sim_Rounded1 x y l a b v (is_spells _ _ X) (is_spells _ _ Y) (is_spells _ _ L)))))).
Qed.
Print Assumptions C89_amounts.

Theorem C89_next p l x a v b z : spells p a -> spells l v -> spells x b ->
  alike spells (GetNextSqrtPriceFromInputL p l x z) (GetNextSqrtPriceFromInput a v b z) /\
  alike spells (GetNextSqrtPriceFromOutputL p l x z) (GetNextSqrtPriceFromOutput a v b z).
Proof.
  exact (fun P L X => conj (alike_is _ _ (sim_input p l x a v b z (is_spells _ _ P) (is_spells _ _ L) (is_spells _ _ X)))
                           (alike_is _ _ (sim_output p l x a v b z (is_spells _ _ P) (is_spells _ _ L) (is_spells _ _ X)))).
Qed.
Print Assumptions C89_next.

(** * /repo/lib/swapmath *)
Theorem C89_step c t l x a b v w fee : spells c a -> spells t b -> spells l v -> spells x w ->
  alike (fun z s => let '(next, amountIn, amountOut, feeAmount) := z in
           spells next (stNext s) /\ spells amountIn (stIn s) /\ spells amountOut (stOut s) /\ spells feeAmount (stFee s))
        (ComputeSwapStepL c t l x fee) (ComputeSwapStep a b v w fee).
Proof.
  intros C T L X. apply (alike_sim is_step); [|apply sim_step; auto].
  intros [[[n i] o] f] s (H1 & H2 & H3 & H4). exact (conj (proj2 (spells_is _ _) H1) (conj (proj2 (spells_is _ _) H2) (conj (proj2 (spells_is _ _) H3) (proj2 (spells_is _ _) H4)))).
Qed.
Print Assumptions C89_step.

(** * /repo/lib/liquidity_amounts *)
Theorem C89_liquidity p x y m n s a b v w : spells p s -> spells x a -> spells y b -> spells m v -> spells n w ->
  alike spells (GetLiquidityForAmountL p x y m n) (GetLiquidityForAmount s a b v w) /\
  alike (fun z u => spells (fst z) (fst u) /\ spells (snd z) (snd u)) (GetAmountsForLiquidityL p x y m) (GetAmountsForLiquidity s a b v).
Proof.
  exact (fun P X Y M N => conj
    (alike_is _ _ (sim_liquidity p x y m n s a b v w (is_spells _ _ P) (is_spells _ _ X) (is_spells _ _ Y) (is_spells _ _ M) (is_spells _ _ N)))
    (alike_pair _ _ (sim_amounts p x y m s a b v (is_spells _ _ P) (is_spells _ _ X) (is_spells _ _ Y) (is_spells _ _ M)))).
Qed.
Print Assumptions C89_liquidity.

(** * /repo/lib/tickmath *)
Theorem C89_ratio t : alike spells (getSqrtRatioAtTickL t) (getSqrtRatioAtTick t) /\ alike spells (GetSqrtRatioAtTickL t) (GetSqrtRatioAtTick t).
Proof. exact (conj (alike_is _ _ (sim_ratio t)) (alike_is _ _ (sim_ticks (t + MaxTick)))). Qed.
Print Assumptions C89_ratio.

Theorem C89_tick fuel p a : spells p a ->
  GetTickAtSqrtRatioFL fuel p = GetTickAtSqrtRatioF fuel a /\ getTickAtSqrtRatioL p = getTickAtSqrtRatio a /\
  MostSignificantBitL p = MostSignificantBit a.
Proof. exact (fun P => conj (sim_tick fuel p a (is_spells _ _ P)) (conj (sim_ticklog p a (is_spells _ _ P)) (msb_is p a (is_spells _ _ P)))). Qed.
Print Assumptions C89_tick.

(** * /repo/lib/prices *)
(** the same history, one of words and one of integers *)
Definition samePrices (p : PricesL) (q : Prices) : Prop :=
  Forall2 spells (plPrices p) (prPrices q) /\ plIndex p = prIndex q /\ plLength p = prLength q.
Lemma prices_is p q : samePrices p q <-> is_prices p q.
Proof.
  unfold samePrices, is_prices. generalize (plPrices p), (prPrices q). intros xs vs.
  split; intros (H & K); (split; [|exact K]); clear K; induction H; constructor; auto; apply spells_is; assumption.
Qed.

Theorem C89_prices p q x a n : samePrices p q -> spells x a ->
  alike samePrices (NewPricesL n) (NewPrices n) /\ alike samePrices (AddPriceL p x) (AddPrice q a) /\
  alike spells (AverageL p) (Ok (Average q)) /\ alike spells (VolatilityL p) (Volatility q).
Proof.
  intros H X. apply prices_is in H. apply is_spells in X. split; [|split; [|split]].
  - apply (alike_sim is_prices); [intros ? ?; apply prices_is|apply sim_NewPrices].
  - apply (alike_sim is_prices); [intros ? ?; apply prices_is|apply sim_AddPrice; assumption].
  - apply alike_is, sim_Average, H.
  - apply alike_is, sim_Volatility, H.
Qed.
Print Assumptions C89_prices.

(** * the square root and the absolute value of the strategies, uint256.go:696-702 and 1102-1129 *)
Theorem C89_sqrt fuel x a : spells x a -> (130 <= fuel)%nat -> alike spells (Sqrt fuel x) (Ok (usqrt a)) /\ spells (Abs x) (uabs a).
Proof.
  intros X F. apply is_spells in X. split; [apply alike_is, sim_Sqrt; assumption|apply spells_is, is_Abs, X].
Qed.
Print Assumptions C89_sqrt.

(** a swap step in words: one that stops inside the range, one that reaches the target, and one that panics *)
Example C89_step_case :
  ComputeSwapStepL (NewInt 7) (NewInt 9) (mkInt 0 0 1 0) (NewInt 0) 3000 = Ok (NewInt 7, NewInt 0, NewInt 0, NewInt 0) /\
  ComputeSwapStepL Q96L (Add Q96L (Lsh OneL 95)) (NewInt 1000000) (NewInt 1000) 3000
    = Ok (mkInt 7270083200377818806 4299249378 0 0, NewInt 997, NewInt 996, NewInt 3) /\
  (exists i o f, ComputeSwapStepL Q96L (Sub Q96L (Lsh OneL 90)) (NewInt 1000000) (NewInt 1000000) 3000 = Ok (Sub Q96L (Lsh OneL 90), i, o, f) /\
     IsZero i = false /\ IsZero o = false /\ IsZero f = false) /\
  ComputeSwapStepL Q96L (NewInt 0) (NewInt 1000000) (NewInt 1000000) 3000 = Panic.
Proof.
  split; [vm_compute; reflexivity|]. split; [|split].
  - vm_compute. reflexivity.
  - eexists _, _, _. split; [vm_compute; reflexivity|]. repeat split; vm_compute; reflexivity.
  - vm_compute. reflexivity.
Qed.
Example C89_tick_case : GetSqrtRatioAtTickL 0 = Ok Q96L /\ GetSqrtRatioAtTickL MinTick = Ok MinSqrtRatioL /\ GetSqrtRatioAtTickL MaxTick = Ok MaxSqrtRatioL /\
  GetTickAtSqrtRatioFL 22 (NewInt 5) = Panic /\ getTickAtSqrtRatioL (Sub Q96L OneL) = Ok (-1) /\ GetSqrtRatioAtTickL (MaxTick + 1) = Panic.
Proof. repeat match goal with |- _ /\ _ => refine (conj _ _) end; vm_compute; reflexivity. Qed.
Example C89_prices_case : (do p <- NewPricesL 3; do p <- AddPriceL p Q96L; do p <- AddPriceL p (Add Q96L Q96L); do a <- AverageL p; do s <- VolatilityL p; Ok (a, s))
  = Ok (mkInt 12297829382473034410 12297829382473034410 12297829382473034410 1, mkInt 10789466242594058058 12791946838731643804 1506471791675451440 2).
Proof. vm_compute. reflexivity. Qed.
