(** Prop_Pool.v -- the pool: C30, C34-C40, C42-C45, C58, C59.

    [reach h p]: the pool [p] comes out of a history of the exported operations on a new pool, where [h] is
    the ledger of its mints and burns, the ends of ranges are placed ticks, no range is burnt below zero and
    less than 2^128 liquidity is minted in all (PoolOps.v).  [placed s j] (PoolTable.v) holds for the multiples of
    the spacing, all ticks from zero up, and below zero all but those in the last spacing of a word: C30_placed.  From the ledger alone (Ledger.v): [gross h j],
    [net h j] are the amounts referring to tick j, [active h t] the amount on ranges containing t. *)
From Coq Require Import Sorting.Sorted String.
From Verif Require Import Base U256Z SwapMath TickMath TickMathFacts TickAccuracy TickData TickDataFacts TickSpec Ledger Pool PoolTable PoolInv PoolHist PoolOps PoolMint PoolFees PoolPos PoolSpec.
Open Scope Z_scope.

Theorem C30_placed s j : placed s j <-> 0 < s /\ (0 <= j \/ (s | j) \/ Z.quot j s mod 256 <> 0).
Proof. exact (placed_iff s j). Qed.
Print Assumptions C30_placed.
Theorem C30_histories h p : reach h p ->
  StronglySorted (fun a b => tkIndex a < tkIndex b) (ticks (Data p)) /\ tickSpacing (Data p) = TickSpacing p /\
  (forall j, (exists x, In x (ticks (Data p)) /\ tkIndex x = j) <-> 0 < gross h j) /\
  (forall x, In x (ticks (Data p)) -> tkGross x = gross h (tkIndex x) /\ tkNet x = net h (tkIndex x) mod 2 ^ 256 /\
     placed (TickSpacing p) (tkIndex x) /\ -887272 <= tkIndex x <= 887272).
Proof. exact (reach_table h p). Qed.
Print Assumptions C30_histories.
Example C30_case : reach goodHist good4 /\ map tkIndex (ticks (Data good4)) = [0; 60; 180; 600] /\ gross goodHist 60 = 10 ^ 18 /\ net goodHist 180 = - 10 ^ 18.
Proof. split; [exact good4_reach|]. vm_compute. auto. Qed.
(** ranges off the spacing of 60, and swaps across tick 175 in both directions *)
Example C30_case_off : reach oddHist odd4 /\ map tkIndex (ticks (Data odd4)) = [-85; 61; 175; 605] /\ TickSpacing odd4 = 60 /\
  TickCurrent odd3 = 418 /\ Liquidity odd3 = 10 ^ 18 /\ TickCurrent odd4 = 74 /\ Liquidity odd4 = 2 * 10 ^ 18.
Proof. split; [exact odd4_reach|]. vm_compute. auto 10. Qed.

Theorem C34_liquidity h p : reach h p ->
  Liquidity p = active h (TickCurrent p) /\ 0 <= Liquidity p < 2 ^ 128 /\
  Liquidity p = sumNet (ticks (Data p)) (TickCurrent p) mod 2 ^ 256.
Proof. exact (reach_liquidity h p). Qed.
Print Assumptions C34_liquidity.
Example C34_case : reach goodHist good3 /\ reach goodHist good4 /\ Liquidity good3 = 10 ^ 18 /\ TickCurrent good3 = 413 /\
  Liquidity good4 = 2 * 10 ^ 18 /\ TickCurrent good4 = 94 /\ active goodHist 413 = 10 ^ 18 /\ active goodHist 94 = 2 * 10 ^ 18.
Proof. split; [exact good3_reach|]. split; [exact good4_reach|]. vm_compute. auto 10. Qed.

Theorem C35_bracket h p : reach h p ->
  exists r s, GetSqrtRatioAtTick (TickCurrent p) = Ok r /\ GetSqrtRatioAtTick (TickCurrent p + 1) = Ok s /\
    r <= SqrtRatio p <= s /\ SqrtRatio p < 1461446703485210103287273052203988822378723970342 /\ -887272 <= TickCurrent p < 887272.
Proof. exact (reach_price h p). Qed.
Print Assumptions C35_bracket.
(** strictly below the next tick in a new pool, and kept so by everything but a downward swap *)
Theorem C35_new t0 t1 fee price p : NewPool t0 t1 fee price = Ok p -> SqrtRatio p = price /\
  exists s, GetSqrtRatioAtTick (TickCurrent p + 1) = Ok s /\ price < s.
Proof. exact (new_price t0 t1 fee price p). Qed.
Print Assumptions C35_new.
Theorem C35_strict h p fuel o p' s s' : reach h p -> allowed h p o -> step fuel p o = Ok p' -> ~ downSwap p o ->
  GetSqrtRatioAtTick (TickCurrent p + 1) = Ok s -> SqrtRatio p < s ->
  GetSqrtRatioAtTick (TickCurrent p' + 1) = Ok s' -> SqrtRatio p' < s'.
Proof. exact (strict_price h p fuel o p' s s'). Qed.
Print Assumptions C35_strict.
Example C35_case : reach goodHist good4 /\ TickCurrent good4 = 94 /\
  (exists r s, GetSqrtRatioAtTick 94 = Ok r /\ GetSqrtRatioAtTick 95 = Ok s /\ r < SqrtRatio good4 < s) /\
  step 20 good2 (OExactInput (2 * 10 ^ 16) "B" 0) = Ok good3 /\ ~ downSwap good2 (OExactInput (2 * 10 ^ 16) "B" 0).
Proof.
  split; [exact good4_reach|]. split; [reflexivity|]. split; [eexists; eexists; split; [vm_compute; reflexivity|]; split; [vm_compute; reflexivity|]; vm_compute; auto|].
  split; [vm_compute; reflexivity|]. discriminate.
Qed.

(** the two exported swaps *)
Theorem C36_exact_input fuel p amt token lim : ExactInputSwap fuel p amt token lim = swap fuel p (String.eqb token (Token0 p)) amt lim.
Proof. exact eq_refl. Qed.
Print Assumptions C36_exact_input.
Theorem C36_exact_output fuel p amt token lim : ExactOutputSwap fuel p amt token lim = swap fuel p (String.eqb token (Token1 p)) amt lim.
Proof. exact eq_refl. Qed.
Print Assumptions C36_exact_output.
(** [z]: token0 is paid in.  The limit 0 stands for the extreme price.  [clearWay p L]: every negative tick
    [t] up to the current one in the last spacing of its word (off that spacing's first tick) lies beyond
    the limit [L]. *)
Theorem C36_direction h p fuel z amt lim p' a0 a1 : reach h p -> 0 <= amt < 2 ^ 256 -> swap fuel p z amt lim = Ok (p', a0, a1) ->
  let L := if lim =? 0 then (if z then 4295128740 else 1461446703485210103287273052203988822378723970341) else lim in
  if z then 4295128739 < L < SqrtRatio p /\ L <= SqrtRatio p' /\ (clearWay p L -> SqrtRatio p' <= SqrtRatio p /\ TickCurrent p' <= TickCurrent p)
  else SqrtRatio p < L < 1461446703485210103287273052203988822378723970342 /\ SqrtRatio p <= SqrtRatio p' <= L /\ TickCurrent p <= TickCurrent p'.
Proof. exact (swap_direction h p fuel z amt lim p' a0 a1). Qed.
Print Assumptions C36_direction.
(** what a swap leaves alone *)
Theorem C36_frame h p fuel z amt lim p' a0 a1 : reach h p -> 0 <= amt < 2 ^ 256 -> swap fuel p z amt lim = Ok (p', a0, a1) ->
  Token0 p' = Token0 p /\ Token1 p' = Token1 p /\ Fee p' = Fee p /\ TickSpacing p' = TickSpacing p /\ Pos p' = Pos p /\
  (if z then FeeGrowth1 p' = FeeGrowth1 p else FeeGrowth0 p' = FeeGrowth0 p) /\
  (forall x, In x (ticks (Data p)) -> exists y, In y (ticks (Data p')) /\ tkIndex y = tkIndex x /\ tkNet y = tkNet x /\ tkGross y = tkGross x) /\
  map tkIndex (ticks (Data p')) = map tkIndex (ticks (Data p)).
Proof. exact (swap_frame h p fuel z amt lim p' a0 a1). Qed.
Print Assumptions C36_frame.
Example C36_case : reach goodHist good2 /\ reach goodHist good3 /\ SqrtRatio good2 < SqrtRatio good3 /\ SqrtRatio good4 < SqrtRatio good3 /\
  step 20 good3 (OExactInput (2 * 10 ^ 16) "A" (2 ^ 96)) = Ok good4.
Proof. split; [exact good2_reach|]. split; [exact good3_reach|]. split; [reflexivity|]. split; [reflexivity|]. vm_compute. reflexivity. Qed.
(** without [clearWay] the claim is false: selling 10^15 token0 raises the price *)
Theorem C36_direction_refuted : ~ (forall h p fuel amt lim p' a0 a1, reach h p -> 0 <= amt < 2 ^ 256 ->
  swap fuel p true amt lim = Ok (p', a0, a1) -> SqrtRatio p' <= SqrtRatio p).
Proof. exact direction_refuted. Qed.
Print Assumptions C36_direction_refuted.

(** amounts are two's complement: positive into the pool, negative out of it; a request of 2^255 and above
    is a negative number, an exact output of 2^256 - amt *)
Theorem C37_amounts h p fuel z amt lim p' a0 a1 : reach h p -> 0 <= amt < 2 ^ 256 -> swap fuel p z amt lim = Ok (p', a0, a1) ->
  let L := if lim =? 0 then (if z then 4295128740 else 1461446703485210103287273052203988822378723970341) else lim in
  exists inp out, (if z then a0 = inp /\ a1 = (- out) mod 2 ^ 256 else a1 = inp /\ a0 = (- out) mod 2 ^ 256) /\ 0 <= inp /\ 0 <= out /\
    (if amt <? 2 ^ 255 then inp <= amt /\ (inp = amt \/ SqrtRatio p' = L) /\ out < 2 ^ 214
     else out <= 2 ^ 256 - amt /\ (out = 2 ^ 256 - amt \/ SqrtRatio p' = L) /\ inp < 2 ^ 237).
Proof. exact (swap_request h p fuel z amt lim p' a0 a1). Qed.
Print Assumptions C37_amounts.
Example C37_case : (do r <- ExactInputSwap 20 good3 (2 * 10 ^ 16) "A" 0; Ok (snd (fst r), snd r)) =
    Ok (2 * 10 ^ 16, 115792089237316195423570985008687907853269984665640564039457563605095243902629) /\
  (do r <- ExactOutputSwap 20 good4 (T256 - 10 ^ 15) "A" 0; Ok (snd (fst r), snd r)) = Ok (T256 - 10 ^ 15, 1013081595250458) /\
  (do r <- ExactInputSwap 20 good4 (10 ^ 18) "B" (79604983790498062598705717018 + 10 ^ 20); Ok (SqrtRatio (fst (fst r)))) = Ok (79604983790498062598705717018 + 10 ^ 20).
Proof. vm_compute. auto. Qed.

(** 1774546 rounds are enough for every swap that ends, and a swap that needs more never ends *)
Theorem C38_up h p amt lim : reach h p -> 0 <= amt < 2 ^ 256 -> swap (Z.to_nat (887272 - -887272 + 2)) p false amt lim <> OutOfFuel.
Proof. exact (ends_up h p amt lim). Qed.
Print Assumptions C38_up.
Theorem C38_down h p amt lim : reach h p -> 0 <= amt < 2 ^ 256 ->
  clearWay p (if lim =? 0 then 4295128740 else lim) -> swap (Z.to_nat (887272 - -887272 + 2)) p true amt lim <> OutOfFuel.
Proof. exact (ends_down h p amt lim). Qed.
Print Assumptions C38_down.
Theorem C38_decided h p z amt lim : reach h p -> 0 <= amt < 2 ^ 256 ->
  swap (Z.to_nat (887272 - -887272 + 2)) p z amt lim = OutOfFuel -> forall m, swap m p z amt lim = OutOfFuel.
Proof. exact (decided h p z amt lim). Qed.
Print Assumptions C38_decided.
Theorem C38_same h p z amt lim n r : reach h p -> 0 <= amt < 2 ^ 256 ->
  swap n p z amt lim = Ok r -> swap (Z.to_nat (887272 - -887272 + 2)) p z amt lim = Ok r.
Proof. exact (more_fuel h p z amt lim n r). Qed.
Print Assumptions C38_same.
Example C38_case : reach goodHist good3 /\ clearWay good3 (2 ^ 96) /\ step 4 good3 (OExactInput (2 * 10 ^ 16) "A" (2 ^ 96)) = Ok good4.
Proof.
  split; [exact good3_reach|]. split; [|vm_compute; reflexivity]. intros t r Ht Hn _ E.
  destruct (Z.eq_dec t (-1)) as [->|N]; [vm_compute in E; injection E as <-; discriminate|].
  assert (t + 1 < 0) as Hlt by lia. apply Z.lt_le_incl. eapply ratio_monotone; [exact Hlt|exact E|vm_compute; reflexivity].
Qed.
(** selling 10^16 token0 into this pool never ends *)
Theorem C38_terminates_refuted : exists h p amt, reach h p /\ 0 <= amt < 2 ^ 256 /\ forall n, ExactInputSwap n p amt (Token0 p) 0 = OutOfFuel.
Proof. exact terminates_refuted. Qed.
Print Assumptions C38_terminates_refuted.

(** the very same pool: table, liquidity, counters, positions *)
Theorem C39_mint_burn h p l u a p1 : reach h p -> 0 <= a < 2 ^ 256 -> Mint p l u a = Ok p1 -> Burn p1 l u a = Ok p.
Proof. exact (fun R => mint_then_burn h p l u a p1 (reach_ok h p R)). Qed.
Print Assumptions C39_mint_burn.
(** C39 and C40 for the operations with positions: the burn succeeds, pays back at most what was charged,
    and restores everything but the position entry, whose liquidity is what it was before *)
Theorem C39_mint_burn_strategy h p l u a p1 a0 a1 : reach h p -> 0 <= a < 2 ^ 256 -> a < 2 ^ 160 ->
  MintStrategy p l u a = Ok (p1, a0, a1) ->
  exists p2 b0 b1, BurnStrategy p1 l u a = Ok (p2, b0, b1) /\ 0 <= b0 <= a0 /\ 0 <= b1 <= a1 /\ with_pos p2 (Pos p) = p /\
    exists i, posGet (Pos p1) (posKey l u) = Some i /\
      posGet (Pos p2) (posKey l u) = Some (mkInfo (uadd (pLiquidity i) (uneg a)) (pLast0 i) (pLast1 i) (uadd (uadd (pOwed0 i) 0) b0) (uadd (uadd (pOwed1 i) 0) b1)).
Proof. exact (fun R => mintS_then_burnS h p l u a p1 a0 a1 (reach_ok h p R)). Qed.
Print Assumptions C39_mint_burn_strategy.
Theorem C40_no_profit h p l u a p1 a0 a1 p2 b0 b1 : reach h p -> 0 <= a < 2 ^ 160 ->
  MintStrategy p l u a = Ok (p1, a0, a1) -> BurnStrategy p1 l u a = Ok (p2, b0, b1) -> 0 <= b0 <= a0 /\ 0 <= b1 <= a1.
Proof. exact (no_profit h p l u a p1 a0 a1 p2 b0 b1). Qed.
Print Assumptions C40_no_profit.
Example C39_case : exists p1 p2, Mint good4 60 240 5 = Ok p1 /\ p1 <> good4 /\ Burn p1 60 240 5 = Ok good4 /\
  MintStrategy good4 60 180 7 = Ok (p2, 1, 1) /\ (do s <- BurnStrategy p2 60 180 7; Ok (snd (fst s), snd s)) = Ok (0, 0).
Proof.
  eexists. eexists. split; [vm_compute; reflexivity|]. split; [discriminate|]. split; [vm_compute; reflexivity|]. split; [vm_compute; reflexivity|]. vm_compute. reflexivity.
Qed.

(** two ranges share a position exactly when their ticks become the same code points, where everything
    that is not a code point (negative ticks, surrogates) becomes U+FFFD *)
Theorem C42_keys l u l' u' :
  let rune t := if (0 <=? t) && (t <=? 1114111) && negb ((55296 <=? t) && (t <=? 57343)) then t else 65533 in
  posKey l u = posKey l' u' <-> rune l = rune l' /\ rune u = rune u'.
Proof. exact (posKey_iff l u l' u'). Qed.
Print Assumptions C42_keys.
(** and an operation on one key leaves the others alone *)
Theorem C42_separate m k v k' : posGet (posPut m k v) k' = if keyEq k k' then Some v else posGet m k'.
Proof. exact (posGet_put m k v k'). Qed.
Print Assumptions C42_separate.
Theorem C42_keyEq a b : keyEq a b = true <-> a = b.
Proof. exact (keyEq_true a b). Qed.
Print Assumptions C42_keyEq.
Theorem C42_distinct_refuted : ~ (forall l u l' u', posKey l u = posKey l' u' -> l = l' /\ u = u').
Proof. intros H. destruct (H (-60) 60 (-120) 60 eq_refl) as [E _]. discriminate E. Qed.
Print Assumptions C42_distinct_refuted.
Example C42_case : posKey 0 600 = [0; 45; 201; 152] /\ posKey 60 600 <> posKey 0 600 /\ posKey (-60) 60 = posKey 57343 60.
Proof. split; [reflexivity|]. split; [discriminate|reflexivity]. Qed.

Theorem C43_update i d x0 x1 i' : 0 <= pLiquidity i < 2 ^ 256 -> InfoUpdate i d x0 x1 = Ok i' ->
  i' = mkInfo ((pLiquidity i + d) mod 2 ^ 256) x0 x1
         ((pOwed0 i + pLiquidity i * ((x0 - pLast0 i) mod 2 ^ 256) / 2 ^ 128) mod 2 ^ 256)
         ((pOwed1 i + pLiquidity i * ((x1 - pLast1 i) mod 2 ^ 256) / 2 ^ 128) mod 2 ^ 256).
Proof. exact (update_value i d x0 x1 i'). Qed.
Print Assumptions C43_update.
(** a fee below 2^-64 of a unit does not round to zero: it panics *)
Theorem C43_panics i d x0 x1 : 0 <= pLiquidity i < 2 ^ 192 ->
  InfoUpdate i d x0 x1 = Panic <->
    0 < pLiquidity i * ((x0 - pLast0 i) mod 2 ^ 256) < 2 ^ 64 \/ 0 < pLiquidity i * ((x1 - pLast1 i) mod 2 ^ 256) < 2 ^ 64.
Proof. exact (update_panics i d x0 x1). Qed.
Print Assumptions C43_panics.
(** any number of updates at growing counters credits at most what one update at the last counter would, and
    less by at most one unit per update *)
Theorem C43_parts liq xs a : 0 <= liq -> 0 <= a -> ascending a xs ->
  creditSum liq a xs <= liq * ((last xs a - a) mod 2 ^ 256) / 2 ^ 128 <= creditSum liq a xs + Z.of_nat (length xs).
Proof. exact (fun Hl => parts_credit liq Hl xs a). Qed.
Print Assumptions C43_parts.
Theorem C43_updates xs i i' : 0 <= pLiquidity i < 2 ^ 256 -> 0 <= pOwed0 i < 2 ^ 256 -> 0 <= pOwed1 i < 2 ^ 256 -> pokes i xs = Ok i' ->
  pLiquidity i' = pLiquidity i /\ pLast0 i' = last (map fst xs) (pLast0 i) /\ pLast1 i' = last (map snd xs) (pLast1 i) /\
  pOwed0 i' = (pOwed0 i + creditSum (pLiquidity i) (pLast0 i) (map fst xs)) mod 2 ^ 256 /\
  pOwed1 i' = (pOwed1 i + creditSum (pLiquidity i) (pLast1 i) (map snd xs)) mod 2 ^ 256.
Proof. exact (pokes_value xs i i'). Qed.
Print Assumptions C43_updates.
Example C43_case : InfoUpdate (mkInfo (10 ^ 18) 0 (2 ^ 256 - 1) 5 6) 7 (2 ^ 128) (2 ^ 120) = Ok (mkInfo (10 ^ 18 + 7) (2 ^ 128) (2 ^ 120) (10 ^ 18 + 5) (3906250000000000 + 6)) /\
  InfoUpdate (mkInfo (10 ^ 18) 0 0 5 6) 7 (2 ^ 128) 1 = Panic /\
  pokes (mkInfo 3 0 0 0 0) [(2 ^ 127, 0); (2 ^ 128, 0)] = Ok (mkInfo 3 (2 ^ 128) 0 2 0) /\ pokes (mkInfo 3 0 0 0 0) [(2 ^ 128, 0)] = Ok (mkInfo 3 (2 ^ 128) 0 3 0).
Proof. vm_compute. auto. Qed.

(** everything owed is paid, once; everything else stays *)
Theorem C44_collect p l u :
  (posGet (Pos p) (posKey l u) = None -> CollectStrategy p l u = Panic) /\
  forall i, posGet (Pos p) (posKey l u) = Some i -> exists p',
    CollectStrategy p l u = Ok (p', pOwed0 i, pOwed1 i) /\ with_pos p' (Pos p) = p /\
    forall k, posGet (Pos p') k = if keyEq (posKey l u) k then Some (mkInfo (pLiquidity i) (pLast0 i) (pLast1 i) 0 0) else posGet (Pos p) k.
Proof. exact (collect_spec p l u). Qed.
Print Assumptions C44_collect.
Example C44_case : exists q q', BurnStrategy good4 0 600 0 = Ok (q, 0, 0) /\ CollectStrategy q 0 600 = Ok (q', 47285247644826, 47805599928174) /\
  exists q'', CollectStrategy q' 0 600 = Ok (q'', 0, 0).
Proof. eexists. eexists. split; [vm_compute; reflexivity|]. split; [vm_compute; reflexivity|]. eexists. vm_compute. reflexivity. Qed.

Theorem C45_flash p a0 a1 p' : 0 <= a0 < 2 ^ 256 -> 0 <= a1 < 2 ^ 256 -> 0 <= Liquidity p < 2 ^ 256 -> 0 <= Fee p < 1000000 ->
  Flash p a0 a1 = Ok p' ->
  0 < Liquidity p /\ exists f0 f1,
    f0 = (a0 * Fee p + 999999) / 1000000 /\ f1 = (a1 * Fee p + 999999) / 1000000 /\
    p' = mkPool (Token0 p) (Token1 p) (Fee p) (SqrtRatio p) (Liquidity p)
           ((FeeGrowth0 p + f0 * 2 ^ 128 / Liquidity p) mod 2 ^ 256) ((FeeGrowth1 p + f1 * 2 ^ 128 / Liquidity p) mod 2 ^ 256)
           (TickSpacing p) (TickCurrent p) (Data p) (Pos p).
Proof. exact (flash_spec p a0 a1 p'). Qed.
Print Assumptions C45_flash.
Example C45_case : exists p', Flash good4 (10 ^ 18) 1 = Ok p' /\ FeeGrowth0 p' - FeeGrowth0 good4 = 3 * 10 ^ 15 * 2 ^ 128 / (2 * 10 ^ 18) /\
  FeeGrowth1 p' - FeeGrowth1 good4 = 1 * 2 ^ 128 / (2 * 10 ^ 18).
Proof. eexists. split; [vm_compute; reflexivity|]. vm_compute. auto. Qed.

(** The fees of a swap, round by round: [shTick] the tick the round started on, [shFee] its fee, [shGrowth] what it added
    to the global counter of the token paid in: the fee over the liquidity in range on that tick; without liquidity there is
    no fee.  The fees together are at least the pool's rate of what is paid in.  The growth inside every range between
    initialised ticks increases by exactly the shares of the rounds that started inside it ([credited]); the other token's stays. *)
Theorem C58_distribution h p n (z : bool) amt lim p' a0 a1 : reach h p -> 0 <= amt < 2 ^ 256 -> swap n p z amt lim = Ok (p', a0, a1) ->
  let limit := if lim =? 0 then (if z then 4295128740 else 1461446703485210103287273052203988822378723970341) else lim in
  exists rs,
    (forall r, In r rs -> 0 <= shFee r /\ (active h (shTick r) = 0 -> shFee r = 0) /\ shGrowth r = (shFee r * 2 ^ 128 / active h (shTick r)) mod 2 ^ 256 /\
      (if z then clearWay p limit -> TickCurrent p' <= shTick r <= TickCurrent p else TickCurrent p <= shTick r <= TickCurrent p')) /\
    sumOn (credited rs) h <= feesOf rs * 2 ^ 128 /\
    (if z then a0 else a1) * Fee p <= feesOf rs * 1000000 /\ 0 <= feesOf rs <= (if z then a0 else a1) /\
    FeeGrowth0 p' = (if z then (FeeGrowth0 p + growthOf rs) mod 2 ^ 256 else FeeGrowth0 p) /\
    FeeGrowth1 p' = (if z then FeeGrowth1 p else (FeeGrowth1 p + growthOf rs) mod 2 ^ 256) /\
    forall a b x0 x1, a < b -> GetFeeGrowthInside (Data p) a b (TickCurrent p) (FeeGrowth0 p) (FeeGrowth1 p) = Ok (x0, x1) ->
      GetFeeGrowthInside (Data p') a b (TickCurrent p') (FeeGrowth0 p') (FeeGrowth1 p') =
        Ok (if z then ((x0 + credited rs a b) mod 2 ^ 256, x1) else (x0, (x1 + credited rs a b) mod 2 ^ 256)).
Proof. exact (swap_shares h p n z amt lim p' a0 a1). Qed.
Print Assumptions C58_distribution.
Example C58_case : reach goodHist good3 /\ step 20 good3 (OExactInput (2 * 10 ^ 16) "A" 0) = Ok good4 /\
  GetFeeGrowthInside (Data good3) 60 180 (TickCurrent good3) (FeeGrowth0 good3) (FeeGrowth1 good3) = Ok (0, 4149539319621813285321101389586298) /\
  GetFeeGrowthInside (Data good4) 60 180 (TickCurrent good4) (FeeGrowth0 good4) (FeeGrowth1 good4) = Ok (4326606026232355700158727507964634, 4149539319621813285321101389586298).
Proof. split; [exact good3_reach|]. vm_compute. auto. Qed.

(** all ranges together are credited no more than the trader paid in: for every list of different ranges, the
    fees their liquidity earns by the swap add up to at most the input *)
Theorem C59_fees_paid h p n z amt lim p' a0 a1 ranges : reach h p -> 0 <= amt < 2 ^ 256 -> swap n p z amt lim = Ok (p', a0, a1) -> NoDup ranges ->
  sumRanges (fun l u => minted h l u * ((insideGrowth z p' l u - insideGrowth z p l u) mod 2 ^ 256) / 2 ^ 128) ranges <= (if z then a0 else a1).
Proof. exact (fees_solvent h p n z amt lim p' a0 a1 ranges). Qed.
Print Assumptions C59_fees_paid.
Example C59_case : reach goodHist good3 /\ minted goodHist 60 180 = 10 ^ 18 /\
  sumRanges (fun l u => minted goodHist l u * ((insideGrowth true good4 l u - insideGrowth true good3 l u) mod 2 ^ 256) / 2 ^ 128) [(60, 180); (0, 600)] = 60000000000000.
Proof. split; [exact good3_reach|]. vm_compute. auto. Qed.
