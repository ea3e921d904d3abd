(** Prop_Hold.v -- liquidity without its fees against holding the tokens: C88.

    At the square-root price P (times 2^96) one unit of token 0 is worth P^2 / 2^192 units of token 1; both sides of the
    inequalities below are in units of token 1 times 2^192. *)
From Coq Require Import String.
From Verif Require Import Base U256Z SwapMath TickMath Float64 TickData Ledger Pool PoolOps Prices Client Strategy Executor StrategyFacts PoolSpec
  StrategyBudget Solvency Cash PoolHold.
Open Scope Z_scope.

(** one position: what a burn pays out, on any pool at any later time, is worth at most what the mint charged *)
Theorem C88_position h p h' p' l u a q x0 x1 q' y0 y1 : reach h p -> allowed h p (OMintStrategy l u a) -> MintStrategy p l u a = Ok (q, x0, x1) ->
  reach h' p' -> allowed h' p' (OBurnStrategy l u a) -> BurnStrategy p' l u a = Ok (q', y0, y1) ->
  let P := SqrtRatio p' in y0 * P ^ 2 + y1 * 2 ^ 192 <= x0 * P ^ 2 + x1 * 2 ^ 192.
Proof. exact (hold_position h p h' p' l u a q x0 x1 q' y0 y1). Qed.
Print Assumptions C88_position.

(** after Init, at whatever price the pool is later: what GetAmounts counts is worth at most the starting balances.  [hh]
    is the price history the strategy has by then. *)
Theorem C88_init h p k s fuel q tr s1 b h2 p2 hh fuel2 q2 t2 g0 g1 :
  reach h p -> match k with IntervalAroundPriceAndSwap _ => true | _ => false end = false ->
  0 <= sAmount0 s < 2 ^ 256 -> 0 <= sAmount1 s < 2 ^ 256 -> sPositions s = [] ->
  runV fuel p (Init k s) = Ok (q, tr, (s1, b)) -> (forall x, In x (sPositions s1) -> poAmount x < 2 ^ 128) ->
  reach h2 p2 -> runV fuel2 p2 (GetAmounts k (with_history s1 hh)) = Ok (q2, t2, (g0, g1)) ->
  let P := SqrtRatio p2 in 0 <= g0 /\ 0 <= g1 /\ g0 * P ^ 2 + g1 * 2 ^ 192 <= sAmount0 s * P ^ 2 + sAmount1 s * 2 ^ 192.
Proof. exact (init_holds h p k s fuel q tr s1 b h2 p2 hh fuel2 q2 t2 g0 g1). Qed.
Print Assumptions C88_init.
(** after Rebalance: at most what its withdrawal came to, which it returns *)
Theorem C88_rebalance h p k s fuel q tr s1 a0 a1 h2 p2 hh fuel2 q2 t2 g0 g1 :
  reach h p -> match k with IntervalAroundPriceAndSwap _ => true | _ => false end = false ->
  0 <= sAmount0 s < 2 ^ 256 -> 0 <= sAmount1 s < 2 ^ 256 ->
  runV fuel p (Rebalance k s) = Ok (q, tr, (s1, Some (a0, a1))) -> (forall x, In x (sPositions s1) -> poAmount x < 2 ^ 128) ->
  reach h2 p2 -> runV fuel2 p2 (GetAmounts k (with_history s1 hh)) = Ok (q2, t2, (g0, g1)) ->
  let P := SqrtRatio p2 in 0 <= g0 /\ 0 <= g1 /\ g0 * P ^ 2 + g1 * 2 ^ 192 <= a0 * P ^ 2 + a1 * 2 ^ 192.
Proof. exact (rebalance_holds h p k s fuel q tr s1 a0 a1 h2 p2 hh fuel2 q2 t2 g0 g1). Qed.
Print Assumptions C88_rebalance.
(** the value the executor records in a snapshot is then at most that of holding *)
Theorem C88_value fuel p g0 g1 b0 b1 q t v : let P := SqrtRatio p in 0 < P < 2 ^ 128 -> 0 <= g0 -> 0 <= g1 ->
  g0 * P ^ 2 + g1 * 2 ^ 192 <= b0 * P ^ 2 + b1 * 2 ^ 192 ->
  runV fuel p (valueUSD g0 g1) = Ok (q, t, v) -> v <= b0 + b1 * 2 ^ 192 / P ^ 2.
Proof. exact (value_holds fuel p g0 g1 b0 b1 q t v). Qed.
Print Assumptions C88_value.

(** right after the placement nothing is lost but one unit of each token per position, to rounding *)
Theorem C88_init_now h p k s fuel q tr s1 b hh fuel2 :
  reach h p -> match k with IntervalAroundPriceAndSwap _ => true | _ => false end = false ->
  0 <= sAmount0 s < 2 ^ 256 -> 0 <= sAmount1 s < 2 ^ 256 -> sPositions s = [] ->
  runV fuel p (Init k s) = Ok (q, tr, (s1, b)) -> (forall x, In x (sPositions s1) -> poAmount x < 2 ^ 128) ->
  let n := Z.of_nat (length (sPositions s1)) in
  exists g0 g1, runV fuel2 q (GetAmounts k (with_history s1 hh)) = Ok (q, [], (g0, g1)) /\
    sAmount0 s - n <= g0 <= sAmount0 s /\ sAmount1 s - n <= g1 <= sAmount1 s.
Proof. exact (init_fresh h p k s fuel q tr s1 b hh fuel2). Qed.
Print Assumptions C88_init_now.
Theorem C88_rebalance_now h p k s fuel q tr s1 a0 a1 hh fuel2 :
  reach h p -> match k with IntervalAroundPriceAndSwap _ => true | _ => false end = false ->
  0 <= sAmount0 s < 2 ^ 256 -> 0 <= sAmount1 s < 2 ^ 256 ->
  runV fuel p (Rebalance k s) = Ok (q, tr, (s1, Some (a0, a1))) -> (forall x, In x (sPositions s1) -> poAmount x < 2 ^ 128) ->
  let n := Z.of_nat (length (sPositions s1)) in
  exists g0 g1, runV fuel2 q (GetAmounts k (with_history s1 hh)) = Ok (q, [], (g0, g1)) /\ a0 - n <= g0 <= a0 /\ a1 - n <= g1 <= a1.
Proof. exact (rebalance_fresh h p k s fuel q tr s1 a0 a1 hh fuel2). Qed.
Print Assumptions C88_rebalance_now.

(** the strategy that swaps can gain on its swap *)
Definition low : Pool := Eval vm_compute in match NewPool "A" "B" 3000 (2 ^ 95) with Ok p => p | _ => startPool end.
Definition rich : St := mkSt (10 ^ 15) 0 [] (mkPrices [] 0 0) 0 0 0 false.
Definition purse : St := mkSt (10 ^ 16) (3 * 10 ^ 16) [] (mkPrices [] 0 0) 0 0 0 false.
Lemma low_new : NewPool "A" "B" 3000 (2 ^ 95) = Ok low.
Proof. vm_cast_no_check (eq_refl (Ok low)). Qed.
Theorem C88_swap_refuted : ~ (forall h p w s fuel q tr s1 b h2 p2 fuel2 q2 t2 g0 g1,
  reach h p -> sPositions s = [] -> runV fuel p (Init (IntervalAroundPriceAndSwap w) s) = Ok (q, tr, (s1, b)) ->
  reach h2 p2 -> runV fuel2 p2 (GetAmounts (IntervalAroundPriceAndSwap w) s1) = Ok (q2, t2, (g0, g1)) ->
  let P := SqrtRatio p2 in g0 * P ^ 2 + g1 * 2 ^ 192 <= sAmount0 s * P ^ 2 + sAmount1 s * 2 ^ 192).
Proof.
  intros H.
  assert (exists q tr s1 b q2 t2 g0 g1, runV 50 good2 (Init (IntervalAroundPriceAndSwap 200) rich) = Ok (q, tr, (s1, b)) /\
    runV 0 low (GetAmounts (IntervalAroundPriceAndSwap 200) s1) = Ok (q2, t2, (g0, g1)) /\
    (g0 * SqrtRatio low ^ 2 + g1 * 2 ^ 192 <=? 10 ^ 15 * SqrtRatio low ^ 2) = false) as (q & tr & s1 & b & q2 & t2 & g0 & g1 & E1 & E2 & E3).
  { do 8 eexists. split; [vm_compute; reflexivity|]. split; [vm_compute; reflexivity|]. vm_compute. reflexivity. }
  specialize (H goodHist good2 200 rich 50%nat q tr s1 b [] low 0%nat q2 t2 g0 g1 good2_reach eq_refl E1 (reach_new "A" "B" 3000 (2 ^ 95) _ low_new) E2).
  cbv zeta in H. cbn [sAmount0 sAmount1 rich] in H. apply Z.leb_gt in E3. rewrite Z.mul_0_l, Z.add_0_r in H. exact (Zlt_not_le _ _ E3 H).
Qed.
Print Assumptions C88_swap_refuted.

Lemma good1_reach : reach [mkE 60 180 (10 ^ 18)] good1.
Proof.
  apply (reach_step [] good0 20 (OMint 60 180 (10 ^ 18))); [|okAllowed|vm_compute; reflexivity].
  apply (reach_new "A" "B" 3000 79623317895830914510639640423). vm_compute. reflexivity.
Qed.
(** the mint on good1 and the burn on good4, after two swaps *)
Example C88_position_case : reach [mkE 60 180 (10 ^ 18)] good1 /\ allowed [mkE 60 180 (10 ^ 18)] good1 (OMintStrategy 0 600 (10 ^ 18)) /\ MintStrategy good1 0 600 (10 ^ 18) = Ok (good2, 24590201089126306, 4987562112089028) /\
  reach goodHist good4 /\ allowed goodHist good4 (OBurnStrategy 0 600 (10 ^ 18)) /\
  exists y0 y1, BurnStrategy good4 0 600 (10 ^ 18) = Ok (good5, y0, y1) /\
    y0 * SqrtRatio good4 ^ 2 + y1 * 2 ^ 192 < 24590201089126306 * SqrtRatio good4 ^ 2 + 4987562112089028 * 2 ^ 192.
Proof.
  split; [exact good1_reach|]. split; [okAllowed|]. split; [vm_compute; reflexivity|]. split; [exact good4_reach|]. split; [vm_compute; intuition discriminate|].
  do 2 eexists. split; [vm_compute; reflexivity|]. vm_compute. reflexivity.
Qed.
(** two ranges, valued at the price of good3, and right after *)
Example C88_init_case : exists q tr s1 b, runV 50 good2 (Init (FillUp 200) purse) = Ok (q, tr, (s1, b)) /\
  runV 0 good3 (GetAmounts (FillUp 200) s1) = Ok (good3, [], (0, 40201752389955715)) /\
  40201752389955715 * 2 ^ 192 < 10 ^ 16 * SqrtRatio good3 ^ 2 + 3 * 10 ^ 16 * 2 ^ 192 /\
  runV 0 q (GetAmounts (FillUp 200) s1) = Ok (q, [], (9999999999999999, 29999999999999998)) /\ length (sPositions s1) = 2%nat.
Proof. do 4 eexists. split; [vm_compute; reflexivity|]. split; [vm_compute; reflexivity|]. split; [vm_compute; reflexivity|]. split; vm_compute; reflexivity. Qed.
Definition purse2 : St := mkSt (10 ^ 16) (3 * 10 ^ 16) [mkPosition (10 ^ 17) 0 600] (mkPrices [] 0 0) 0 0 0 false.
Example C88_rebalance_case : exists q tr s1, runV 50 good2 (Rebalance (TwoInterval 240 300) purse2) = Ok (q, tr, (s1, Some (12459020108912630, 30498756211208902))) /\
  runV 0 good3 (GetAmounts (TwoInterval 240 300) s1) = Ok (good3, [], (0, 43247326521729873)) /\
  43247326521729873 * 2 ^ 192 < 12459020108912630 * SqrtRatio good3 ^ 2 + 30498756211208902 * 2 ^ 192 /\
  runV 0 q (GetAmounts (TwoInterval 240 300) s1) = Ok (q, [], (12459020108912629, 30498756211208900)) /\ length (sPositions s1) = 2%nat.
Proof. do 3 eexists. split; [vm_compute; reflexivity|]. split; [vm_compute; reflexivity|]. split; [vm_compute; reflexivity|]. split; vm_compute; reflexivity. Qed.
Example C88_value_case : SqrtRatio good3 < 2 ^ 128 /\ runV 0 good3 (valueUSD 0 40201752389955715) = Ok (good3, [], 38574462579431568) /\ 38574462579431568 <= 10 ^ 16 + 3 * 10 ^ 16 * 2 ^ 192 / SqrtRatio good3 ^ 2.
Proof. split; [vm_compute; reflexivity|]. split; [vm_compute; reflexivity|]. vm_compute. discriminate. Qed.
