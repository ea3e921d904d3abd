(** Prop_Cash.v -- what the pool holds and what it owes: C69, C70.

    [cash way keys h hs p r0 r1] (Cash.v): the pool [p] comes out of a history of operations in which [r0], [r1] are
    the tokens paid in less the tokens paid out; [h] is the ledger of all mints and burns, [hs] that of the
    strategies' own.  [worth tk P l u] is the exact amount of token 0 ([tk = true]) or 1 behind one unit of
    liquidity on [l,u) at the price P (a fraction, no rounding), [worthAll] its sum over the ledger, [owedSum] the sum
    of the amounts owed in the position table, [pending] the fees of a range not yet entered there, times 2^128. *)
From Coq Require Import String QArith.
From Verif Require Import Base U256Z SwapMath TickMath TickMathFacts TickData Ledger Pool PoolTable PoolInv PoolHist PoolOps PoolMint PoolFees PoolPos PoolSpec Solvency Cash.
From Verif Require U256Facts.
Open Scope Z_scope.

(** the exact worth, from the prices at the two ticks *)
Theorem C69_worth l u a b P : GetSqrtRatioAtTick l = Ok a -> GetSqrtRatioAtTick u = Ok b -> l < u ->
  let c := Z.max a (Z.min b P) in
  (worth true P l u == inject_Z (2 ^ 96) / inject_Z c - inject_Z (2 ^ 96) / inject_Z b)%Q /\
  (worth false P l u == inject_Z c / inject_Z (2 ^ 96) - inject_Z a / inject_Z (2 ^ 96))%Q.
Proof. exact (worth_at l u a b P). Qed.
Print Assumptions C69_worth.

(** whatever happened, the tokens in the pool cover the liquidity, the debts and the fees not yet recorded *)
Theorem C69_solvent h hs p r0 r1 : cash true true h hs p r0 r1 ->
  0 <= r0 /\ 0 <= r1 /\ forall tk,
    (worthAll tk h (SqrtRatio p) + inject_Z (owedSum tk (Pos p)) <= inject_Z (if tk then r0 else r1))%Q /\
    forall ranges, NoDup ranges ->
      ((worthAll tk h (SqrtRatio p) + inject_Z (owedSum tk (Pos p))) * inject_Z (2 ^ 128) + inject_Z (sumRanges (pending tk hs p) ranges) <=
       inject_Z (if tk then r0 else r1) * inject_Z (2 ^ 128))%Q.
Proof. exact (cash_solvent h hs p r0 r1). Qed.
Print Assumptions C69_solvent.
(** both conditions on the history are needed *)
Theorem C69_way_refuted : ~ (forall h hs p r0 r1, cash false true h hs p r0 r1 -> 0 <= r1).
Proof. exact (fun H => match way_needed with ex_intro _ h (ex_intro _ hs (ex_intro _ p (ex_intro _ r0 (ex_intro _ r1 (conj K N))))) => Zlt_not_le r1 0 N (H h hs p r0 r1 K) end). Qed.
Print Assumptions C69_way_refuted.
Theorem C69_keys_refuted : ~ (forall h hs p r0 r1, cash true false h hs p r0 r1 -> 0 <= r1).
Proof. exact (fun H => match keys_needed with ex_intro _ h (ex_intro _ hs (ex_intro _ p (ex_intro _ r0 (ex_intro _ r1 (conj K N))))) => Zlt_not_le r1 0 N (H h hs p r0 r1 K) end). Qed.
Print Assumptions C69_keys_refuted.
(** two mints, a swap up, a swap down, everything withdrawn: the fees of the historical position stay *)
Example C69_case : exists r0 r1, cash true true good7Hist [mkE 0 600 (- 10 ^ 18); mkE 0 600 (10 ^ 18)] good7 r0 r1 /\ r0 = 12714752355179 /\ r1 = 12194400071832.
Proof. exact (good7_cash true true). Qed.
Example C69_worth_case : (worth true (2 ^ 96) (-60) 60 == 1 - inject_Z (2 ^ 96) / inject_Z 79466191966197645195421774833 /\ worth false (2 ^ 96) 60 120 == 0)%Q.
Proof. split; vm_compute; reflexivity. Qed.

(** [keepsClear fuel p amt r] (Cash.v): some limit b with [clearWay p b] gives [swap fuel p true amt b = Ok r].  It
    holds for the swap's own limit if that one is clear, and by C72 for a swap that stops before a clear limit. *)
(** one swap: the liquidity is worth at most what it was, plus what was paid in less the fees, less what was paid out *)
Theorem C70_swap h p fuel z amt lim p' a0 a1 : reach h p -> 0 <= amt < 2 ^ 256 ->
  (z = true -> keepsClear fuel p amt (p', a0, a1)) -> swap fuel p z amt lim = Ok (p', a0, a1) ->
  exists fees, 0 <= fees /\
    (worthAll z h (SqrtRatio p') + inject_Z fees <= worthAll z h (SqrtRatio p) + inject_Z (U256Facts.sgn256 (if z then a0 else a1)))%Q /\
    (worthAll (negb z) h (SqrtRatio p') <= worthAll (negb z) h (SqrtRatio p) + inject_Z (U256Facts.sgn256 (if z then a1 else a0)))%Q /\
    forall ranges, NoDup ranges ->
      sumRanges (fun l u => minted h l u * ((insideGrowth z p' l u - insideGrowth z p l u) mod 2 ^ 256)) ranges <= fees * 2 ^ 128.
Proof. exact (swap_worth h p fuel z amt lim p' a0 a1). Qed.
Print Assumptions C70_swap.
(** a swap without a limit, as the executor makes them *)
Example C70_case : reach goodHist good3 /\ (exists p' a0 a1, keepsClear 20 good3 (2 * 10 ^ 16) (p', a0, a1) /\ swap 20 good3 true (2 * 10 ^ 16) 0 = Ok (p', a0, a1) /\ U256Facts.sgn256 a0 = 2 * 10 ^ 16 /\ U256Facts.sgn256 a1 = -20402817885737307).
Proof. split; [exact good3_reach|]. exists good4. do 2 eexists. split; [exists (2 ^ 96); split; [exact good4_clear|vm_compute; reflexivity]|]. split; [vm_compute; reflexivity|]. vm_compute. auto. Qed.

(** the amounts of the position calls against the exact worth: a mint pays at least it, a burn gets at most it *)
Theorem C70_mint h p l u a p' x0 x1 : reach h p -> allowed h p (OMintStrategy l u a) -> MintStrategy p l u a = Ok (p', x0, x1) ->
  forall tk : bool, (inject_Z a * worth tk (SqrtRatio p) l u <= inject_Z (if tk then x0 else x1) < inject_Z a * worth tk (SqrtRatio p) l u + 1)%Q.
Proof. exact (mint_worth h p l u a p' x0 x1). Qed.
Print Assumptions C70_mint.
Theorem C70_burn h p l u a p' y0 y1 : reach h p -> allowed h p (OBurnStrategy l u a) -> BurnStrategy p l u a = Ok (p', y0, y1) ->
  forall tk : bool, (inject_Z (if tk then y0 else y1) <= inject_Z a * worth tk (SqrtRatio p) l u < inject_Z (if tk then y0 else y1) + 1)%Q.
Proof. exact (burn_worth h p l u a p' y0 y1). Qed.
Print Assumptions C70_burn.
Example C70_amounts_case : reach goodHist good4 /\ allowed goodHist good4 (OBurnStrategy 0 600 (10 ^ 18)) /\ (exists y0 y1, BurnStrategy good4 0 600 (10 ^ 18) = Ok (good5, y0, y1) /\ 0 < y0 /\ 0 < y1) /\
  allowed [mkE 60 180 (10 ^ 18)] good1 (OMintStrategy 0 600 (10 ^ 18)) /\ MintStrategy good1 0 600 (10 ^ 18) = Ok (good2, 24590201089126306, 4987562112089028).
Proof.
  split; [exact good4_reach|]. split; [vm_compute; intuition discriminate|]. split; [do 2 eexists; split; [vm_compute; reflexivity|]; vm_compute; auto|].
  split; [okAllowed|vm_compute; reflexivity].
Qed.
