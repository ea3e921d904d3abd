(** Prop_Slip.v -- the rate of a swap against the price it ends at (C87).

    [M] bounds the liquidity in range at any tick, [n] the number of rounds (ticks and words of ticks passed). *)
From Coq Require Import String Lia.
From Verif Require Import Base SwapMath TickMath TickData Ledger Pool PoolOps PoolHist PoolSpec PoolMono PoolQuote PoolSlip Cash.
Ltac Zify.zify_post_hook ::= idtac.
Open Scope Z_scope.

(** token 0 in: what comes out is at least what is paid, less the fee, at any price [c] the swap does not fall below, up to rounding *)
Theorem C87_down h p n a lim M c p1 a0 a1 : reach h p -> 0 <= a < 2 ^ 256 -> (a < 2 ^ 255 -> a < 2 ^ 236) -> clearWay p (if lim =? 0 then 4295128740 else lim) ->
  (forall t, active h t <= M) -> swap n p true a lim = Ok (p1, a0, a1) -> 0 < c <= SqrtRatio p1 ->
  (a0 * (1000000 - Fee p) - 2 * Z.of_nat n * 1000000) * ((c - 1) * (c - 1)) <= 1000000 * (((- a1) mod 2 ^ 256 + Z.of_nat n) * (2 ^ 96 * 2 ^ 96) + M * 2 ^ 96).
Proof. exact (fun R Ha Hf HC HM E Hc => swap_slip h p n true a lim M c p1 a0 a1 R Ha (fun e => Hf (proj1 (Z.ltb_lt _ _) e)) (fun _ => HC) HM E (proj1 Hc) (proj2 Hc)). Qed.
Print Assumptions C87_down.
(** token 1 in, likewise *)
Theorem C87_up h p n a lim M c p1 a0 a1 : reach h p -> 0 <= a < 2 ^ 256 -> (a < 2 ^ 255 -> a < 2 ^ 160) ->
  (forall t, active h t <= M) -> swap n p false a lim = Ok (p1, a0, a1) -> 0 < SqrtRatio p1 <= c ->
  (a1 * (1000000 - Fee p) - 2 * Z.of_nat n * 1000000) * (2 ^ 96 * 2 ^ 96) <= 1000000 * (((- a0) mod 2 ^ 256 + Z.of_nat n) * (c * c) + M * 2 ^ 96).
Proof. exact (fun R Ha Hf HM E Hc => swap_slip h p n false a lim M c p1 a0 a1 R Ha (fun e => Hf (proj1 (Z.ltb_lt _ _) e)) (fun e => match Bool.diff_false_true e with end) HM E (Z.lt_le_trans _ _ _ (proj1 Hc) (proj2 Hc)) (proj2 Hc)). Qed.
Print Assumptions C87_up.
(** the liquidity is below 2^128 in any case *)
Theorem C87_liquidity h p t : reach h p -> active h t <= 2 ^ 128.
Proof. exact (fun R => Z.lt_le_incl _ _ (proj2 (PoolInv.active_range _ h t (proj1 (reach_ok h p R))))). Qed.
Print Assumptions C87_liquidity.

(** without the bound on the amount: 2^253 of token 0 buy nothing, the price stays *)
Theorem C87_down_refuted : ~ (forall h p n a lim M p1 a0 a1, reach h p -> 0 <= a < 2 ^ 256 -> clearWay p (if lim =? 0 then 4295128740 else lim) ->
  (forall t, active h t <= M) -> swap n p true a lim = Ok (p1, a0, a1) ->
  (a0 * (1000000 - Fee p) - 2 * Z.of_nat n * 1000000) * ((SqrtRatio p1 - 1) * (SqrtRatio p1 - 1)) <= 1000000 * (((- a1) mod 2 ^ 256 + Z.of_nat n) * (2 ^ 96 * 2 ^ 96) + M * 2 ^ 96)).
Proof.
  intros H. assert (exists p1 a0 a1, swap 20 wide1 true (2 ^ 253) (2 ^ 96) = Ok (p1, a0, a1) /\ a0 = 2 ^ 253 /\ a1 = 0 /\ SqrtRatio p1 = 1393796574908163946345982392040522594123776) as (p1 & a0 & a1 & E & A & B & C).
  { do 3 eexists. split; [vm_compute; reflexivity|]. vm_compute. auto. }
  specialize (H wideHist wide1 20%nat (2 ^ 253) (2 ^ 96) (2 ^ 128) p1 a0 a1 wide1_reach ltac:(lia)).
  assert (clearWay wide1 (2 ^ 96)) as CW.
  { intros t r Ht Hn _ Er. destruct (Z.eq_dec t (-1)) as [->|N]; [vm_compute in Er; injection Er as <-; discriminate|].
    assert (t + 1 < 0) as Hlt by lia. apply Z.lt_le_incl. eapply TickAccuracy.ratio_monotone; [exact Hlt|exact Er|vm_compute; reflexivity]. }
  specialize (H CW (fun t => C87_liquidity wideHist wide1 t wide1_reach)). specialize (H E). rewrite A, B, C in H. vm_compute in H. apply H. reflexivity.
Qed.
Print Assumptions C87_down_refuted.
(** and so do certain amounts of token 1 above 2^160 *)
Theorem C87_up_refuted : ~ (forall h p n a lim M p1 a0 a1, reach h p -> 0 <= a < 2 ^ 256 ->
  (forall t, active h t <= M) -> swap n p false a lim = Ok (p1, a0, a1) ->
  (a1 * (1000000 - Fee p) - 2 * Z.of_nat n * 1000000) * (2 ^ 96 * 2 ^ 96) <= 1000000 * (((- a0) mod 2 ^ 256 + Z.of_nat n) * (SqrtRatio p1 * SqrtRatio p1) + M * 2 ^ 96)).
Proof.
  intros H. destruct wide_wraps as (_ & _ & _ & p2 & b0 & b1 & _ & E & _ & A & B & C).
  specialize (H wideHist wide1 20%nat 1465899335336913659181228518271096308581677575705 0 (2 ^ 128) p2 b0 b1 wide1_reach ltac:(lia) (fun t => C87_liquidity wideHist wide1 t wide1_reach) E). rewrite A, B, C in H. vm_compute in H. apply H. reflexivity.
Qed.
Print Assumptions C87_up_refuted.
(** down and up over an initialised tick, exact input and exact output: what the price at the end would give is close *)
Example C87_case : reach goodHist good3 /\ clearWay good3 (2 ^ 96) /\ reach goodHist good2 /\ (forall t, active goodHist t <= 2 ^ 96) /\
  (exists p1 a0 a1, swap 20 good3 true (2 * 10 ^ 16) (2 ^ 96) = Ok (p1, a0, a1) /\ (- a1) mod 2 ^ 256 = 20402817885737307 /\
    (a0 * (1000000 - Fee good3) - 40 * 1000000) * ((SqrtRatio p1 - 1) * (SqrtRatio p1 - 1)) / (1000000 * (2 ^ 96 * 2 ^ 96)) - 21 = 20130126450988250) /\
  (exists p1 a0 a1, swap 20 good2 false (2 ^ 256 - 15 * 10 ^ 15) 0 = Ok (p1, a0, a1) /\ a1 = 15336561155645304).
Proof.
  split; [exact good3_reach|]. split; [exact good4_clear|]. split; [exact good2_reach|].
  split. { intros t. eapply Z.le_trans; [apply (active_total _ t (proj1 (proj1 (reach_ok _ _ good2_reach))))|]. vm_compute. discriminate. }
  split; do 3 eexists; (split; [vm_compute; reflexivity|]); vm_compute; auto.
Qed.
