(** Prop_Quote.v -- exact input and exact output agree: C82.

    [z]: token 0 is paid in and the price falls.  Amounts are two's complement: positive into the pool, negative out of it. *)
From Coq Require Import String Lia.
From Verif Require Import Base SwapMath TickMath TickData Ledger Pool PoolOps PoolHist PoolSpec PoolMono PoolQuote Cash.
Ltac Zify.zify_post_hook ::= idtac.
Open Scope Z_scope.

(** whatever less than the yield of an exact input is asked for from the same pool comes in full, costs no more, and moves the price no farther *)
Theorem C82_ask h p n m (z : bool) a y lim p1 a0 a1 p2 b0 b1 : reach h p -> 0 <= a < 2 ^ 255 -> y <= 2 ^ 255 ->
  (z = true -> clearWay p (if lim =? 0 then 4295128740 else lim)) -> 0 < y < (- (if z then a1 else a0)) mod 2 ^ 256 ->
  swap n p z a lim = Ok (p1, a0, a1) -> swap m p z (2 ^ 256 - y) lim = Ok (p2, b0, b1) ->
  (- (if z then b1 else b0)) mod 2 ^ 256 = y /\ (if z then b0 else b1) <= (if z then a0 else a1) /\
  (if z then SqrtRatio p1 <= SqrtRatio p2 else SqrtRatio p2 <= SqrtRatio p1).
Proof. exact (fun R Ha Hy CW => ask_quote h p n m z a y lim p1 a0 a1 p2 b0 b1 R Ha Hy (fun e => eq_ind_r (fun z0 : bool => clearWay p (effectiveLimit z0 lim)) (CW e : clearWay p (effectiveLimit true lim)) e)). Qed.
Print Assumptions C82_ask.
(** paying exactly what an exact output has cost yields at least that output *)
Theorem C82_pay h p n m (z : bool) y lim p1 a0 a1 p2 b0 b1 : reach h p -> 0 < y <= 2 ^ 255 ->
  (z = true -> clearWay p (if lim =? 0 then 4295128740 else lim)) ->
  (if z then (if z then a0 else a1) * SqrtRatio p + 2 ^ 224 <= 2 ^ 256 else (if z then a0 else a1) < 2 ^ 160) ->
  swap n p z (2 ^ 256 - y) lim = Ok (p1, a0, a1) -> swap m p z (if z then a0 else a1) lim = Ok (p2, b0, b1) ->
  (- (if z then a1 else a0)) mod 2 ^ 256 <= (- (if z then b1 else b0)) mod 2 ^ 256.
Proof. exact (fun R Hy CW => pay_quote h p n m z y lim p1 a0 a1 p2 b0 b1 R Hy (fun e => eq_ind_r (fun z0 : bool => clearWay p (effectiveLimit z0 lim)) (CW e : clearWay p (effectiveLimit true lim)) e)). Qed.
Print Assumptions C82_pay.
(** asking for the very yield of an exact input can cost more: the step then runs on to its target *)
Theorem C82_equal_refuted : ~ (forall h p n a y p1 a0 a1 p2 b0 b1, reach h p -> 0 <= a < 2 ^ 160 -> 0 < y <= (- a0) mod 2 ^ 256 ->
  swap n p false a 0 = Ok (p1, a0, a1) -> swap n p false (2 ^ 256 - y) 0 = Ok (p2, b0, b1) -> b1 <= a1).
Proof.
  intros H. destruct thin_asks as (p1 & a0 & a1 & p2 & b0 & b1 & E1 & E2 & G & B). change ((- a0) mod 2 ^ 256 = 6) in G.
  specialize (H thinHist thin1 20%nat (2 ^ 91 - 2 ^ 87) 6 p1 a0 a1 p2 b0 b1 thin1_reach ltac:(lia) ltac:(lia) E1 E2). lia.
Qed.
Print Assumptions C82_equal_refuted.
(** down over an initialised tick, an input and an ask just below its yield; up, an ask and a payment of its cost *)
Example C82_case : reach goodHist good3 /\ clearWay good3 (2 ^ 96) /\
  (exists p1 a0 a1 p2 b0 b1, swap 20 good3 true (2 * 10 ^ 16) (2 ^ 96) = Ok (p1, a0, a1) /\ swap 20 good3 true (2 ^ 256 - 20402817885737306) (2 ^ 96) = Ok (p2, b0, b1) /\
    (- a1) mod 2 ^ 256 = 20402817885737307 /\ b0 < a0) /\
  (exists p1 a0 a1 p2 b0 b1, swap 20 good2 false (2 ^ 256 - 15 * 10 ^ 15) 0 = Ok (p1, a0, a1) /\ swap 20 good2 false 15336561155645304 0 = Ok (p2, b0, b1) /\
    a1 = 15336561155645304 /\ (- b0) mod 2 ^ 256 = 15 * 10 ^ 15).
Proof.
  split; [exact good3_reach|]. split.
  { exact good4_clear. }
  split; do 6 eexists; (split; [vm_compute; reflexivity|]); (split; [vm_compute; reflexivity|]); vm_compute; auto.
Qed.
