(** Prop_Mono.v -- a larger swap goes at least as far: C81.

    [z]: token 0 is paid in and the price falls.  Amounts are two's complement: positive into the pool, negative out of it. *)
From Coq Require Import String Lia.
From Verif Require Import Base SwapMath TickMath TickData Ledger Pool PoolOps PoolHist PoolSpec PoolMono Cash.
Ltac Zify.zify_post_hook ::= idtac.
Open Scope Z_scope.

(** of two exact inputs the larger moves the price at least as far, takes at least as much and pays out at least as much *)
Theorem C81_input h p n m (z : bool) a b lim p1 a0 a1 p2 b0 b1 : reach h p -> 0 <= a <= b -> b < (if z then 2 ^ 236 else 2 ^ 160) ->
  (z = true -> clearWay p (if lim =? 0 then 4295128740 else lim)) ->
  swap n p z a lim = Ok (p1, a0, a1) -> swap m p z b lim = Ok (p2, b0, b1) ->
  (if z then SqrtRatio p2 <= SqrtRatio p1 else SqrtRatio p1 <= SqrtRatio p2) /\
  0 <= (if z then a0 else a1) <= (if z then b0 else b1) /\ 0 <= (- (if z then a1 else a0)) mod 2 ^ 256 <= (- (if z then b1 else b0)) mod 2 ^ 256.
Proof. exact (fun R Hab Hb CW => larger_input h p n m z a b lim p1 a0 a1 p2 b0 b1 R Hab Hb (fun e => eq_ind_r (fun z0 : bool => clearWay p (effectiveLimit z0 lim)) (CW e : clearWay p (effectiveLimit true lim)) e)). Qed.
Print Assumptions C81_input.
(** of two exact outputs the larger moves the price at least as far, costs at least as much and pays out at least as much *)
Theorem C81_output h p n m (z : bool) a b lim p1 a0 a1 p2 b0 b1 : reach h p -> 0 < a <= b -> b <= 2 ^ 255 ->
  (z = true -> clearWay p (if lim =? 0 then 4295128740 else lim)) ->
  swap n p z (2 ^ 256 - a) lim = Ok (p1, a0, a1) -> swap m p z (2 ^ 256 - b) lim = Ok (p2, b0, b1) ->
  (if z then SqrtRatio p2 <= SqrtRatio p1 else SqrtRatio p1 <= SqrtRatio p2) /\
  0 <= (if z then a0 else a1) <= (if z then b0 else b1) /\ 0 <= (- (if z then a1 else a0)) mod 2 ^ 256 <= (- (if z then b1 else b0)) mod 2 ^ 256.
Proof. exact (fun R Hab Hb CW => larger_output h p n m z a b lim p1 a0 a1 p2 b0 b1 R Hab Hb (fun e => eq_ind_r (fun z0 : bool => clearWay p (effectiveLimit z0 lim)) (CW e : clearWay p (effectiveLimit true lim)) e)). Qed.
Print Assumptions C81_output.
(** upwards the bound on the input is needed: from 2^160 on the product with 2^96 wraps, and the whole payment goes into fees *)
Theorem C81_wrap_refuted : ~ (forall h p n a b p1 a0 a1 p2 b0 b1, reach h p -> 0 <= a <= b -> b < 2 ^ 161 ->
  swap n p false a 0 = Ok (p1, a0, a1) -> swap n p false b 0 = Ok (p2, b0, b1) -> (- a0) mod 2 ^ 256 <= (- b0) mod 2 ^ 256).
Proof.
  intros H. destruct wide_wraps as (p1 & a0 & a1 & p2 & b0 & b1 & E1 & E2 & G & B0 & _). specialize (H wideHist wide1 20%nat (2 ^ 159) 1465899335336913659181228518271096308581677575705 p1 a0 a1 p2 b0 b1 wide1_reach ltac:(lia) ltac:(lia) E1 E2).
  change ((- a0) mod 2 ^ 256) with (got false a0 a1) in H. rewrite G, B0 in H. apply H. reflexivity.
Qed.
Print Assumptions C81_wrap_refuted.
(** downwards the way must be clear *)
Theorem C81_way_refuted : ~ (forall h p n a b p1 a0 a1 p2 b0 b1, reach h p -> 0 <= a <= b -> b < 2 ^ 236 ->
  swap n p true a 0 = Ok (p1, a0, a1) -> swap n p true b 0 = Ok (p2, b0, b1) -> SqrtRatio p2 <= SqrtRatio p1).
Proof.
  intros H. destruct bad_smaller as (p1 & a0 & a1 & p2 & b0 & b1 & E1 & E2 & G). specialize (H badHist badPool 10%nat 100000 (10 ^ 15) p1 a0 a1 p2 b0 b1 badPool_reach ltac:(lia) ltac:(lia) E1 E2). lia.
Qed.
Print Assumptions C81_way_refuted.
(** down and up, inputs and outputs, the larger ones over an initialised tick *)
Example C81_case : reach goodHist good3 /\ clearWay good3 (2 ^ 96) /\
  (exists p1 a0 a1 p2 b0 b1, swap 20 good3 true (10 ^ 15) (2 ^ 96) = Ok (p1, a0, a1) /\ swap 20 good3 true (2 * 10 ^ 16) (2 ^ 96) = Ok (p2, b0, b1) /\
    SqrtRatio p2 < SqrtRatio p1 < SqrtRatio good3 /\ Liquidity p1 <> Liquidity p2) /\
  (exists p1 a0 a1 p2 b0 b1, swap 20 good2 false (2 ^ 256 - 10 ^ 15) 0 = Ok (p1, a0, a1) /\ swap 20 good2 false (2 ^ 256 - 15 * 10 ^ 15) 0 = Ok (p2, b0, b1) /\
    SqrtRatio good2 < SqrtRatio p1 < SqrtRatio p2 /\ a1 < b1).
Proof.
  split; [exact good3_reach|]. split.
  { exact good4_clear. }
  split; do 6 eexists; (split; [vm_compute; reflexivity|]; split; [vm_compute; reflexivity|]; vm_compute; intuition discriminate).
Qed.
