(** Prop_SplitOut.v -- splitting an exact output does not save anything, except at certain negative ticks: C84.

    [z]: token 0 is paid in and the price falls.  Amounts are two's complement: positive into the pool, negative out of it. *)
From Coq Require Import String Lia.
From Verif Require Import Base SwapMath TickMath TickData Ledger Pool PoolOps PoolHist PoolSpec PoolMono PoolQuote PoolSplit PoolSplitOut Cash.
Ltac Zify.zify_post_hook ::= idtac.
Open Scope Z_scope.

(** two exact outputs downwards, one after the other, cost at least what their sum costs at once, pay out at most as much, and move the price at least as far *)
Theorem C84_down h p n m k a b lim p1 a0 a1 p2 b0 b1 p3 c0 c1 : reach h p -> 0 < a -> 0 < b -> a + b <= 2 ^ 255 ->
  clearWay p (if lim =? 0 then 4295128740 else lim) ->
  swap n p true (2 ^ 256 - a) lim = Ok (p1, a0, a1) -> swap m p1 true (2 ^ 256 - b) lim = Ok (p2, b0, b1) -> swap k p true (2 ^ 256 - (a + b)) lim = Ok (p3, c0, c1) ->
  c0 <= a0 + b0 /\ (- a1) mod 2 ^ 256 + (- b1) mod 2 ^ 256 <= (- c1) mod 2 ^ 256 /\ SqrtRatio p2 <= SqrtRatio p3.
Proof. exact (split_swap_out h p n m k true a b lim p1 a0 a1 p2 b0 b1 p3 c0 c1). Qed.
Print Assumptions C84_down.
(** upwards likewise, unless the first leaves the pool at a negative tick in the last slot but one of its word *)
Theorem C84_up h p n m k a b lim p1 a0 a1 p2 b0 b1 p3 c0 c1 : reach h p -> 0 < a -> 0 < b -> a + b <= 2 ^ 255 ->
  ~ (TickCurrent p1 < 0 /\ 254 * TickSpacing p < TickCurrent p1 mod (256 * TickSpacing p) < 255 * TickSpacing p) ->
  swap n p false (2 ^ 256 - a) lim = Ok (p1, a0, a1) -> swap m p1 false (2 ^ 256 - b) lim = Ok (p2, b0, b1) -> swap k p false (2 ^ 256 - (a + b)) lim = Ok (p3, c0, c1) ->
  c1 <= a1 + b1 /\ (- a0) mod 2 ^ 256 + (- b0) mod 2 ^ 256 <= (- c0) mod 2 ^ 256 /\ SqrtRatio p3 <= SqrtRatio p2.
Proof. exact (split_swap_out h p n m k false a b lim p1 a0 a1 p2 b0 b1 p3 c0 c1). Qed.
Print Assumptions C84_up.
(** there it can save: the same output in two parts costs two units less *)
Theorem C84_up_refuted : ~ (forall h p n a b p1 a0 a1 p2 b0 b1 p3 c0 c1, reach h p -> 0 < a -> 0 < b -> a + b <= 2 ^ 255 ->
  swap n p false (2 ^ 256 - a) 0 = Ok (p1, a0, a1) -> swap n p1 false (2 ^ 256 - b) 0 = Ok (p2, b0, b1) -> swap n p false (2 ^ 256 - (a + b)) 0 = Ok (p3, c0, c1) ->
  (- a0) mod 2 ^ 256 + (- b0) mod 2 ^ 256 = (- c0) mod 2 ^ 256 -> c1 <= a1 + b1).
Proof.
  intros H. destruct skip_saves as (a0 & a1 & p2 & b0 & b1 & p3 & c0 & c1 & E1 & E2 & E3 & G & G2 & B). change ((- c0) mod 2 ^ 256 = 253280) in G. change ((- a0) mod 2 ^ 256 + (- b0) mod 2 ^ 256 = 253280) in G2.
  specialize (H skipHist skip1 20%nat 203280 50000 skip3 a0 a1 p2 b0 b1 p3 c0 c1 skip1_reach ltac:(lia) ltac:(lia) ltac:(lia) E1 E2 E3 ltac:(lia)). lia.
Qed.
Print Assumptions C84_up_refuted.
(** down and up over an initialised tick; one unit is lost each way *)
Example C84_case : reach goodHist good3 /\ clearWay good3 (2 ^ 96) /\
  (exists p1 a0 a1 p2 b0 b1 p3 c0 c1, swap 20 good3 true (2 ^ 256 - 10 ^ 16) (2 ^ 96) = Ok (p1, a0, a1) /\ swap 20 p1 true (2 ^ 256 - 10 ^ 16) (2 ^ 96) = Ok (p2, b0, b1) /\
    swap 20 good3 true (2 ^ 256 - 2 * 10 ^ 16) (2 ^ 96) = Ok (p3, c0, c1) /\ c0 < a0 + b0) /\
  (exists p1 a0 a1 p2 b0 b1 p3 c0 c1, swap 20 good2 false (2 ^ 256 - 10 ^ 16) 0 = Ok (p1, a0, a1) /\ swap 20 p1 false (2 ^ 256 - 5 * 10 ^ 15) 0 = Ok (p2, b0, b1) /\
    swap 20 good2 false (2 ^ 256 - 15 * 10 ^ 15) 0 = Ok (p3, c0, c1) /\ c1 < a1 + b1 /\ 0 <= TickCurrent p1).
Proof.
  split; [exact good3_reach|]. split; [exact good4_clear|].
  split; do 9 eexists; (split; [vm_compute; reflexivity|]); (split; [vm_compute; reflexivity|]); (split; [vm_compute; reflexivity|]); vm_compute; [reflexivity|split; [reflexivity|discriminate]].
Qed.
