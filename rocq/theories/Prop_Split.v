(** Prop_Split.v -- splitting a swap does not pay, except at certain negative ticks: C83.

    [z]: token 0 is paid in and the price falls.  Amounts are two's complement: positive into the pool, negative out of it. *)
From Coq Require Import String Lia.
From Verif Require Import Base SwapMath TickMath TickData Ledger Pool PoolOps PoolHist PoolSpec PoolMono PoolQuote PoolSplit Cash.
Ltac Zify.zify_post_hook ::= idtac.
Open Scope Z_scope.

(** two exact inputs downwards, one after the other, yield at most what their sum yields at once, cost at least as much, and move the price no farther *)
Theorem C83_down h p n m k a b lim p1 a0 a1 p2 b0 b1 p3 c0 c1 : reach h p -> 0 <= a -> 0 <= b -> (a + b) * SqrtRatio p + 2 ^ 224 <= 2 ^ 256 ->
  clearWay p (if lim =? 0 then 4295128740 else lim) ->
  swap n p true a lim = Ok (p1, a0, a1) -> swap m p1 true b lim = Ok (p2, b0, b1) -> swap k p true (a + b) lim = Ok (p3, c0, c1) ->
  (- a1) mod 2 ^ 256 + (- b1) mod 2 ^ 256 <= (- c1) mod 2 ^ 256 /\ c0 <= a0 + b0 /\ SqrtRatio p3 <= SqrtRatio p2.
Proof. exact (fun R Ha Hb HF CW => split_swap h p n m k true a b lim p1 a0 a1 p2 b0 b1 p3 c0 c1 R Ha Hb (conj CW HF)). Qed.
Print Assumptions C83_down.
(** upwards likewise, unless the first leaves the pool at a negative tick in the last slot but one of its word *)
Theorem C83_up h p n m k a b lim p1 a0 a1 p2 b0 b1 p3 c0 c1 : reach h p -> 0 <= a -> 0 <= b -> a + b < 2 ^ 160 ->
  ~ (TickCurrent p1 < 0 /\ 254 * TickSpacing p < TickCurrent p1 mod (256 * TickSpacing p) < 255 * TickSpacing p) ->
  swap n p false a lim = Ok (p1, a0, a1) -> swap m p1 false b lim = Ok (p2, b0, b1) -> swap k p false (a + b) lim = Ok (p3, c0, c1) ->
  (- a0) mod 2 ^ 256 + (- b0) mod 2 ^ 256 <= (- c0) mod 2 ^ 256 /\ c1 <= a1 + b1 /\ SqrtRatio p2 <= SqrtRatio p3.
Proof. exact (fun R Ha Hb HF NS => split_swap h p n m k false a b lim p1 a0 a1 p2 b0 b1 p3 c0 c1 R Ha Hb (conj HF NS)). Qed.
Print Assumptions C83_up.
(** there it can pay: the same payment in two parts yields one unit more *)
Theorem C83_up_refuted : ~ (forall h p n a b lim p1 a0 a1 p2 b0 b1 p3 c0 c1, reach h p -> 0 <= a -> 0 <= b -> a + b < 2 ^ 160 ->
  swap n p false a lim = Ok (p1, a0, a1) -> swap n p1 false b lim = Ok (p2, b0, b1) -> swap n p false (a + b) lim = Ok (p3, c0, c1) -> a1 + b1 = c1 ->
  (- a0) mod 2 ^ 256 + (- b0) mod 2 ^ 256 <= (- c0) mod 2 ^ 256).
Proof.
  intros H. destruct skip_pays as (a0 & a1 & p2 & b0 & b1 & p3 & c0 & c1 & E1 & E2 & E3 & G & B). change ((- a0) mod 2 ^ 256 + (- b0) mod 2 ^ 256 = (- c0) mod 2 ^ 256 + 1) in G.
  specialize (H skipHist skip1 20%nat 200180 (10 ^ 6) (2 ^ 96 + 2 ^ 96 / 200) skip2 a0 a1 p2 b0 b1 p3 c0 c1 skip1_reach ltac:(lia) ltac:(lia) ltac:(lia) E1 E2 E3 B). lia.
Qed.
Print Assumptions C83_up_refuted.
(** down and up over an initialised tick; one unit is lost each way *)
Example C83_case : reach goodHist good3 /\ clearWay good3 (2 ^ 96) /\ (2 * 10 ^ 16 + 3) * SqrtRatio good3 + 2 ^ 224 <= 2 ^ 256 /\
  (exists p1 a0 a1 p2 b0 b1 p3 c0 c1, swap 20 good3 true (10 ^ 16 + 3) (2 ^ 96) = Ok (p1, a0, a1) /\ swap 20 p1 true (10 ^ 16) (2 ^ 96) = Ok (p2, b0, b1) /\
    swap 20 good3 true (2 * 10 ^ 16 + 3) (2 ^ 96) = Ok (p3, c0, c1) /\ (- a1) mod 2 ^ 256 + (- b1) mod 2 ^ 256 < (- c1) mod 2 ^ 256) /\
  (exists p1 a0 a1 p2 b0 b1 p3 c0 c1, swap 20 good2 false (10 ^ 16) 0 = Ok (p1, a0, a1) /\ swap 20 p1 false (10 ^ 16) 0 = Ok (p2, b0, b1) /\
    swap 20 good2 false (2 * 10 ^ 16) 0 = Ok (p3, c0, c1) /\ (- a0) mod 2 ^ 256 + (- b0) mod 2 ^ 256 < (- c0) mod 2 ^ 256 /\ 0 <= TickCurrent p1).
Proof.
  split; [exact good3_reach|]. split; [exact good4_clear|]. split; [vm_compute; discriminate|].
  split; do 9 eexists; (split; [vm_compute; reflexivity|]); (split; [vm_compute; reflexivity|]); (split; [vm_compute; reflexivity|]); vm_compute; [reflexivity|split; [reflexivity|discriminate]].
Qed.
