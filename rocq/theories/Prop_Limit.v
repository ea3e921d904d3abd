(** Prop_Limit.v -- a price limit that is not reached makes no difference: C72.

    [z]: token 0 is paid in and the price falls.  The limit 0 stands for the extreme price. *)
From Coq Require Import Lia.
From Verif Require Import Base SwapMath TickMath Ledger Pool PoolOps PoolHist PoolSpec PoolSwap PoolLimit.
Open Scope Z_scope.

(** a swap that stops before its limit does the same under every limit farther away *)
Theorem C72_unreached h p fuel z amt lim lim' p' a0 a1 : reach h p -> 0 <= amt < 2 ^ 256 -> swap fuel p z amt lim = Ok (p', a0, a1) ->
  let limit x := if x =? 0 then (if z then 4295128740 else 1461446703485210103287273052203988822378723970341) else x in
  SqrtRatio p' <> limit lim -> (if z then 4295128739 < limit lim' <= limit lim else limit lim <= limit lim' < 1461446703485210103287273052203988822378723970342) ->
  swap fuel p z amt lim' = Ok (p', a0, a1).
Proof. exact (limit_unreached h p fuel z amt lim lim' p' a0 a1). Qed.
Print Assumptions C72_unreached.
(** so it does the same without a limit *)
Theorem C72_unlimited h p fuel z amt lim p' a0 a1 : reach h p -> 0 <= amt < 2 ^ 256 -> swap fuel p z amt lim = Ok (p', a0, a1) ->
  SqrtRatio p' <> lim -> swap fuel p z amt 0 = Ok (p', a0, a1).
Proof. exact (no_limit h p fuel z amt lim p' a0 a1). Qed.
Print Assumptions C72_unlimited.
(** a limit that is reached does make a difference *)
Theorem C72_reached_refuted : ~ (forall h p fuel z amt lim p' a0 a1, reach h p -> 0 <= amt < 2 ^ 256 -> swap fuel p z amt lim = Ok (p', a0, a1) -> swap fuel p z amt 0 = Ok (p', a0, a1)).
Proof.
  exact (fun H => match limit_matters with ex_intro _ p' (ex_intro _ a0 (ex_intro _ a1 (conj E N))) =>
    N (H goodHist good2 20%nat false (2 * 10 ^ 16) (SqrtRatio good2 + 1) p' a0 a1 good2_reach (conj (Zle_bool_imp_le 0 (2 * 10 ^ 16) eq_refl) (eq_refl : 2 * 10 ^ 16 < 2 ^ 256)) E) end).
Qed.
Print Assumptions C72_reached_refuted.
(** down and up, the first over an initialised tick *)
Example C72_case : reach goodHist good3 /\ reach goodHist good2 /\
  (exists a0 a1, swap 20 good3 true (2 * 10 ^ 16) (2 ^ 96) = Ok (good4, a0, a1) /\ SqrtRatio good4 <> 2 ^ 96 /\ swap 20 good3 true (2 * 10 ^ 16) 0 = Ok (good4, a0, a1) /\ Liquidity good4 <> Liquidity good3) /\
  (exists a0 a1, swap 20 good2 false (2 * 10 ^ 16) (2 ^ 97) = Ok (good3, a0, a1) /\ SqrtRatio good3 <> 2 ^ 97 /\ swap 20 good2 false (2 * 10 ^ 16) 0 = Ok (good3, a0, a1)).
Proof. split; [exact good3_reach|]. split; [exact good2_reach|]. split; do 2 eexists; vm_compute; repeat split; discriminate. Qed.
