(** Prop_Rate.v -- the amount of an exact output (C85) and the rate of a swap (C86).

    [z]: token 0 is paid in and the price falls.  Amounts are two's complement: positive into the pool, negative out of it. *)
From Coq Require Import String Lia.
From Verif Require Import Base SwapMath TickMath TickData Ledger Pool PoolOps PoolHist PoolSpec PoolMono PoolQuote PoolRate Cash.
Ltac Zify.zify_post_hook ::= idtac.
Open Scope Z_scope.

(** * C85 *)
(** asking for an amount of one token is the same call as paying that amount of the other *)
Theorem C85_same n p y lim : Token0 p <> Token1 p ->
  ExactOutputSwap n p y (Token1 p) lim = ExactInputSwap n p y (Token0 p) lim /\ ExactOutputSwap n p y (Token0 p) lim = ExactInputSwap n p y (Token1 p) lim.
Proof. exact (output_is_input n p y lim). Qed.
Print Assumptions C85_same.
(** an ordinary amount bounds what is paid in; an amount in two's complement is paid out *)
Theorem C85_amount h p n y tok lim p' a0 a1 : reach h p -> 0 <= y < 2 ^ 256 -> ExactOutputSwap n p y tok lim = Ok (p', a0, a1) ->
  let z := String.eqb tok (Token1 p) in let inp := if z then a0 else a1 in let out := (- (if z then a1 else a0)) mod 2 ^ 256 in
  if y <? 2 ^ 255 then 0 <= inp <= y /\ (inp = y \/ SqrtRatio p' = effectiveLimit z lim)
  else 0 <= out <= 2 ^ 256 - y /\ (out = 2 ^ 256 - y \/ SqrtRatio p' = effectiveLimit z lim).
Proof. exact (output_request h p n y tok lim p' a0 a1). Qed.
Print Assumptions C85_amount.
(** so asking for an ordinary amount does not pay it out *)
Theorem C85_pays_refuted : ~ (forall h p n y p' a0 a1, reach h p -> 0 < y < 2 ^ 255 -> Token0 p <> Token1 p ->
  ExactOutputSwap n p y (Token1 p) 0 = Ok (p', a0, a1) -> SqrtRatio p' <> 4295128740 -> (- a1) mod 2 ^ 256 = y).
Proof.
  intros H. assert (exists p' a0 a1, ExactOutputSwap 20 good3 (2 * 10 ^ 16) (Token1 good3) 0 = Ok (p', a0, a1) /\ SqrtRatio p' <> 4295128740 /\ (- a1) mod 2 ^ 256 = 20402817885737307) as (p' & a0 & a1 & E & N & G).
  { do 3 eexists. split; [vm_compute; reflexivity|]. vm_compute. split; [discriminate|reflexivity]. }
  specialize (H goodHist good3 20%nat (2 * 10 ^ 16) p' a0 a1 good3_reach ltac:(lia) ltac:(discriminate) E N). rewrite G in H. discriminate H.
Qed.
Print Assumptions C85_pays_refuted.

(** * C86 *)
(** token 0 in: what comes out is at most what is paid, less the fee, at the price before the swap *)
Theorem C86_down h p n a lim p1 a0 a1 : reach h p -> 0 <= a < 2 ^ 256 -> clearWay p (if lim =? 0 then 4295128740 else lim) ->
  swap n p true a lim = Ok (p1, a0, a1) -> (- a1) mod 2 ^ 256 * 1000000 * (2 ^ 96 * 2 ^ 96) <= a0 * (1000000 - Fee p) * (SqrtRatio p * SqrtRatio p).
Proof. exact (fun R Ha HC => swap_rate h p n true a lim p1 a0 a1 R Ha (fun _ => HC)). Qed.
Print Assumptions C86_down.
(** at a misplaced tick a downward swap pays out more than that *)
Theorem C86_down_refuted : ~ (forall h p n a p1 a0 a1, reach h p -> 0 <= a < 2 ^ 256 ->
  swap n p true a 0 = Ok (p1, a0, a1) -> (- a1) mod 2 ^ 256 * 1000000 * (2 ^ 96 * 2 ^ 96) <= a0 * (1000000 - Fee p) * (SqrtRatio p * SqrtRatio p)).
Proof.
  intros H. assert (exists p1 a0 a1, swap 20 badPool true (10 ^ 15) 0 = Ok (p1, a0, a1) /\ a0 = 10 ^ 15 /\ (- a1) mod 2 ^ 256 = 998997845101455) as (p1 & a0 & a1 & E & A & G).
  { do 3 eexists. split; [vm_compute; reflexivity|]. vm_compute. auto. }
  specialize (H badHist badPool 20%nat (10 ^ 15) p1 a0 a1 badPool_reach ltac:(lia) E). rewrite G, A in H. vm_compute in H. apply H. reflexivity.
Qed.
Print Assumptions C86_down_refuted.
(** token 1 in, likewise *)
Theorem C86_up h p n a lim p1 a0 a1 : reach h p -> 0 <= a < 2 ^ 256 ->
  swap n p false a lim = Ok (p1, a0, a1) -> (- a0) mod 2 ^ 256 * 1000000 * (SqrtRatio p * SqrtRatio p) <= a1 * (1000000 - Fee p) * (2 ^ 96 * 2 ^ 96).
Proof. exact (fun R Ha => swap_rate h p n false a lim p1 a0 a1 R Ha (fun e => match Bool.diff_false_true e with end)). Qed.
Print Assumptions C86_up.
(** down and up over an initialised tick, exact input and exact output *)
Example C86_case : reach goodHist good3 /\ clearWay good3 (2 ^ 96) /\ reach goodHist good2 /\
  (exists p1 a0 a1, swap 20 good3 true (2 * 10 ^ 16) (2 ^ 96) = Ok (p1, a0, a1) /\ (- a1) mod 2 ^ 256 = 20402817885737307) /\
  (exists p1 a0 a1, swap 20 good2 false (2 ^ 256 - 15 * 10 ^ 15) 0 = Ok (p1, a0, a1) /\ a1 = 15336561155645304).
Proof.
  split; [exact good3_reach|]. split; [exact good4_clear|]. split; [exact good2_reach|].
  split; do 3 eexists; (split; [vm_compute; reflexivity|]); vm_compute; reflexivity.
Qed.
