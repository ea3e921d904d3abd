(** Prop_Strategy.v -- the books of the strategies: C51, C52. *)
From Coq Require Import String.
From Verif Require Import Base U256Z SwapMath TickMath Float64 Pool PoolOps Prices Client Strategy StrategyFacts PoolSpec.
Open Scope Z_scope.

(** [ens Q m] says that whenever the client [m] returns, on any pool, [Q] holds of the calls it made (with the
    amounts they returned) and of its result.  [gain0], [gain1] are what a call brings in token 0 and 1:
    collected amounts count positively, the amounts charged by mints and swaps negatively. *)

(** Init: the balances change by what the calls brought; the recorded positions are what was minted; the
    returned amounts are the balances before. *)
Theorem C51_init k s : ens (fun tr r =>
    (sAmount0 (fst r) mod 2 ^ 256 = (sAmount0 s + sumOf gain0 tr) mod 2 ^ 256 /\
     sAmount1 (fst r) mod 2 ^ 256 = (sAmount1 s + sumOf gain1 tr) mod 2 ^ 256) /\
    (forall l u, sumOf (recorded l u) (sPositions (fst r)) = sumOf (recorded l u) (sPositions s) + sumOf (StrategyFacts.added l u) tr) /\
    snd r = (sAmount0 s, sAmount1 s)) (Init k s).
Proof. exact (ens_Init k s). Qed.
Print Assumptions C51_init.

(** Rebalance: the same, and it first burns and collects every recorded position, in order; the returned
    amounts are the balances after that. *)
Theorem C51_rebalance k s : k <> NoProvision -> ens (fun tr r =>
    (sAmount0 (fst r) mod 2 ^ 256 = (sAmount0 s + sumOf gain0 tr) mod 2 ^ 256 /\
     sAmount1 (fst r) mod 2 ^ 256 = (sAmount1 s + sumOf gain1 tr) mod 2 ^ 256) /\
    (forall l u, sumOf (recorded l u) (sPositions (fst r)) = sumOf (recorded l u) (sPositions s) + sumOf (StrategyFacts.added l u) tr) /\
    exists t1 t2 a0 a1, tr = t1 ++ t2 /\ burns (sPositions s) t1 /\ snd r = Some (a0, a1) /\
      a0 mod 2 ^ 256 = (sAmount0 s + sumOf gain0 t1) mod 2 ^ 256 /\ a1 mod 2 ^ 256 = (sAmount1 s + sumOf gain1 t1) mod 2 ^ 256) (Rebalance k s).
Proof. exact (ens_Rebalance k s). Qed.
Print Assumptions C51_rebalance.

(** BurnAll burns and collects every recorded position, in order, and does nothing else; the list is emptied,
    except by three strategies. *)
Theorem C51_burn_all k s : k <> NoProvision -> ens (fun tr r =>
    (sAmount0 (fst r) mod 2 ^ 256 = (sAmount0 s + sumOf gain0 tr) mod 2 ^ 256 /\
     sAmount1 (fst r) mod 2 ^ 256 = (sAmount1 s + sumOf gain1 tr) mod 2 ^ 256) /\
    burns (sPositions s) tr /\ snd r = (sAmount0 (fst r), sAmount1 (fst r)) /\
    sPositions (fst r) = match k with TwoInterval _ _ | ConstantInterval _ | IntervalAroundPrice _ => sPositions s | _ => [] end) (BurnAll k s).
Proof. exact (ens_BurnAll' k s). Qed.
Print Assumptions C51_burn_all.

(** the strategy without positions does nothing *)
Theorem C51_no_provision s fuel p :
  runV fuel p (Init NoProvision s) = Ok (p, [], (s, (sAmount0 s, sAmount1 s))) /\
  runV fuel p (BurnAll NoProvision s) = Ok (p, [], (s, (sAmount0 s, sAmount1 s))) /\
  runV fuel p (Rebalance NoProvision s) = Ok (p, [], (s, None)).
Proof. exact (NoProvision_idle s fuel p). Qed.
Print Assumptions C51_no_provision.

(** FillUp on a real pool: two positions, and the books *)
Example C51_case : exists q tr r, runV 50 (seedPool startPool) (Init (FillUp 100) st0) = Ok (q, tr, r) /\
  length tr = 2%nat /\ sAmount0 (fst r) = 10 ^ 20 + sumOf gain0 tr /\ 0 < - sumOf gain0 tr /\ 0 < - sumOf gain1 tr.
Proof. eexists. eexists. eexists. split; [vm_compute; reflexivity|]. repeat split; vm_compute; reflexivity. Qed.
Example C51_case_rebalance : exists q tr r, runV 50 (seedPool startPool) (act r <- Init (TwoInterval 100 60) st0; Rebalance (TwoInterval 100 60) (fst r)) = Ok (q, tr, r) /\
  length tr = 8%nat /\ sAmount1 (fst r) = 10 ^ 20 + sumOf gain1 tr.
Proof. eexists. eexists. eexists. split; [vm_compute; reflexivity|]. repeat split; vm_compute; reflexivity. Qed.

(** BurnAll twice equals BurnAll once for the strategies that empty their list, and for all on an empty list *)
Theorem C52_idempotent k s fuel p :
  match k with TwoInterval _ _ | ConstantInterval _ | IntervalAroundPrice _ => sPositions s = [] | _ => True end ->
  runV fuel p (act r <- BurnAll k s; BurnAll k (fst r)) = runV fuel p (BurnAll k s).
Proof. exact (BurnAll_twice' k s fuel p). Qed.
Print Assumptions C52_idempotent.
(** the others pay the strategy twice: it ends with about twice what it had *)
Theorem C52_paid_twice_refuted : exists k p s fuel q tr once twice,
  runV fuel p (act r <- Init k s; act b <- BurnAll k (fst r); act c <- BurnAll k (fst b); done (snd b, snd c)) = Ok (q, tr, (once, twice)) /\
  fst once <= sAmount0 s /\ snd once <= sAmount1 s /\ 199 * sAmount0 s <= 100 * fst twice /\ 199 * sAmount1 s <= 100 * snd twice.
Proof. exact paid_twice. Qed.
Print Assumptions C52_paid_twice_refuted.
Example C52_case : exists q tr r, runV 50 (seedPool startPool) (act r <- Init (FillUp 100) st0; twice (FillUp 100) (fst r)) = Ok (q, tr, r) /\ length tr = 6%nat.
Proof. eexists. eexists. eexists. split; vm_compute; reflexivity. Qed.
