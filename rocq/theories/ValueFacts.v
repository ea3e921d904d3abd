(** ValueFacts.v -- the value of a strategy in token 0 that the executor records. *)
From Coq Require Import String ZifyBool.
From Verif Require Import Base U256Z FullMathFacts SwapMath TickMath TickMathFacts Float64 TickData Ledger Pool PoolOps PoolSpec Prices Client Strategy Executor.
Ltac Zify.zify_post_hook ::= idtac.
Open Scope Z_scope.

Lemma value_exact fuel p a0 a1 : MinSqrtRatio <= SqrtRatio p < 2 ^ 128 -> 0 <= a1 < 2 ^ 128 ->
  runV fuel p (valueUSD a0 a1) = Ok (p, [], (a0 + a1 * 2 ^ 192 / SqrtRatio p ^ 2) mod 2 ^ 256).
Proof.
  intros Hp Ha. unfold valueUSD, look, pure, done. cbn [mbind runV]. cbn [slot slPrice]. cbv zeta. set (P := SqrtRatio p) in *.
  assert (2 ^ 64 <= P * P < T256) as HP2.
  { split; [apply (Z.mul_le_mono_nonneg (2 ^ 32) P (2 ^ 32) P)|apply (Z.mul_lt_mono_nonneg P (2 ^ 128) P (2 ^ 128))]; unfold MinSqrtRatio in *; lia. }
  assert (umul P P = P * P) as -> by (unfold umul; apply Z.mod_small; lia).
  replace (P ^ 2) with (P * P) by ring. change Q192 with (2 ^ 192). set (d := P * P) in *. clearbody d.
  assert (a1 * 2 ^ 192 < T256 * d) as HQ by lia.
  assert (exists r, MulDiv a1 (2 ^ 192) d = Ok r) as [r E].
  { destruct (Z.eq_dec a1 0) as [->|n]; [exists 0; reflexivity|]. apply MulDiv_returns; try lia. left.
    assert (words d <= 4) by (apply words_spec; lia). pose proof (words_nonneg (a1 * 2 ^ 192)).
    assert (~ words (a1 * 2 ^ 192) <= 3). { rewrite words_spec by lia. lia. } lia. }
  rewrite E. cbn [mbind runV bind]. apply MulDiv_floor in E as (-> & _); try lia. unfold uadd. rewrite Z.add_comm. reflexivity.
Qed.

(** beyond 2^128 the square does not fit *)
Definition highPool : Pool := Eval vm_compute in match NewPool "A" "B" 3000 (2 ^ 128) with Ok p => p | _ => startPool end.
Definition higherPool : Pool := Eval vm_compute in match NewPool "A" "B" 3000 (2 ^ 128 + 1) with Ok p => p | _ => startPool end.
Lemma highPool_new : NewPool "A" "B" 3000 (2 ^ 128) = Ok highPool.
Proof. vm_cast_no_check (eq_refl (Ok highPool)). Qed.
Lemma higherPool_new : NewPool "A" "B" 3000 (2 ^ 128 + 1) = Ok higherPool.
Proof. vm_cast_no_check (eq_refl (Ok higherPool)). Qed.
Lemma value_high : 
  (exists p, reach [] p /\ forall fuel a0 a1, 0 < a1 < 2 ^ 256 -> runV fuel p (valueUSD a0 a1) = Panic) /\
  (exists p v, reach [] p /\ runV 0 p (valueUSD 0 (10 ^ 20)) = Ok (p, [], v) /\ 10 ^ 20 * 2 ^ 192 / SqrtRatio p ^ 2 * 2 ^ 120 < v).
Proof.
  split.
  - exists highPool. split; [exact (reach_new "A" "B" 3000 (2 ^ 128) _ highPool_new)|]. intros fuel a0 a1 Ha.
    unfold valueUSD, look, pure, done. cbn [mbind runV]. replace (slPrice (slot highPool)) with (2 ^ 128) by reflexivity.
    cbv zeta. change (umul (2 ^ 128) (2 ^ 128)) with 0. unfold MulDiv. replace (a1 =? 0) with false by lia. reflexivity.
  - exists higherPool. eexists. split; [exact (reach_new "A" "B" 3000 (2 ^ 128 + 1) _ higherPool_new)|]. split; [vm_compute; reflexivity|]. vm_compute. reflexivity.
Qed.
