(** Trades.v -- sequences of swaps and flashes while the liquidity stays. *)
From Coq Require Import ZifyBool String QArith Lqa.
From Verif Require Import Base U256Z TickMath TickMathFacts TickData Ledger Pool PoolTable PoolInv PoolHist PoolOps PoolFees PoolSpec TickDataFacts Solvency Cash.
Ltac Zify.zify_post_hook ::= idtac.
Open Scope Z_scope.

(** [x0], [x1]: what the traders paid in all, less what they were paid.  [way]: downward swaps keep clear of the misplaced ticks. *)
Inductive trades (way : bool) (p : Pool) : Pool -> Z -> Z -> Prop :=
| trades_none : trades way p p 0 0
| trades_swap q x0 x1 n z amt lim q' a0 a1 : trades way p q x0 x1 -> is_u256 amt ->
    (way = true -> z = true -> keepsClear n q amt (q', a0, a1)) ->
    swap n q z amt lim = Ok (q', a0, a1) -> trades way p q' (x0 + sgn256 a0) (x1 + sgn256 a1)
| trades_flash q x0 x1 a0 a1 q' : trades way p q x0 x1 -> is_u256 a0 -> is_u256 a1 -> Flash q a0 a1 = Ok q' ->
    trades way p q' (x0 + flashFee (Fee q) a0) (x1 + flashFee (Fee q) a1).

Lemma worth_mono (tk : bool) P P' l u : MinTick <= l -> l < u -> u <= MaxTick -> P <= P' ->
  (if tk then worth tk P' l u <= worth tk P l u else worth tk P l u <= worth tk P' l u)%Q.
Proof.
  intros H1 H2 H3 HP. pose proof (rat_lt l u H1 H2 H3) as R. pose proof (rat_pos l ltac:(lia)). unfold worth. destruct tk.
  - pose proof (curve_mono0 (clampP l u P) (clampP l u P') ltac:(unfold clampP; lia)). lra.
  - pose proof (curve_mono1 (clampP l u P) (clampP l u P') ltac:(unfold clampP; lia)). lra.
Qed.
Lemma worthAll_mono (tk : bool) s h P P' : histOK s h -> P <= P' ->
  (if tk then worthAll tk h P' <= worthAll tk h P else worthAll tk h P <= worthAll tk h P')%Q.
Proof.
  intros (C & R & _) HP. unfold worthAll. destruct tk.
  - assert (0 <= sumQ (fun l u => worth true P l u - worth true P' l u) h)%Q as K; [|rewrite sumQ_sub in K; lra].
    apply sumQ_nonneg; [assumption|]. intros e He. destruct (R e He) as (A & B & D & _). pose proof (worth_mono true P P' (eLower e) (eUpper e) B A D HP). cbn in H. lra.
  - assert (0 <= sumQ (fun l u => worth false P' l u - worth false P l u) h)%Q as K; [|rewrite sumQ_sub in K; lra].
    apply sumQ_nonneg; [assumption|]. intros e He. destruct (R e He) as (A & B & D & _). pose proof (worth_mono false P P' (eLower e) (eUpper e) B A D HP). cbn in H. lra.
Qed.

Lemma fee_nonneg h p a0 a1 p' : poolOK h p -> is_u256 a0 -> is_u256 a1 -> Flash p a0 a1 = Ok p' -> 0 <= flashFee (Fee p) a0 /\ 0 <= flashFee (Fee p) a1 /\ SqrtRatio p' = SqrtRatio p.
Proof.
  intros HP H0 H1 E. pose proof HP as (_ & _ & _ & HF & _). unfold is_u256 in *. assert (0 <= a0 * Fee p /\ 0 <= a1 * Fee p) as [? ?] by (split; apply Z.mul_nonneg_nonneg; lia).
  split; [apply Z.div_pos; lia|]. split; [apply Z.div_pos; lia|]. unfold Flash in E. do 5 (apply bind_inv in E as (? & _ & E)). injection E as <-. reflexivity.
Qed.

Lemma trades_worth h p p' x0 x1 : poolOK h p -> trades true p p' x0 x1 ->
  poolOK h p' /\ forall tk : bool, (worthAll tk h (SqrtRatio p') <= worthAll tk h (SqrtRatio p) + [tok tk x0 x1]q)%Q.
Proof.
  intros HP. induction 1 as [|q x0 x1 n z amt lim q' a0 a1 _ [HQ IH] Ha K E0|q x0 x1 a0 a1 q' _ [HQ IH] H0 H1 E].
  - split; [assumption|]. intros []; unfold tok; change [0]q with 0%Q; lra.
  - apply (keepsClear_limit _ n q z amt lim _ (K eq_refl) E0). clear lim K E0. intros lim CW E. destruct (swap_ok h q z amt lim HQ Ha n q' a0 a1 E) as (HQ' & _).
    destruct (swap_cash h q n z amt lim q' a0 a1 HQ Ha CW E) as (rs & fees & S1 & S2 & S3 & S4 & S5).
    split; [assumption|]. assert (0 <= fees) as HF.
    { assert (0 <= sumOn (credited rs) h); [|lia]. apply sumOn_nonneg; [apply HQ|]. intros e _. now apply credited_nonneg. }
    apply injZ_le in HF. change [0]q with 0%Q in HF. intros tk. specialize (IH tk). destruct tk, z; unfold tok in *; cbn [negb] in *; rewrite injZ_add; lra.
  - destruct (fee_nonneg h q a0 a1 q' HQ H0 H1 E) as (F0 & F1 & ->). split; [eapply flash_ok; eassumption|]. apply injZ_le in F0, F1. change [0]q with 0%Q in *.
    intros tk. specialize (IH tk). destruct tk; unfold tok in *; rewrite injZ_add; lra.
Qed.

Lemma no_gain h p p' x0 x1 : reach h p -> trades true p p' x0 x1 ->
  (SqrtRatio p <= SqrtRatio p' -> 0 <= x1) /\ (SqrtRatio p' <= SqrtRatio p -> 0 <= x0) /\
  forall tk : bool, (worthAll tk h (SqrtRatio p') - worthAll tk h (SqrtRatio p) <= [if tk then x0 else x1]q)%Q.
Proof.
  intros R T. apply reach_ok in R as HP. destruct (trades_worth h p p' x0 x1 HP T) as [_ W]. split; [|split].
  - intros H. pose proof (worthAll_mono false _ h _ _ (proj1 HP) H) as M. specialize (W false). unfold tok in W. cbv iota in M, W. apply injZ_le. change [0]q with 0%Q. lra.
  - intros H. pose proof (worthAll_mono true _ h _ _ (proj1 HP) H) as M. specialize (W true). unfold tok in W. cbv iota in M, W. apply injZ_le. change [0]q with 0%Q. lra.
  - intros tk. specialize (W tk). unfold tok in W. destruct tk; lra.
Qed.

(** without the clear way a trader is paid token 1 for moving the price up *)
Lemma gain_witness : exists h p p' x0 x1, reach h p /\ trades false p p' x0 x1 /\ SqrtRatio p <= SqrtRatio p' /\ x1 < 0.
Proof.
  exists badHist, badPool, badNext. do 2 eexists. split; [exact badPool_reach|]. split.
  - eapply trades_swap with (z := true) (n := 10%nat) (amt := 10 ^ 15) (lim := 0); [apply trades_none|vm_compute; intuition discriminate|discriminate|vm_compute; reflexivity].
  - split; [vm_compute; discriminate|vm_compute; reflexivity].
Qed.
(** up and back down to the price of before *)
Lemma back_clear : clearWay good3 (SqrtRatio good2).
Proof.
  intros t r Ht Hn Hb E. apply Z.le_trans with (2 ^ 96); [exact (good4_clear t r Ht Hn Hb E)|vm_compute; discriminate].
Qed.
Lemma trades_case : exists p' x0 x1, trades true good2 p' x0 x1 /\ SqrtRatio p' = SqrtRatio good2 /\ 0 < x0 /\ 0 < x1.
Proof.
  do 3 eexists. split.
  - eapply trades_swap with (q := good3) (n := 20%nat) (z := true) (amt := 10 ^ 18) (lim := SqrtRatio good2); [|vm_compute; intuition discriminate|intros _ _; exists (SqrtRatio good2); split; [exact back_clear|vm_compute; reflexivity]|vm_compute; reflexivity].
    eapply trades_swap with (q := good2) (n := 20%nat) (z := false) (amt := 2 * 10 ^ 16) (lim := 0); [apply trades_none|vm_compute; intuition discriminate|discriminate|vm_compute; reflexivity].
  - split; [vm_compute; reflexivity|]. split; vm_compute; reflexivity.
Qed.
