(** Prop_TickLog.v -- C77: the tick computed from a binary logarithm *)
From Verif Require Import Base U256Z TickMath TickMathFacts Prices TickLog TickLogFacts.
Ltac Zify.zify_post_hook ::= idtac.

Lemma log_search p : MinSqrtRatio <= p < MaxSqrtRatio -> getTickAtSqrtRatio p = GetTickAtSqrtRatio p.
Proof. intros H. destruct (log_tick p H) as (t & _ & _ & A & B). rewrite A, B. reflexivity. Qed.
Lemma log_brackets p : 4295128739 <= p < 1461446703485210103287273052203988822378723970342 ->
  exists t r s, getTickAtSqrtRatio p = Ok t /\ GetSqrtRatioAtTick t = Ok r /\ GetSqrtRatioAtTick (t + 1) = Ok s /\ r <= p < s.
Proof.
  intros H. destruct (log_tick p H) as (t & Ht & Hr & A & _). exists t, (rat t), (rat (t + 1)).
  split; [exact A|]. split; [apply rat_ok; lia|]. split; [apply rat_ok; lia|exact Hr].
Qed.
Lemma log_inverts t r : t < 887272 -> GetSqrtRatioAtTick t = Ok r -> getTickAtSqrtRatio r = Ok t.
Proof.
  intros Ht E. assert (Hr : MinTick <= t <= MaxTick).
  { destruct (Z_le_dec MinTick t), (Z_le_dec t MaxTick); try lia; rewrite rat_panics in E by lia; discriminate E. }
  rewrite rat_ok in E by exact Hr. injection E as <-. rewrite log_search.
  - apply tick_of_rat. unfold MaxTick in *. lia.
  - pose proof (rat_lt t MaxTick ltac:(lia) ltac:(unfold MaxTick; lia) ltac:(lia)) as B. rewrite rat_max in B.
    pose proof (rat_range t Hr). lia.
Qed.
Lemma log_unchecked : getTickAtSqrtRatio 1461446703485210103287273052203988822378723970342 = Ok 887272 /\
  GetTickAtSqrtRatio 1461446703485210103287273052203988822378723970342 = Panic /\
  getTickAtSqrtRatio 4295128738 = Ok (-887273) /\ GetTickAtSqrtRatio 4295128738 = Panic /\
  getTickAtSqrtRatio 0 = Panic.
Proof. repeat split; vm_compute; reflexivity. Qed.

(** every price the search accepts: the logarithm finds the same tick *)
Theorem C77_same_as_search p : 4295128739 <= p < 1461446703485210103287273052203988822378723970342 ->
  getTickAtSqrtRatio p = GetTickAtSqrtRatio p.
Proof. exact (log_search p). Qed.
Print Assumptions C77_same_as_search.
(** and it is the tick whose price is at most p while that of the next tick is above p *)
Theorem C77_brackets p : 4295128739 <= p < 1461446703485210103287273052203988822378723970342 ->
  exists t r s, getTickAtSqrtRatio p = Ok t /\ GetSqrtRatioAtTick t = Ok r /\ GetSqrtRatioAtTick (t + 1) = Ok s /\ r <= p < s.
Proof. exact (log_brackets p). Qed.
Print Assumptions C77_brackets.
Theorem C77_inverts t r : t < 887272 -> GetSqrtRatioAtTick t = Ok r -> getTickAtSqrtRatio r = Ok t.
Proof. exact (log_inverts t r). Qed.
Print Assumptions C77_inverts.
(** without the search's check of the range it also answers just outside of it *)
Theorem C77_unchecked : getTickAtSqrtRatio 1461446703485210103287273052203988822378723970342 = Ok 887272 /\
  GetTickAtSqrtRatio 1461446703485210103287273052203988822378723970342 = Panic /\
  getTickAtSqrtRatio 4295128738 = Ok (-887273) /\ GetTickAtSqrtRatio 4295128738 = Panic /\
  getTickAtSqrtRatio 0 = Panic.
Proof. exact log_unchecked. Qed.
Print Assumptions C77_unchecked.
Example C77_case : getTickAtSqrtRatio (2 ^ 96) = Ok 0 /\ getTickAtSqrtRatio (2 ^ 96 - 1) = Ok (-1) /\
  getTickAtSqrtRatio 1350174849792634181862360983626536 = Ok 194878.
Proof. vm_compute. auto. Qed.
