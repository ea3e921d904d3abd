(** FullMathFacts.v -- facts about MulDiv / MulDivRoundingUp and the wrapping operations. *)
From Verif Require Import Base U256Z.
From Coq Require Import ZifyBool.
Ltac Zify.zify_post_hook ::= Z.div_mod_to_equations.

Lemma words_spec v k : 0 <= v -> 0 <= k -> (words v <= k <-> v < W ^ k).
Proof.
  intros Hv Hk. unfold words.
  assert (E : W ^ k = 2 ^ (64 * k)) by (rewrite Z.pow_mul_r by lia; reflexivity). rewrite E.
  destruct (v =? 0) eqn:E0.
  { assert (0 < 2 ^ (64 * k)) by (apply Z.pow_pos_nonneg; lia). lia. }
  pose proof (Z.log2_lt_pow2 v (64 * k) ltac:(lia)) as H. pose proof (Z.log2_nonneg v).
  set (P := 2 ^ (64 * k)) in *. set (g := Z.log2 v) in *. clearbody P g. lia.
Qed.
Lemma words_nonneg v : 0 <= words v.
Proof. unfold words. destruct (v =? 0); [lia|]. pose proof (Z.log2_nonneg v). assert (0 <= Z.log2 v / 64) by (apply Z.div_pos; lia). lia. Qed.
Lemma words_0 v : words v = 0 <-> v = 0.
Proof. unfold words. destruct (v =? 0) eqn:E; [lia|]. pose proof (Z.log2_nonneg v). assert (0 <= Z.log2 v / 64) by (apply Z.div_pos; lia). lia. Qed.
Lemma words_mono a b : 0 <= a <= b -> words a <= words b.
Proof.
  intros H. apply words_spec; [lia|apply words_nonneg|].
  assert (b < W ^ words b) by (apply words_spec; [lia|apply words_nonneg|lia]). lia.
Qed.
Lemma words_lower v : 0 < v -> W ^ (words v - 1) <= v.
Proof.
  intros Hv. destruct (Z.le_gt_cases (W ^ (words v - 1)) v) as [|C]; [assumption|exfalso].
  assert (words v <> 0) by (rewrite words_0; lia). pose proof (words_nonneg v).
  apply (words_spec v (words v - 1)) in C; lia.
Qed.
Lemma words_upper v : 0 <= v -> v < W ^ words v.
Proof. intros. apply words_spec; [lia|apply words_nonneg|lia]. Qed.

(** sufficient conditions for Udivrem to return *)
Lemma udivrem5_ok_le n d : 0 < n -> 0 < d -> words d <= words n + 1 -> n < T256 * d -> n < W ^ 8 ->
  udivrem5_ok n d = true.
Proof.
  intros Hn Hd Hw Hq H8. unfold udivrem5_ok.
  assert (words n <= 8) by (apply words_spec; lia).
  assert (words n <= words d + 4).
  { apply words_spec; [lia|pose proof (words_nonneg d); lia|]. rewrite Z.pow_add_r by (pose proof (words_nonneg d); lia).
    change (W ^ 4) with T256. pose proof (words_upper d ltac:(lia)). lia. }
  lia.
Qed.
Lemma udivrem5_ok_big n d : 0 < d <= n -> n < T256 * d -> n < W ^ 8 -> udivrem5_ok n d = true.
Proof. intros. apply udivrem5_ok_le; try lia. pose proof (words_mono d n ltac:(lia)). lia. Qed.
Lemma udivrem5_ok_small n d : 0 < n -> 0 < d < W2 -> n < T256 * d -> n < W ^ 8 -> udivrem5_ok n d = true.
Proof.
  intros. apply udivrem5_ok_le; try lia. 
  assert (words d <= 2) by (apply words_spec; try lia; change (W ^ 2) with W2; lia).
  assert (words n <> 0) by (rewrite words_0; lia). pose proof (words_nonneg n). lia.
Qed.

Lemma prod_lt8 a b : 0 <= a < T256 -> 0 <= b < T256 -> 0 <= a * b < W ^ 8.
Proof.
  intros Ha Hb. split; [apply Z.mul_nonneg_nonneg; lia|]. change (W ^ 8) with (T256 * T256).
  apply Z.mul_lt_mono_nonneg; lia.
Qed.

Lemma MulDiv_ok a b d r : 0 <= a -> 0 <= b -> 0 < d -> MulDiv a b d = Ok r -> r = (a * b / d) mod T256.
Proof.
  intros Ha Hb Hd. unfold MulDiv. destruct ((a =? 0) || (b =? 0)) eqn:E.
  - intros [= <-]. assert (Ez : a * b = 0) by (apply orb_true_iff in E as [E|E]; assert (E' := proj1 (Z.eqb_eq _ _) E); rewrite E'; lia).
    rewrite Ez. rewrite Z.div_0_l by lia. reflexivity.
  - destruct (udivrem5_ok _ _); [|discriminate]. now intros [= <-].
Qed.

(** floor *)
Lemma MulDiv_floor a b d r : 0 <= a -> 0 <= b -> 0 < d -> a * b < T256 * d -> MulDiv a b d = Ok r ->
  r = a * b / d /\ r * d <= a * b < (r + 1) * d /\ 0 <= r < T256.
Proof.
  intros Ha Hb Hd Hq E. apply MulDiv_ok in E; auto.
  assert (Hp : 0 <= a * b) by (now apply Z.mul_nonneg_nonneg). set (p := a * b) in *. clearbody p.
  assert (0 <= p / d < T256) by (split; [apply Z.div_pos; lia|apply Z.div_lt_upper_bound; lia]).
  rewrite Z.mod_small in E by lia. pose proof (Z.div_mod p d ltac:(lia)). pose proof (Z.mod_pos_bound p d Hd).
  subst r. set (q := p / d) in *. set (m := p mod d) in *. clearbody q m. lia.
Qed.

(** ceiling *)
Lemma MulDivRoundingUp_ceil a b d r : 0 <= a -> 0 <= b -> 0 < d -> a * b <= (T256 - 1) * d ->
  MulDivRoundingUp a b d = Ok r -> a * b <= r * d < a * b + d /\ 0 <= r < T256.
Proof.
  intros Ha Hb Hd Hq. unfold MulDivRoundingUp. destruct ((a =? 0) || (b =? 0)) eqn:E.
  - intros [= <-]. assert (Ez : a * b = 0) by (apply orb_true_iff in E as [E|E]; assert (E' := proj1 (Z.eqb_eq _ _) E); rewrite E'; lia).
    rewrite Ez. lia.
  - destruct (udivrem5_ok _ _); [|discriminate]. clear E. cbv zeta.
    assert (Hp : 0 <= a * b) by (now apply Z.mul_nonneg_nonneg). set (p := a * b) in *. clearbody p.
    pose proof (Z.div_mod p d ltac:(lia)) as E1. pose proof (Z.mod_pos_bound p d Hd) as E2.
    assert (E3 : 0 <= p / d) by (apply Z.div_pos; lia).
    assert (E4 : p / d <= T256 - 1) by (apply Z.div_le_upper_bound; lia).
    set (q := p / d) in *. set (m := p mod d) in *. clearbody q m.
    rewrite Z.mod_small by lia. unfold uadd.
    destruct (m =? 0) eqn:Em; cbn [negb]; intros [= <-]; [lia|].
    assert (q <> T256 - 1). { intros ->. lia. }
    rewrite Z.mod_small by lia. lia.
Qed.

(** when do they return? *)
Lemma MulDiv_returns a b d : 0 <= a < T256 -> 0 <= b < T256 -> 0 < d -> a * b < T256 * d ->
  words d <= words (a * b) + 1 \/ d < W2 \/ d <= a * b -> exists r, MulDiv a b d = Ok r.
Proof.
  intros Ha Hb Hd Hq Hc. unfold MulDiv. destruct ((a =? 0) || (b =? 0)) eqn:E; [eauto|].
  assert (0 < a * b) by (apply Z.mul_pos_pos; lia). pose proof (prod_lt8 a b Ha Hb).
  assert (Ho : udivrem5_ok (a * b) d = true).
  { destruct Hc as [Hc|[Hc|Hc]]; [apply udivrem5_ok_le|apply udivrem5_ok_small|apply udivrem5_ok_big]; lia. }
  rewrite Ho. eauto.
Qed.
Lemma MulDivRoundingUp_returns a b d : 0 <= a < T256 -> 0 <= b < T256 -> 0 < d -> a * b < T256 * d ->
  words d <= words (a * b) + 1 \/ d < W2 \/ d <= a * b -> exists r, MulDivRoundingUp a b d = Ok r.
Proof.
  intros Ha Hb Hd Hq Hc. unfold MulDivRoundingUp. destruct ((a =? 0) || (b =? 0)) eqn:E; [eauto|].
  assert (0 < a * b) by (apply Z.mul_pos_pos; lia). pose proof (prod_lt8 a b Ha Hb).
  assert (Ho : udivrem5_ok (a * b) d = true).
  { destruct Hc as [Hc|[Hc|Hc]]; [apply udivrem5_ok_le|apply udivrem5_ok_small|apply udivrem5_ok_big]; lia. }
  rewrite Ho. eauto.
Qed.

Lemma MulDiv_range a b d r : MulDiv a b d = Ok r -> 0 <= r < T256.
Proof.
  unfold MulDiv. destruct (_ || _); [intros [= <-]; lia|]. destruct (udivrem5_ok _ _); [|discriminate].
  intros [= <-]. apply Z.mod_pos_bound. lia.
Qed.
Lemma MulDivRoundingUp_range a b d r : MulDivRoundingUp a b d = Ok r -> 0 <= r < T256.
Proof.
  unfold MulDivRoundingUp, uadd. destruct (_ || _); [intros [= <-]; lia|]. destruct (udivrem5_ok _ _); [|discriminate].
  intros [= <-]. destruct (negb _); apply Z.mod_pos_bound; lia.
Qed.
Lemma MulDiv_not_fuel a b d : MulDiv a b d <> OutOfFuel.
Proof. unfold MulDiv. destruct (_ || _); [discriminate|]. destruct (udivrem5_ok _ _); discriminate. Qed.
Lemma MulDivRoundingUp_not_fuel a b d : MulDivRoundingUp a b d <> OutOfFuel.
Proof. unfold MulDivRoundingUp. destruct (_ || _); [discriminate|]. destruct (udivrem5_ok _ _); discriminate. Qed.

Lemma uadd_range a b : 0 <= uadd a b < T256. Proof. apply Z.mod_pos_bound; lia. Qed.
Lemma usub_range a b : 0 <= usub a b < T256. Proof. apply Z.mod_pos_bound; lia. Qed.
Lemma umul_range a b : 0 <= umul a b < T256. Proof. apply Z.mod_pos_bound; lia. Qed.
Lemma uneg_range a : 0 <= uneg a < T256. Proof. apply Z.mod_pos_bound; lia. Qed.
Lemma ulsh_range a n : 0 <= ulsh a n < T256. Proof. apply Z.mod_pos_bound; lia. Qed.
Lemma udiv_range a b : 0 <= a < T256 -> 0 <= b -> 0 <= udiv a b < T256.
Proof.
  intros Ha Hb. unfold udiv. destruct (b =? 0) eqn:E; [lia|]. split; [apply Z.div_pos; lia|].
  apply Z.le_lt_trans with a; [|lia]. apply Z.div_le_upper_bound; [lia|]. 
  assert (1 * a <= b * a) by (apply Z.mul_le_mono_nonneg_r; lia). lia.
Qed.
Lemma uadd_small a b : 0 <= a + b < T256 -> uadd a b = a + b. Proof. apply Z.mod_small. Qed.
Lemma usub_small a b : 0 <= a - b < T256 -> usub a b = a - b. Proof. apply Z.mod_small. Qed.
Lemma umul_small a b : 0 <= a * b < T256 -> umul a b = a * b. Proof. apply Z.mod_small. Qed.
Lemma uneg_pos a : 0 < a < T256 -> uneg a = T256 - a.
Proof. intros. unfold uneg. symmetry. apply Z.mod_unique_pos with (q := -1); lia. Qed.
Lemma ulsh_small a n : 0 <= a * 2 ^ n < T256 -> ulsh a n = a * 2 ^ n. Proof. apply Z.mod_small. Qed.
Lemma land_max v : 0 <= v < T256 -> Z.land v MaxUint256 = v.
Proof.
  intros H. change MaxUint256 with (Z.ones 256). rewrite Z.land_ones by lia. apply Z.mod_small. exact H.
Qed.
