(** BitFacts.v -- bit-level lemmas on Z used by the limb proofs (no model content). *)
From Verif Require Import Base.
From Coq Require Import ZifyBool.
Ltac Zify.zify_post_hook ::= Z.div_mod_to_equations.

Lemma testbit_high a n k : 0 <= a < 2 ^ k -> 0 <= k -> k <= n -> Z.testbit a n = false.
Proof.
  intros Ha Hk Hn. destruct (Z.eq_dec a 0) as [->|Hz]; [apply Z.bits_0|].
  apply Z.bits_above_log2; [lia|].
  apply Z.lt_le_trans with k; [|assumption]. apply Z.log2_lt_pow2; lia.
Qed.

Lemma testbit_split a b k n : 0 <= k -> 0 <= a < 2 ^ k ->
  Z.testbit (a + 2 ^ k * b) n = if n <? k then Z.testbit a n else Z.testbit b (n - k).
Proof.
  intros Hk Ha. destruct (Z.ltb_spec n 0) as [Hn|Hn].
  - rewrite Z.testbit_neg_r by lia. destruct (n <? k) eqn:E; [|lia].
    now rewrite Z.testbit_neg_r by lia.
  - destruct (n <? k) eqn:E.
    + assert (H : (a + 2 ^ k * b) mod 2 ^ k = a).
      { rewrite Z.mul_comm, Z_mod_plus_full. apply Z.mod_small; lia. }
      rewrite <- (Z.mod_pow2_bits_low (a + 2 ^ k * b) k n) by lia. now rewrite H.
    + assert (H : (a + 2 ^ k * b) / 2 ^ k = b).
      { rewrite Z.mul_comm, Z.div_add by lia. rewrite Z.div_small; lia. }
      rewrite <- H at 2. rewrite Z.div_pow2_bits by lia. f_equal; lia.
Qed.

(** disjoint or is plus *)
Lemma lor_add_shift a b k : 0 <= k -> 0 <= a < 2 ^ k -> Z.lor a (b * 2 ^ k) = a + b * 2 ^ k.
Proof.
  intros Hk Ha. apply Z.bits_inj'. intros n Hn.
  rewrite (Z.mul_comm b), (testbit_split a b k n) by lia.
  rewrite Z.lor_spec.
  replace (2 ^ k * b) with (0 + 2 ^ k * b) by lia.
  rewrite (testbit_split 0 b k n) by lia.
  destruct (n <? k) eqn:E.
  - rewrite Z.bits_0. apply orb_false_r.
  - rewrite (testbit_high a n k) by lia. reflexivity.
Qed.

Lemma land_split a b c d k : 0 <= k -> 0 <= a < 2 ^ k -> 0 <= c < 2 ^ k ->
  Z.land (a + 2 ^ k * b) (c + 2 ^ k * d) = Z.land a c + 2 ^ k * Z.land b d.
Proof.
  intros Hk Ha Hc.
  assert (Hr : 0 <= Z.land a c < 2 ^ k).
  { assert (0 <= Z.land a c) by (apply Z.land_nonneg; lia). split; [assumption|].
    destruct (Z.eq_dec (Z.land a c) 0); [lia|].
    apply Z.log2_lt_pow2; [lia|]. eapply Z.le_lt_trans; [apply Z.log2_land; lia|].
    assert (0 < a). { destruct (Z.eq_dec a 0) as [->|]; [rewrite Z.land_0_l in *; lia|lia]. }
    apply Z.min_lt_iff. left. apply Z.log2_lt_pow2; lia. }
  apply Z.bits_inj'. intros n Hn.
  rewrite Z.land_spec, !testbit_split by assumption.
  destruct (n <? k); now rewrite Z.land_spec.
Qed.

Lemma lor_range a c k : 0 <= k -> 0 <= a < 2 ^ k -> 0 <= c < 2 ^ k -> 0 <= Z.lor a c < 2 ^ k.
Proof.
  intros Hk Ha Hc.
  assert (0 <= Z.lor a c) by (apply Z.lor_nonneg; lia). split; [assumption|].
  destruct (Z.eq_dec (Z.lor a c) 0); [lia|].
  apply Z.log2_lt_pow2; [lia|]. rewrite Z.log2_lor by lia.
  assert (Hlt : forall u, 0 <= u < 2 ^ k -> u = 0 \/ Z.log2 u < k).
  { intros u Hu. destruct (Z.eq_dec u 0); [now left|right]. apply Z.log2_lt_pow2; lia. }
  apply Z.max_lub_lt.
  - destruct (Hlt a Ha) as [->|]; [|assumption]. cbn.
    destruct (Hlt c Hc) as [->|Hl]; [now rewrite Z.lor_0_l in *|].
    pose proof (Z.log2_nonneg c). change (Z.log2 0) with 0. lia.
  - destruct (Hlt c Hc) as [->|]; [|assumption]. cbn.
    destruct (Hlt a Ha) as [->|Hl]; [now rewrite Z.lor_0_r in *|].
    pose proof (Z.log2_nonneg a). change (Z.log2 0) with 0. lia.
Qed.

Lemma lor_split a b c d k : 0 <= k -> 0 <= a < 2 ^ k -> 0 <= c < 2 ^ k ->
  Z.lor (a + 2 ^ k * b) (c + 2 ^ k * d) = Z.lor a c + 2 ^ k * Z.lor b d.
Proof.
  intros Hk Ha Hc. pose proof (lor_range a c k Hk Ha Hc).
  apply Z.bits_inj'. intros n Hn.
  rewrite Z.lor_spec, !testbit_split by assumption.
  destruct (n <? k); now rewrite Z.lor_spec.
Qed.

Lemma lxor_range a c k : 0 <= k -> 0 <= a < 2 ^ k -> 0 <= c < 2 ^ k -> 0 <= Z.lxor a c < 2 ^ k.
Proof.
  intros Hk Ha Hc.
  assert (0 <= Z.lxor a c) by (apply Z.lxor_nonneg; lia). split; [assumption|].
  destruct (Z.ltb_spec (Z.lxor a c) (2 ^ k)) as [?|Hge]; [assumption|].
  exfalso.
  assert (Hl : k <= Z.log2 (Z.lxor a c)) by (apply Z.log2_le_pow2; lia).
  assert (Hb : Z.testbit (Z.lxor a c) (Z.log2 (Z.lxor a c)) = true) by (apply Z.bit_log2; lia).
  rewrite Z.lxor_spec, !(testbit_high _ _ k) in Hb by lia. discriminate.
Qed.

Lemma lxor_split a b c d k : 0 <= k -> 0 <= a < 2 ^ k -> 0 <= c < 2 ^ k ->
  Z.lxor (a + 2 ^ k * b) (c + 2 ^ k * d) = Z.lxor a c + 2 ^ k * Z.lxor b d.
Proof.
  intros Hk Ha Hc. pose proof (lxor_range a c k Hk Ha Hc).
  apply Z.bits_inj'. intros n Hn.
  rewrite Z.lxor_spec, !testbit_split by assumption.
  destruct (n <? k); now rewrite Z.lxor_spec.
Qed.

Lemma land_range a c k : 0 <= k -> 0 <= a < 2 ^ k -> 0 <= c -> 0 <= Z.land a c < 2 ^ k.
Proof.
  intros Hk Ha Hc.
  assert (0 <= Z.land a c) by (apply Z.land_nonneg; lia). split; [assumption|].
  destruct (Z.ltb_spec (Z.land a c) (2 ^ k)) as [?|Hge]; [assumption|].
  exfalso.
  assert (Hl : k <= Z.log2 (Z.land a c)) by (apply Z.log2_le_pow2; lia).
  assert (Hb : Z.testbit (Z.land a c) (Z.log2 (Z.land a c)) = true) by (apply Z.bit_log2; lia).
  rewrite Z.land_spec, (testbit_high _ _ k) in Hb by lia. discriminate.
Qed.

Lemma land_pow2_mod a k : 0 <= k -> Z.land a (2 ^ k - 1) = a mod 2 ^ k.
Proof. intros Hk. rewrite <- Z.land_ones by assumption. f_equal. rewrite Z.ones_equiv. lia. Qed.

Lemma land_bit a n : 0 <= n -> (Z.land a (2 ^ n) =? 0) = negb (Z.testbit a n).
Proof.
  intros Hn. destruct (Z.testbit a n) eqn:E; cbn.
  - apply Z.eqb_neq. intros H0.
    assert (H : Z.testbit (Z.land a (2 ^ n)) n = false) by (rewrite H0; apply Z.bits_0).
    rewrite Z.land_spec, E, Z.pow2_bits_true in H by lia. discriminate.
  - apply Z.eqb_eq. apply Z.bits_inj'. intros m Hm. rewrite Z.land_spec, Z.bits_0.
    destruct (Z.eq_dec m n) as [->|Hne]; [now rewrite E|].
    rewrite Z.pow2_bits_false by lia. apply andb_false_r.
Qed.
