(** TickAccuracy.v -- how far GetSqrtRatioAtTick is from sqrt(1.0001^t) * 2^96.
    All statements are squared and cleared of denominators, so they are about integers. *)
From Verif Require Import Base U256Z TickMath TickMathFacts.
From Coq Require Import ZifyBool.
Ltac Zify.zify_post_hook ::= idtac.

(** * The constants.  c_i^2 / 2^256 is (10000/10001)^(2^i) up to a relative 6*4^i / 2^128. *)
Definition S128 : Z := 2 ^ 128.
Definition dlt (i : Z) : Z := 6 * 4 ^ i.
Definition const_ok (i c d : Z) : Prop :=
  c * c * 10001 ^ (2 ^ i) * S128 <= 2 ^ 256 * 10000 ^ (2 ^ i) * (S128 + d) /\
  2 ^ 256 * 10000 ^ (2 ^ i) * (S128 - d) <= c * c * 10001 ^ (2 ^ i) * S128.
Definition sq (x : Z) : Z := x * x.
(** the next constant is the square of the previous one *)
Definition chain_ok (c c' d d' : Z) : bool :=
  (sq c' * S128 * sq (2 ^ 256) * sq (S128 + d) <=? 2 ^ 256 * sq (sq c) * sq S128 * (S128 + d')) &&
  (2 ^ 256 * sq (sq c) * sq S128 * (S128 - d') <=? sq c' * S128 * sq (2 ^ 256) * sq (S128 - d)).
Fixpoint chains (i c : Z) (l : list Z) : bool :=
  match l with
  | [] => true
  | c' :: l' => chain_ok c c' (dlt i) (dlt (i + 1)) && chains (i + 1) c' l'
  end.
Lemma chains_cs : chains 0 c0 (map snd factors) = true. Proof. vm_compute. reflexivity. Qed.

(** u A S <= M B P and u^2... : squaring a bound and replacing the square *)
Lemma square_up u A B M S P v P' : 0 <= u -> 0 <= A -> 0 <= B -> 0 < M -> 0 < S -> 0 < P -> 0 <= v -> 0 < u ->
  u * A * S <= M * B * P -> v * S * (M * M) * (P * P) <= M * (u * u) * (S * S) * P' ->
  v * (A * A) * S <= M * (B * B) * P'.
Proof.
  intros Hu HA HB HM HS HP Hv Hu0 H1 H2.
  assert (0 <= u * A * S) by (repeat apply Z.mul_nonneg_nonneg; lia).
  assert (E1 : (u * A * S) * (u * A * S) <= (M * B * P) * (M * B * P)) by (apply Z.mul_le_mono_nonneg; lia).
  assert (PP : 0 < M * M * (P * P)) by (repeat apply Z.mul_pos_pos; lia).
  apply Z.mul_le_mono_pos_l with (p := M * M * (P * P)); [assumption|].
  assert (E2 : v * S * (M * M) * (P * P) * (A * A) <= M * (u * u) * (S * S) * P' * (A * A))
    by (apply Z.mul_le_mono_nonneg_r; [apply Z.mul_nonneg_nonneg; lia|assumption]).
  assert (P' <= 0 \/ 0 < P') as [HP'|HP'] by lia.
  - destruct (Z.eq_dec A 0) as [->|NA].
    { (* A = 0: the goal is 0 <= ... up to sign of P' *)
      destruct (Z.eq_dec P' 0) as [->|]; [lia|].
      exfalso. assert (0 < M * (u * u) * (S * S)) by (repeat apply Z.mul_pos_pos; lia).
      assert (M * (u * u) * (S * S) * P' < 0) by (apply Z.mul_pos_neg; lia).
      assert (0 <= v * S * (M * M) * (P * P)) by (repeat apply Z.mul_nonneg_nonneg; lia). lia. }
    destruct (Z.eq_dec P' 0) as [->|].
    { assert (v * S * (M * M) * (P * P) <= 0) by lia.
      replace (M * M * (P * P) * (v * (A * A) * S)) with (v * S * (M * M) * (P * P) * (A * A)) by ring. lia. }
    exfalso. assert (0 < M * (u * u) * (S * S)) by (repeat apply Z.mul_pos_pos; lia).
    assert (M * (u * u) * (S * S) * P' < 0) by (apply Z.mul_pos_neg; lia).
    assert (0 <= v * S * (M * M) * (P * P)) by (repeat apply Z.mul_nonneg_nonneg; lia). lia.
  - assert (E3 : (u * A * S) * (u * A * S) * (M * P') <= (M * B * P) * (M * B * P) * (M * P'))
      by (apply Z.mul_le_mono_nonneg_r; [apply Z.mul_nonneg_nonneg; lia|assumption]).
    replace (M * M * (P * P) * (v * (A * A) * S)) with (v * S * (M * M) * (P * P) * (A * A)) by ring.
    replace (M * M * (P * P) * (M * (B * B) * P')) with ((M * B * P) * (M * B * P) * (M * P')) by ring.
    replace ((u * A * S) * (u * A * S) * (M * P')) with (M * (u * u) * (S * S) * P' * (A * A)) in E3 by ring. lia.
Qed.
Lemma square_low u A B M S P v P' : 0 <= A -> 0 <= B -> 0 < M -> 0 < S -> 0 < P -> 0 <= P' ->
  M * B * P <= u * A * S -> M * (u * u) * (S * S) * P' <= v * S * (M * M) * (P * P) ->
  M * (B * B) * P' <= v * (A * A) * S.
Proof.
  intros HA HB HM HS HP HP' H1 H2.
  assert (0 <= M * B * P) by (repeat apply Z.mul_nonneg_nonneg; lia).
  assert (E1 : (M * B * P) * (M * B * P) <= (u * A * S) * (u * A * S)) by (apply Z.mul_le_mono_nonneg; lia).
  assert (PP : 0 < M * M * (P * P)) by (repeat apply Z.mul_pos_pos; lia).
  apply Z.mul_le_mono_pos_l with (p := M * M * (P * P)); [assumption|].
  assert (E2 : M * (u * u) * (S * S) * P' * (A * A) <= v * S * (M * M) * (P * P) * (A * A))
    by (apply Z.mul_le_mono_nonneg_r; [apply Z.mul_nonneg_nonneg; lia|assumption]).
  assert (E3 : (M * B * P) * (M * B * P) * (M * P') <= (u * A * S) * (u * A * S) * (M * P'))
    by (apply Z.mul_le_mono_nonneg_r; [apply Z.mul_nonneg_nonneg; lia|assumption]).
  replace (M * M * (P * P) * (v * (A * A) * S)) with (v * S * (M * M) * (P * P) * (A * A)) by ring.
  replace (M * M * (P * P) * (M * (B * B) * P')) with ((M * B * P) * (M * B * P) * (M * P')) by ring.
  replace ((u * A * S) * (u * A * S) * (M * P')) with (M * (u * u) * (S * S) * P' * (A * A)) in E3 by ring. lia.
Qed.

Lemma pow_double b i : 0 <= i -> b ^ (2 ^ (i + 1)) = b ^ (2 ^ i) * b ^ (2 ^ i).
Proof.
  intros Hi. rewrite <- Z.pow_add_r by (apply Z.pow_nonneg; lia). f_equal.
  rewrite Z.pow_add_r by lia. change (2 ^ 1) with 2. lia.
Qed.
Lemma dlt_range i : 0 <= i <= 19 -> 0 < dlt i <= dlt 19.
Proof.
  intros Hi. unfold dlt. pose proof (Z.pow_pos_nonneg 4 i ltac:(lia) ltac:(lia)).
  pose proof (Z.pow_le_mono_r 4 i 19 ltac:(lia) ltac:(lia)). lia.
Qed.
Lemma dlt19 : dlt 19 = 6 * 4 ^ 19. Proof. reflexivity. Qed.
Lemma const_step i c c' : 0 <= i < 19 -> 0 < c -> 0 < c' -> const_ok i c (dlt i) ->
  chain_ok c c' (dlt i) (dlt (i + 1)) = true -> const_ok (i + 1) c' (dlt (i + 1)).
Proof.
  intros Hi Hc Hc' [H1 H2] K. unfold chain_ok, sq in K. apply andb_true_iff in K as [K1 K2].
  apply Z.leb_le in K1, K2. unfold const_ok. rewrite !pow_double by lia.
  pose proof (dlt_range i ltac:(lia)) as D1. pose proof (dlt_range (i + 1) ltac:(lia)) as D2. pose proof dlt19 as D3.
  assert (HA : 0 < 10001 ^ (2 ^ i)) by (apply Z.pow_pos_nonneg; [lia|apply Z.pow_nonneg; lia]).
  assert (HB : 0 < 10000 ^ (2 ^ i)) by (apply Z.pow_pos_nonneg; [lia|apply Z.pow_nonneg; lia]).
  set (A := 10001 ^ (2 ^ i)) in *. set (B := 10000 ^ (2 ^ i)) in *. set (d := dlt i) in *. set (d' := dlt (i + 1)) in *.
  clearbody A B d d'. rewrite D3 in *.
  assert (HU : 0 < c * c) by (apply Z.mul_pos_pos; lia). assert (HV : 0 < c' * c') by (apply Z.mul_pos_pos; lia).
  assert (S0 : 6 * 4 ^ 19 < S128 /\ 0 < S128) by (unfold S128; lia).
  set (M := 2 ^ 256) in *. assert (HM : 0 < M) by (unfold M; lia).
  set (u := c * c) in *. set (v := c' * c') in *. clearbody u v M. set (s := S128) in *. clearbody s. split.
  - apply (square_up u A B M s (s + d)); lia.
  - apply (square_low u A B M s (s - d)); lia.
Qed.
Definition fac' (c : Z) : Prop := 0 < c < 2 ^ 128.
Fixpoint consts (i : Z) (l : list Z) : Prop :=
  match l with [] => True | c :: l' => (0 < c < 2 ^ 128 /\ const_ok i c (dlt 19)) /\ consts (i + 1) l' end.
Lemma const_weaken i c d d' : d <= d' -> 0 <= 2 ^ i -> const_ok i c d -> const_ok i c d'.
Proof.
  intros Hd Hi [H1 H2]. assert (HB : 0 < 2 ^ 256 * 10000 ^ (2 ^ i)).
  { apply Z.mul_pos_pos; [lia|]. apply Z.pow_pos_nonneg; lia. }
  unfold const_ok. set (B := 2 ^ 256 * 10000 ^ (2 ^ i)) in *. clearbody B.
  assert (B * (S128 + d) <= B * (S128 + d')) by (apply Z.mul_le_mono_nonneg_l; lia).
  assert (B * (S128 - d') <= B * (S128 - d)) by (apply Z.mul_le_mono_nonneg_l; lia). lia.
Qed.
Lemma consts_chain l : forall i c, 0 <= i -> i + Z.of_nat (length l) <= 19 -> fac' c -> Forall fac' l ->
  const_ok i c (dlt i) -> chains i c l = true -> consts i (c :: l).
Proof.
  induction l as [|c' l IH]; intros i c Hi Hl Hc Hf Hk Hch; cbn [consts].
  - split; [|exact I]. split; [exact Hc|]. apply const_weaken with (dlt i); [apply dlt_range; cbn [length] in Hl; lia|apply Z.pow_nonneg; lia|exact Hk].
  - cbn [length] in Hl. cbn [chains] in Hch. apply andb_true_iff in Hch as [K1 K2].
    pose proof (Forall_inv Hf) as Hc'. apply Forall_inv_tail in Hf. split.
    + split; [exact Hc|]. apply const_weaken with (dlt i); [apply dlt_range; lia|apply Z.pow_nonneg; lia|exact Hk].
    + apply (IH (i + 1) c'); try assumption; try lia. unfold fac' in *.
      apply (const_step i c c'); try assumption; lia.
Qed.
Lemma cs_consts : consts 0 cs.
Proof.
  apply consts_chain; [lia|reflexivity|unfold fac', c0; lia| |vm_compute; split; discriminate|exact chains_cs].
  cbn [map snd factors]. repeat constructor; unfold fac'; lia.
Qed.

(** * The product over the bits *)
Definition P1 : Z := S128 * sq (2 ^ 64 + 1).
Definition P2 : Z := (S128 - dlt 19) * 2 ^ 128.
Lemma split_bits b i n : 0 < b -> 0 <= i -> 0 <= n ->
  b ^ (n * 2 ^ i) = b ^ (Z.b2z (Z.odd n) * 2 ^ i) * b ^ (Z.div2 n * 2 ^ (i + 1)).
Proof.
  intros Hb Hi Hn. pose proof (Z.div2_odd n) as D. pose proof (Z.pow_nonneg 2 i ltac:(lia)).
  assert (0 <= Z.div2 n) by (apply Z.div2_nonneg; lia).
  rewrite <- Z.pow_add_r.
  - f_equal. rewrite D at 1. rewrite (Z.pow_add_r 2 i 1) by lia. change (2 ^ 1) with 2. ring.
  - destruct (Z.odd n); cbn [Z.b2z]; lia.
  - apply Z.mul_nonneg_nonneg; [lia|]. apply Z.pow_nonneg. lia.
Qed.

Lemma run_up l : forall i n v A B K1 K2, consts i l -> 0 <= i -> 0 <= n < 2 ^ Z.of_nat (length l) -> 0 <= v <= 2 ^ 128 ->
  0 < A -> 0 < B -> 0 < K1 -> 0 < K2 ->
  v * v * A * K1 <= 2 ^ 256 * B * K2 ->
  run l n v * run l n v * (A * 10001 ^ (n * 2 ^ i)) * (K1 * S128 ^ Z.of_nat (length l)) <=
  2 ^ 256 * (B * 10000 ^ (n * 2 ^ i)) * (K2 * (S128 + dlt 19) ^ Z.of_nat (length l)).
Proof.
  induction l as [|c l IH]; intros i n v A B K1 K2 Hc Hi Hn Hv HA HB HK1 HK2 H.
  - cbn [length Z.of_nat] in *. change (2 ^ 0) with 1 in Hn. assert (n = 0) by lia. subst n.
    cbn [run]. rewrite Z.mul_0_l, !Z.pow_0_r, !Z.mul_1_r. exact H.
  - cbn [consts] in Hc. destruct Hc as [[Hc [C1 _]] Hcs]. cbn [run].
    rewrite (split_bits 10001 i n), (split_bits 10000 i n) by lia.
    cbn [length] in *. rewrite Nat2Z.inj_succ, Z.pow_succ_r in Hn by lia.
    rewrite Nat2Z.inj_succ, !Z.pow_succ_r by lia.
    assert (Hn' : 0 <= Z.div2 n < 2 ^ Z.of_nat (length l)).
    { pose proof (Z.div2_odd n). destruct (Z.odd n); cbn [Z.b2z] in *; lia. }
    pose proof dlt19 as D3. assert (S0 : 0 < S128 /\ 0 < dlt 19) by (unfold S128; lia).
    rewrite !Z.mul_assoc.
    set (q := Z.div2 n) in *.
    specialize (IH (i + 1) q (if Z.odd n then mulShift v c else v)
      (A * 10001 ^ (Z.b2z (Z.odd n) * 2 ^ i)) (B * 10000 ^ (Z.b2z (Z.odd n) * 2 ^ i)) (K1 * S128) (K2 * (S128 + dlt 19)) Hcs ltac:(lia) Hn').
    assert (PA : forall e, 0 <= e -> 0 < 10001 ^ e /\ 0 < 10000 ^ e) by (intros; split; apply Z.pow_pos_nonneg; lia).
    assert (P2i : 0 < 2 ^ i) by (apply Z.pow_pos_nonneg; lia).
    pose proof (PA (Z.b2z (Z.odd n) * 2 ^ i)) as PB.
    assert (HB2 : 0 <= Z.b2z (Z.odd n) * 2 ^ i) by (apply Z.mul_nonneg_nonneg; [destruct (Z.odd n); cbn; lia|lia]).
    specialize (PB HB2).
    assert (F : fac c) by (unfold fac; lia).
    assert (IH' := IH). clear IH.
    assert (Hgoal : (if Z.odd n then mulShift v c else v) * (if Z.odd n then mulShift v c else v) *
      (A * 10001 ^ (Z.b2z (Z.odd n) * 2 ^ i)) * (K1 * S128) <=
      2 ^ 256 * (B * 10000 ^ (Z.b2z (Z.odd n) * 2 ^ i)) * (K2 * (S128 + dlt 19))).
    { destruct (Z.odd n); cbn [Z.b2z] in *.
      - destruct (mulShift_eq v c Hv F) as [Ew Hw]. rewrite !Z.mul_1_l in *.
        pose proof (Z.mul_div_le (v * c) (2 ^ 128) ltac:(lia)) as HL. rewrite <- Ew in HL.
        set (w := mulShift v c) in *. clearbody w.
        set (a := 10001 ^ (2 ^ i)) in *. set (b := 10000 ^ (2 ^ i)) in *. clearbody a b. set (al := S128 + dlt 19) in *.
        assert (Hal : 0 < al) by (unfold al; lia). clearbody al.
        set (s := S128) in *. clearbody s.
        assert (Q : 2 ^ 128 * w * (2 ^ 128 * w) <= v * c * (v * c)).
        { apply Z.mul_le_mono_nonneg; try assumption; lia. }
        apply Z.mul_le_mono_pos_l with (p := 2 ^ 256); [lia|].
        assert (X1 : 2 ^ 128 * w * (2 ^ 128 * w) * (A * a * (K1 * s)) <= v * c * (v * c) * (A * a * (K1 * s))).
        { apply Z.mul_le_mono_nonneg_r; [|exact Q]. repeat apply Z.mul_nonneg_nonneg; lia. }
        assert (X2 : (v * v * A * K1) * (c * c * a * s) <= (2 ^ 256 * B * K2) * (2 ^ 256 * b * al)).
        { apply Z.mul_le_mono_nonneg; try assumption; repeat apply Z.mul_nonneg_nonneg; lia. }
        replace (2 ^ 256 * (w * w * (A * a) * (K1 * s))) with (2 ^ 128 * w * (2 ^ 128 * w) * (A * a * (K1 * s))) by ring.
        replace (2 ^ 256 * (2 ^ 256 * (B * b) * (K2 * al))) with ((2 ^ 256 * B * K2) * (2 ^ 256 * b * al)) by ring.
        replace (v * c * (v * c) * (A * a * (K1 * s))) with ((v * v * A * K1) * (c * c * a * s)) in X1 by ring. lia.
      - rewrite !Z.mul_0_l, !Z.pow_0_r, !Z.mul_1_r.
        assert (v * v * A * K1 * S128 <= 2 ^ 256 * B * K2 * (S128 + dlt 19)).
        { apply Z.mul_le_mono_nonneg; [repeat apply Z.mul_nonneg_nonneg; lia|exact H|lia|lia]. }
        lia. }
    assert (R : 0 <= (if Z.odd n then mulShift v c else v) <= 2 ^ 128).
    { destruct (Z.odd n); [apply mulShift_eq; assumption|assumption]. }
    assert (Z1 : 0 < A * 10001 ^ (Z.b2z (Z.odd n) * 2 ^ i)) by (apply Z.mul_pos_pos; lia).
    assert (Z2 : 0 < B * 10000 ^ (Z.b2z (Z.odd n) * 2 ^ i)) by (apply Z.mul_pos_pos; lia).
    assert (Z3 : 0 < K1 * S128) by (apply Z.mul_pos_pos; lia).
    assert (Z4 : 0 < K2 * (S128 + dlt 19)) by (apply Z.mul_pos_pos; lia).
    specialize (IH' R Z1 Z2 Z3 Z4 Hgoal). rewrite !Z.mul_assoc in IH'. exact IH'.
Qed.

Lemma mulShift_le v c : 0 <= v <= 2 ^ 128 -> fac c -> mulShift v c <= v.
Proof.
  intros Hv Hc. destruct (mulShift_eq v c Hv Hc) as [-> _]. unfold fac in Hc.
  apply Z.div_le_upper_bound; [lia|].
  assert (v * c <= v * 2 ^ 128) by (apply Z.mul_le_mono_nonneg_l; lia). lia.
Qed.
Lemma run_le l : forall n v, Forall fac l -> 0 <= v <= 2 ^ 128 -> run l n v <= v.
Proof.
  induction l as [|c l IH]; intros n v Hl Hv; cbn [run]; [lia|].
  pose proof (Forall_inv Hl) as Hc. apply Forall_inv_tail in Hl. destruct (Z.odd n); [|now apply IH].
  pose proof (mulShift_le v c Hv Hc). pose proof (proj2 (mulShift_eq v c Hv Hc)) as Hw.
  pose proof (IH (Z.div2 n) (mulShift v c) Hl Hw). lia.
Qed.
Lemma consts_fac l : forall i, consts i l -> Forall fac l.
Proof.
  induction l as [|c l IH]; intros i H; [constructor|]. destruct H as [[H _] H2].
  constructor; [unfold fac; lia|now apply (IH (i + 1))].
Qed.

Lemma run_low l : forall i n v A B K1 K2, consts i l -> 0 <= i -> 0 <= n < 2 ^ Z.of_nat (length l) -> 0 <= v <= 2 ^ 128 ->
  0 < A -> 0 < B -> 0 < K1 -> 0 < K2 -> 2 ^ 64 <= run l n v ->
  2 ^ 256 * B * K2 <= v * v * A * K1 ->
  2 ^ 256 * (B * 10000 ^ (n * 2 ^ i)) * (K2 * P2 ^ Z.of_nat (length l)) <=
  run l n v * run l n v * (A * 10001 ^ (n * 2 ^ i)) * (K1 * P1 ^ Z.of_nat (length l)).
Proof.
  induction l as [|c l IH]; intros i n v A B K1 K2 Hc Hi Hn Hv HA HB HK1 HK2 Hrun H.
  - cbn [length Z.of_nat] in *. change (2 ^ 0) with 1 in Hn. assert (n = 0) by lia. subst n.
    cbn [run]. rewrite Z.mul_0_l, !Z.pow_0_r, !Z.mul_1_r. exact H.
  - pose proof (consts_fac _ _ Hc) as HF. pose proof (Forall_inv HF) as F. apply Forall_inv_tail in HF.
    cbn [consts] in Hc. destruct Hc as [[Hc [_ C1]] Hcs]. cbn [run] in *.
    rewrite (split_bits 10001 i n), (split_bits 10000 i n) by lia.
    cbn [length] in *. rewrite Nat2Z.inj_succ, Z.pow_succ_r in Hn by lia.
    rewrite Nat2Z.inj_succ, !Z.pow_succ_r by lia.
    assert (Hn' : 0 <= Z.div2 n < 2 ^ Z.of_nat (length l)).
    { pose proof (Z.div2_odd n). destruct (Z.odd n); cbn [Z.b2z] in *; lia. }
    assert (D3 : 0 < P2 < P1 /\ P1 = S128 * sq (2 ^ 64 + 1) /\ P2 = (S128 - dlt 19) * 2 ^ 128 /\ 0 < S128 - dlt 19 /\ 0 < S128).
    { split; [vm_compute; auto|]. split; [reflexivity|]. split; [reflexivity|]. vm_compute; auto. }
    destruct D3 as (D3 & EP1 & EP2 & D4 & D5). unfold sq in EP1.
    rewrite !Z.mul_assoc.
    set (q := Z.div2 n) in *. set (w := if Z.odd n then mulShift v c else v) in *.
    assert (Hw : 0 <= w <= 2 ^ 128).
    { unfold w. destruct (Z.odd n); [apply mulShift_eq; assumption|assumption]. }
    assert (Hw64 : 2 ^ 64 <= w) by (pose proof (run_le l q w HF Hw); lia).
    specialize (IH (i + 1) q w
      (A * 10001 ^ (Z.b2z (Z.odd n) * 2 ^ i)) (B * 10000 ^ (Z.b2z (Z.odd n) * 2 ^ i)) (K1 * P1) (K2 * P2) Hcs ltac:(lia) Hn' Hw).
    assert (PA : forall e, 0 <= e -> 0 < 10001 ^ e /\ 0 < 10000 ^ e) by (intros; split; apply Z.pow_pos_nonneg; lia).
    assert (P2i : 0 < 2 ^ i) by (apply Z.pow_pos_nonneg; lia).
    pose proof (PA (Z.b2z (Z.odd n) * 2 ^ i)) as PB.
    assert (HB2 : 0 <= Z.b2z (Z.odd n) * 2 ^ i) by (apply Z.mul_nonneg_nonneg; [destruct (Z.odd n); cbn; lia|lia]).
    specialize (PB HB2).
    assert (Hgoal : 2 ^ 256 * (B * 10000 ^ (Z.b2z (Z.odd n) * 2 ^ i)) * (K2 * P2) <=
       w * w * (A * 10001 ^ (Z.b2z (Z.odd n) * 2 ^ i)) * (K1 * P1)).
    { subst w. destruct (Z.odd n); cbn [Z.b2z] in *.
      - destruct (mulShift_eq v c Hv F) as [Ew _]. rewrite !Z.mul_1_l in *.
        pose proof (Z.mul_succ_div_gt (v * c) (2 ^ 128) ltac:(lia)) as HL. rewrite <- Ew in HL.
        set (w := mulShift v c) in *. clearbody w.
        set (a := 10001 ^ (2 ^ i)) in *. set (b := 10000 ^ (2 ^ i)) in *. clearbody a b. set (al := S128 - dlt 19) in *.
        clearbody al. rewrite EP1, EP2. clear EP1 EP2 D3 IH.
        set (s := S128) in *. clearbody s. set (M := 2 ^ 256) in *.
        assert (Q0 : 2 ^ 64 * (v * c) <= (2 ^ 64 + 1) * w * 2 ^ 128) by lia.
        assert (0 <= v * c) by (apply Z.mul_nonneg_nonneg; lia).
        assert (Q : (2 ^ 64 * (v * c)) * (2 ^ 64 * (v * c)) <= ((2 ^ 64 + 1) * w * 2 ^ 128) * ((2 ^ 64 + 1) * w * 2 ^ 128)).
        { apply Z.mul_le_mono_nonneg; lia. }
        apply Z.mul_le_mono_pos_l with (p := M); [unfold M; lia|].
        assert (X1 : (2 ^ 64 * (v * c)) * (2 ^ 64 * (v * c)) * (A * a * (K1 * s)) <=
           ((2 ^ 64 + 1) * w * 2 ^ 128) * ((2 ^ 64 + 1) * w * 2 ^ 128) * (A * a * (K1 * s))).
        { apply Z.mul_le_mono_nonneg_r; [|exact Q]. repeat apply Z.mul_nonneg_nonneg; lia. }
        assert (X2 : (M * B * K2) * (M * b * al) <= (v * v * A * K1) * (c * c * a * s)).
        { assert (HM : 0 < M) by (unfold M; lia). clearbody M.
          apply Z.mul_le_mono_nonneg; [repeat apply Z.mul_nonneg_nonneg; lia|exact H|repeat apply Z.mul_nonneg_nonneg; lia|exact C1]. }
        assert (X3 : (M * B * K2) * (M * b * al) * 2 ^ 128 <= (v * v * A * K1) * (c * c * a * s) * 2 ^ 128)
          by (apply Z.mul_le_mono_nonneg_r; lia).
        replace (M * (w * w * (A * a) * (K1 * (s * ((2 ^ 64 + 1) * (2 ^ 64 + 1))))))
          with (((2 ^ 64 + 1) * w * 2 ^ 128) * ((2 ^ 64 + 1) * w * 2 ^ 128) * (A * a * (K1 * s))) by (unfold M; ring).
        replace (M * (M * (B * b) * (K2 * (al * 2 ^ 128)))) with ((M * B * K2) * (M * b * al) * 2 ^ 128) by ring.
        replace ((2 ^ 64 * (v * c)) * (2 ^ 64 * (v * c)) * (A * a * (K1 * s)))
          with ((v * v * A * K1) * (c * c * a * s) * 2 ^ 128) in X1 by ring. lia.
      - rewrite !Z.mul_0_l, !Z.pow_0_r, !Z.mul_1_r.
        assert (2 ^ 256 * B * K2 * P2 <= v * v * A * K1 * P1).
        { apply Z.mul_le_mono_nonneg; [repeat apply Z.mul_nonneg_nonneg; lia|exact H|lia|lia]. }
        lia. }
    assert (Z1 : 0 < A * 10001 ^ (Z.b2z (Z.odd n) * 2 ^ i)) by (apply Z.mul_pos_pos; lia).
    assert (Z2 : 0 < B * 10000 ^ (Z.b2z (Z.odd n) * 2 ^ i)) by (apply Z.mul_pos_pos; lia).
    assert (Z3 : 0 < K1 * P1) by (apply Z.mul_pos_pos; lia).
    assert (Z4 : 0 < K2 * P2) by (apply Z.mul_pos_pos; lia).
    specialize (IH Z1 Z2 Z3 Z4 Hrun Hgoal). rewrite !Z.mul_assoc in IH. exact IH.
Qed.

(** * The product for a whole tick *)
Lemma rescale X Y a b k1 k2 : 0 < a -> 0 <= Y -> 0 < k1 -> X * a <= Y * b -> b * k1 <= a * k2 -> X * k1 <= Y * k2.
Proof.
  intros Ha HY Hk H1 H2. apply Z.mul_le_mono_pos_l with (p := a); [assumption|].
  assert (X * a * k1 <= Y * b * k1) by (apply Z.mul_le_mono_nonneg_r; lia).
  assert (Y * (b * k1) <= Y * (a * k2)) by (apply Z.mul_le_mono_nonneg_l; lia).
  replace (a * (X * k1)) with (X * a * k1) by ring. replace (a * (Y * k2)) with (Y * (a * k2)) by ring.
  replace (Y * b * k1) with (Y * (b * k1)) in * by ring. lia.
Qed.
Lemma num_up : (S128 + dlt 19) ^ 20 * 2 ^ 80 <= S128 ^ 20 * (2 ^ 80 + 1). Proof. vm_compute. discriminate. Qed.
Lemma num_low : P1 ^ 20 * 2 ^ 58 <= P2 ^ 20 * (2 ^ 58 + 1). Proof. vm_compute. discriminate. Qed.
Lemma pows n : 0 <= n -> 0 < 10001 ^ n /\ 0 < 10000 ^ n.
Proof. intros; split; apply Z.pow_pos_nonneg; lia. Qed.

Lemma R_up n : 0 <= n <= 887272 -> R n * R n * 10001 ^ n * 2 ^ 80 <= 2 ^ 256 * 10000 ^ n * (2 ^ 80 + 1).
Proof.
  intros Hn. pose proof (pows n ltac:(lia)) as [PA PB].
  apply rescale with (a := S128 ^ 20) (b := (S128 + dlt 19) ^ 20); [reflexivity|lia|lia| |exact num_up].
  assert (H := run_up cs 0 n (2 ^ 128) 1 1 1 1 cs_consts ltac:(lia)).
  change (Z.of_nat (length cs)) with 20 in H. change (2 ^ 0) with 1 in H. rewrite !Z.mul_1_r, !Z.mul_1_l in H. rewrite <- (R_eq n) in H. apply H; lia.
Qed.
Lemma R_down n : 0 <= n <= 887272 -> 2 ^ 256 * 10000 ^ n * 2 ^ 58 <= R n * R n * 10001 ^ n * (2 ^ 58 + 1).
Proof.
  intros Hn. pose proof (pows n ltac:(lia)) as [PA PB].
  assert (0 <= R n * R n * 10001 ^ n).
  { pose proof (R_range n). repeat apply Z.mul_nonneg_nonneg; lia. }
  apply rescale with (a := P2 ^ 20) (b := P1 ^ 20); [reflexivity|assumption|lia| |exact num_low].
  assert (H0 := run_low cs 0 n (2 ^ 128) 1 1 1 1 cs_consts ltac:(lia)).
  change (Z.of_nat (length cs)) with 20 in H0. change (2 ^ 0) with 1 in H0. rewrite !Z.mul_1_r, !Z.mul_1_l in H0. rewrite <- (R_eq n) in H0. pose proof (R_bounds n Hn). apply H0; lia.
Qed.

Lemma ceil32_bounds a : 0 <= a -> (ceil32 a - 1) * 2 ^ 32 <= a <= ceil32 a * 2 ^ 32 /\ 0 <= ceil32 a /\ (0 < a -> 0 < ceil32 a).
Proof.
  intros Ha. unfold ceil32. pose proof (Z.div_mod (a + (2 ^ 32 - 1)) (2 ^ 32) ltac:(lia)).
  pose proof (Z.mod_pos_bound (a + (2 ^ 32 - 1)) (2 ^ 32) ltac:(lia)).
  pose proof (Z.div_pos (a + (2 ^ 32 - 1)) (2 ^ 32) ltac:(lia) ltac:(lia)). lia.
Qed.
Lemma sq_le a b : 0 <= a <= b -> a * a <= b * b. Proof. intros. apply Z.mul_le_mono_nonneg; lia. Qed.

Definition close (r P Q : Z) : Prop :=
  (r - 1) * (r - 1) * Q * 2 ^ 58 <= 2 ^ 192 * P * (2 ^ 58 + 1) /\
  2 ^ 192 * P * 2 ^ 58 <= r * r * Q * (2 ^ 58 + 1).

Lemma close_neg n : 0 <= n <= 887272 -> close (ceil32 (R n)) (10000 ^ n) (10001 ^ n).
Proof.
  intros Hn. pose proof (R_bounds n Hn) as B. pose proof (R_up n Hn) as U. pose proof (R_down n Hn) as L.
  pose proof (pows n ltac:(lia)) as [PA PB].
  pose proof (ceil32_bounds (R n) ltac:(lia)) as (C & C0 & C1). specialize (C1 ltac:(lia)).
  set (r := ceil32 (R n)) in *. set (a := 10001 ^ n) in *. set (b := 10000 ^ n) in *. set (x := R n) in *.
  clearbody r a b x.
  assert (S1 : (r - 1) * 2 ^ 32 * ((r - 1) * 2 ^ 32) <= x * x) by (apply sq_le; lia).
  assert (S2 : x * x <= r * 2 ^ 32 * (r * 2 ^ 32)) by (apply sq_le; lia).
  assert (T1 : (r - 1) * 2 ^ 32 * ((r - 1) * 2 ^ 32) * a <= x * x * a) by (apply Z.mul_le_mono_nonneg_r; lia).
  assert (T2 : x * x * a <= r * 2 ^ 32 * (r * 2 ^ 32) * a) by (apply Z.mul_le_mono_nonneg_r; lia).
  replace ((r - 1) * 2 ^ 32 * ((r - 1) * 2 ^ 32) * a) with (2 ^ 64 * ((r - 1) * (r - 1) * a)) in T1 by ring.
  replace (r * 2 ^ 32 * (r * 2 ^ 32) * a) with (2 ^ 64 * (r * r * a)) in T2 by ring.
  unfold close. set (X := (r - 1) * (r - 1) * a) in *. set (Y := r * r * a) in *. set (Zx := x * x * a) in *.
  clearbody X Y Zx. clear -T1 T2 U L PB. lia.
Qed.
Lemma close_pos n : 0 < n <= 887272 -> close (ceil32 (G n)) (10001 ^ n) (10000 ^ n).
Proof.
  intros Hn. pose proof (R_bounds n ltac:(lia)) as B. pose proof (R_up n ltac:(lia)) as U. pose proof (R_down n ltac:(lia)) as L.
  pose proof (G_bounds n ltac:(lia)) as BG.
  pose proof (pows n ltac:(lia)) as [PA PB].
  pose proof (ceil32_bounds (G n) ltac:(lia)) as (C & C0 & C1). specialize (C1 ltac:(lia)).
  assert (G1 : R n * G n <= T256 - 1) by (unfold G; apply Z.mul_div_le; lia).
  assert (G2 : T256 - 1 < R n * (G n + 1)) by (unfold G; apply Z.mul_succ_div_gt; lia).
  assert (C2 : 2 ^ 96 <= ceil32 (G n)) by lia.
  set (r := ceil32 (G n)) in *. set (a := 10001 ^ n) in *. set (b := 10000 ^ n) in *. set (x := R n) in *. set (g := G n) in *.
  clearbody r a b x g. unfold close. split.
  - assert (S0 : x * ((r - 1) * 2 ^ 32) <= x * g) by (apply Z.mul_le_mono_nonneg_l; lia).
    assert (0 <= x * ((r - 1) * 2 ^ 32)) by (apply Z.mul_nonneg_nonneg; lia).
    assert (S1 : (x * ((r - 1) * 2 ^ 32)) * (x * ((r - 1) * 2 ^ 32)) <= 2 ^ 256 * 2 ^ 256) by (apply Z.mul_le_mono_nonneg; lia).
    replace ((x * ((r - 1) * 2 ^ 32)) * (x * ((r - 1) * 2 ^ 32))) with (2 ^ 64 * ((r - 1) * (r - 1) * (x * x))) in S1 by ring.
    assert (0 <= (r - 1) * (r - 1)) by (apply Z.mul_nonneg_nonneg; lia).
    set (q := (r - 1) * (r - 1)) in *. clearbody q.
    assert (T1 : q * (2 ^ 256 * b * 2 ^ 58) <= q * (x * x * a * (2 ^ 58 + 1))) by (apply Z.mul_le_mono_nonneg_l; lia).
    assert (T2 : (2 ^ 64 * (q * (x * x))) * a <= 2 ^ 256 * 2 ^ 256 * a) by (apply Z.mul_le_mono_nonneg_r; lia).
    replace (q * (2 ^ 256 * b * 2 ^ 58)) with (2 ^ 256 * (q * b * 2 ^ 58)) in T1 by ring.
    replace (q * (x * x * a * (2 ^ 58 + 1))) with (q * (x * x) * a * (2 ^ 58 + 1)) in T1 by ring.
    replace (2 ^ 64 * (q * (x * x)) * a) with (2 ^ 64 * (q * (x * x) * a)) in T2 by ring.
    set (W := q * (x * x) * a) in *. set (V := q * b) in *. clearbody W V. clear -T1 T2. lia.
  - assert (S0 : x * (g + 1) <= x * (r * 2 ^ 32 + 1)) by (apply Z.mul_le_mono_nonneg_l; lia).
    assert (S1 : x * (2 ^ 128 * (r * 2 ^ 32 + 1)) <= x * (r * 2 ^ 32 * (2 ^ 128 + 1))) by (apply Z.mul_le_mono_nonneg_l; lia).
    assert (S2 : 2 ^ 384 <= x * (r * 2 ^ 32 * (2 ^ 128 + 1))) by lia.
    assert (S3 : 2 ^ 384 * 2 ^ 384 <= (x * (r * 2 ^ 32 * (2 ^ 128 + 1))) * (x * (r * 2 ^ 32 * (2 ^ 128 + 1)))) by (apply Z.mul_le_mono_nonneg; lia).
    replace ((x * (r * 2 ^ 32 * (2 ^ 128 + 1))) * (x * (r * 2 ^ 32 * (2 ^ 128 + 1))))
      with (2 ^ 64 * (2 ^ 128 + 1) * (2 ^ 128 + 1) * (r * r * (x * x))) in S3 by ring.
    assert (0 <= r * r) by (apply Z.mul_nonneg_nonneg; lia). set (q := r * r) in *. clearbody q.
    assert (T1 : 2 ^ 384 * 2 ^ 384 * a <= 2 ^ 64 * (2 ^ 128 + 1) * (2 ^ 128 + 1) * (q * (x * x)) * a) by (apply Z.mul_le_mono_nonneg_r; lia).
    assert (T2 : q * (x * x * a * 2 ^ 80) <= q * (2 ^ 256 * b * (2 ^ 80 + 1))) by (apply Z.mul_le_mono_nonneg_l; lia).
    replace (q * (x * x * a * 2 ^ 80)) with (q * (x * x) * a * 2 ^ 80) in T2 by ring.
    replace (q * (2 ^ 256 * b * (2 ^ 80 + 1))) with (2 ^ 256 * (q * b) * (2 ^ 80 + 1)) in T2 by ring.
    replace (2 ^ 64 * (2 ^ 128 + 1) * (2 ^ 128 + 1) * (q * (x * x)) * a)
      with (2 ^ 64 * (2 ^ 128 + 1) * (2 ^ 128 + 1) * (q * (x * x) * a)) in T1 by ring.
    assert (0 <= q * b) by (apply Z.mul_nonneg_nonneg; lia).
    set (W := q * (x * x) * a) in *. set (V := q * b) in *. clearbody W V. clear -T1 T2 H0 PA. lia.
Qed.
Lemma rat_close t : MinTick <= t <= MaxTick ->
  close (rat t) (if t <? 0 then 10000 ^ (- t) else 10001 ^ t) (if t <? 0 then 10001 ^ (- t) else 10000 ^ t).
Proof.
  unfold MinTick, MaxTick. intros Ht. unfold rat. destruct (t <? 0) eqn:E.
  - replace (t <=? 0) with true by lia. apply close_neg. lia.
  - destruct (t <=? 0) eqn:F; [replace t with 0 by lia; apply close_neg; lia|apply close_pos; lia].
Qed.

(** * Statements about the code's own function *)
Lemma ratio_monotone t u r s : t < u -> GetSqrtRatioAtTick t = Ok r -> GetSqrtRatioAtTick u = Ok s -> r < s.
Proof.
  intros H E1 E2.
  assert (Ht : MinTick <= t <= MaxTick).
  { destruct (Z_le_dec MinTick t), (Z_le_dec t MaxTick); try lia; rewrite rat_panics in E1 by lia; discriminate. }
  assert (Hu : MinTick <= u <= MaxTick).
  { destruct (Z_le_dec MinTick u), (Z_le_dec u MaxTick); try lia; rewrite rat_panics in E2 by lia; discriminate. }
  rewrite rat_ok in E1, E2 by assumption. injection E1 as <-. injection E2 as <-. apply rat_lt; lia.
Qed.
Lemma ratio_domain t :
  (MinTick <= t <= MaxTick -> exists r, GetSqrtRatioAtTick t = Ok r /\ MinSqrtRatio <= r <= MaxSqrtRatio) /\
  (~ (MinTick <= t <= MaxTick) -> GetSqrtRatioAtTick t = Panic).
Proof.
  split; [|apply rat_panics]. intros Ht. exists (rat t). split; [now apply rat_ok|now apply rat_range].
Qed.
Lemma ratio_ends : GetSqrtRatioAtTick MinTick = Ok MinSqrtRatio /\ GetSqrtRatioAtTick MaxTick = Ok MaxSqrtRatio /\
  GetSqrtRatioAtTick 0 = Ok (2 ^ 96).
Proof. vm_compute. auto. Qed.
Lemma tick_inverts fuel price : (tickFuel <= fuel)%nat -> MinSqrtRatio <= price < MaxSqrtRatio ->
  exists t r s, GetTickAtSqrtRatioF fuel price = Ok t /\ MinTick <= t < MaxTick /\
    GetSqrtRatioAtTick t = Ok r /\ GetSqrtRatioAtTick (t + 1) = Ok s /\ r <= price < s.
Proof.
  intros Hf Hp. destruct (tick_ok fuel price Hf Hp) as (t & E & Ht & Hr). exists t, (rat t), (rat (t + 1)).
  rewrite !rat_ok by lia. auto.
Qed.
Lemma tick_only price t u r s r' s' : GetSqrtRatioAtTick t = Ok r -> GetSqrtRatioAtTick (t + 1) = Ok s -> r <= price < s ->
  GetSqrtRatioAtTick u = Ok r' -> GetSqrtRatioAtTick (u + 1) = Ok s' -> r' <= price < s' -> t = u.
Proof.
  intros E1 E2 H E3 E4 H'.
  assert (Hd : forall t r, GetSqrtRatioAtTick t = Ok r -> MinTick <= t <= MaxTick /\ r = rat t).
  { intros t0 r0 E. assert (Ht : MinTick <= t0 <= MaxTick).
    { destruct (Z_le_dec MinTick t0), (Z_le_dec t0 MaxTick); try lia; rewrite rat_panics in E by lia; discriminate. }
    split; [exact Ht|]. rewrite rat_ok in E by exact Ht. now injection E. }
  apply Hd in E1 as [? ->], E2 as [? ->], E3 as [? ->], E4 as [? ->]. apply (tick_unique price); lia.
Qed.
Lemma tick_roundtrip t r : t < MaxTick -> GetSqrtRatioAtTick t = Ok r -> GetTickAtSqrtRatio r = Ok t.
Proof.
  intros Ht E. assert (MinTick <= t).
  { destruct (Z_le_dec MinTick t); [assumption|]. rewrite rat_panics in E by lia. discriminate. }
  rewrite rat_ok in E by lia. injection E as <-. apply tick_of_rat. lia.
Qed.
Lemma ratio_accuracy t r : GetSqrtRatioAtTick t = Ok r ->
  (0 <= t -> (r - 1) * (r - 1) * 10000 ^ t * 2 ^ 58 <= 2 ^ 192 * 10001 ^ t * (2 ^ 58 + 1) /\
             2 ^ 192 * 10001 ^ t * 2 ^ 58 <= r * r * 10000 ^ t * (2 ^ 58 + 1)) /\
  (t < 0 -> (r - 1) * (r - 1) * 10001 ^ (- t) * 2 ^ 58 <= 2 ^ 192 * 10000 ^ (- t) * (2 ^ 58 + 1) /\
            2 ^ 192 * 10000 ^ (- t) * 2 ^ 58 <= r * r * 10001 ^ (- t) * (2 ^ 58 + 1)).
Proof.
  intros E. assert (Ht : MinTick <= t <= MaxTick).
  { destruct (Z_le_dec MinTick t), (Z_le_dec t MaxTick); try lia; rewrite rat_panics in E by lia; discriminate. }
  rewrite rat_ok in E by exact Ht. injection E as <-. pose proof (rat_close t Ht) as C. unfold close in C.
  split; intros H; [replace (t <? 0) with false in C by lia|replace (t <? 0) with true in C by lia]; exact C.
Qed.
