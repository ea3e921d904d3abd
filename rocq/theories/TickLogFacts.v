(** TickLogFacts.v -- the logarithm of getTickAtSqrtRatio, and its agreement with the search in the table. *)
From Verif Require Import Base U256Z TickMath TickMathFacts TickAccuracy Prices TickLog.
From Coq Require Import ZifyBool.
Ltac Zify.zify_post_hook ::= idtac.

(** * A binary logarithm bit by bit.  r/2^127 is in [1,2); squaring it gives the next bit. *)
Definition D : Z := 2 ^ 127.
Definition nextBit (r : Z) : Z := if r * r / 2 ^ 127 <? 2 ^ 128 then 0 else 1.
Definition nextR (r : Z) : Z := r * r / 2 ^ 127 / 2 ^ nextBit r.
Fixpoint bits (n : nat) (r e : Z) : Z * Z :=
  match n with
  | O => (r, e)
  | S n' => bits n' (nextR r) (2 * e + nextBit r)
  end.

Lemma nextBit_01 r : nextBit r = 0 \/ nextBit r = 1.
Proof. unfold nextBit. destruct (_ <? _); lia. Qed.
Lemma nextR_spec r : 2 ^ 127 <= r < 2 ^ 128 ->
  2 ^ 127 <= nextR r < 2 ^ 128 /\ nextR r * (2 ^ 127 * 2 ^ nextBit r) <= r * r < (nextR r + 1) * (2 ^ 127 * 2 ^ nextBit r).
Proof.
  intros Hr. assert (S1 : 2 ^ 254 <= r * r).
  { change (2 ^ 254) with (2 ^ 127 * 2 ^ 127). apply sq_le. lia. }
  assert (S2 : r * r < 2 ^ 256).
  { change (2 ^ 256) with (2 ^ 128 * 2 ^ 128). apply Z.mul_lt_mono_nonneg; lia. }
  unfold nextR, nextBit. set (s := r * r) in *. clearbody s. clear Hr r.
  pose proof (Z.div_mod s (2 ^ 127) ltac:(lia)) as A. pose proof (Z.mod_pos_bound s (2 ^ 127) ltac:(lia)) as B.
  set (q := s / 2 ^ 127) in *. set (m := s mod 2 ^ 127) in *. clearbody q m.
  destruct (q <? 2 ^ 128) eqn:E.
  - change (2 ^ 0) with 1. rewrite Z.div_1_r. lia.
  - change (2 ^ 1) with 2. pose proof (Z.div_mod q 2 ltac:(lia)) as A'. pose proof (Z.mod_pos_bound q 2 ltac:(lia)) as B'.
    set (q' := q / 2) in *. set (m' := q mod 2) in *. clearbody q' m'. lia.
Qed.

(** the k-th power of (D+1)/D bounds the rounding *)
Definition logInv (X Y k r e : Z) : Prop :=
  2 ^ 127 <= r < 2 ^ 128 /\ 2 ^ e * r * Y <= X * 2 ^ 127 /\ X * 2 ^ 127 * D ^ k <= 2 ^ e * r * (D + 1) ^ k * Y.
Lemma logInv_step X Y k r e : 0 < X -> 0 < Y -> 0 <= k -> 0 <= e -> logInv X Y k r e ->
  logInv (X * X) (Y * Y) (2 * k + 1) (nextR r) (2 * e + nextBit r).
Proof.
  intros HX HY Hk He (Hr & L & U). destruct (nextR_spec r Hr) as (Hr' & L' & U').
  pose proof (nextBit_01 r) as Hb. split; [exact Hr'|].
  rewrite (Z.pow_add_r 2 (2 * e)) by lia. rewrite !(Z.pow_add_r _ (2 * k)) by lia.
  rewrite !Z.pow_1_r. replace (2 * e) with (e + e) by lia. replace (2 * k) with (k + k) by lia.
  rewrite !Z.pow_add_r by lia.
  set (b := 2 ^ nextBit r) in *. assert (Hb0 : 0 < b) by (apply Z.pow_pos_nonneg; lia).
  set (E := 2 ^ e) in *. assert (HE : 0 < E) by (apply Z.pow_pos_nonneg; lia).
  set (K := D ^ k) in *. assert (HK : 0 < K) by (apply Z.pow_pos_nonneg; unfold D; lia).
  set (K1 := (D + 1) ^ k) in *. assert (HK1 : 0 < K1) by (apply Z.pow_pos_nonneg; unfold D; lia).
  set (r' := nextR r) in *. unfold D in *. set (T := 2 ^ 127) in *. assert (HT : 0 < T) by (unfold T; lia).
  clearbody b E K K1 r' T. clear Hb He Hk. split.
  - apply (Z.mul_le_mono_pos_r _ _ T); [exact HT|].
    apply Z.le_trans with (E * E * (Y * Y) * (r * r)).
    + replace (E * E * b * r' * (Y * Y) * T) with (E * E * (Y * Y) * (r' * (T * b))) by ring.
      apply Z.mul_le_mono_nonneg_l; [|exact L']. repeat apply Z.mul_nonneg_nonneg; lia.
    + replace (E * E * (Y * Y) * (r * r)) with (E * r * Y * (E * r * Y)) by ring.
      replace (X * X * T * T) with (X * T * (X * T)) by ring. apply sq_le. split; [|exact L].
      repeat apply Z.mul_nonneg_nonneg; lia.
  - apply (Z.mul_le_mono_pos_r _ _ T); [exact HT|].
    apply Z.le_trans with (E * r * K1 * Y * (E * r * K1 * Y) * T).
    + replace (X * X * T * (K * K * T) * T) with (X * T * K * (X * T * K) * T) by ring.
      apply Z.mul_le_mono_nonneg_r; [lia|]. apply sq_le. split; [|exact U].
      repeat apply Z.mul_nonneg_nonneg; lia.
    + replace (E * r * K1 * Y * (E * r * K1 * Y) * T) with (E * E * (K1 * K1) * (Y * Y) * (r * r * T)) by ring.
      replace (E * E * b * r' * (K1 * K1 * (T + 1)) * (Y * Y) * T)
        with (E * E * (K1 * K1) * (Y * Y) * (r' * (T + 1) * (T * b))) by ring.
      apply Z.mul_le_mono_nonneg_l; [repeat apply Z.mul_nonneg_nonneg; lia|].
      apply Z.le_trans with ((r' + 1) * (T * b) * T).
      * apply Z.mul_le_mono_nonneg_r; lia.
      * replace ((r' + 1) * (T * b) * T) with ((r' + 1) * T * (T * b)) by ring.
        apply Z.mul_le_mono_nonneg_r; [apply Z.mul_nonneg_nonneg; lia|lia].
Qed.
Lemma bits_spec n : forall r e, 0 <= e -> 2 ^ 127 <= r < 2 ^ 128 ->
  2 ^ Z.of_nat n * e <= snd (bits n r e) < 2 ^ Z.of_nat n * (e + 1) /\
  forall x y k, 0 < x -> 0 < y -> 0 <= k -> logInv x y k r e ->
    logInv (x ^ (2 ^ Z.of_nat n)) (y ^ (2 ^ Z.of_nat n)) (2 ^ Z.of_nat n * (k + 1) - 1) (fst (bits n r e)) (snd (bits n r e)).
Proof.
  induction n as [|n IH]; intros r e He Hr.
  - cbn [bits fst snd]. change (2 ^ Z.of_nat 0) with 1. split; [lia|]. intros x y k _ _ _ H.
    rewrite !Z.pow_1_r. replace (1 * (k + 1) - 1) with k by lia. exact H.
  - cbn [bits]. pose proof (nextBit_01 r) as Hb. destruct (nextR_spec r Hr) as [Hr' _].
    destruct (IH (nextR r) (2 * e + nextBit r) ltac:(lia) Hr') as [B I].
    replace (2 ^ Z.of_nat (S n)) with (2 * 2 ^ Z.of_nat n) by (rewrite Nat2Z.inj_succ, Z.pow_succ_r by lia; reflexivity).
    set (p := 2 ^ Z.of_nat n) in *. assert (Hp : 0 < p) by (apply Z.pow_pos_nonneg; lia). clearbody p. split.
    + destruct Hb as [-> | ->] in B |- *; split; try (apply Z.le_trans with (2 := proj1 B)); try (apply Z.lt_le_trans with (1 := proj2 B)).
      all: replace (p * (2 * e + 0)) with (2 * (p * e)) || idtac; try lia.
      all: rewrite ?Z.mul_add_distr_l; replace (p * (2 * e)) with (2 * (p * e)) by ring;
           replace (2 * p * e) with (2 * (p * e)) by ring; lia.
    + intros x y k Hx Hy Hk H.
      pose proof (I (x * x) (y * y) (2 * k + 1) ltac:(lia) ltac:(lia) ltac:(lia) (logInv_step x y k r e Hx Hy Hk He H)) as J.
      rewrite !Z.pow_mul_r by lia. rewrite !Z.pow_2_r.
      replace (2 * p * (k + 1) - 1) with (p * (2 * k + 1 + 1) - 1) by ring. exact J.
Qed.

(** * Rounding: (1 + 1/d)^m is at most 2 *)
Lemma bernoulli d m : 0 < d -> 0 <= m -> m <= d -> (d + 1) ^ m * (d + 1 - m) <= d ^ m * (d + 1).
Proof.
  intros Hd Hm. revert m Hm. refine (natlike_ind (fun m => m <= d -> (d + 1) ^ m * (d + 1 - m) <= d ^ m * (d + 1)) _ _).
  - intros _. rewrite !Z.pow_0_r. lia.
  - intros m Hm IH Hle. specialize (IH ltac:(lia)). rewrite !Z.pow_succ_r by lia.
    set (a := (d + 1) ^ m) in *. set (b := d ^ m) in *. assert (Ha : 0 < a) by (apply Z.pow_pos_nonneg; lia). clearbody a b.
    apply Z.le_trans with (a * (d * (d + 1 - m))).
    + replace ((d + 1) * a * (d + 1 - Z.succ m)) with (a * ((d + 1) * (d - m))) by ring.
      apply Z.mul_le_mono_nonneg_l; [lia|].
      replace ((d + 1) * (d - m)) with (d * (d + 1 - m) - m) by ring. lia.
    + replace (a * (d * (d + 1 - m))) with (d * (a * (d + 1 - m))) by ring.
      replace (d * b * (d + 1)) with (d * (b * (d + 1))) by ring. apply Z.mul_le_mono_nonneg_l; lia.
Qed.
Lemma pow_rounding d m : 0 < d -> 0 <= m -> 2 * m <= d + 1 -> (d + 1) ^ m <= 2 * d ^ m.
Proof.
  intros Hd Hm H. pose proof (bernoulli d m Hd Hm ltac:(lia)) as B.
  set (a := (d + 1) ^ m) in *. set (b := d ^ m) in *. assert (Ha : 0 < a) by (apply Z.pow_pos_nonneg; lia). clearbody a b.
  apply (Z.mul_le_mono_pos_r _ _ (d + 1)); [lia|].
  apply Z.le_trans with (2 * (a * (d + 1 - m))); [|lia].
  replace (2 * (a * (d + 1 - m))) with (a * (2 * (d + 1 - m))) by ring. apply Z.mul_le_mono_nonneg_l; lia.
Qed.

(** * The logarithm of 1.0001: 2^P * 10000^Q <= 10001^Q <= 2^(P+2) * 10000^Q with Q = 2^42.
    Q and P stay variables, so that nothing ever tries to compute these powers. *)
Definition r10001 : Z := 2 ^ 127 * 10001 / 10000.
Lemma log_frac n x y r0 Q P : 0 < x -> 0 < y -> logInv x y 1 r0 0 -> Q = 2 ^ Z.of_nat n -> 4 * Q <= D ->
  P = snd (bits n r0 0) -> 0 <= P /\ 2 ^ P * y ^ Q <= x ^ Q /\ x ^ Q <= 2 ^ (P + 2) * y ^ Q.
Proof.
  intros Hx Hy I0 HQ HD HP. destruct (bits_spec n r0 0 ltac:(lia) (proj1 I0)) as [B I].
  specialize (I x y 1 Hx Hy ltac:(lia) I0). rewrite <- HQ in I, B. rewrite <- HP in I, B. rewrite Z.mul_0_r in B.
  set (r := fst (bits n r0 0)) in *. clearbody r.
  assert (HQ0 : 0 < Q) by (rewrite HQ; apply Z.pow_pos_nonneg; lia). clear HQ HP I0.
  set (k := Q * (1 + 1) - 1) in *. assert (Hk : 0 <= k) by lia. assert (Hk2 : 2 * k <= D + 1) by lia.
  clearbody k. destruct I as (R & L & U). assert (HP0 : 0 <= P) by lia. split; [exact HP0|].
  pose proof (pow_rounding D k ltac:(unfold D; lia) Hk Hk2) as PR.
  rewrite Z.pow_add_r by lia.
  assert (HE : 0 < 2 ^ P) by (apply Z.pow_pos_nonneg; lia).
  assert (HB : 0 <= y ^ Q) by (apply Z.pow_nonneg; lia).
  assert (HK : 0 < D ^ k) by (apply Z.pow_pos_nonneg; unfold D; lia).
  set (A := x ^ Q) in *. set (C := y ^ Q) in *. set (E := 2 ^ P) in *.
  set (K := D ^ k) in *. set (K1 := (D + 1) ^ k) in *. clearbody A C E K K1. split.
  - apply (Z.mul_le_mono_pos_r _ _ (2 ^ 127)); [lia|]. apply Z.le_trans with (2 := L).
    replace (E * r * C) with (E * C * r) by ring.
    apply Z.mul_le_mono_nonneg_l; [apply Z.mul_nonneg_nonneg; lia|lia].
  - apply (Z.mul_le_mono_pos_r _ _ (2 ^ 127 * K)); [lia|].
    replace (A * (2 ^ 127 * K)) with (A * 2 ^ 127 * K) by ring. apply Z.le_trans with (1 := U).
    replace (E * 2 ^ 2 * C * (2 ^ 127 * K)) with (E * C * (2 ^ 128 * (2 * K))) by ring.
    replace (E * r * K1 * C) with (E * C * (r * K1)) by ring.
    apply Z.mul_le_mono_nonneg_l; [apply Z.mul_nonneg_nonneg; lia|].
    apply Z.le_trans with (r * (2 * K)); [apply Z.mul_le_mono_nonneg_l; lia|apply Z.mul_le_mono_nonneg_r; lia].
Qed.
Lemma r10001_inv : logInv 10001 10000 1 r10001 0.
Proof. repeat split; vm_compute; congruence. Qed.
Lemma log10001 Q P : Q = 2 ^ Z.of_nat 42 -> P = snd (bits 42 r10001 0) ->
  0 <= P /\ 2 ^ P * 10000 ^ Q <= 10001 ^ Q /\ 10001 ^ Q <= 2 ^ (P + 2) * 10000 ^ Q.
Proof.
  intros HQ HP. apply (log_frac 42 10001 10000 r10001 Q P); [lia|lia|exact r10001_inv|exact HQ| |exact HP].
  rewrite HQ. vm_compute. discriminate.
Qed.

(** the ratio 1.0001^n as a fraction, and its logarithm *)
Definition num (n : Z) : Z := if n <? 0 then 10000 ^ (- n) else 10001 ^ n.
Definition den (n : Z) : Z := if n <? 0 then 10001 ^ (- n) else 10000 ^ n.
Lemma num_pos n : 0 < num n. Proof. unfold num. destruct (n <? 0) eqn:E; apply Z.pow_pos_nonneg; lia. Qed.
Lemma den_pos n : 0 < den n. Proof. unfold den. destruct (n <? 0) eqn:E; apply Z.pow_pos_nonneg; lia. Qed.
Lemma pow_swap b n m q : 0 <= n -> 0 <= m -> 0 <= q -> (b ^ n) ^ (m * q) = (b ^ q) ^ (n * m).
Proof. intros. rewrite <- !Z.pow_mul_r by (try apply Z.mul_nonneg_nonneg; lia). f_equal. ring. Qed.
(** 2^u <= a/b <= 2^v gives the same for powers *)
Lemma frac_pow_low u a b k : 0 <= u -> 0 <= a -> 0 <= b -> 0 <= k -> 2 ^ u * b <= a -> 2 ^ (u * k) * b ^ k <= a ^ k.
Proof.
  intros. rewrite Z.pow_mul_r by lia. rewrite <- Z.pow_mul_l. apply Z.pow_le_mono_l. split; [|assumption].
  apply Z.mul_nonneg_nonneg; [apply Z.pow_nonneg; lia|lia].
Qed.
Lemma frac_pow_up u a b k : 0 <= u -> 0 <= a -> 0 <= b -> 0 <= k -> a <= 2 ^ u * b -> a ^ k <= 2 ^ (u * k) * b ^ k.
Proof. intros. rewrite Z.pow_mul_r by lia. rewrite <- Z.pow_mul_l. apply Z.pow_le_mono_l. lia. Qed.
Lemma pow2_le_inv a b c d : 0 <= a -> 0 <= b -> 0 < d -> 2 ^ a * d <= c -> c <= 2 ^ b * d -> a <= b.
Proof.
  intros Ha Hb Hd H1 H2. apply (Z.pow_le_mono_r_iff 2); [lia|lia|].
  apply (Z.mul_le_mono_pos_r _ _ d Hd). lia.
Qed.

(** a lower bound u and an upper bound v, in units of 1/(NQ), of the logarithm of 1.0001^n *)
Lemma num_den_low Q P N n : 0 <= P -> 0 <= Q -> 0 <= N -> 2 ^ P * 10000 ^ Q <= 10001 ^ Q -> 0 <= n ->
  2 ^ (P * (n * N)) * den n ^ (N * Q) <= num n ^ (N * Q).
Proof.
  intros HP HQ HN H Hn. unfold num, den. replace (n <? 0) with false by lia. rewrite (pow_swap 10001 n N Q), (pow_swap 10000 n N Q) by lia.
  apply frac_pow_low; try apply Z.pow_nonneg; try apply Z.mul_nonneg_nonneg; try lia. 
Qed.
Lemma num_den_up Q P N n : 0 <= P -> 0 <= Q -> 0 <= N -> 10001 ^ Q <= 2 ^ P * 10000 ^ Q -> 0 <= n ->
  num n ^ (N * Q) <= 2 ^ (P * (n * N)) * den n ^ (N * Q).
Proof.
  intros HP HQ HN H Hn. unfold num, den. replace (n <? 0) with false by lia. rewrite (pow_swap 10001 n N Q), (pow_swap 10000 n N Q) by lia.
  apply frac_pow_up; try apply Z.pow_nonneg; try apply Z.mul_nonneg_nonneg; try lia.
Qed.
Lemma num_neg n : n < 0 -> num n = den (- n).
Proof. intros. unfold num, den. replace (n <? 0) with true by lia. replace (- n <? 0) with false by lia. reflexivity. Qed.
Lemma den_neg n : n < 0 -> den n = num (- n).
Proof. intros. unfold num, den. replace (n <? 0) with true by lia. replace (- n <? 0) with false by lia. reflexivity. Qed.

Lemma D_pos : 0 < D. Proof. reflexivity. Qed.
Lemma two58_pos : 0 < 2 ^ 58. Proof. reflexivity. Qed.

(** * From logarithms to ticks *)
Lemma rat_close' t : MinTick <= t <= MaxTick -> close (rat t) (num t) (den t).
Proof. exact (rat_close t). Qed.

(** a price below the ratio of tick n: bound on its logarithm from above *)
Lemma below_tick Q P N n p x G :
  0 <= P -> 0 <= Q -> 0 <= N -> 0 <= G -> 2 * (N * Q) <= 2 ^ 58 + 1 ->
  2 ^ P * 10000 ^ Q <= 10001 ^ Q -> 10001 ^ Q <= 2 ^ (P + 2) * 10000 ^ Q ->
  MinTick <= n <= MaxTick -> 0 <= p < rat n -> x = p * 2 ^ 32 -> 2 ^ G <= x ^ N ->
  2 * G * Q <= 256 * (N * Q) + 1 + (if n <? 0 then P else P + 2) * (n * N).
Proof.
  intros HP HQ HN HG HNQ L U Hn Hp Hx Hl.
  destruct (rat_close' n Hn) as [C _].
  assert (HM : 0 <= N * Q) by (apply Z.mul_nonneg_nonneg; lia).
  assert (S : p * p <= (rat n - 1) * (rat n - 1)) by (apply sq_le; lia).
  pose proof (num_pos n) as HA. pose proof (den_pos n) as HB.
  assert (C1 : x * x * den n * 2 ^ 58 <= 2 ^ 256 * num n * (2 ^ 58 + 1)).
  { subst x. apply Z.le_trans with (2 ^ 64 * ((rat n - 1) * (rat n - 1) * den n * 2 ^ 58)); [|lia].
    replace (p * 2 ^ 32 * (p * 2 ^ 32) * den n * 2 ^ 58) with (2 ^ 64 * (p * p * den n * 2 ^ 58)) by ring.
    apply Z.mul_le_mono_nonneg_l; [lia|]. apply Z.mul_le_mono_nonneg_r; [lia|]. apply Z.mul_le_mono_nonneg_r; lia. }
  assert (Hx0 : 0 <= x) by lia.
  assert (C2 : (x * x) ^ (N * Q) * den n ^ (N * Q) * (2 ^ 58) ^ (N * Q) <=
               2 ^ (256 * (N * Q)) * num n ^ (N * Q) * (2 ^ 58 + 1) ^ (N * Q)).
  { rewrite (Z.pow_mul_r 2 256) by lia. rewrite <- !Z.pow_mul_l. apply Z.pow_le_mono_l. split; [|exact C1].
    repeat apply Z.mul_nonneg_nonneg; lia. }
  pose proof (pow_rounding (2 ^ 58) (N * Q) two58_pos HM HNQ) as R.
  assert (X : 2 ^ (2 * G * Q) <= (x * x) ^ (N * Q)).
  { rewrite Z.pow_mul_l, <- Z.pow_add_r by lia. replace (N * Q + N * Q) with (N * (2 * Q)) by ring.
    rewrite (Z.pow_mul_r x N) by lia. replace (2 * G * Q) with (G * (2 * Q)) by ring. rewrite (Z.pow_mul_r 2 G) by lia.
    apply Z.pow_le_mono_l. split; [apply Z.pow_nonneg; lia|exact Hl]. }
  assert (V : 2 ^ (2 * G * Q) * den n ^ (N * Q) <= 2 ^ (256 * (N * Q) + 1) * num n ^ (N * Q)).
  { rewrite Z.pow_add_r by lia.
    assert (K : 0 < (2 ^ 58) ^ (N * Q)) by (apply Z.pow_pos_nonneg; lia).
    assert (Hd : 0 <= den n ^ (N * Q)) by (apply Z.pow_nonneg; lia).
    assert (Hm : 0 <= num n ^ (N * Q)) by (apply Z.pow_nonneg; lia).
    assert (HE : 0 <= 2 ^ (256 * (N * Q))) by (apply Z.pow_nonneg; lia).
    set (k := (2 ^ 58) ^ (N * Q)) in *. set (k1 := (2 ^ 58 + 1) ^ (N * Q)) in *.
    set (d := den n ^ (N * Q)) in *. set (m := num n ^ (N * Q)) in *. set (E := 2 ^ (256 * (N * Q))) in *.
    set (g := 2 ^ (2 * G * Q)) in *. set (y := (x * x) ^ (N * Q)) in *. clearbody k k1 d m E g y.
    apply (Z.mul_le_mono_pos_r _ _ k K). apply Z.le_trans with (y * d * k).
    - apply Z.mul_le_mono_nonneg_r; [lia|]. apply Z.mul_le_mono_nonneg_r; lia.
    - apply Z.le_trans with (1 := C2). replace (E * 2 ^ 1 * m * k) with (E * m * (2 * k)) by ring.
      apply Z.mul_le_mono_nonneg_l; [apply Z.mul_nonneg_nonneg; lia|exact R]. }
  assert (HG2 : 0 <= 2 * G * Q) by (apply Z.mul_nonneg_nonneg; lia).
  clear C C1 C2 R X S Hl HNQ Hp Hx0 Hx.
  destruct (n <? 0) eqn:En.
  - rewrite (num_neg n), (den_neg n) in V by (clear -En; lia).
    assert (Hn0 : 0 <= - n) by (clear -En; lia).
    pose proof (num_den_low Q P N (- n) HP HQ HN L Hn0) as W.
    assert (HnN : 0 <= P * (- n * N)) by (apply Z.mul_nonneg_nonneg; [lia|apply Z.mul_nonneg_nonneg; lia]).
    assert (Y : 2 * G * Q + P * (- n * N) <= 256 * (N * Q) + 1).
    { apply (pow2_le_inv _ _ (2 ^ (2 * G * Q) * num (- n) ^ (N * Q)) (den (- n) ^ (N * Q)));
        [lia|lia|apply Z.pow_pos_nonneg; [apply den_pos|lia]|idtac|exact V].
      - rewrite Z.pow_add_r by lia. rewrite <- Z.mul_assoc. apply Z.mul_le_mono_nonneg_l; [apply Z.pow_nonneg; lia|exact W]. }
    replace (P * (n * N)) with (- (P * (- n * N))) by ring. lia.
  - assert (Hn0 : 0 <= n) by (clear -En; lia). assert (HP2 : 0 <= P + 2) by (clear -HP; lia).
    pose proof (num_den_up Q (P + 2) N n HP2 HQ HN U Hn0) as W.
    assert (HnN : 0 <= (P + 2) * (n * N)) by (apply Z.mul_nonneg_nonneg; [lia|apply Z.mul_nonneg_nonneg; lia]).
    apply (pow2_le_inv _ _ (2 ^ (2 * G * Q) * den n ^ (N * Q)) (den n ^ (N * Q)));
      [lia|lia|apply Z.pow_pos_nonneg; [apply den_pos|lia]|apply Z.le_refl|].
    + rewrite (Z.pow_add_r 2 (256 * (N * Q) + 1)) by lia. apply Z.le_trans with (1 := V). rewrite <- Z.mul_assoc.
      apply Z.mul_le_mono_nonneg_l; [apply Z.pow_nonneg; lia|exact W].
Qed.

Lemma above_X Q N x G k : 0 <= Q -> 0 <= N -> 0 <= G -> 0 <= x -> 0 <= N * Q -> 0 <= k -> 2 * (k * (2 * Q)) <= D + 1 ->
  x ^ N * D ^ k <= 2 ^ (G + 1) * (D + 1) ^ k -> (x * x) ^ (N * Q) <= 2 ^ (2 * (G + 1) * Q) * 2.
Proof.
  intros HQ HN HG Hx0 HM Hk HkQ Hl.
  assert (HkQ0 : 0 <= k * (2 * Q)) by (apply Z.mul_nonneg_nonneg; lia).
  pose proof (pow_rounding D (k * (2 * Q)) D_pos HkQ0 HkQ) as R2. clear HkQ.
  rewrite Z.pow_mul_l, <- Z.pow_add_r by (clear -HM; lia). replace (N * Q + N * Q) with (N * (2 * Q)) by ring.
  rewrite (Z.pow_mul_r x N) by (clear -HN HQ; lia). replace (2 * (G + 1) * Q) with ((G + 1) * (2 * Q)) by ring.
  rewrite (Z.pow_mul_r 2 (G + 1)) by (clear -HG HQ; lia).
  assert (K : 0 < D ^ (k * (2 * Q))) by (apply Z.pow_pos_nonneg; [exact D_pos|exact HkQ0]).
  assert (T : (x ^ N) ^ (2 * Q) * D ^ (k * (2 * Q)) <= (2 ^ (G + 1)) ^ (2 * Q) * (D + 1) ^ (k * (2 * Q))).
  { rewrite !(Z.pow_mul_r _ k) by (clear -Hk HQ; lia). rewrite <- !Z.pow_mul_l. apply Z.pow_le_mono_l. split; [|exact Hl].
    apply Z.mul_nonneg_nonneg; apply Z.pow_nonneg; [exact Hx0|discriminate]. }
  assert (HE : 0 <= (2 ^ (G + 1)) ^ (2 * Q)) by (apply Z.pow_nonneg, Z.pow_nonneg; discriminate).
  set (y := (x ^ N) ^ (2 * Q)) in *. set (E := (2 ^ (G + 1)) ^ (2 * Q)) in *.
  set (d := D ^ (k * (2 * Q))) in *. set (d1 := (D + 1) ^ (k * (2 * Q))) in *. clearbody y E d d1.
  apply (Z.mul_le_mono_pos_r _ _ d K). apply Z.le_trans with (1 := T). rewrite <- Z.mul_assoc.
  apply Z.mul_le_mono_nonneg_l; [exact HE|exact R2].
Qed.
Lemma above_V E m d y g kk k1 : 0 < kk -> 0 <= d -> 0 <= g -> 0 <= y -> k1 <= 2 * kk -> y <= g * 2 ->
  E * m * kk <= y * d * k1 -> E * m <= g * 2 ^ 2 * d.
Proof.
  intros K Hd HE Hy R X C2.
  apply (Z.mul_le_mono_pos_r _ _ kk K). apply Z.le_trans with (1 := C2).
  apply Z.le_trans with (y * d * (2 * kk)).
  - apply Z.mul_le_mono_nonneg_l; [apply Z.mul_nonneg_nonneg; lia|exact R].
  - replace (g * 2 ^ 2 * d * kk) with (g * 2 * d * (2 * kk)) by ring.
    apply Z.mul_le_mono_nonneg_r; [lia|]. apply Z.mul_le_mono_nonneg_r; lia.
Qed.
Lemma above_fin Q P N n G : 0 <= P -> 0 <= Q -> 0 <= N -> 0 <= N * Q -> 0 <= 2 * (G + 1) * Q ->
  2 ^ P * 10000 ^ Q <= 10001 ^ Q -> 10001 ^ Q <= 2 ^ (P + 2) * 10000 ^ Q ->
  2 ^ (256 * (N * Q)) * num n ^ (N * Q) <= 2 ^ (2 * (G + 1) * Q + 2) * den n ^ (N * Q) ->
  256 * (N * Q) + (if n <? 0 then P + 2 else P) * (n * N) <= 2 * (G + 1) * Q + 2.
Proof.
  intros HP HQ HN HM HG2 L U V.
  destruct (n <? 0) eqn:En.
  - rewrite (num_neg n), (den_neg n) in V by (clear -En; lia).
    assert (Hn0 : 0 <= - n) by (clear -En; lia). assert (HP2 : 0 <= P + 2) by (clear -HP; lia).
    pose proof (num_den_up Q (P + 2) N (- n) HP2 HQ HN U Hn0) as W.
    assert (HnN : 0 <= (P + 2) * (- n * N)) by (apply Z.mul_nonneg_nonneg; [lia|apply Z.mul_nonneg_nonneg; lia]).
    assert (Y : 256 * (N * Q) <= 2 * (G + 1) * Q + 2 + (P + 2) * (- n * N)).
    { apply (pow2_le_inv _ _ (2 ^ (256 * (N * Q)) * den (- n) ^ (N * Q)) (den (- n) ^ (N * Q)));
        [lia|lia|apply Z.pow_pos_nonneg; [apply den_pos|lia]|apply Z.le_refl|].
      - rewrite (Z.pow_add_r 2 (2 * (G + 1) * Q + 2)) by lia. apply Z.le_trans with (1 := V).
        rewrite <- (Z.mul_assoc (2 ^ (2 * (G + 1) * Q + 2))).
        apply Z.mul_le_mono_nonneg_l; [apply Z.pow_nonneg; lia|exact W]. }
    replace ((P + 2) * (n * N)) with (- ((P + 2) * (- n * N))) by ring. lia.
  - assert (Hn0 : 0 <= n) by (clear -En; lia).
    pose proof (num_den_low Q P N n HP HQ HN L Hn0) as W.
    assert (HnN : 0 <= P * (n * N)) by (apply Z.mul_nonneg_nonneg; [lia|apply Z.mul_nonneg_nonneg; lia]).
    apply (pow2_le_inv _ _ (2 ^ (256 * (N * Q)) * num n ^ (N * Q)) (den n ^ (N * Q)));
      [lia|lia|apply Z.pow_pos_nonneg; [apply den_pos|lia]|idtac|exact V].
    + rewrite Z.pow_add_r by lia. rewrite <- Z.mul_assoc. apply Z.mul_le_mono_nonneg_l; [apply Z.pow_nonneg; lia|exact W].
Qed.
(** a price not below the ratio of tick n: bound on its logarithm from below *)
Lemma above_tick Q P N n p x G k :
  0 <= P -> 0 <= Q -> 0 <= N -> 0 <= G -> 2 * (N * Q) <= 2 ^ 58 + 1 -> 0 <= k -> 2 * (k * (2 * Q)) <= D + 1 ->
  2 ^ P * 10000 ^ Q <= 10001 ^ Q -> 10001 ^ Q <= 2 ^ (P + 2) * 10000 ^ Q ->
  MinTick <= n <= MaxTick -> 0 <= rat n <= p -> x = p * 2 ^ 32 -> x ^ N * D ^ k <= 2 ^ (G + 1) * (D + 1) ^ k ->
  256 * (N * Q) + (if n <? 0 then P + 2 else P) * (n * N) <= 2 * (G + 1) * Q + 2.
Proof.
  intros HP HQ HN HG HNQ Hk HkQ L U Hn Hp Hx Hl.
  destruct (rat_close' n Hn) as [_ C].
  assert (HM : 0 <= N * Q) by (apply Z.mul_nonneg_nonneg; lia).
  assert (S : rat n * rat n <= p * p) by (apply sq_le; lia).
  pose proof (num_pos n) as HA. pose proof (den_pos n) as HB.
  assert (C1 : 2 ^ 256 * num n * 2 ^ 58 <= x * x * den n * (2 ^ 58 + 1)).
  { subst x. apply Z.le_trans with (2 ^ 64 * (rat n * rat n * den n * (2 ^ 58 + 1))); [lia|].
    replace (p * 2 ^ 32 * (p * 2 ^ 32) * den n * (2 ^ 58 + 1)) with (2 ^ 64 * (p * p * den n * (2 ^ 58 + 1))) by ring.
    apply Z.mul_le_mono_nonneg_l; [lia|]. apply Z.mul_le_mono_nonneg_r; [lia|]. apply Z.mul_le_mono_nonneg_r; lia. }
  assert (Hx0 : 0 <= x) by lia.
  assert (C2 : 2 ^ (256 * (N * Q)) * num n ^ (N * Q) * (2 ^ 58) ^ (N * Q) <=
               (x * x) ^ (N * Q) * den n ^ (N * Q) * (2 ^ 58 + 1) ^ (N * Q)).
  { rewrite (Z.pow_mul_r 2 256) by lia. rewrite <- !Z.pow_mul_l. apply Z.pow_le_mono_l. split; [|exact C1].
    repeat apply Z.mul_nonneg_nonneg; lia. }
  pose proof (pow_rounding (2 ^ 58) (N * Q) two58_pos HM HNQ) as R.
  apply (above_fin Q P N n G HP HQ HN HM); [apply Z.mul_nonneg_nonneg; clear -HG HQ; lia|exact L|exact U|].
  rewrite (Z.pow_add_r 2 (2 * (G + 1) * Q)) by (try apply Z.mul_nonneg_nonneg; clear -HG HQ; lia).
  apply (above_V _ _ _ ((x * x) ^ (N * Q)) _ ((2 ^ 58) ^ (N * Q)) ((2 ^ 58 + 1) ^ (N * Q))); [| | | |exact R| |exact C2].
  - apply Z.pow_pos_nonneg; [reflexivity|exact HM].
  - apply Z.pow_nonneg. clear -HB. lia.
  - apply Z.pow_nonneg. discriminate.
  - apply Z.pow_nonneg, Z.mul_nonneg_nonneg; exact Hx0.
  - exact (above_X Q N x G k HQ HN HG Hx0 HM Hk HkQ Hl).
Qed.

(** * The loop of the code *)
Lemma lor_bit a k f : 0 <= k < 255 -> f = 0 \/ f = 1 ->
  Z.lor ((a * 2 ^ (k + 1)) mod 2 ^ 256) (f * 2 ^ k) = ((2 * a + f) * 2 ^ k) mod 2 ^ 256.
Proof.
  intros Hk Hf. assert (Hp : 2 ^ (k + 1) = 2 * 2 ^ k) by (rewrite Z.pow_add_r by lia; lia).
  assert (Hp0 : 0 < 2 ^ k) by (apply Z.pow_pos_nonneg; lia).
  destruct Hf as [-> | ->].
  - rewrite Z.mul_0_l, Z.lor_0_r, Hp. f_equal. ring.
  - set (z := a mod 2 ^ (256 - (k + 1))).
    assert (Hh : (a * 2 ^ (k + 1)) mod 2 ^ 256 = z * 2 ^ (k + 1)).
    { replace (2 ^ 256) with (2 ^ (256 - (k + 1)) * 2 ^ (k + 1)) by (rewrite <- Z.pow_add_r by lia; f_equal; lia).
      apply Z.mul_mod_distr_r; apply Z.pow_nonzero; lia. }
    assert (Hz : 0 <= z < 2 ^ (256 - (k + 1))) by (apply Z.mod_pos_bound, Z.pow_pos_nonneg; lia).
    assert (HL : Z.land (z * 2 ^ (k + 1)) (1 * 2 ^ k) = 0).
    { apply Z.bits_inj'. intros i Hi. rewrite Z.land_spec, Z.bits_0, Z.mul_1_l, Z.pow2_bits_eqb by lia.
      destruct (k =? i) eqn:E; [|apply andb_false_r]. rewrite Z.mul_pow2_bits_low by lia. reflexivity. }
    rewrite Hh, <- Z.lxor_lor, <- Z.add_nocarry_lxor by exact HL. rewrite Z.mul_1_l.
    assert (Ht : 2 ^ 256 = 2 ^ (256 - (k + 1)) * (2 * 2 ^ k)) by (rewrite <- Hp, <- Z.pow_add_r by lia; f_equal; lia).
    apply Z.mod_unique with (q := a / 2 ^ (256 - (k + 1))).
    + left. rewrite Hp. rewrite Ht. set (w := 2 ^ (256 - (k + 1))) in *. set (p := 2 ^ k) in *. clearbody w p.
      split; [apply Z.add_nonneg_nonneg; [apply Z.mul_nonneg_nonneg|]; lia|].
      apply Z.lt_le_trans with ((z + 1) * (2 * p)); [rewrite Z.mul_add_distr_r; lia|].
      apply Z.mul_le_mono_nonneg_r; lia.
    + rewrite Ht, Hp. pose proof (Z.div_mod a (2 ^ (256 - (k + 1))) ltac:(apply Z.pow_nonzero; lia)) as Q. fold z in Q.
      set (q := a / 2 ^ (256 - (k + 1))) in *. clearbody q z. rewrite Q. ring.
Qed.

Lemma logBit_ok i r e : 0 <= i <= 13 -> 2 ^ 127 <= r < 2 ^ 128 ->
  logBit i (r, ((e - 128 * 2 ^ i) * 2 ^ (64 - i)) mod 2 ^ 256) =
  (nextR r, ((2 * e + nextBit r - 128 * 2 ^ (i + 1)) * 2 ^ (64 - (i + 1))) mod 2 ^ 256).
Proof.
  intros Hi Hr. assert (S2 : 0 <= r * r < 2 ^ 256).
  { split; [apply Z.mul_nonneg_nonneg; lia|].
    change (2 ^ 256) with (2 ^ 128 * 2 ^ 128). apply Z.mul_lt_mono_nonneg; lia. }
  unfold logBit. unfold umul. change T256 with (2 ^ 256). rewrite (Z.mod_small (r * r)) by exact S2.
  cbv beta zeta. change (ursh (r * r) 127) with (r * r / 2 ^ 127).
  assert (F : ursh (r * r / 2 ^ 127) 128 = nextBit r).
  { unfold ursh, nextBit. assert (Hq : 0 <= r * r / 2 ^ 127 < 2 ^ 129).
    { split; [apply Z.div_pos; lia|]. apply Z.div_lt_upper_bound; lia. }
    set (q := r * r / 2 ^ 127) in *. clearbody q. destruct (q <? 2 ^ 128) eqn:E; [apply Z.div_small; lia|].
    symmetry. apply Z.div_unique with (r := q - 2 ^ 128); lia. }
  rewrite F. pose proof (nextBit_01 r) as Hb. f_equal.
  - unfold nextR, ursh. rewrite Z.mod_small; [reflexivity|]. clear -Hb. destruct Hb as [-> | ->]; split; reflexivity || discriminate.
  - unfold ulsh. change T256 with (2 ^ 256).
    rewrite (Z.mod_small (nextBit r * 2 ^ (63 - i))).
    + replace (64 - i) with (63 - i + 1) by lia. rewrite lor_bit by (exact Hb || lia). f_equal.
      replace (64 - (i + 1)) with (63 - i) by lia. rewrite Z.pow_add_r by lia. ring.
    + assert (2 ^ (63 - i) <= 2 ^ 63) by (apply Z.pow_le_mono_r; lia).
      assert (0 < 2 ^ (63 - i)) by (apply Z.pow_pos_nonneg; lia). destruct Hb as [-> | ->]; lia.
Qed.
Lemma logLoop_ok n : forall i r e, 0 <= i -> i + Z.of_nat n <= 14 -> 0 <= e -> 2 ^ 127 <= r < 2 ^ 128 ->
  logLoop n i (r, ((e - 128 * 2 ^ i) * 2 ^ (64 - i)) mod 2 ^ 256) =
  (fst (bits n r e), ((snd (bits n r e) - 128 * 2 ^ (i + Z.of_nat n)) * 2 ^ (64 - (i + Z.of_nat n))) mod 2 ^ 256).
Proof.
  induction n as [|n IH]; intros i r e Hi Hn He Hr.
  - cbn [logLoop bits fst snd]. change (Z.of_nat 0) with 0. rewrite Z.add_0_r. reflexivity.
  - cbn [logLoop bits]. rewrite logBit_ok by lia. pose proof (nextBit_01 r) as Hb.
    destruct (nextR_spec r Hr) as [Hr' _]. rewrite IH by lia. replace (i + 1 + Z.of_nat n) with (i + Z.of_nat (S n)) by lia.
    reflexivity.
Qed.

(** the start: the price times 2^32, brought to [2^127, 2^128) *)
Lemma logStart_ok p : 0 < p < 2 ^ 160 ->
  exists r M, logStart p = (r, ((M - 128 * 2 ^ 0) * 2 ^ (64 - 0)) mod 2 ^ 256) /\ 0 <= M < 192 /\ logInv (p * 2 ^ 32) 1 1 r M.
Proof.
  intros Hp. assert (Hx : 0 < p * 2 ^ 32 < 2 ^ 192) by lia.
  unfold logStart. cbv beta zeta. change (ulsh p 32) with ((p * 2 ^ 32) mod 2 ^ 256). rewrite (Z.mod_small (p * 2 ^ 32)) by lia.
  set (x := p * 2 ^ 32) in *. clearbody x.
  pose proof (msb_bracket x ltac:(lia)) as B. rewrite msb_log2 in * by (change T256 with (2 ^ 256); lia).
  set (M := Z.log2 x) in *. assert (HM0 : 0 <= M) by apply Z.log2_nonneg.
  assert (HM : M < 192). { apply (Z.pow_lt_mono_r_iff 2); lia. }
  clearbody M. rewrite Z.pow_add_r in B by lia. 
  assert (HL : ulsh (usub M 128) 64 = ((M - 128 * 2 ^ 0) * 2 ^ (64 - 0)) mod 2 ^ 256).
  { unfold ulsh, usub. change T256 with (2 ^ 256). rewrite Z.mul_mod_idemp_l by lia. reflexivity. }
  rewrite HL. eexists. exists M. split; [reflexivity|]. split; [lia|]. clear HL Hp p.
  unfold logInv, D. rewrite !Z.pow_1_r, !Z.mul_1_r. destruct (128 <=? M) eqn:E.
  - unfold ursh. set (s := M - 127). assert (Hs : 2 ^ M = 2 ^ s * 2 ^ 127) by (unfold s; rewrite <- Z.pow_add_r by lia; f_equal; lia).
    assert (Hs0 : 0 < 2 ^ s) by (apply Z.pow_pos_nonneg; unfold s; lia). rewrite Hs in *.
    pose proof (Z.div_mod x (2 ^ s) ltac:(lia)) as Q. pose proof (Z.mod_pos_bound x (2 ^ s) Hs0) as R.
    set (b := 2 ^ s) in *. set (r := x / b) in *. set (m := x mod b) in *. clearbody b r m. clear s Hs E HM0 HM.
    assert (Hr : 2 ^ 127 <= r < 2 ^ 128).
    { split.
      - apply Z.lt_succ_r. apply (Z.mul_lt_mono_pos_l b); [lia|]. lia.
      - apply (Z.mul_lt_mono_pos_l b); [lia|]. lia. }
    split; [exact Hr|]. split; [lia|].
    apply Z.le_trans with (b * (r + 1) * (2 ^ 127 * 2 ^ 127)).
    + replace (x * 2 ^ 127 * 2 ^ 127) with (x * (2 ^ 127 * 2 ^ 127)) by ring. apply Z.mul_le_mono_nonneg_r; [lia|lia].
    + replace (b * (r + 1) * (2 ^ 127 * 2 ^ 127)) with (b * 2 ^ 127 * ((r + 1) * 2 ^ 127)) by ring.
      replace (b * 2 ^ 127 * r * (2 ^ 127 + 1)) with (b * 2 ^ 127 * (r * (2 ^ 127 + 1))) by ring.
      apply Z.mul_le_mono_nonneg_l; lia.
  - unfold ulsh. change T256 with (2 ^ 256).
    assert (Hs : 2 ^ 127 = 2 ^ M * 2 ^ (127 - M)) by (rewrite <- Z.pow_add_r by lia; f_equal; lia).
    assert (Hs0 : 0 < 2 ^ (127 - M)) by (apply Z.pow_pos_nonneg; lia).
    assert (HM1 : 0 < 2 ^ M) by (apply Z.pow_pos_nonneg; lia).
    set (b := 2 ^ (127 - M)) in *. set (c := 2 ^ M) in *. clearbody b c.
    assert (H1 : c * b <= x * b) by (apply Z.mul_le_mono_nonneg_r; lia).
    assert (H2 : x * b < c * 2 ^ 1 * b) by (apply Z.mul_lt_mono_pos_r; lia).
    replace (c * 2 ^ 1 * b) with (2 * (c * b)) in H2 by ring. rewrite <- Hs in H1, H2.
    assert (HE : c * (x * b) = x * 2 ^ 127) by (rewrite Hs; ring).
    rewrite (Z.mod_small (x * b)) by lia. rewrite HE. split; [lia|]. split; [lia|].
    apply Z.mul_le_mono_nonneg_l; lia.
Qed.

(** * The two candidates *)
Lemma high_part v : - 2 ^ 191 <= v < 2 ^ 191 -> int64 (ursh (v mod 2 ^ 256) 128 mod W) = v / 2 ^ 128.
Proof.
  intros Hv. unfold ursh, int64. change W with (2 ^ 64).
  assert (A : v mod 2 ^ 256 / 2 ^ 128 = (v / 2 ^ 128) mod 2 ^ 128).
  { change (2 ^ 256) with (2 ^ 128 * 2 ^ 128). rewrite Z.rem_mul_r by lia.
    rewrite Z.add_comm, Z.mul_comm, Z.div_add_l by lia. rewrite (Z.div_small (v mod 2 ^ 128)) by (apply Z.mod_pos_bound; lia). lia. }
  rewrite A. set (q := v / 2 ^ 128). assert (Hq : - 2 ^ 63 <= q < 2 ^ 63).
  { unfold q. split; [apply Z.div_le_lower_bound; lia|apply Z.div_lt_upper_bound; lia]. }
  clearbody q. clear A Hv v.
  change (2 ^ 128) with (2 ^ 64 * 2 ^ 64). rewrite Z.rem_mul_r by lia. rewrite Z.mul_comm, Z.mod_add by lia.
  rewrite Z.mod_mod by lia. rewrite Z.add_mod_idemp_l by lia. rewrite Z.mod_small by lia. lia.
Qed.
Lemma candidates_ok E : - 2 ^ 22 <= E <= 2 ^ 22 ->
  tickCandidates ((E * 2 ^ 50) mod 2 ^ 256) =
  ((E * (2 ^ 50 * magicSqrt10001) - magicTickLow) / 2 ^ 128, (E * (2 ^ 50 * magicSqrt10001) + magicTickHigh) / 2 ^ 128).
Proof.
  intros HE. unfold tickCandidates, umul, usub, uadd. change T256 with (2 ^ 256). rewrite Z.mul_mod_idemp_l by lia.
  rewrite Zminus_mod_idemp_l, Z.add_mod_idemp_l by lia.
  unfold magicSqrt10001, magicTickLow, magicTickHigh in *.
  rewrite !high_part by lia. rewrite <- Z.mul_assoc. reflexivity.
Qed.

Definition P10001 : Z := Eval vm_compute in snd (bits 42 r10001 0).
Lemma P10001_ok : P10001 = snd (bits 42 r10001 0). Proof. vm_cast_no_check (eq_refl P10001). Qed.

(** the exponent of the logarithm brackets the price *)
Lemma log_bracket_gen n x r M N k : N = 2 ^ Z.of_nat n -> k = N * (1 + 1) - 1 -> 0 < x -> 0 <= M < 192 -> logInv x 1 1 r M ->
  let G := snd (bits n r M) in
  0 <= G < N * 192 /\ 2 ^ G <= x ^ N /\ x ^ N * D ^ k <= 2 ^ (G + 1) * (D + 1) ^ k.
Proof.
  intros HN Hk Hx HM I G. subst G.
  destruct (bits_spec n r M (proj1 HM) (proj1 I)) as [B J].
  specialize (J x 1 1 Hx eq_refl ltac:(discriminate) I). rewrite <- HN in B, J. rewrite <- Hk in J.
  assert (HN0 : 0 < N) by (rewrite HN; apply Z.pow_pos_nonneg; lia).
  set (G := snd (bits n r M)) in *. set (R := fst (bits n r M)) in *. clearbody G R. clear HN Hk.
  assert (HG : 0 <= G < N * 192).
  { split.
    - apply Z.le_trans with (2 := proj1 B). apply Z.mul_nonneg_nonneg; lia.
    - apply Z.lt_le_trans with (1 := proj2 B). apply Z.mul_le_mono_nonneg_l; lia. }
  split; [exact HG|]. clear B HM. destruct J as (HR & L & U). rewrite Z.pow_1_l in L, U by (clear -HN0; lia).
  rewrite !Z.mul_1_r in L, U. rewrite Z.pow_add_r by (discriminate || exact (proj1 HG)).
  assert (HD1 : 0 <= (D + 1) ^ k) by (apply Z.pow_nonneg; discriminate).
  assert (HG0 : 0 <= 2 ^ G) by (apply Z.pow_nonneg; discriminate).
  set (X := x ^ N) in *. set (d := D ^ k) in *. set (d1 := (D + 1) ^ k) in *. set (g := 2 ^ G) in *.
  clearbody X d d1 g. clear -HR L U HD1 HG0. split.
  - apply (Z.mul_le_mono_pos_r _ _ (2 ^ 127)); [lia|]. apply Z.le_trans with (2 := L). apply Z.mul_le_mono_nonneg_l; lia.
  - apply (Z.mul_le_mono_pos_r _ _ (2 ^ 127)); [lia|].
    replace (X * d * 2 ^ 127) with (X * 2 ^ 127 * d) by ring. apply Z.le_trans with (1 := U).
    replace (g * 2 ^ 1 * d1 * 2 ^ 127) with (g * 2 ^ 128 * d1) by ring.
    apply Z.mul_le_mono_nonneg_r; [exact HD1|]. apply Z.mul_le_mono_nonneg_l; lia.
Qed.
Lemma log_loop_gen n r M : (n <= 14)%nat -> 0 <= M -> 2 ^ 127 <= r < 2 ^ 128 ->
  snd (logLoop n 0 (r, ((M - 128 * 2 ^ 0) * 2 ^ (64 - 0)) mod 2 ^ 256)) =
  ((snd (bits n r M) - 128 * 2 ^ Z.of_nat n) * 2 ^ (64 - Z.of_nat n)) mod 2 ^ 256.
Proof. intros Hn HM Hr. rewrite (logLoop_ok n 0 r M) by lia. cbn [snd]. rewrite Z.add_0_l. reflexivity. Qed.
Lemma log_bracket p N k : 0 < p < 2 ^ 160 -> N = 2 ^ Z.of_nat 14 -> k = N * (1 + 1) - 1 ->
  exists G, snd (logLoop 14 0 (logStart p)) = ((G - 128 * 2 ^ Z.of_nat 14) * 2 ^ (64 - Z.of_nat 14)) mod 2 ^ 256 /\
  0 <= G < N * 192 /\ 2 ^ G <= (p * 2 ^ 32) ^ N /\
  (p * 2 ^ 32) ^ N * D ^ k <= 2 ^ (G + 1) * (D + 1) ^ k.
Proof.
  intros Hp HN Hk. destruct (logStart_ok p Hp) as (r & M & E & HM & I).
  assert (Hx : 0 < p * 2 ^ 32) by (clear -Hp; lia).
  exists (snd (bits 14 r M)). split.
  - rewrite E. exact (log_loop_gen 14 r M (le_n 14) (proj1 HM) (proj1 I)).
  - exact (log_bracket_gen 14 (p * 2 ^ 32) r M N k HN Hk Hx HM I).
Qed.

Lemma getSqrtRatioAtTick_rat t : MinTick <= t <= MaxTick -> getSqrtRatioAtTick t = Ok (rat t).
Proof.
  intros H. pose proof (rat_ok t H) as E. unfold GetSqrtRatioAtTick, ticks in E.
  replace ((0 <=? t + MaxTick) && (t + MaxTick <? TotalTicks)) with true in E by (unfold TotalTicks, MinTick, MaxTick in *; lia).
  replace (t + MaxTick + MinTick) with t in E by (unfold MinTick, MaxTick; lia). exact E.
Qed.

(** the candidates bracket the tick *)
Lemma low_linear G t : 0 <= G < 2 ^ 14 * 192 -> MinTick <= t < MaxTick ->
  t + 1 <= ((G - 128 * 2 ^ 14) * (2 ^ 50 * magicSqrt10001) - magicTickLow) / 2 ^ 128 ->
  2 * G * 2 ^ 42 <= 256 * (2 ^ 14 * 2 ^ 42) + 1 + (if t + 1 <? 0 then P10001 else P10001 + 2) * ((t + 1) * 2 ^ 14) -> False.
Proof.
  unfold MinTick, MaxTick, magicSqrt10001, magicTickLow, P10001. intros HG Ht H1 H2.
  apply (Z.mul_le_mono_nonneg_l _ _ (2 ^ 128)) in H1; [|discriminate].
  pose proof (Z.mul_div_le ((G - 128 * 2 ^ 14) * (2 ^ 50 * 0x3627A301D71055774C85) - 0x28F6481AB7F045A5AF012A19D003AAA) (2 ^ 128) eq_refl) as H3.
  destruct (t + 1 <? 0) eqn:E; lia.
Qed.
Lemma high_linear G t : 0 <= G < 2 ^ 14 * 192 -> MinTick <= t < MaxTick ->
  ((G - 128 * 2 ^ 14) * (2 ^ 50 * magicSqrt10001) + magicTickHigh) / 2 ^ 128 < t ->
  256 * (2 ^ 14 * 2 ^ 42) + (if t <? 0 then P10001 + 2 else P10001) * (t * 2 ^ 14) <= 2 * (G + 1) * 2 ^ 42 + 2 -> False.
Proof.
  unfold MinTick, MaxTick, magicSqrt10001, magicTickHigh, P10001. intros HG Ht H1 H2.
  pose proof (Z.mul_succ_div_gt ((G - 128 * 2 ^ 14) * (2 ^ 50 * 0x3627A301D71055774C85) + 0xDB2DF09E81959A81455E260799A0632F) (2 ^ 128) eq_refl) as H3.
  apply Z.le_succ_l in H1. apply (Z.mul_le_mono_nonneg_l _ _ (2 ^ 128)) in H1; [|discriminate].
  destruct (t <? 0) eqn:E; lia.
Qed.
Lemma candidates_apart v : (v + magicTickHigh) / 2 ^ 128 <= (v - magicTickLow) / 2 ^ 128 + 1.
Proof.
  unfold magicTickHigh, magicTickLow. rewrite <- Z.div_add by lia. apply Z.div_le_mono; lia.
Qed.

Lemma log_tick p : MinSqrtRatio <= p < MaxSqrtRatio ->
  exists t, MinTick <= t < MaxTick /\ rat t <= p < rat (t + 1) /\ getTickAtSqrtRatio p = Ok t /\
    GetTickAtSqrtRatio p = Ok t.
Proof.
  intros Hp. destruct (tick_ok tickFuel p (le_n _) Hp) as (t & E & Ht & Hr). exists t.
  split; [exact Ht|]. split; [exact Hr|]. split; [|exact E].
  assert (Hp' : 0 < p < 2 ^ 160) by (unfold MinSqrtRatio, MaxSqrtRatio in Hp; lia).
  assert (HN : exists N, N = 2 ^ Z.of_nat 14) by (eexists; reflexivity). destruct HN as [N HN].
  assert (Hk : exists k, k = N * (1 + 1) - 1) by (eexists; reflexivity). destruct Hk as [k Hk].
  destruct (log_bracket p N k Hp' HN Hk) as (G & EG & HG & L & U).
  assert (HN' : N = 2 ^ 14) by exact HN. rewrite HN' in HG, Hk. clear HN. rename HN' into HN.
  change (2 ^ Z.of_nat 14) with (2 ^ 14) in EG. change (2 ^ (64 - Z.of_nat 14)) with (2 ^ 50) in EG.
  unfold getTickAtSqrtRatio. destruct (logLoop 14 0 (logStart p)) as [r14 l14]. cbn [snd] in EG. subst l14.
  rewrite candidates_ok by (clear -HG; lia).
  assert (HQ : exists Q, Q = 2 ^ Z.of_nat 42) by (eexists; reflexivity). destruct HQ as [Q HQ].
  assert (HP : exists P, P = P10001) by (eexists; reflexivity). destruct HP as [P HP].
  destruct (log10001 Q P HQ (eq_trans HP P10001_ok)) as (HP0 & LP & UP).
  change (Z.of_nat 42) with 42 in HQ.
  assert (Hlow : ((G - 128 * 2 ^ 14) * (2 ^ 50 * magicSqrt10001) - magicTickLow) / 2 ^ 128 <= t).
  { apply Z.nlt_ge. intros C. apply (low_linear G t HG Ht); [apply Z.le_succ_l in C; exact C|].
    rewrite <- HP, <- HQ, <- HN.
    apply (below_tick Q P N (t + 1) p (p * 2 ^ 32) G HP0); [| |exact (proj1 HG)| |exact LP|exact UP| | |reflexivity|exact L].
    - rewrite HQ. discriminate.
    - rewrite HN. discriminate.
    - rewrite HQ, HN. discriminate.
    - clear -Ht. lia.
    - clear -Hr Hp'. lia. }
  assert (Hhigh : t <= ((G - 128 * 2 ^ 14) * (2 ^ 50 * magicSqrt10001) + magicTickHigh) / 2 ^ 128).
  { apply Z.nlt_ge. intros C. apply (high_linear G t HG Ht C).
    rewrite <- HP, <- HQ, <- HN.
    apply (above_tick Q P N t p (p * 2 ^ 32) G k HP0); [| |exact (proj1 HG)| | | |exact LP|exact UP| | |reflexivity|exact U].
    - rewrite HQ. discriminate.
    - rewrite HN. discriminate.
    - rewrite HQ, HN. discriminate.
    - rewrite Hk. discriminate.
    - rewrite HQ, Hk. discriminate.
    - clear -Ht. lia.
    - assert (Ht' : MinTick <= t <= MaxTick) by (clear -Ht; lia).
      pose proof (rat_range t Ht') as RR. unfold MinSqrtRatio in RR. clear -RR Hr. lia. }
  pose proof (candidates_apart ((G - 128 * 2 ^ 14) * (2 ^ 50 * magicSqrt10001))) as Hap.
  set (lo := ((G - 128 * 2 ^ 14) * (2 ^ 50 * magicSqrt10001) - magicTickLow) / 2 ^ 128) in *.
  set (hi := ((G - 128 * 2 ^ 14) * (2 ^ 50 * magicSqrt10001) + magicTickHigh) / 2 ^ 128) in *.
  clearbody lo hi. clear -Hlow Hhigh Hap Ht Hr.
  destruct (lo =? hi) eqn:El; [f_equal; lia|].
  assert (C : hi = t \/ (hi = t + 1 /\ lo = t)) by lia. destruct C as [-> | [-> ->]].
  - rewrite getSqrtRatioAtTick_rat by lia. cbn [bind]. replace (rat t <=? p) with true by lia. reflexivity.
  - rewrite getSqrtRatioAtTick_rat by lia. cbn [bind]. replace (rat (t + 1) <=? p) with false by lia. reflexivity.
Qed.
