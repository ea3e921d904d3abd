(** U256Shift.v -- Lsh, Rsh, SRsh, BitLen, isBitSet, Byte, ExtendSign, Exp. *)
From Verif Require Import Base U256 BitFacts U256Facts.
From Coq Require Import ZifyBool.
Ltac Zify.zify_post_hook ::= Z.div_mod_to_equations.

Ltac openx Hx := unfold wf, toZ in *; cbn [l0 l1 l2 l3] in *; destruct Hx as (? & ? & ? & ?).

(** ** Shifts *)
Lemma pow2_parts n : 0 < n < 64 -> 0 < 2 ^ n /\ 0 < 2 ^ (64 - n) /\ 2 ^ n * 2 ^ (64 - n) = W.
Proof.
  intros Hn. split; [lia|]. split; [lia|].
  rewrite <- Z.pow_add_r by lia. replace (n + (64 - n)) with 64 by lia. reflexivity.
Qed.

Lemma shl_parts z n : 0 < n < 64 -> is_w z ->
  exists hi lo, wshl z n = 2 ^ n * lo /\ wshr z (64 - n) = hi /\ z = 2 ^ (64 - n) * hi + lo /\
    0 <= lo < 2 ^ (64 - n) /\ 0 <= hi < 2 ^ n.
Proof.
  intros Hn Hz. destruct (pow2_parts n Hn) as (HP & HQ & HPQ).
  exists (z / 2 ^ (64 - n)), (z mod 2 ^ (64 - n)).
  unfold wshl, wshr. rewrite Z.shiftl_mul_pow2, Z.shiftr_div_pow2 by lia.
  set (P := 2 ^ n) in *. set (Q := 2 ^ (64 - n)) in *. clearbody P Q.
  assert (Hd : z = Q * (z / Q) + z mod Q) by (apply Z.div_mod; lia).
  assert (Hm : 0 <= z mod Q < Q) by (apply Z.mod_pos_bound; lia).
  assert (Hhi : 0 <= z / Q < P).
  { unfold is_w in Hz. split; [apply Z.div_pos; lia|]. apply Z.div_lt_upper_bound; lia. }
  set (hi := z / Q) in *. set (lo := z mod Q) in *. clearbody hi lo. unfold is_w in *.
  repeat split; try lia.
  symmetry. apply Z.mod_unique_pos with (q := hi).
  - assert (P * lo <= P * (Q - 1)) by (apply Z.mul_le_mono_nonneg_l; lia).
    assert (0 <= P * lo) by (apply Z.mul_nonneg_nonneg; lia). lia.
  - rewrite <- HPQ, Hd at 1. lia.
Qed.

Lemma lor_shl lo hi n : 0 <= n -> 0 <= hi < 2 ^ n -> Z.lor (2 ^ n * lo) hi = 2 ^ n * lo + hi.
Proof.
  intros Hn Hhi. rewrite Z.lor_comm, (Z.mul_comm _ lo), lor_add_shift by lia. lia.
Qed.

(** left shift of one word by 0 < n < 64: z*2^n = W*hi + a *)
Lemma lsh_word z n : 0 < n < 64 -> is_w z ->
  exists hi a, wshl z n = a /\ wshr z (64 - n) = hi /\ z * 2 ^ n = W * hi + a /\
    0 <= a <= W - 2 ^ n /\ 0 <= hi < 2 ^ n /\
    (forall h, 0 <= h < 2 ^ n -> Z.lor a h = a + h).
Proof.
  intros Hn Hz. destruct (shl_parts z n Hn Hz) as (hi & lo & E1 & E2 & E3 & Hlo & Hhi).
  destruct (pow2_parts n Hn) as (HP & HQ & HPQ).
  exists hi, (2 ^ n * lo). split; [assumption|]. split; [assumption|].
  assert (2 ^ n * lo <= 2 ^ n * (2 ^ (64 - n) - 1)) by (apply Z.mul_le_mono_nonneg_l; lia).
  assert (0 <= 2 ^ n * lo) by (apply Z.mul_nonneg_nonneg; lia).
  split; [rewrite E3, <- HPQ; ring|]. split; [lia|]. split; [assumption|].
  intros h Hh. apply lor_shl; lia.
Qed.

(** right shift of one word by 0 < n < 64: z = 2^n*hi + lo, 2^n * (z << (64-n)) = W*lo *)
Lemma rsh_word z n : 0 < n < 64 -> is_w z ->
  exists hi lo a, wshr z n = hi /\ wshl z (64 - n) = a /\ z = 2 ^ n * hi + lo /\ 0 <= lo < 2 ^ n /\
    2 ^ n * a = W * lo /\ 0 <= a <= W - 2 ^ (64 - n) /\ 0 <= hi < 2 ^ (64 - n) /\
    (forall h, 0 <= h < 2 ^ (64 - n) -> Z.lor h a = a + h).
Proof.
  intros Hn Hz. assert (Hn' : 0 < 64 - n < 64) by lia.
  destruct (shl_parts z (64 - n) Hn' Hz) as (hi & lo & E1 & E2 & E3 & Hlo & Hhi).
  replace (64 - (64 - n)) with n in * by lia.
  destruct (pow2_parts n Hn) as (HP & HQ & HPQ).
  exists hi, lo, (2 ^ (64 - n) * lo).
  assert (2 ^ (64 - n) * lo <= 2 ^ (64 - n) * (2 ^ n - 1)) by (apply Z.mul_le_mono_nonneg_l; lia).
  assert (0 <= 2 ^ (64 - n) * lo) by (apply Z.mul_nonneg_nonneg; lia).
  split; [assumption|]. split; [assumption|]. split; [assumption|]. split; [assumption|].
  split; [rewrite <- HPQ; ring|]. split; [lia|]. split; [assumption|].
  intros h Hh. rewrite Z.lor_comm. apply lor_shl; lia.
Qed.

Lemma land63 n : 0 <= n -> Z.land n 63 = n mod 64.
Proof. intros. change 63 with (2 ^ 6 - 1). rewrite land_pow2_mod by lia. reflexivity. Qed.

Lemma shl_big x n : 256 <= n -> (x * 2 ^ n) mod T256 = 0.
Proof.
  intros. rewrite W4_pow. replace n with ((n - 256) + 256) by lia.
  rewrite Z.pow_add_r by lia. rewrite Z.mul_assoc. apply Z_mod_mult.
Qed.
Lemma shr_big x n : 256 <= n -> 0 <= x < T256 -> x / 2 ^ n = 0.
Proof.
  intros. apply Z.div_small. split; [lia|].
  assert (2 ^ 256 <= 2 ^ n) by (apply Z.pow_le_mono_r; lia). rewrite <- W4_pow in *. lia.
Qed.

Lemma pow_shift n k : 0 <= k -> k <= n -> 2 ^ n = 2 ^ k * 2 ^ (n - k).
Proof. intros. rewrite <- Z.pow_add_r by lia. f_equal; lia. Qed.

Ltac lword n z :=
  let hi := fresh "hi" in let a := fresh "a" in let E1 := fresh "E" in let E2 := fresh "E" in
  let HL := fresh "HL" in
  destruct (lsh_word z n) as (hi & a & E1 & E2 & ? & ? & ? & HL); [lia|assumption|];
  rewrite ?E1, ?E2; clear E1 E2.
Ltac uselor := repeat match goal with HL : forall h, _ -> Z.lor ?a h = _ |- context [Z.lor ?a ?h] =>
   rewrite (HL h) by lia end.

Lemma Lsh_spec x n : wf x -> 0 <= n -> wf (Lsh x n) /\ toZ (Lsh x n) = (toZ x * 2 ^ n) mod T256.
Proof.
  intros Hx Hn. unfold Lsh. rewrite land63 by assumption.
  destruct (n mod 64 =? 0) eqn:E0.
  { destruct (n =? 0) eqn:E1; [|destruct (n =? 64) eqn:E2; [|destruct (n =? 128) eqn:E3;
      [|destruct (n =? 192) eqn:E4]]].
    - apply Z.eqb_eq in E1. subst. split; [assumption|]. pose proof (toZ_range x Hx).
      change (2 ^ 0) with 1. rewrite Z.mod_small; lia.
    - apply Z.eqb_eq in E2. subst. change (2 ^ 64) with W.
      destruct x as [x0 x1 x2 x3]. openx Hx. unfold lsh64, is_w in *. cbn [l0 l1 l2 l3]. lia.
    - apply Z.eqb_eq in E3. subst. change (2 ^ 128) with W2.
      destruct x as [x0 x1 x2 x3]. openx Hx. unfold lsh128, is_w in *. cbn [l0 l1 l2 l3]. lia.
    - apply Z.eqb_eq in E4. subst. change (2 ^ 192) with W3.
      destruct x as [x0 x1 x2 x3]. openx Hx. unfold lsh192, is_w in *. cbn [l0 l1 l2 l3]. lia.
    - split; [auto|]. rewrite shl_big by lia. reflexivity. }
  destruct (192 <? n) eqn:E1; [destruct (256 <? n) eqn:E2|].
  { split; [auto|]. rewrite shl_big by lia. reflexivity. }
  { rewrite (pow_shift n 192) by lia. change (2 ^ 192) with W3.
    assert (Hm : 0 < n - 192 < 64) by lia. set (m := n - 192) in *. clearbody m.
    destruct x as [x0 x1 x2 x3]. openx Hx. unfold lsh192. cbn [l0 l1 l2 l3].
    lword m x0. rewrite Z.lor_0_r.
    set (P := 2 ^ m) in *. clearbody P. unfold is_w in *. split; [lia|].
    apply Z.mod_unique_pos with (q := hi + x1 * P + x2 * W * P + x3 * W2 * P); lia. }
  destruct (128 <? n) eqn:E2.
  { rewrite (pow_shift n 128) by lia. change (2 ^ 128) with W2.
    assert (Hm : 0 < n - 128 < 64) by lia. set (m := n - 128) in *. clearbody m.
    destruct x as [x0 x1 x2 x3]. openx Hx. unfold lsh128. cbn [l0 l1 l2 l3].
    lword m x0. lword m x1. rewrite Z.lor_0_r. uselor.
    set (P := 2 ^ m) in *. clearbody P. unfold is_w in *. split; [lia|].
    apply Z.mod_unique_pos with (q := hi0 + x2 * P + x3 * W * P); lia. }
  destruct (64 <? n) eqn:E3.
  { rewrite (pow_shift n 64) by lia. change (2 ^ 64) with W.
    assert (Hm : 0 < n - 64 < 64) by lia. set (m := n - 64) in *. clearbody m.
    destruct x as [x0 x1 x2 x3]. openx Hx. unfold lsh64. cbn [l0 l1 l2 l3].
    lword m x0. lword m x1. lword m x2. rewrite Z.lor_0_r. uselor.
    set (P := 2 ^ m) in *. clearbody P. unfold is_w in *. split; [lia|].
    apply Z.mod_unique_pos with (q := hi1 + x3 * P); lia. }
  { assert (Hm : 0 < n < 64) by lia.
    destruct x as [x0 x1 x2 x3]. openx Hx. cbn [l0 l1 l2 l3].
    lword n x0. lword n x1. lword n x2. lword n x3. uselor.
    set (P := 2 ^ n) in *. clearbody P. unfold is_w in *. split; [lia|].
    apply Z.mod_unique_pos with (q := hi2); lia. }
Qed.

Ltac rword n z :=
  let hi := fresh "hi" in let lo := fresh "lo" in let a := fresh "a" in
  let E1 := fresh "E" in let E2 := fresh "E" in let E3 := fresh "E" in
  let HL := fresh "HL" in
  destruct (rsh_word z n) as (hi & lo & a & E1 & E2 & E3 & ? & ? & ? & ? & HL); [lia|assumption|];
  rewrite ?E1, ?E2; clear E1 E2.
Ltac uselorr := repeat match goal with HL : forall h, _ -> Z.lor h ?a = _ |- context [Z.lor ?h ?a] =>
   rewrite (HL h) by lia end.

Lemma Rsh_spec x n : wf x -> 0 <= n -> wf (Rsh x n) /\ toZ (Rsh x n) = toZ x / 2 ^ n.
Proof.
  intros Hx Hn. unfold Rsh. rewrite land63 by assumption.
  destruct (n mod 64 =? 0) eqn:E0.
  { destruct (n =? 0) eqn:E1; [|destruct (n =? 64) eqn:E2; [|destruct (n =? 128) eqn:E3;
      [|destruct (n =? 192) eqn:E4]]].
    - apply Z.eqb_eq in E1. subst. split; [assumption|].
      change (2 ^ 0) with 1. now rewrite Z.div_1_r.
    - apply Z.eqb_eq in E2. subst. change (2 ^ 64) with W.
      destruct x as [x0 x1 x2 x3]. openx Hx. unfold rsh64, is_w in *. cbn [l0 l1 l2 l3]. lia.
    - apply Z.eqb_eq in E3. subst. change (2 ^ 128) with W2.
      destruct x as [x0 x1 x2 x3]. openx Hx. unfold rsh128, is_w in *. cbn [l0 l1 l2 l3]. lia.
    - apply Z.eqb_eq in E4. subst. change (2 ^ 192) with W3.
      destruct x as [x0 x1 x2 x3]. openx Hx. unfold rsh192, is_w in *. cbn [l0 l1 l2 l3]. lia.
    - split; [auto|]. rewrite shr_big; [reflexivity|lia|now apply toZ_range]. }
  destruct (192 <? n) eqn:E1; [destruct (256 <? n) eqn:E2|].
  { split; [auto|]. rewrite shr_big; [reflexivity|lia|now apply toZ_range]. }
  { rewrite (pow_shift n 192) by lia. rewrite <- Z.div_div by lia. change (2 ^ 192) with W3.
    assert (Hm : 0 < n - 192 < 64) by lia. set (m := n - 192) in *. clearbody m.
    destruct x as [x0 x1 x2 x3]. openx Hx. unfold rsh192. cbn [l0 l1 l2 l3].
    replace ((x0 + W * x1 + W2 * x2 + W3 * x3) / W3) with x3 by (unfold is_w in *; lia).
    rword m x3. rewrite Z.lor_0_r.
    destruct (pow2_parts m Hm) as (HP & HQ & HPQ).
    set (P := 2 ^ m) in *. set (Q := 2 ^ (64 - m)) in *. clearbody P Q. unfold is_w in *. split; [lia|].
    apply Z.div_unique_pos with (r := lo); lia. }
  destruct (128 <? n) eqn:E2.
  { rewrite (pow_shift n 128) by lia. rewrite <- Z.div_div by lia. change (2 ^ 128) with W2.
    assert (Hm : 0 < n - 128 < 64) by lia. set (m := n - 128) in *. clearbody m.
    destruct x as [x0 x1 x2 x3]. openx Hx. unfold rsh128. cbn [l0 l1 l2 l3].
    replace ((x0 + W * x1 + W2 * x2 + W3 * x3) / W2) with (x2 + W * x3) by (unfold is_w in *; lia).
    rword m x2. rword m x3. rewrite Z.lor_0_r. uselorr.
    destruct (pow2_parts m Hm) as (HP & HQ & HPQ).
    set (P := 2 ^ m) in *. set (Q := 2 ^ (64 - m)) in *. clearbody P Q. unfold is_w in *. split; [lia|].
    apply Z.div_unique_pos with (r := lo); lia. }
  destruct (64 <? n) eqn:E3.
  { rewrite (pow_shift n 64) by lia. rewrite <- Z.div_div by lia. change (2 ^ 64) with W.
    assert (Hm : 0 < n - 64 < 64) by lia. set (m := n - 64) in *. clearbody m.
    destruct x as [x0 x1 x2 x3]. openx Hx. unfold rsh64. cbn [l0 l1 l2 l3].
    replace ((x0 + W * x1 + W2 * x2 + W3 * x3) / W) with (x1 + W * x2 + W2 * x3) by (unfold is_w in *; lia).
    rword m x1. rword m x2. rword m x3. rewrite Z.lor_0_r. uselorr.
    destruct (pow2_parts m Hm) as (HP & HQ & HPQ).
    set (P := 2 ^ m) in *. set (Q := 2 ^ (64 - m)) in *. clearbody P Q. unfold is_w in *. split; [lia|].
    apply Z.div_unique_pos with (r := lo); lia. }
  { assert (Hm : 0 < n < 64) by lia.
    destruct x as [x0 x1 x2 x3]. openx Hx. cbn [l0 l1 l2 l3].
    rword n x0. rword n x1. rword n x2. rword n x3. uselorr.
    destruct (pow2_parts n Hm) as (HP & HQ & HPQ).
    set (P := 2 ^ n) in *. set (Q := 2 ^ (64 - n)) in *. clearbody P Q. unfold is_w in *. split; [lia|].
    apply Z.div_unique_pos with (r := lo); lia. }
Qed.
