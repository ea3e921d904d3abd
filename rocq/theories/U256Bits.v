(** U256Bits.v -- SRsh, isBitSet, BitLen, Byte, ExtendSign, Exp compute what they should. *)
From Verif Require Import Base U256 BitFacts U256Facts U256Shift.
From Coq Require Import ZifyBool Zpow_facts.
Ltac Zify.zify_post_hook ::= Z.div_mod_to_equations.

Lemma isBitSet_spec x n : wf x -> 0 <= n < 256 -> isBitSet x n = Ok (Z.testbit (toZ x) n).
Proof.
  intros (H0 & H1 & H2 & H3) Hn. unfold isBitSet, limb. rewrite toZ_nested.
  unfold is_w in *; rewrite W_pow in *.
  assert (Hw : forall w k, 0 <= k < 64 -> negb (Z.land w (wshl 1 k) =? 0) = Z.testbit w k).
  { intros w k Hk. unfold wshl. rewrite Z.shiftl_1_l, Z.mod_small, land_bit, negb_involutive; auto; try lia.
    rewrite W_pow. split; [lia|]. apply Z.pow_lt_mono_r; lia. }
  rewrite testbit_split by lia.
  destruct (n <? 64) eqn:E1.
  { replace (n / 64) with 0 by lia. cbn [Z.eqb bind]. rewrite Hw by lia. replace (n mod 64) with n by lia; reflexivity. }
  rewrite testbit_split by lia.
  destruct (n - 64 <? 64) eqn:E2.
  { replace (n / 64) with 1 by lia. cbn [Z.eqb bind Pos.eqb]. rewrite Hw by lia. replace (n mod 64) with (n - 64) by lia; reflexivity. }
  rewrite testbit_split by lia.
  destruct (n - 64 - 64 <? 64) eqn:E3.
  { replace (n / 64) with 2 by lia. cbn [Z.eqb bind Pos.eqb]. rewrite Hw by lia. replace (n mod 64) with (n - 64 - 64) by lia; reflexivity. }
  { replace (n / 64) with 3 by lia. cbn [Z.eqb bind Pos.eqb]. rewrite Hw by lia. replace (n mod 64) with (n - 64 - 64 - 64) by lia; reflexivity. }
Qed.

Lemma testbit_255 v : 0 <= v < T256 -> Z.testbit v 255 = (T255 <=? v).
Proof.
  intros Hv. destruct (T255 <=? v) eqn:E.
  - apply Z.testbit_true; [lia|]. rewrite <- T255_pow. lia.
  - apply Z.testbit_false; [lia|]. rewrite <- T255_pow. lia.
Qed.

Lemma wshl_ones m : 0 < m < 64 ->
  exists a, wshl (W-1) (64 - m) = a /\ 2 ^ m * a = W * (2 ^ m - 1) /\ 0 <= a <= W - 2 ^ (64 - m) /\
  (forall h, 0 <= h < 2 ^ (64 - m) -> Z.lor h a = a + h).
Proof.
  intros Hm. destruct (rsh_word (W-1) m Hm) as (hi & lo & a & E1 & E2 & E3 & Hlo & HP & Ha & Hhi & HL); [auto|].
  exists a. split; [assumption|]. split; [|split; assumption].
  destruct (pow2_parts m Hm) as (HP0 & HQ & HPQ).
  assert (lo = 2 ^ m - 1).
  { assert (E4 : W - 1 = 2 ^ m * (2 ^ (64 - m) - 1) + (2 ^ m - 1)) by (rewrite <- HPQ at 1; ring).
    rewrite E4 in E3. 
    apply (Z.mod_unique_pos _ (2 ^ m) hi lo) in E3; [|lia].
    rewrite E3. rewrite Z.add_comm, Z.mul_comm, Z_mod_plus_full. apply Z.mod_small; lia. }
  subst lo. assumption.
Qed.

Lemma SRsh_spec x n : wf x -> 0 <= n ->
  exists r, SRsh x n = Ok r /\ wf r /\ toZ r = (sgn256 (toZ x) / 2 ^ n) mod T256.
Proof.
  intros Hx Hn. unfold SRsh. rewrite isBitSet_spec by (auto; lia). cbn [bind].
  pose proof (toZ_range x Hx) as Hr. rewrite testbit_255 by assumption.
  destruct (T255 <=? toZ x) eqn:Eneg; cbn [negb]; (eexists; split; [reflexivity|]).
  2: { destruct (Rsh_spec x n Hx Hn) as [H1 H2]. split; [assumption|]. rewrite H2.
    unfold sgn256. replace (toZ x <? T255) with true by lia.
    rewrite Z.mod_small; [reflexivity|]. split; [apply Z.div_pos; lia|].
    apply Z.div_lt_upper_bound; [lia|]. 
    apply Z.lt_le_trans with T256; [lia|]. assert (0 < 2 ^ n) by lia. nia. }
  unfold sgn256. replace (toZ x <? T255) with false by lia.
  assert (Hbig : 256 <= n -> T256 - 1 = ((toZ x - T256) / 2 ^ n) mod T256).
  { intros H256. assert (E : (toZ x - T256) / 2 ^ n = -1).
    { symmetry. apply Z.div_unique_pos with (r := toZ x - T256 + 2 ^ n); [|lia].
      assert (2 ^ 256 <= 2 ^ n) by (apply Z.pow_le_mono_r; lia). rewrite <- W4_pow in *. lia. }
    rewrite E. reflexivity. }
  destruct (n mod 64 =? 0) eqn:E0.
  { destruct (n =? 0) eqn:E1; [|destruct (n =? 64) eqn:E2; [|destruct (n =? 128) eqn:E3;
      [|destruct (n =? 192) eqn:E4]]].
    - apply Z.eqb_eq in E1. subst. split; [assumption|].
      change (2 ^ 0) with 1. rewrite Z.div_1_r. lia.
    - apply Z.eqb_eq in E2. subst. change (2 ^ 64) with W. clear Hbig.
      destruct x as [x0 x1 x2 x3]. openx Hx. unfold srsh64, is_w in *. cbn [l0 l1 l2 l3]. lia.
    - apply Z.eqb_eq in E3. subst. change (2 ^ 128) with W2. clear Hbig.
      destruct x as [x0 x1 x2 x3]. openx Hx. unfold srsh128, is_w in *. cbn [l0 l1 l2 l3]. lia.
    - apply Z.eqb_eq in E4. subst. change (2 ^ 192) with W3. clear Hbig.
      destruct x as [x0 x1 x2 x3]. openx Hx. unfold srsh192, is_w in *. cbn [l0 l1 l2 l3]. lia.
    - split; [auto|]. rewrite <- Hbig by lia. reflexivity. }
  destruct (192 <? n) eqn:E1; [destruct (256 <? n) eqn:E2|].
  { split; [auto|]. rewrite <- Hbig by lia. reflexivity. }
  all: clear Hbig.
  { rewrite (pow_shift n 192) by lia. rewrite <- Z.div_div by lia. change (2 ^ 192) with W3.
    assert (Hm : 0 < n - 192 < 64) by lia. replace (n mod 64) with (n - 192) by lia.
    set (m := n - 192) in *. clearbody m.
    destruct (wshl_ones m Hm) as (b & Eb & HPb & Hb & HLb). rewrite Eb. clear Eb.
    destruct x as [x0 x1 x2 x3]. openx Hx. unfold srsh192. cbn [l0 l1 l2 l3].
    replace ((x0 + W * x1 + W2 * x2 + W3 * x3 - W4) / W3) with (x3 - W) by (unfold is_w in *; lia).
    rword m x3. uselorr.
    destruct (pow2_parts m Hm) as (HP & HQ & HPQ).
    set (P := 2 ^ m) in *. set (Q := 2 ^ (64 - m)) in *. clearbody P Q. unfold is_w in *.
    split; [lia|].
    replace ((x3 - W) / P) with (hi + b - W); [lia|]. apply Z.div_unique_pos with (r := lo); lia. }
  destruct (128 <? n) eqn:E2.
  { rewrite (pow_shift n 128) by lia. rewrite <- Z.div_div by lia. change (2 ^ 128) with W2.
    assert (Hm : 0 < n - 128 < 64) by lia. replace (n mod 64) with (n - 128) by lia.
    set (m := n - 128) in *. clearbody m.
    destruct (wshl_ones m Hm) as (b & Eb & HPb & Hb & HLb). rewrite Eb. clear Eb.
    destruct x as [x0 x1 x2 x3]. openx Hx. unfold srsh128. cbn [l0 l1 l2 l3].
    replace ((x0 + W * x1 + W2 * x2 + W3 * x3 - W4) / W2) with (x2 + W * x3 - W2) by (unfold is_w in *; lia).
    rword m x2. rword m x3. uselorr. cbn [l0 l1 l2 l3].
    destruct (pow2_parts m Hm) as (HP & HQ & HPQ).
    set (P := 2 ^ m) in *. set (Q := 2 ^ (64 - m)) in *. clearbody P Q. unfold is_w in *.
    split; [lia|].
    replace ((x2 + W * x3 - W2) / P) with (hi + a0 + W * (hi0 + b) - W2); [lia|].
    apply Z.div_unique_pos with (r := lo); lia. }
  destruct (64 <? n) eqn:E3.
  { rewrite (pow_shift n 64) by lia. rewrite <- Z.div_div by lia. change (2 ^ 64) with W.
    assert (Hm : 0 < n - 64 < 64) by lia. replace (n mod 64) with (n - 64) by lia.
    set (m := n - 64) in *. clearbody m.
    destruct (wshl_ones m Hm) as (b & Eb & HPb & Hb & HLb). rewrite Eb. clear Eb.
    destruct x as [x0 x1 x2 x3]. openx Hx. unfold srsh64. cbn [l0 l1 l2 l3].
    replace ((x0 + W * x1 + W2 * x2 + W3 * x3 - W4) / W) with (x1 + W * x2 + W2 * x3 - W3) by (unfold is_w in *; lia).
    rword m x1. rword m x2. rword m x3. uselorr. cbn [l0 l1 l2 l3].
    destruct (pow2_parts m Hm) as (HP & HQ & HPQ).
    set (P := 2 ^ m) in *. set (Q := 2 ^ (64 - m)) in *. clearbody P Q. unfold is_w in *.
    split; [lia|].
    replace ((x1 + W * x2 + W2 * x3 - W3) / P) with (hi + a0 + W * (hi0 + a1) + W2 * (hi1 + b) - W3); [lia|].
    apply Z.div_unique_pos with (r := lo); lia. }
  { assert (Hm : 0 < n < 64) by lia. replace (n mod 64) with n by lia.
    destruct (wshl_ones n Hm) as (b & Eb & HPb & Hb & HLb). rewrite Eb. clear Eb.
    destruct x as [x0 x1 x2 x3]. openx Hx. cbn [l0 l1 l2 l3].
    rword n x0. rword n x1. rword n x2. rword n x3. uselorr. cbn [l0 l1 l2 l3].
    destruct (pow2_parts n Hm) as (HP & HQ & HPQ).
    set (P := 2 ^ n) in *. set (Q := 2 ^ (64 - n)) in *. clearbody P Q. unfold is_w in *.
    split; [lia|].
    replace ((x0 + W * x1 + W2 * x2 + W3 * x3 - W4) / P)
      with (hi + a0 + W * (hi0 + a1) + W2 * (hi1 + a2) + W3 * (hi2 + b) - W4); [lia|].
    apply Z.div_unique_pos with (r := lo); lia. }
Qed.

(** ** Bit length *)
Lemma len64_spec v : is_w v -> 0 <= len64 v <= 64 /\ v < 2 ^ len64 v /\ (v <> 0 -> 2 ^ (len64 v - 1) <= v).
Proof.
  intros Hv. unfold len64, is_w in *. destruct (v =? 0) eqn:E; [cbn; lia|].
  pose proof (Z.log2_spec v ltac:(lia)) as Hs. pose proof (Z.log2_nonneg v).
  replace (Z.log2 v + 1 - 1) with (Z.log2 v) by lia. unfold Z.succ in Hs.
  assert (Z.log2 v < 64) by (apply Z.log2_lt_pow2; [lia|rewrite <- W_pow; lia]). lia.
Qed.

(** BitLen x is the least n with x < 2^n *)
Lemma BitLen_spec x : wf x -> 0 <= BitLen x <= 256 /\ toZ x < 2 ^ BitLen x /\
  (toZ x <> 0 -> 2 ^ (BitLen x - 1) <= toZ x) /\ (toZ x = 0 -> BitLen x = 0).
Proof.
  intros Hx. unfold BitLen. destruct x as [x0 x1 x2 x3]. openx Hx.
  assert (Hp : forall k v, 0 <= k -> is_w v -> v <> 0 ->
    2 ^ (k + len64 v) = 2 ^ k * 2 ^ len64 v /\ 2 ^ (k + len64 v - 1) = 2 ^ k * 2 ^ (len64 v - 1)).
  { intros k v Hk Hv Hv0. pose proof (len64_spec v Hv) as (Ha & Hb & Hc).
    assert (1 <= len64 v). { unfold is_w in *. destruct (Z.eq_dec (len64 v) 0) as [e|]; [rewrite e in Hb; cbn in Hb; lia|lia]. }
    split; rewrite <- Z.pow_add_r by lia; f_equal; lia. }
  destruct (x3 =? 0) eqn:E3; cbn [negb].
  2: { destruct (Hp 192 x3) as [e1 e2]; [lia|assumption|lia|]. rewrite e1, e2, <- W3_pow.
       destruct (len64_spec x3) as (Ha & Hb & Hc); [assumption|]. specialize (Hc ltac:(lia)).
       unfold is_w in *. lia. }
  destruct (x2 =? 0) eqn:E2; cbn [negb].
  2: { destruct (Hp 128 x2) as [e1 e2]; [lia|assumption|lia|]. rewrite e1, e2, <- W2_pow.
       destruct (len64_spec x2) as (Ha & Hb & Hc); [assumption|]. specialize (Hc ltac:(lia)).
       unfold is_w in *. lia. }
  destruct (x1 =? 0) eqn:E1; cbn [negb].
  2: { destruct (Hp 64 x1) as [e1 e2]; [lia|assumption|lia|]. rewrite e1, e2, <- W_pow.
       destruct (len64_spec x1) as (Ha & Hb & Hc); [assumption|]. specialize (Hc ltac:(lia)).
       unfold is_w in *. lia. }
  destruct (len64_spec x0) as (Ha & Hb & Hc); [assumption|].
  apply Z.eqb_eq in E1, E2, E3. subst. 
  replace (x0 + W * 0 + W2 * 0 + W3 * 0) with x0 by lia.
  split; [lia|]. split; [assumption|]. split; [assumption|]. intros ->. reflexivity.
Qed.

Lemma BitLen_log2 x : wf x -> toZ x <> 0 -> BitLen x = Z.log2 (toZ x) + 1.
Proof.
  intros Hx H0. destruct (BitLen_spec x Hx) as (Ha & Hb & Hc & _). specialize (Hc H0).
  pose proof (toZ_range x Hx).
  assert (BitLen x <> 0). { intros e. rewrite e in Hb. cbn in Hb. lia. }
  assert (Z.log2 (toZ x) = BitLen x - 1); [|lia].
  apply Z.log2_unique; [lia|]. replace (Z.succ (BitLen x - 1)) with (BitLen x) by lia. lia.
Qed.

Lemma ByteLen_spec x : wf x -> 0 <= ByteLen x <= 32 /\ toZ x < 256 ^ ByteLen x /\
  (toZ x <> 0 -> 256 ^ (ByteLen x - 1) <= toZ x) /\ (toZ x = 0 -> ByteLen x = 0).
Proof.
  intros Hx. destruct (BitLen_spec x Hx) as (Ha & Hb & Hc & Hd). pose proof (toZ_range x Hx).
  unfold ByteLen. set (b := BitLen x) in *. clearbody b.
  change 256 with (2 ^ 8). rewrite <- Z.pow_mul_r by lia.
  split; [lia|]. split.
  { eapply Z.lt_le_trans; [eassumption|]. apply Z.pow_le_mono_r; lia. }
  split; [|lia].
  intros H0. specialize (Hc H0).
  assert (b <> 0). { intros ->. cbn in Hb. lia. }
  rewrite <- Z.pow_mul_r by lia. eapply Z.le_trans; [|eassumption]. apply Z.pow_le_mono_r; lia.
Qed.

(** ** Byte *)
Lemma byte_word w s : is_w w -> 0 <= s <= 56 ->
  wshr (Z.land w (wshl 255 s)) s = (w / 2 ^ s) mod 256.
Proof.
  intros Hw Hs. unfold wshr, wshl. 
  assert (Hsm : Z.shiftl 255 s mod W = Z.shiftl 255 s).
  { apply Z.mod_small. rewrite Z.shiftl_mul_pow2 by lia.
    assert (0 < 2 ^ s <= 2 ^ 56) by (split; [lia|apply Z.pow_le_mono_r; lia]).
    change (2 ^ 56) with 72057594037927936 in *. lia. }
  rewrite Hsm, Z.shiftr_land, Z.shiftr_shiftl_l by lia. rewrite Z.sub_diag, Z.shiftl_0_r.
  rewrite Z.shiftr_div_pow2 by lia. change 255 with (2 ^ 8 - 1). rewrite land_pow2_mod by lia. reflexivity.
Qed.

Lemma Byte_spec x n : wf x -> wf n ->
  exists r, Byte x n = Ok r /\ wf r /\
    toZ r = if toZ n <? 32 then (toZ x / 2 ^ (8 * (31 - toZ n))) mod 256 else 0.
Proof.
  intros Hx Hn. unfold Byte.
  destruct (Uint64WithOverflow_spec n Hn) as [E1 E2].
  destruct (Uint64WithOverflow n) as [num ov]. cbn [fst snd] in *.
  pose proof (toZ_range n Hn).
  destruct ov; cbn [negb].
  { eexists; split; [reflexivity|]. split; [auto|]. destruct (toZ n <? 32) eqn:E; [lia|reflexivity]. }
  assert (num = toZ n) by lia. subst num.
  destruct (toZ n mod W <? 32) eqn:E3.
  2: { eexists; split; [reflexivity|]. split; [auto|]. destruct (toZ n <? 32) eqn:E; [lia|reflexivity]. }
  replace (toZ n <? 32) with true by lia. rewrite (Z.mod_small (toZ n) W) in * by lia.
  assert (En : l0 n = toZ n).
  { destruct n as [n0 n1 n2 n3]. openx Hn. unfold is_w in *. lia. }
  rewrite En. set (k := toZ n) in *. clearbody k. clear En E2 Hn n.
  assert (Hoff : wshl (Z.land k 7) 3 = 8 * (k mod 8)).
  { change 7 with (2 ^ 3 - 1). rewrite land_pow2_mod by lia. unfold wshl.
    rewrite Z.shiftl_mul_pow2 by lia. change (2 ^ 3) with 8. lia. }
  rewrite Hoff.
  assert (Hk : 0 <= k < 32) by lia.
  assert (Hcases : forall w, is_w w -> 
     wshr (Z.land w (wshr 18374686479671623680 (8 * (k mod 8)))) (56 - 8 * (k mod 8)) = 
     (w / 2 ^ (56 - 8 * (k mod 8))) mod 256).
  { intros w Hw. rewrite <- byte_word by (auto; lia). f_equal. f_equal.
    change 18374686479671623680 with (Z.shiftl 255 56). unfold wshr, wshl.
    rewrite Z.shiftr_shiftl_l by lia. rewrite (Z.mod_small (Z.shiftl _ _)); [reflexivity|].
    rewrite Z.shiftl_mul_pow2 by lia.
    assert (0 < 2 ^ (56 - 8 * (k mod 8)) <= 2 ^ 56) by (split; [lia|apply Z.pow_le_mono_r; lia]).
    change (2 ^ 56) with 72057594037927936 in *. lia. }
  destruct x as [x0 x1 x2 x3]. openx Hx. unfold limb; cbn [l0 l1 l2 l3].
  assert (Hdiv : forall X, X / 2 ^ (8 * (31 - k)) = X / 2 ^ (64 * (3 - k / 8)) / 2 ^ (56 - 8 * (k mod 8))).
  { intros X. rewrite Z.div_div by lia. rewrite <- Z.pow_add_r by lia. do 2 f_equal. lia. }
  rewrite Hdiv.
  assert (Hp : 0 < 2 ^ (56 - 8 * (k mod 8))) by lia.
  assert (Hmod : forall w c, is_w w -> 
     ((w + W * c) / 2 ^ (56 - 8 * (k mod 8))) mod 256 = (w / 2 ^ (56 - 8 * (k mod 8))) mod 256).
  { intros w c Hw. 
    replace (W * c) with ((c * 2 ^ (8 * (k mod 8)) * 256) * 2 ^ (56 - 8 * (k mod 8))).
    - rewrite Z.div_add by lia. apply Z_mod_plus_full.
    - change 256 with (2 ^ 8). rewrite <- !Z.mul_assoc, <- !Z.pow_add_r by lia.
      replace (8 * (k mod 8) + (8 + (56 - 8 * (k mod 8)))) with 64 by lia. rewrite W_pow. lia. }
  assert (Hwf : forall w, wf (mkInt ((w / 2 ^ (56 - 8 * (k mod 8))) mod 256) 0 0 0)).
  { intros w. unfold wf, is_w; cbn [l0 l1 l2 l3]. 
    pose proof (Z.mod_pos_bound (w / 2 ^ (56 - 8 * (k mod 8))) 256). lia. }
  assert (Hq : k / 8 = 0 \/ k / 8 = 1 \/ k / 8 = 2 \/ k / 8 = 3) by lia.
  destruct Hq as [Hq|[Hq|[Hq|Hq]]]; [replace (4 - 1 - k / 8) with 3 by lia | replace (4 - 1 - k / 8) with 2 by lia | replace (4 - 1 - k / 8) with 1 by lia | replace (4 - 1 - k / 8) with 0 by lia]; rewrite ?Hq; cbn [Z.eqb Pos.eqb bind].
  all: eexists; split; [reflexivity|]; rewrite Hcases by assumption; split; [apply Hwf|]; cbn [l0 l1 l2 l3].
  all: clear Hcases Hwf Hdiv.
  - change (64 * (3 - 0)) with 192. rewrite <- W3_pow.
    replace ((x0 + W * x1 + W2 * x2 + W3 * x3) / W3) with x3 by (unfold is_w in *; lia). ring.
  - change (64 * (3 - 1)) with 128. rewrite <- W2_pow.
    replace ((x0 + W * x1 + W2 * x2 + W3 * x3) / W2) with (x2 + W * x3) by (unfold is_w in *; lia).
    rewrite Hmod by assumption. ring.
  - change (64 * (3 - 2)) with 64. rewrite <- W_pow.
    replace ((x0 + W * x1 + W2 * x2 + W3 * x3) / W) with (x1 + W * (x2 + W * x3)) by (unfold is_w in *; lia).
    rewrite Hmod by assumption. ring.
  - change (64 * (3 - 3)) with 0. change (2 ^ 0) with 1. rewrite Z.div_1_r.
    replace (x0 + W * x1 + W2 * x2 + W3 * x3) with (x0 + W * (x1 + W * (x2 + W * x3))) by lia.
    rewrite Hmod by assumption. ring.
Qed.

(** ** ExtendSign *)
(** [v] read as a two's complement number of [k] bits *)
Definition sext (k v : Z) : Z :=
  let lo := v mod 2 ^ k in if lo <? 2 ^ (k - 1) then lo else lo - 2 ^ k.

Lemma ExtendSign_spec x b : wf x -> wf b ->
  exists r, ExtendSign x b = Ok r /\ wf r /\
    toZ r = if toZ b <? 32 then sext (8 * (toZ b + 1)) (toZ x) mod T256 else toZ x.
Proof.
  intros Hx Hb. unfold ExtendSign. rewrite GtUint64_spec by (auto; unfold is_w; lia).
  pose proof (toZ_range b Hb). pose proof (toZ_range x Hx) as Hxr.
  destruct (31 <? toZ b) eqn:E.
  { eexists; split; [reflexivity|]. split; [assumption|]. destruct (toZ b <? 32) eqn:E2; [lia|reflexivity]. }
  replace (toZ b <? 32) with true by lia.
  assert (En : l0 b = toZ b).
  { destruct b as [n0 n1 n2 n3]. openx Hb. unfold is_w in *. lia. }
  replace (wadd (wmul (l0 b) 8) 7) with (8 * toZ b + 7) by (unfold wadd, wmul; rewrite En; lia).
  set (bit := 8 * toZ b + 7).
  assert (Hbit : 0 <= bit <= 255) by lia.
  replace (8 * (toZ b + 1)) with (bit + 1) by lia. clearbody bit. clear En Hb E H b.
  rewrite isBitSet_spec by (auto; lia). cbn [bind].
  eexists; split; [reflexivity|].
  destruct (Lsh_spec SetOne bit) as [HL1 HL2]; [auto|lia|].
  assert (HP : 0 < 2 ^ bit <= T255).
  { split; [lia|]. rewrite T255_pow. apply Z.pow_le_mono_r; lia. }
  rewrite toZ_SetOne, Z.mul_1_l, Z.mod_small in HL2 by lia.
  destruct (SubUint64_spec (Lsh SetOne bit) 1) as [HM1 HM2]; [assumption|unfold is_w; lia|].
  rewrite HL2, Z.mod_small in HM2 by lia.
  set (mask := SubUint64 (Lsh SetOne bit) 1) in *. clearbody mask.
  unfold sext. replace (bit + 1 - 1) with bit by lia.
  assert (HP1 : 2 ^ (bit + 1) = 2 * 2 ^ bit) by (rewrite Z.pow_add_r by lia; lia).
  assert (Hdm : toZ x = 2 ^ bit * (toZ x / 2 ^ bit) + toZ x mod 2 ^ bit) by (apply Z.div_mod; lia).
  assert (Hlo : 0 <= toZ x mod 2 ^ bit < 2 ^ bit) by (apply Z.mod_pos_bound; lia).
  assert (Htb : Z.testbit (toZ x) bit = Z.odd (toZ x / 2 ^ bit)) by (now rewrite Z.testbit_odd, Z.shiftr_div_pow2 by lia).
  set (lo := toZ x mod 2 ^ bit) in *. set (hi := toZ x / 2 ^ bit) in *.
  assert (Hpar : toZ x mod 2 ^ (bit + 1) = 2 ^ bit * (hi mod 2) + lo).
  { symmetry. apply Z.mod_unique_pos with (q := hi / 2).
    - assert (hi mod 2 = 0 \/ hi mod 2 = 1) as [-> | ->] by (pose proof (Z.mod_pos_bound hi 2); lia); lia.
    - rewrite HP1. rewrite Hdm at 1. rewrite (Z.div_mod hi 2) at 1 by lia. ring. }
  rewrite Hpar, Htb. rewrite Zmod_odd.
  destruct (Z.odd hi) eqn:Eo.
  - destruct (Not_spec mask HM1) as [HN1 HN2]. rewrite HM2 in HN2.
    destruct (Or_spec x (Not mask) Hx HN1) as [HO1 HO2]. split; [assumption|]. rewrite HO2, HN2.
    replace (2 ^ bit * 1 + lo <? 2 ^ bit) with false by lia.
    rewrite HP1. replace (2 ^ bit * 1 + lo - 2 * 2 ^ bit) with (lo - 2 ^ bit) by lia.
    rewrite <- (Z.mod_unique_pos (lo - 2 ^ bit) T256 (-1) (lo + T256 - 2 ^ bit)) by lia.
    set (c := 256 - bit). assert (HPc : 2 ^ bit * 2 ^ c = T256).
    { rewrite <- Z.pow_add_r by lia. rewrite W4_pow. f_equal. lia. }
    replace (T256 - 1 - (2 ^ bit - 1)) with (0 + 2 ^ bit * Z.ones c).
    2: { rewrite Z.ones_equiv. rewrite <- HPc. rewrite <- Z.sub_1_r. lia. }
    rewrite Hdm. rewrite (Z.add_comm _ lo). rewrite lor_split by lia. rewrite Z.lor_0_r.
    assert (Hhi : 0 <= hi < 2 ^ c).
    { split; [apply Z.div_pos; lia|]. apply Z.div_lt_upper_bound; [lia|]. rewrite HPc. lia. }
    replace (Z.lor hi (Z.ones c)) with (Z.ones c).
    2: { symmetry. apply Z.lor_ones_low; [lia|]. 
         assert (0 < c) by lia. destruct (Z.eq_dec hi 0) as [e|]; [rewrite e; change (Z.log2 0) with 0; lia|]. apply Z.log2_lt_pow2; lia. }
    rewrite Z.ones_equiv, <- Z.sub_1_r. lia.
  - destruct (And_spec x mask Hx HM1) as [HA1 HA2]. split; [assumption|]. rewrite HA2, HM2.
    rewrite land_pow2_mod by lia. fold lo.
    replace (2 ^ bit * 0 + lo <? 2 ^ bit) with true by lia. rewrite Z.mod_small; lia.
Qed.

