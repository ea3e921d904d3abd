(** U256Exp.v -- Exp computes base^exponent mod 2^256. *)
From Verif Require Import Base U256 BitFacts U256Facts U256Shift U256Bits.
From Coq Require Import ZifyBool Zpow_facts.
Ltac Zify.zify_post_hook ::= Z.div_mod_to_equations.

(** ** Exp *)
Lemma exp_loop_spec n : forall word r m, wf r -> wf m -> 0 <= word ->
  let '(r', m') := exp_loop n word (r, m) in
  wf r' /\ wf m' /\
  toZ r' = (toZ r * toZ m ^ (word mod 2 ^ Z.of_nat n)) mod T256 /\
  toZ m' = (toZ m ^ (2 ^ Z.of_nat n)) mod T256.
Proof.
  induction n as [|n IH]; intros word r m Hr Hm Hw.
  { cbn [exp_loop Z.of_nat]. change (2 ^ 0) with 1. rewrite Z.mod_1_r, Z.pow_0_r, Z.pow_1_r.
    pose proof (toZ_range r Hr). pose proof (toZ_range m Hm).
    rewrite Z.mul_1_r, !Z.mod_small by lia. auto. }
  cbn [exp_loop]. unfold exp_step at 1.
  destruct (squared_spec m Hm) as [Hs1 Hs2].
  set (r1 := if Z.land word 1 =? 1 then Mul r m else r).
  assert (Hr1 : wf r1 /\ toZ r1 = (toZ r * toZ m ^ (word mod 2)) mod T256).
  { assert (El : Z.land word 1 = word mod 2) by (change 1 with (2 ^ 1 - 1) at 1; now rewrite land_pow2_mod by lia).
    unfold r1. rewrite El. clear El.
    assert (Hc : word mod 2 = 0 \/ word mod 2 = 1) by lia. destruct Hc as [-> | ->]; cbn [Z.eqb Pos.eqb].
    - rewrite Z.pow_0_r, Z.mul_1_r. pose proof (toZ_range r Hr). rewrite Z.mod_small by lia. auto.
    - rewrite Z.pow_1_r. now apply Mul_spec. }
  destruct Hr1 as [Hr1 Er1].
  specialize (IH (wshr word 1) r1 (squared m) Hr1 Hs1).
  assert (Hsh : wshr word 1 = word / 2) by (unfold wshr; rewrite Z.shiftr_div_pow2 by lia; reflexivity).
  rewrite Hsh in *. specialize (IH ltac:(lia)).
  destruct (exp_loop n (word / 2) (r1, squared m)) as [r' m'].
  destruct IH as (Hr' & Hm' & Er' & Em').
  split; [assumption|]. split; [assumption|].
  rewrite Er1, Hs2 in *.
  assert (Hpm : forall e, 0 <= e -> (((toZ m * toZ m) mod T256) ^ e) mod T256 = (toZ m ^ (2 * e)) mod T256).
  { intros e He. rewrite <- Zpower_mod by lia. rewrite Z.pow_mul_r by lia.
    now rewrite Z.pow_2_r. }
  rewrite Nat2Z.inj_succ, Z.pow_succ_r by lia.
  assert (HP : 0 < 2 ^ Z.of_nat n) by lia.
  split.
  - rewrite Er'. rewrite Z.mul_mod_idemp_l by lia.
    rewrite <- Z.mul_mod_idemp_r, Hpm by (try apply Z.mod_pos_bound; lia).
    rewrite Z.mul_mod_idemp_r by lia.
    f_equal. rewrite <- Z.mul_assoc, <- Z.pow_add_r by (try apply Z.mul_nonneg_nonneg; try apply Z.mod_pos_bound; lia).
    do 2 f_equal. rewrite Z.rem_mul_r by lia. reflexivity.
  - rewrite Em', Hpm by lia. reflexivity.
Qed.

Lemma exp_comb b E P n w r m r' : 0 <= E -> 0 <= P -> 0 <= n ->
  r = (b ^ E) mod T256 -> m = (b ^ P) mod T256 ->
  r' = (r * m ^ (w mod 2 ^ n)) mod T256 -> r' = (b ^ (E + P * (w mod 2 ^ n))) mod T256.
Proof.
  intros HE HP Hn -> -> ->.
  assert (Hw : 0 <= w mod 2 ^ n) by (apply Z.mod_pos_bound; apply Z.pow_pos_nonneg; lia).
  set (k := w mod 2 ^ n) in *. clearbody k.
  rewrite Z.mul_mod_idemp_l by lia. rewrite <- Z.mul_mod_idemp_r by lia.
  rewrite <- Zpower_mod by lia. rewrite Z.mul_mod_idemp_r by lia.
  rewrite Z.pow_add_r, Z.pow_mul_r by (try apply Z.mul_nonneg_nonneg; lia). reflexivity.
Qed.
Lemma exp_combm b P n m m' : 0 <= P -> 0 <= n ->
  m = (b ^ P) mod T256 -> m' = (m ^ (2 ^ n)) mod T256 -> m' = (b ^ (P * 2 ^ n)) mod T256.
Proof.
  intros HP Hn -> ->. rewrite <- Zpower_mod by lia.
  rewrite Z.pow_mul_r; [reflexivity|assumption|]. apply Z.pow_nonneg. lia.
Qed.

(** the exponent that the four loops of Exp accumulate is the whole exponent *)
Lemma exp_collect e0 e1 e2 e3 bl : is_w e0 -> is_w e1 -> is_w e2 -> is_w e3 ->
  0 <= bl <= 256 -> e0 + W * e1 + W2 * e2 + W3 * e3 < 2 ^ bl ->
  let n0 := Z.max 0 (Z.min bl 64) in let n1 := Z.max 0 (Z.min bl 128 - 64) in
  let n2 := Z.max 0 (Z.min bl 192 - 128) in let n3 := Z.max 0 (Z.min bl 256 - 192) in
  e0 mod 2 ^ n0 + 2 ^ n0 * (e1 mod 2 ^ n1) + 2 ^ n0 * 2 ^ n1 * (e2 mod 2 ^ n2)
    + 2 ^ n0 * 2 ^ n1 * 2 ^ n2 * (e3 mod 2 ^ n3) = e0 + W * e1 + W2 * e2 + W3 * e3.
Proof.
  intros H0 H1 H2 H3 Hl Hlt n0 n1 n2 n3. unfold is_w in *.
  assert (Hsmall : forall v, 0 <= v < W -> v mod 2 ^ 64 = v) by (intros; rewrite <- W_pow; lia).
  assert (Hcase : bl <= 64 \/ 64 < bl <= 128 \/ 128 < bl <= 192 \/ 192 < bl) by lia.
  destruct Hcase as [Hc|[Hc|[Hc|Hc]]].
  - assert (2 ^ bl <= 2 ^ 64) by (apply Z.pow_le_mono_r; lia). rewrite <- W_pow in *.
    replace n0 with bl by lia. replace n1 with 0 by lia. replace n2 with 0 by lia. replace n3 with 0 by lia.
    change (2 ^ 0) with 1. rewrite !Z.mod_1_r. 
    assert (e1 = 0 /\ e2 = 0 /\ e3 = 0) as (-> & -> & ->) by lia. rewrite Z.mod_small by lia. lia.
  - assert (2 ^ bl <= 2 ^ 128) by (apply Z.pow_le_mono_r; lia). rewrite <- W2_pow in *.
    replace n0 with 64 by lia. replace n2 with 0 by lia. replace n3 with 0 by lia.
    change (2 ^ 0) with 1. rewrite !Z.mod_1_r. rewrite Hsmall by lia.
    assert (e2 = 0 /\ e3 = 0) as (-> & ->) by lia.
    rewrite (pow_shift bl 64) in Hlt by lia. replace n1 with (bl - 64) by lia.
    change (2 ^ 64) with W in *.
    rewrite (Z.mod_small e1) by lia. lia.
  - assert (2 ^ bl <= 2 ^ 192) by (apply Z.pow_le_mono_r; lia). rewrite <- W3_pow in *.
    replace n0 with 64 by lia. replace n1 with 64 by lia. replace n3 with 0 by lia.
    change (2 ^ 0) with 1. rewrite !Z.mod_1_r. rewrite !Hsmall by lia.
    assert (e3 = 0) as -> by lia.
    rewrite (pow_shift bl 128) in Hlt by lia. replace n2 with (bl - 128) by lia.
    change (2 ^ 64) with W in *. change (2 ^ 128) with W2 in *.
    rewrite (Z.mod_small e2) by lia. lia.
  - replace n0 with 64 by lia. replace n1 with 64 by lia. replace n2 with 64 by lia.
    rewrite !Hsmall by lia.
    rewrite (pow_shift bl 192) in Hlt by lia. replace n3 with (bl - 192) by lia.
    change (2 ^ 64) with W in *. change (2 ^ 192) with W3 in *.
    rewrite (Z.mod_small e3) by lia. lia.
Qed.

Lemma Exp_spec b e : wf b -> wf e -> wf (Exp b e) /\ toZ (Exp b e) = (toZ b ^ toZ e) mod T256.
Proof.
  intros Hb He. unfold Exp.
  destruct (BitLen_spec e He) as (Hl & Hlt & _). set (bl := BitLen e) in *. clearbody bl.
  destruct e as [e0 e1 e2 e3]. openx He. fold (wf b) in *. fold (toZ b).
  assert (Hstep : forall lo hi w r m, wf r -> wf m -> is_w w -> 0 <= lo -> hi = lo + 64 ->
    let '(r', m') := exp_loop (Z.to_nat (Z.min bl hi - lo)) w (r, m) in
    wf r' /\ wf m' /\
    toZ r' = (toZ r * toZ m ^ (w mod 2 ^ Z.max 0 (Z.min bl hi - lo))) mod T256 /\
    toZ m' = (toZ m ^ (2 ^ Z.max 0 (Z.min bl hi - lo))) mod T256).
  { intros lo hi w r m Hr Hm Hw Hlo Hhi.
    pose proof (exp_loop_spec (Z.to_nat (Z.min bl hi - lo)) w r m Hr Hm) as HH.
    replace (Z.of_nat (Z.to_nat (Z.min bl hi - lo))) with (Z.max 0 (Z.min bl hi - lo)) in HH by lia.
    apply HH. unfold is_w in *; lia. }
  assert (Hb' : wf b) by exact Hb. clear Hb.
  pose proof (Hstep 0 64 e0 SetOne b ltac:(auto) Hb' ltac:(auto) ltac:(lia) ltac:(lia)) as S1.
  destruct (exp_loop (Z.to_nat (Z.min bl 64 - 0)) e0 (SetOne, b)) as [r1 m1].
  destruct S1 as (W1 & V1 & R1 & M1).
  pose proof (Hstep 64 128 e1 r1 m1 W1 V1 ltac:(auto) ltac:(lia) ltac:(lia)) as S2.
  destruct (exp_loop (Z.to_nat (Z.min bl 128 - 64)) e1 (r1, m1)) as [r2 m2].
  destruct S2 as (W2' & V2 & R2 & M2).
  pose proof (Hstep 128 192 e2 r2 m2 W2' V2 ltac:(auto) ltac:(lia) ltac:(lia)) as S3.
  destruct (exp_loop (Z.to_nat (Z.min bl 192 - 128)) e2 (r2, m2)) as [r3 m3].
  destruct S3 as (W3' & V3 & R3 & M3).
  pose proof (Hstep 192 256 e3 r3 m3 W3' V3 ltac:(auto) ltac:(lia) ltac:(lia)) as S4.
  destruct (exp_loop (Z.to_nat (Z.min bl 256 - 192)) e3 (r3, m3)) as [r4 m4].
  destruct S4 as (W4' & V4 & R4 & M4). cbn [fst]. split; [exact W4'|].
  clear Hstep. fold (toZ r4). fold (toZ b) in *.
  rewrite toZ_SetOne, Z.mul_1_l in R1.
  rewrite Z.sub_0_r in *.
  rewrite <- (exp_collect e0 e1 e2 e3 bl) by assumption. cbv zeta.
  clear Hlt Hl.
  set (n0 := Z.max 0 (Z.min bl 64)) in *. set (n1 := Z.max 0 (Z.min bl 128 - 64)) in *.
  set (n2 := Z.max 0 (Z.min bl 192 - 128)) in *. set (n3 := Z.max 0 (Z.min bl 256 - 192)) in *.
  assert (Hn0 : 0 <= n0) by apply Z.le_max_l. assert (Hn1 : 0 <= n1) by apply Z.le_max_l.
  assert (Hn2 : 0 <= n2) by apply Z.le_max_l. assert (Hn3 : 0 <= n3) by apply Z.le_max_l.
  clearbody n0 n1 n2 n3.
  assert (Hpp : forall n, 0 <= n -> 0 < 2 ^ n) by (intros; apply Z.pow_pos_nonneg; [reflexivity|assumption]).
  assert (Hpm : forall w n, 0 <= n -> 0 <= w mod 2 ^ n) by (intros; apply Z.mod_pos_bound; auto).
  assert (Hp01 : 0 <= 2 ^ n0 * 2 ^ n1) by (apply Z.mul_nonneg_nonneg; apply Z.lt_le_incl; auto).
  assert (Hp012 : 0 <= 2 ^ n0 * 2 ^ n1 * 2 ^ n2) by (apply Z.mul_nonneg_nonneg; [|apply Z.lt_le_incl]; auto).
  assert (Hp0 : 0 <= 2 ^ n0) by (apply Z.lt_le_incl; auto).
  assert (HE2 : 0 <= e0 mod 2 ^ n0 + 2 ^ n0 * (e1 mod 2 ^ n1)).
  { apply Z.add_nonneg_nonneg; [auto|]. apply Z.mul_nonneg_nonneg; auto. }
  assert (HE3 : 0 <= e0 mod 2 ^ n0 + 2 ^ n0 * (e1 mod 2 ^ n1) + 2 ^ n0 * 2 ^ n1 * (e2 mod 2 ^ n2)).
  { apply Z.add_nonneg_nonneg; [auto|]. apply Z.mul_nonneg_nonneg; auto. }
  pose proof (exp_comb _ _ _ n1 e1 _ _ _ (Hpm e0 n0 Hn0) Hp0 Hn1 R1 M1 R2) as R2'.
  pose proof (exp_combm _ _ n1 _ _ Hp0 Hn1 M1 M2) as M2'.
  pose proof (exp_comb _ _ _ n2 e2 _ _ _ HE2 Hp01 Hn2 R2' M2' R3) as R3'.
  pose proof (exp_combm _ _ n2 _ _ Hp01 Hn2 M2' M3) as M3'.
  exact (exp_comb _ _ _ n3 e3 _ _ _ HE3 Hp012 Hn3 R3' M3' R4).
Qed.
