(** U256ModSpec.v -- Reciprocal, reduce4 and MulMod compute what their comments say. *)
From Verif Require Import Base U256 BitFacts U256Facts U256Div U256Mod U256ModMul U256ModFacts U256ModNewton U256Shift U256Udivrem U256DivSpec.
Ltac Zify.zify_post_hook ::= idtac.

(** the integer a [5]uint64 denotes, and the well-formed 5-tuples *)
Definition val5 (mu : Z * Z * Z * Z * Z) : Z :=
  let '(a, b, c, d, e) := mu in a + W * b + W2 * c + W3 * d + W4 * e.
Definition wf5 (mu : Z * Z * Z * Z * Z) : Prop :=
  let '(a, b, c, d, e) := mu in is_w a /\ is_w b /\ is_w c /\ is_w d /\ is_w e.

(** mod.go:246-301 *)
Lemma recip_adjust_spec a b c d e y0 y1 y2 y3 :
  0 <= a < W -> 0 <= b < W -> 0 <= c < W -> 0 <= d < W -> 0 <= e < W ->
  0 <= y0 < W -> 0 <= y1 < W -> 0 <= y2 < W -> 0 <= y3 < W ->
  let r := a + W * b + W2 * c + W3 * d + W4 * e in
  let y := y0 + W * y1 + W2 * y2 + W3 * y3 in
  0 < r -> 0 < y -> (r - 1) * y <= 2 ^ 574 -> 2 ^ 574 < (r + 2) * y ->
  let v := recip_adjust a b c d e y0 y1 y2 y3 in
  wf5 v /\ val5 v * y <= 2 ^ 574 /\ 2 ^ 574 < (val5 v + 2) * y.
Proof.
  intros Ha Hb Hc Hd He H0 H1 H2 H3 r y Hr Hy HU HL. cbv zeta. unfold recip_adjust.
  destruct (recip_full a b c d e y0 y1 y2 y3) as [[[[[[[[q0 q1] q2] q3] q4] q5] q6] q7] q8] eqn:EF.
  apply recip_full_spec in EF; [|lia..]. destruct EF as ((Q0 & Q1 & Q2 & Q3 & Q4 & Q5 & Q6 & Q7 & Q8) & EF).
  rewrite recip_borrow_spec by lia.
  destruct (recip_dec a b c d e) as [[[[x0 x1] x2] x3] x4] eqn:ED.
  apply recip_dec_spec in ED; [|lia..]. destruct ED as ((X0 & X1 & X2 & X3 & X4) & k & ED).
  match type of EF with ?l = _ => assert (EF' : l = r * y) by (unfold r, y; reflexivity) end.
  rewrite EF' in EF. clear EF'.
  assert (EQ : q0 + W * q1 + W2 * q2 + W3 * q3 + W4 * q4 + W5 * q5 + W * W5 * q6 + W2 * W5 * q7 + W3 * W5 * q8 = r * y)
    by (rewrite EF; lia).
  rewrite EQ. clear EQ EF.
  destruct (r * y <=? 2 ^ 574) eqn:E.
  - apply Z.leb_le in E. cbn [negb Z.eqb]. unfold wf5, val5, is_w. fold r. split; [lia|]. split; [exact E|exact HL].
  - apply Z.leb_gt in E. cbn [negb Z.eqb]. unfold wf5, val5, is_w. split; [lia|].
    fold r in ED.
    assert (Hx : x0 + W * x1 + W2 * x2 + W3 * x3 + W4 * x4 = r - 1) by (unfold r in *; lia).
    rewrite Hx. split; [exact HU|]. replace (r - 1 + 2) with (r + 1) by ring.
    rewrite Z.mul_add_distr_r. clearbody r y. lia.
Qed.

(** mod.go:60-301 *)
Lemma recip_newton_spec y : wf y -> 2 ^ 255 < toZ y ->
  exists v, recip_newton y = Ok v /\ wf5 v /\ val5 v * toZ y <= 2 ^ 574 < (val5 v + 2) * toZ y.
Proof.
  intros Hw Hy. destruct y as [y0 y1 y2 y3]. unfold wf, is_w, toZ in *. cbn [l0 l1 l2 l3] in *.
  destruct Hw as (H0 & H1 & H2 & H3).
  assert (H3' : 2 ^ 63 <= y3 < W) by lia.
  unfold recip_newton.
  destruct (recip_r0_spec y3 H3') as (r0 & -> & Hr0 & He0 & Hc0). cbn [bind].
  destruct (recip_r1_spec r0 y3 H3' Hr0 He0 Hc0) as (Hr1 & He1 & Hc1).
  set (r1 := recip_r1 r0 y3) in *. clearbody r1.
  destruct (recip_r2 r1 y2 y3) as [rh rl] eqn:E2.
  apply recip_r2_spec in E2; [|assumption..]. destruct E2 as (Hrh & Hrl & _ & He2).
  destruct (recip_sq2 rl rh) as [[[x0 x1] x2] x3] eqn:ES.
  destruct (recip_mul3 x0 x1 x2 x3 y0 y1 y2 y3) as [[[[q0 q1] q2] q3] q4] eqn:EM.
  destruct (recip_r3 rl rh q0 q1 q2 q3 q4) as [[a b] c] eqn:ER.
  destruct (recip_r3_ok _ _ _ _ _ _ _ _ _ _ _ _ _ _ _ _ _ _ H0 H1 H2 H3' Hy Hrl Hrh He2 ES EM ER) as (Ha & Hb & Hc & He3).
  clear ES EM ER.
  destruct (recip_sq3 a b c) as [[[[[a4l a4h] d4l] d4h] f4l] f4h] eqn:ES.
  destruct (recip_mul4 a4l a4h d4l d4h f4l f4h y0 y1 y2 y3) as [[[[[[z0 z1] z2] z3] z4] z5] z6] eqn:EM.
  destruct (recip_r4 a b c z0 z1 z2 z3 z4 z5 z6) as [[[[s0 s1] s2] s3] s4] eqn:ER.
  destruct (recip_r4_ok _ _ _ _ _ _ _ _ _ _ _ _ _ _ _ _ _ _ _ _ _ _ _ _ _ H0 H1 H2 H3' Hy Ha Hb Hc He3 ES EM ER)
    as ((S0 & S1 & S2 & S3 & S4) & Hs & HU & HL).
  clear ES EM ER.
  eexists. split; [reflexivity|].
  destruct (recip_adjust_spec s0 s1 s2 s3 s4 y0 y1 y2 y3) as (V1 & V2 & V3); try assumption; lia || (split; [exact V1|split; assumption]).
Qed.

(** mod.go:318-327 *)
Lemma recip_shr_spec n a b c d e : 0 < n < 64 ->
  0 <= a < W -> 0 <= b < W -> 0 <= c < W -> 0 <= d < W -> 0 <= e < W ->
  wf5 (recip_shr n a b c d e) /\
  exists lo, 0 <= lo < 2 ^ n /\ 2 ^ n * val5 (recip_shr n a b c d e) + lo = val5 (a, b, c, d, e).
Proof.
  intros Hn Ha Hb Hc Hd He. unfold recip_shr. cbv zeta.
  destruct (pow2_parts n Hn) as (HP & HQ & HPQ).
  destruct (rsh_word a n Hn Ha) as (ha & la & sa & -> & _ & Ea & La & _ & _ & Ra & _).
  destruct (rsh_word b n Hn Hb) as (hb & lb & sb & -> & -> & Eb & Lb & Mb & Sb & Rb & Ob).
  destruct (rsh_word c n Hn Hc) as (hc & lc & sc & -> & -> & Ec & Lc & Mc & Sc & Rc & Oc).
  destruct (rsh_word d n Hn Hd) as (hd & ld & sd & -> & -> & Ed & Ld & Md & Sd & Rd & Od).
  destruct (rsh_word e n Hn He) as (he & le & se & -> & -> & Ee & Le & Me & Se & Re & Oe).
  rewrite (Ob ha Ra), (Oc hb Rb), (Od hc Rc), (Oe hd Rd).
  unfold wf5, val5, is_w.
  set (P := 2 ^ n) in *. set (Q := 2 ^ (64 - n)) in *. clearbody P Q. clear Ob Oc Od Oe.
  assert (Q <= W). { rewrite <- HPQ, <- (Z.mul_1_l Q) at 1. apply Z.mul_le_mono_nonneg_r; lia. }
  split; [lia|].
  exists la. split; [exact La|].
  transitivity ((P * ha + la) + P * sb + W * (P * hb + P * sc) + W2 * (P * hc + P * sd) + W3 * (P * hd + P * se) + W4 * (P * he));
    [ring|]. rewrite Mb, Mc, Md, Me. lia.
Qed.

Lemma pow_split_le s k : 0 <= s <= k -> 2 ^ s * 2 ^ (k - s) = 2 ^ k.
Proof. intros. rewrite <- Z.pow_add_r by lia. f_equal. lia. Qed.

(** mod.go:305-339.  m*2^s = y; the result is a lower approximation of 2^512/m. *)
Lemma recip_align_spec m s v : 0 <= s < 64 -> wf5 v -> 0 < m -> 2 ^ 255 < m * 2 ^ s ->
  val5 v * (m * 2 ^ s) <= 2 ^ 574 < (val5 v + 2) * (m * 2 ^ s) ->
  let mu := (let '(a, b, c, d, e) := v in recip_align (255 - s) a b c d e) in
  wf5 mu /\ val5 mu * m <= 2 ^ 512 < (val5 mu + 4) * m.
Proof.
  intros Hs Hv Hm Hy HB. destruct v as [[[[a b] c] d] e]. cbv zeta.
  destruct Hv as (Ha & Hb & Hc & Hd & He).
  unfold recip_align. rewrite land63 by lia.
  replace ((255 - s) mod 64) with (63 - s)
    by (apply Z.mod_unique_pos with 3; lia).
  destruct (recip_dbl a b c d e) as [[[[x0 x1] x2] x3] x4] eqn:ED.
  apply recip_dbl_spec in ED; [|assumption..]. destruct ED as ((X0 & X1 & X2 & X3 & X4) & k & ED).
  assert (HV : 0 <= val5 (a, b, c, d, e) < 2 ^ 319).
  { split; [unfold val5, is_w in *; lia|]. apply Z.nle_gt. intros Hge.
    assert (2 ^ 319 * (m * 2 ^ s) <= val5 (a, b, c, d, e) * (m * 2 ^ s)) by (apply Z.mul_le_mono_nonneg_r; lia).
    lia. }
  destruct (63 - s - 1 <? 0) eqn:E1.
  - apply Z.ltb_lt in E1. assert (s = 63) by lia. subst s. cbv iota.
    destruct (recip_shr 0 x0 x1 x2 x3 x4) as [[[[? ?] ?] ?] ?]. change (0 <? 0) with false. cbv iota.
    assert (E2 : val5 (x0, x1, x2, x3, x4) = 2 * val5 (a, b, c, d, e)).
    { unfold val5, is_w in *. lia. }
    split; [repeat split; lia|]. rewrite E2. set (r := val5 (a, b, c, d, e)) in *. clearbody r.
    assert (F1 : r * (m * 2 ^ 63) = 2 ^ 63 * (r * m)) by ring.
    assert (F2 : (r + 2) * (m * 2 ^ 63) = 2 ^ 63 * (r * m + 2 * m)) by ring.
    assert (F3 : 2 * r * m = 2 * (r * m)) by ring.
    assert (F4 : (2 * r + 4) * m = 2 * (r * m + 2 * m)) by ring.
    rewrite F1, F2 in HB. rewrite F3, F4. set (rm := r * m) in *. clearbody rm. lia.
  - apply Z.ltb_ge in E1. cbv iota.
    destruct (Z.eq_dec s 62) as [->|Hne].
    + change (63 - 62 - 1) with 0. destruct (recip_shr 0 a b c d e) as [[[[? ?] ?] ?] ?]. change (0 <? 0) with false. cbv iota.
      split; [repeat split; unfold is_w in *; lia|].
      set (r := val5 (a, b, c, d, e)) in *. clearbody r.
      assert (F1 : r * (m * 2 ^ 62) = 2 ^ 62 * (r * m)) by ring.
      assert (F2 : (r + 2) * (m * 2 ^ 62) = 2 ^ 62 * (r * m + 2 * m)) by ring.
      assert (F4 : (r + 4) * m = r * m + 4 * m) by ring.
      rewrite F1, F2 in HB. rewrite F4. set (rm := r * m) in *. clearbody rm. lia.
    + set (n := 63 - s - 1). assert (Hn : 0 < n < 64) by (unfold n; lia).
      destruct (recip_shr_spec n a b c d e Hn Ha Hb Hc Hd He) as (Hw & lo & Hlo & Es).
      destruct (recip_shr n a b c d e) as [[[[z0 z1] z2] z3] z4].
      destruct (0 <? n) eqn:E3; [|apply Z.ltb_ge in E3; lia].
      split; [exact Hw|].
      assert (HPS : 2 ^ n * 2 ^ s = 2 ^ 62) by (replace n with (62 - s) by (unfold n; lia); rewrite Z.mul_comm; apply pow_split_le; lia).
      set (r := val5 (a, b, c, d, e)) in *. set (u := val5 (z0, z1, z2, z3, z4)) in *.
      assert (HP : 0 < 2 ^ n) by lia. assert (HS : 0 < 2 ^ s) by lia.
      set (P := 2 ^ n) in *. set (S := 2 ^ s) in *. clearbody P S r u. clear ED.
      assert (Hms : 0 < m * S) by (apply Z.mul_pos_pos; lia).
      assert (G1 : P * u * (m * S) <= r * (m * S)) by (apply Z.mul_le_mono_nonneg_r; lia).
      assert (G2 : r * (m * S) + m * S <= P * (u + 1) * (m * S)).
      { replace (r * (m * S) + m * S) with ((r + 1) * (m * S)) by ring. apply Z.mul_le_mono_nonneg_r; lia. }
      assert (G3 : m * S <= P * (m * S)).
      { rewrite <- (Z.mul_1_l (m * S)) at 1. apply Z.mul_le_mono_nonneg_r; lia. }
      replace (P * u * (m * S)) with (P * S * (u * m)) in G1 by ring.
      replace (P * (u + 1) * (m * S)) with (P * S * (u * m + m)) in G2 by ring.
      replace (P * (m * S)) with (P * S * m) in G3 by ring.
      replace ((r + 2) * (m * S)) with (r * (m * S) + 2 * (m * S)) in HB by ring.
      replace ((u + 4) * m) with (u * m + 4 * m) by ring.
      rewrite HPS in *. set (rms := r * (m * S)) in *. set (ms := m * S) in *. set (um := u * m) in *.
      clearbody rms ms um. lia.
Qed.

Lemma land_pred_pow2 a : 0 < a -> Z.land a (a - 1) = 0 -> a = 2 ^ Z.log2 a.
Proof.
  intros Ha H. destruct (Z.log2_spec a Ha) as [L1 L2]. rewrite Z.pow_succ_r in L2 by apply Z.log2_nonneg.
  destruct (Z.eq_dec a (2 ^ Z.log2 a)) as [e|n]; [exact e|exfalso].
  assert (Hl : Z.log2 (a - 1) = Z.log2 a).
  { apply Z.log2_unique; [apply Z.log2_nonneg|]. rewrite Z.pow_succ_r by apply Z.log2_nonneg. lia. }
  assert (B : Z.testbit (Z.land a (a - 1)) (Z.log2 a) = true).
  { rewrite Z.land_spec, Z.bit_log2 by lia. rewrite <- Hl. rewrite Z.bit_log2; [reflexivity|].
    assert (0 < 2 ^ Z.log2 a) by (apply Z.pow_pos_nonneg; [lia|apply Z.log2_nonneg]). lia. }
  rewrite H, Z.bits_0 in B. discriminate.
Qed.

(** mod.go:28-340: for 2^192 <= m the result lies in (2^512/m - 4, 2^512/m] *)
Theorem Reciprocal_spec m : wf m -> l3 m <> 0 ->
  exists mu, Reciprocal m = Ok mu /\ wf5 mu /\ val5 mu * toZ m <= 2 ^ 512 < (val5 mu + 4) * toZ m.
Proof.
  intros Hw H3. unfold Reciprocal.
  destruct (l3 m =? 0) eqn:E; [apply Z.eqb_eq in E; contradiction|]. clear E.
  pose proof Hw as (W0 & W1 & W2' & W3'). unfold is_w in *.
  destruct (lz64_spec (l3 m) ltac:(lia)) as (Hs & Hlo & Hhi).
  set (s := lz64 (l3 m)) in *.
  assert (HP : 2 ^ s * 2 ^ (63 - s) = 2 ^ 63) by (apply pow_split_le; lia).
  assert (HS : 0 < 2 ^ s) by lia. assert (HT : 0 < 2 ^ (63 - s)) by lia.
  assert (Hm3 : 2 ^ (63 - s) <= l3 m < 2 * 2 ^ (63 - s)).
  { split.
    - apply Z.mul_le_mono_pos_r with (2 ^ s); [lia|]. rewrite (Z.mul_comm _ (2 ^ s)), HP. lia.
    - apply Z.mul_lt_mono_pos_r with (2 ^ s); [lia|].
      replace (2 * 2 ^ (63 - s) * 2 ^ s) with (2 * (2 ^ s * 2 ^ (63 - s))) by ring. rewrite HP. lia. }
  assert (Hpos : 0 < toZ m) by (unfold toZ; lia).
  assert (Hup : toZ m * 2 ^ s < W4).
  { apply Z.lt_le_trans with ((2 * 2 ^ (63 - s) * W3) * 2 ^ s).
    - apply Z.mul_lt_mono_pos_r; [lia|]. unfold toZ. lia.
    - replace (2 * 2 ^ (63 - s) * W3 * 2 ^ s) with (2 * W3 * (2 ^ s * 2 ^ (63 - s))) by ring. rewrite HP. lia. }
  assert (Hdn : 2 ^ 255 <= toZ m * 2 ^ s).
  { apply Z.le_trans with ((2 ^ (63 - s) * W3) * 2 ^ s).
    - replace (2 ^ (63 - s) * W3 * 2 ^ s) with (W3 * (2 ^ s * 2 ^ (63 - s))) by ring. rewrite HP. lia.
    - apply Z.mul_le_mono_nonneg_r; [lia|]. unfold toZ. lia. }
  cbv zeta.
  destruct (_ =? 0) eqn:E.
  - apply Z.eqb_eq in E.
    apply Z.lor_eq_0_iff in E. destruct E as [E E3]. apply Z.lor_eq_0_iff in E. destruct E as [E E2].
    apply Z.lor_eq_0_iff in E. destruct E as [E0 E1].
    unfold wsub in E3. rewrite Z.mod_small in E3 by lia.
    apply land_pred_pow2 in E3; [|lia].
    assert (Hk : l3 m = 2 ^ (63 - s)).
    { rewrite E3. f_equal. apply Z.log2_unique; [lia|]. rewrite Z.pow_succ_r by lia. exact Hm3. }
    eexists. split; [reflexivity|].
    rewrite land63 by lia. replace ((255 - s) mod 64) with (63 - s) by (apply Z.mod_unique_pos with 3; lia).
    unfold wshr. rewrite Z.shiftr_div_pow2 by lia.
    assert (Eq : (W - 1) / 2 ^ (63 - s) = 2 * 2 ^ s - 1).
    { symmetry. apply Z.div_unique_pos with (2 ^ (63 - s) - 1); [lia|].
      rewrite Z.mul_sub_distr_l. replace (2 ^ (63 - s) * (2 * 2 ^ s)) with (2 * (2 ^ s * 2 ^ (63 - s))) by ring.
      rewrite HP. lia. }
    rewrite Eq. 
    assert (HS' : 2 ^ s <= 2 ^ 63) by (apply Z.pow_le_mono_r; lia).
    assert (Hv : val5 (W - 1, W - 1, W - 1, W - 1, 2 * 2 ^ s - 1) = 2 * 2 ^ s * W4 - 1) by (unfold val5; lia).
    split; [unfold wf5, is_w; lia|]. rewrite Hv.
    assert (Hm : toZ m = 2 ^ (63 - s) * W3) by (unfold toZ; lia).
    assert (Hmm : 2 * 2 ^ s * W4 * toZ m = 2 ^ 512).
    { rewrite Hm. replace (2 * 2 ^ s * W4 * (2 ^ (63 - s) * W3)) with (2 * W4 * W3 * (2 ^ s * 2 ^ (63 - s))) by ring.
      rewrite HP. reflexivity. }
    rewrite Z.mul_sub_distr_r, Z.mul_add_distr_r, Z.mul_sub_distr_r, Hmm. lia.
  - apply Z.eqb_neq in E.
    destruct (Lsh_spec m s Hw ltac:(lia)) as (Wy & Ey). rewrite Z.mod_small in Ey by lia.
    destruct (recip_newton_spec (Lsh m s) Wy) as (v & -> & Wv & Bv).
    { rewrite Ey. destruct (Z.eq_dec (toZ m * 2 ^ s) (2 ^ 255)) as [e|n]; [exfalso|lia].
      assert (Em : toZ m = 2 ^ (63 - s) * W3).
      { apply Z.mul_reg_r with (2 ^ s); [lia|]. rewrite e.
        replace (2 ^ (63 - s) * W3 * 2 ^ s) with (W3 * (2 ^ s * 2 ^ (63 - s))) by ring. rewrite HP. reflexivity. }
      unfold toZ in Em.
      assert (l0 m = 0 /\ l1 m = 0 /\ l2 m = 0 /\ l3 m = 2 ^ (63 - s)) as (Z0 & Z1 & Z2 & Z3) by lia.
      apply E. rewrite Z0, Z1, Z2. cbn [Z.lor]. rewrite Z3.
      unfold wsub. rewrite Z.mod_small by lia.
      replace (2 ^ (63 - s) - 1) with (Z.ones (63 - s)) by (rewrite Z.ones_equiv; lia).
      rewrite Z.land_ones by lia. apply Z.mod_same. lia. }
    cbn [bind]. rewrite Ey in Bv.
    destruct (recip_align_spec (toZ m) s v Hs Wv Hpos) as (Wr & Br); [|exact Bv|].
    { destruct (Z.eq_dec (toZ m * 2 ^ s) (2 ^ 255)) as [e|n]; [exfalso|lia].
      rewrite e in Bv. clear - Bv Wv e E Hm3 Hs HP HS HT H3 W0 W1 W2' W3'.
      assert (Em : toZ m = 2 ^ (63 - s) * W3).
      { apply Z.mul_reg_r with (2 ^ s); [lia|]. rewrite e.
        replace (2 ^ (63 - s) * W3 * 2 ^ s) with (W3 * (2 ^ s * 2 ^ (63 - s))) by ring. rewrite HP. reflexivity. }
      unfold toZ in Em.
      assert (l0 m = 0 /\ l1 m = 0 /\ l2 m = 0 /\ l3 m = 2 ^ (63 - s)) as (Z0 & Z1 & Z2 & Z3) by lia.
      apply E. rewrite Z0, Z1, Z2. cbn [Z.lor]. rewrite Z3.
      unfold wsub. rewrite Z.mod_small by lia.
      replace (2 ^ (63 - s) - 1) with (Z.ones (63 - s)) by (rewrite Z.ones_equiv; lia).
      rewrite Z.land_ones by lia. apply Z.mod_same. lia. }
    destruct v as [[[[a b] c] d] e]. eexists. split; [reflexivity|]. split; [exact Wr|exact Br].
Qed.

(** mod.go:461-476: with r < n*m, at most n rounds are run *)
Lemma reduce_loop_spec m0 m1 m2 m3 : 0 <= m0 < W -> 0 <= m1 < W -> 0 <= m2 < W -> 0 <= m3 < W ->
  let m := m0 + W * m1 + W2 * m2 + W3 * m3 in 0 < m ->
  forall fuel r0 r1 r2 r3 r4, 0 <= r0 < W -> 0 <= r1 < W -> 0 <= r2 < W -> 0 <= r3 < W -> 0 <= r4 < W ->
  let r := r0 + W * r1 + W2 * r2 + W3 * r3 + W4 * r4 in
  r < Z.of_nat fuel * m ->
  exists z, reduce_loop fuel r0 r1 r2 r3 r4 m0 m1 m2 m3 = Ok z /\ wf z /\ toZ z = r mod m.
Proof.
  intros M0 M1 M2 M3 m Hm. induction fuel as [|n IH]; intros r0 r1 r2 r3 r4 R0 R1 R2 R3 R4 r Hr.
  { exfalso. unfold r in Hr. change (Z.of_nat 0) with 0 in Hr. lia. }
  cbn [reduce_loop].
  destruct (reduce_step r0 r1 r2 r3 r4 m0 m1 m2 m3) as [[[[[o0 o1] o2] o3] o4] b] eqn:E.
  apply reduce_step_spec in E; [|assumption..]. destruct E as ((O0 & O1 & O2 & O3 & O4) & Hb & E).
  fold r m in E.
  destruct (b =? 0) eqn:Eb; cbn [negb].
  - apply Z.eqb_eq in Eb. subst b.
    destruct (IH o0 o1 o2 o3 o4 O0 O1 O2 O3 O4) as (z & -> & Wz & Vz).
    { rewrite Nat2Z.inj_succ, Z.mul_succ_l in Hr. lia. }
    exists z. split; [reflexivity|]. split; [exact Wz|]. rewrite Vz.
    replace r with ((o0 + W * o1 + W2 * o2 + W3 * o3 + W4 * o4) + 1 * m) by lia.
    now rewrite Z_mod_plus_full.
  - apply Z.eqb_neq in Eb. assert (b = 1) by lia. subst b.
    assert (Hlt : 0 <= r < m) by (unfold r, m in *; lia).
    exists (mkInt r0 r1 r2 r3). split; [reflexivity|]. unfold wf, toZ, is_w. cbn [l0 l1 l2 l3].
    split; [lia|]. rewrite Z.mod_small by exact Hlt. unfold r, m in *. lia.
Qed.

(** mod.go:345-481, for every mu with 2^512/m - 4 < mu <= 2^512/m *)
Theorem reduce4_spec x m mu : length x = 8%nat -> Forall is_w x -> wf m -> l3 m <> 0 -> wf5 mu ->
  val5 mu * toZ m <= 2 ^ 512 < (val5 mu + 4) * toZ m ->
  exists z, reduce4 x m mu = Ok z /\ wf z /\ toZ z = lval x mod toZ m.
Proof.
  intros HL Fx Wm H3 Wmu HB.
  destruct x as [|p0 [|p1 [|p2 [|p3 [|p4 [|p5 [|p6 [|p7 [|? ?]]]]]]]]]; try discriminate HL. clear HL.
  repeat match goal with H : Forall _ (_ :: _) |- _ => apply Forall_cons_iff in H; destruct H as [? H] end. clear Fx.
  destruct m as [m0 m1 m2 m3], mu as [[[[u0 u1] u2] u3] u4].
  unfold wf, wf5, toZ, val5, is_w in *. cbn [l0 l1 l2 l3] in *.
  destruct Wm as (M0 & M1 & M2 & M3). destruct Wmu as (U0 & U1 & U2 & U3 & U4).
  unfold reduce4.
  destruct (reduce_q p3 p4 p5 p6 p7 u0 u1 u2 u3 u4) as [[[[q0 q1] q2] q3] q4] eqn:EQ.
  apply reduce_q_spec in EQ; [|assumption..]. destruct EQ as ((Q0 & Q1 & Q2 & Q3 & Q4) & e & He & EQ).
  destruct (reduce_r2 q0 q1 q2 q3 q4 m0 m1 m2 m3) as [[[[r0 r1] r2] r3] r4] eqn:ER.
  apply reduce_r2_spec in ER; [|assumption..]. destruct ER as ((R0 & R1 & R2 & R3 & R4) & k & ER).
  destruct (reduce_sub p0 p1 p2 p3 p4 r0 r1 r2 r3 r4) as [[[[[s0 s1] s2] s3] s4] b] eqn:ES.
  apply reduce_sub_spec in ES; [|assumption..]. destruct ES as ((S0 & S1 & S2 & S3 & S4) & ES).
  set (X := lval [p0; p1; p2; p3; p4; p5; p6; p7]).
  set (m := m0 + W * m1 + W2 * m2 + W3 * m3) in *. set (mu := u0 + W * u1 + W2 * u2 + W3 * u3 + W4 * u4) in *.
  set (q := q0 + W * q1 + W2 * q2 + W3 * q3 + W4 * q4) in *.
  set (h := p3 + W * p4 + W2 * p5 + W3 * p6 + W4 * p7) in *.
  assert (Hm : W3 <= m < W4) by (unfold m; lia).
  assert (HX : W3 * h <= X < W3 * h + W3) by (unfold X, h; cbn [lval]; lia).
  assert (Hh : 0 <= h < W5) by (unfold h; lia).
  (* bounds on the quotient estimate q *)
  assert (Emul : W5 * (q * m) + e * m = h * (mu * m)).
  { replace (h * (mu * m)) with (h * mu * m) by ring. rewrite EQ. ring. }
  assert (B1 : h * (mu * m) <= h * 2 ^ 512) by (apply Z.mul_le_mono_nonneg_l; lia).
  assert (B2 : h * (2 ^ 512 - 4 * m) <= h * (mu * m)) by (apply Z.mul_le_mono_nonneg_l; lia).
  rewrite Z.mul_sub_distr_l in B2.
  assert (B3 : h * (4 * m) <= W5 * (4 * m)) by (apply Z.mul_le_mono_nonneg_r; lia).
  assert (B4 : 0 <= e * m <= 2 * W5 * m).
  { split; [apply Z.mul_nonneg_nonneg; lia|]. apply Z.mul_le_mono_nonneg_r; lia. }
  assert (D0 : 0 <= X - q * m) by lia.
  assert (D1 : X - q * m <= 7 * m) by lia.
  set (D := X - q * m) in *.
  assert (ED : exists j, s0 + W * s1 + W2 * s2 + W3 * s3 + W4 * s4 = D + W5 * j).
  { exists (k - (p5 + W * p6 + W2 * p7) + b). unfold D. rewrite ER. unfold X. cbn [lval]. clear - ES. lia. }
  destruct ED as (j & ED).
  assert (Es : s0 + W * s1 + W2 * s2 + W3 * s3 + W4 * s4 = D) by lia.
  assert (HXm : X mod m = D mod m).
  { unfold D. replace (X - q * m) with (X + (- q) * m) by ring. now rewrite Z_mod_plus_full. }
  rewrite HXm.
  destruct (negb (b =? 0)).
  - destruct (reduce_add s0 s1 s2 s3 s4 m0 m1 m2 m3) as [[[[a0 a1] a2] a3] a4] eqn:EA.
    apply reduce_add_spec in EA; [|assumption..]. destruct EA as ((A0 & A1 & A2 & A3 & A4) & kk & EA).
    fold m in EA. rewrite Es in EA.
    assert (Ea : a0 + W * a1 + W2 * a2 + W3 * a3 + W4 * a4 = D + m) by lia.
    destruct (reduce_loop_spec m0 m1 m2 m3 M0 M1 M2 M3 ltac:(fold m; lia) reduce_fuel a0 a1 a2 a3 a4 A0 A1 A2 A3 A4) as (z & Ez & Wz & Vz).
    { rewrite Ea. fold m. change (Z.of_nat reduce_fuel) with 10. lia. }
    exists z. split; [exact Ez|]. split; [exact Wz|]. unfold toZ in Vz. rewrite Vz, Ea. fold m.
    replace (D + m) with (D + 1 * m) by ring. now rewrite Z_mod_plus_full.
  - destruct (reduce_loop_spec m0 m1 m2 m3 M0 M1 M2 M3 ltac:(fold m; lia) reduce_fuel s0 s1 s2 s3 s4 S0 S1 S2 S3 S4) as (z & Ez & Wz & Vz).
    { rewrite Es. fold m. change (Z.of_nat reduce_fuel) with 10. lia. }
    exists z. split; [exact Ez|]. split; [exact Wz|]. unfold toZ in Vz. rewrite Vz, Es. reflexivity.
Qed.

Lemma Udivrem_8 p m : length p = 8%nat -> Forall is_w p -> wf m -> 0 < toZ m -> toZ m <= lval p ->
  exists q r, Udivrem [0;0;0;0;0;0;0;0] p m = Ok (q, r) /\ wf r /\ toZ r = lval p mod toZ m.
Proof.
  intros Hl Fp Hm H0 Hle.
  pose proof (words_of_siglen p Fp) as Su. pose proof (words_of_siglen (limbs m) (limbs_wf m Hm)) as Sd.
  pose proof (siglen_le p) as L. rewrite Hl in L.
  pose proof (siglen_le (limbs m)) as L4. change (length (limbs m)) with 4%nat in L4.
  assert (Z1 : siglen (limbs m) <> 0%nat) by (intros e; apply siglen_zero in e; [rewrite limbs_toZ in e; lia|now apply limbs_wf]).
  assert (Z2 : siglen p <> 0%nat) by (intros e; apply siglen_zero in e; [lia|assumption]).
  assert (Z3 : (siglen (limbs m) <= siglen p)%nat) by (apply siglen_mono; [now apply limbs_wf|assumption|rewrite limbs_toZ; exact Hle]).
  rewrite limbs_toZ in Sd.
  destruct (Udivrem_exact [0;0;0;0;0;0;0;0] p m _ _ Fp Hm Su Sd) as [H _].
  destruct H as (Qs & rem & E & _ & _ & Hr & _ & V); [cbn [length]; lia|].
  rewrite E. do 2 eexists. split; [reflexivity|]. split; assumption.
Qed.

(** uint256.go:626-641 *)
Lemma mulmod_small_spec p m : length p = 8%nat -> Forall is_w p -> wf m -> 0 < toZ m ->
  exists z, mulmod_small p m = Ok z /\ wf z /\ toZ z = lval p mod toZ m.
Proof.
  intros HL Fp Wm Hm.
  destruct p as [|p0 [|p1 [|p2 [|p3 [|p4 [|p5 [|p6 [|p7 [|? ?]]]]]]]]]; try discriminate HL.
  pose proof Fp as F. unfold mulmod_small.
  repeat match goal with H : Forall _ (_ :: _) |- _ => apply Forall_cons_iff in H; destruct H as [? H] end. clear F.
  assert (Wl : wf (mkInt p0 p1 p2 p3)) by (repeat split; assumption || apply H || apply H0 || apply H1 || apply H2).
  assert (Wh : wf (mkInt p4 p5 p6 p7)) by (unfold wf; cbn [l0 l1 l2 l3]; tauto).
  rewrite IsZero_spec by exact Wh.
  assert (EV : lval [p0; p1; p2; p3; p4; p5; p6; p7] = toZ (mkInt p0 p1 p2 p3) + T256 * toZ (mkInt p4 p5 p6 p7)).
  { unfold toZ. cbn [lval l0 l1 l2 l3]. lia. }
  destruct (toZ (mkInt p4 p5 p6 p7) =? 0) eqn:E.
  - apply Z.eqb_eq in E. destruct (Mod_spec _ m Wl Wm) as (z & Ez & Wz & Vz). exists z. split; [exact Ez|]. split; [exact Wz|].
    rewrite Vz, EV, E. destruct (toZ m =? 0) eqn:E0; [apply Z.eqb_eq in E0; lia|]. f_equal. lia.
  - apply Z.eqb_neq in E. pose proof (toZ_range _ Wh). pose proof (toZ_range _ Wl). pose proof (toZ_range _ Wm).
    destruct (Udivrem_8 [p0; p1; p2; p3; p4; p5; p6; p7] m HL) as (q & r & Eq & Wr & Vr); [repeat (apply Forall_cons; [assumption|]); apply Forall_nil|assumption|assumption|lia|].
    rewrite Eq. cbn [bind snd]. exists r. auto.
Qed.

Lemma mul_mod_zero a b m : toZ m <> 0 -> toZ a = 0 \/ toZ b = 0 -> (toZ a * toZ b) mod toZ m = 0.
Proof. intros Hm [-> | ->]; rewrite ?Z.mul_0_l, ?Z.mul_0_r; apply Z.mod_0_l; assumption. Qed.

(** uint256.go:616-642, for a true reciprocal *)
Theorem MulModWithReciprocal_spec x y m mu : wf x -> wf y -> wf m -> wf5 mu ->
  (l3 m <> 0 -> val5 mu * toZ m <= 2 ^ 512 < (val5 mu + 4) * toZ m) ->
  exists z, MulModWithReciprocal x y m mu = Ok z /\ wf z /\
    toZ z = if toZ m =? 0 then 0 else (toZ x * toZ y) mod toZ m.
Proof.
  intros Wx Wy Wm Wmu HB. unfold MulModWithReciprocal. rewrite !IsZero_spec by assumption.
  destruct (toZ m =? 0) eqn:Em.
  { rewrite orb_true_r. exists Clear. split; [reflexivity|]. apply Clear_spec. }
  apply Z.eqb_neq in Em. rewrite orb_false_r.
  destruct ((toZ x =? 0) || (toZ y =? 0)) eqn:Exy.
  { exists Clear. split; [reflexivity|]. split; [apply Clear_spec|]. rewrite mul_mod_zero; [apply Clear_spec|exact Em|].
    apply orb_true_iff in Exy. destruct Exy as [e|e]; apply Z.eqb_eq in e; auto. }
  destruct (Umul_length_spec x y Wx Wy) as (HL & FU & VU). rewrite <- VU.
  pose proof (toZ_range m Wm).
  destruct (l3 m =? 0) eqn:E3; cbn [negb].
  - apply mulmod_small_spec; auto. lia.
  - apply Z.eqb_neq in E3. apply reduce4_spec; auto.
Qed.

(** uint256.go:647-674 *)
Theorem MulMod_spec x y m : wf x -> wf y -> wf m ->
  exists z, MulMod x y m = Ok z /\ wf z /\ toZ z = if toZ m =? 0 then 0 else (toZ x * toZ y) mod toZ m.
Proof.
  intros Wx Wy Wm.
  destruct (Z.eq_dec (l3 m) 0) as [e|n].
  - destruct (MulModWithReciprocal_spec x y m (0, 0, 0, 0, 0) Wx Wy Wm) as (z & E & H).
    + repeat split; lia.
    + intros n; contradiction.
    + exists z. split; [|exact H]. rewrite <- E. unfold MulMod, MulModWithReciprocal. rewrite e. cbn [Z.eqb negb].
      destruct (IsZero x || IsZero y || IsZero m); reflexivity.
  - destruct (Reciprocal_spec m Wm n) as (mu & ER & Wmu & B).
    destruct (MulModWithReciprocal_spec x y m mu Wx Wy Wm Wmu (fun _ => B)) as (z & E & H).
    exists z. split; [|exact H]. rewrite <- E. unfold MulMod, MulModWithReciprocal.
    destruct (IsZero x || IsZero y || IsZero m); [reflexivity|].
    rewrite ER. reflexivity.
Qed.


(** mod.go:13-20 *)
Lemma leadingZeros_spec x : wf x ->
  (toZ x = 0 -> leadingZeros x = 256) /\
  (toZ x <> 0 -> 0 <= leadingZeros x < 256 /\ 2 ^ 255 <= toZ x * 2 ^ leadingZeros x < 2 ^ 256).
Proof.
  destruct x as [x0 x1 x2 x3]. intros (H0 & H1 & H2 & H3). unfold leadingZeros, toZ, is_w in *. cbn [l0 l1 l2 l3] in *. cbv zeta.
  assert (K : forall t lo hi k, 0 < t < W -> 0 <= lo < hi -> 0 <= k -> 0 <= lz64 t < 64 /\ (hi * 2 ^ k = 2 ^ 192 ->
     2 ^ 255 <= (lo + hi * t) * 2 ^ (lz64 t + k) < 2 ^ 256)).
  { intros t lo hi k Ht Hlo Hk. destruct (lz64_spec t Ht) as (Hs & L1 & L2). split; [lia|]. intros E.
    rewrite Z.pow_add_r by lia. set (s := lz64 t) in *.
    assert (HS : 2 ^ s * 2 ^ (64 - s) = 2 ^ 64) by (apply pow_split_le; lia).
    assert (0 < 2 ^ s) by lia. assert (0 < 2 ^ (64 - s)) by lia. assert (0 < 2 ^ k) by lia.
    assert (Ht2 : t * 2 ^ s + 2 ^ s <= 2 ^ 64).
    { assert (t + 1 <= 2 ^ (64 - s)).
      { apply Z.le_succ_l. apply Z.mul_lt_mono_pos_r with (2 ^ s); [lia|]. rewrite (Z.mul_comm _ (2 ^ s)) in *. lia. }
      rewrite <- HS. replace (t * 2 ^ s + 2 ^ s) with (2 ^ s * (t + 1)) by ring. apply Z.mul_le_mono_nonneg_l; lia. }
    replace ((lo + hi * t) * (2 ^ s * 2 ^ k)) with (lo * 2 ^ k * 2 ^ s + (hi * 2 ^ k) * (t * 2 ^ s)) by ring. rewrite E.
    assert (0 <= lo * 2 ^ k * 2 ^ s) by (repeat apply Z.mul_nonneg_nonneg; lia).
    assert (lo * 2 ^ k * 2 ^ s < 2 ^ 192 * 2 ^ s).
    { rewrite <- E. apply Z.mul_lt_mono_pos_r; [lia|]. apply Z.mul_lt_mono_pos_r; lia. }
    lia. }
  assert (Z0 : lz64 0 = 64) by reflexivity.
  destruct (Z.eq_dec x3 0) as [->|n3].
  - rewrite Z0. change (64 =? 64) with true. cbv iota.
    destruct (Z.eq_dec x2 0) as [->|n2].
    + rewrite Z0. change (64 + 64 =? 128) with true. cbv iota.
      destruct (Z.eq_dec x1 0) as [->|n1].
      * rewrite Z0. change (64 + 128 =? 192) with true. cbv iota.
        destruct (Z.eq_dec x0 0) as [->|n0].
        -- rewrite Z0. split; [reflexivity|]. intros e. exfalso. apply e. reflexivity.
        -- destruct (K x0 0 1 192) as (B & C); [lia..|]. split; [intros; lia|]. intros _. split; [lia|].
           specialize (C eq_refl). match goal with |- _ <= ?v * _ < _ => replace v with (0 + 1 * x0) by lia end. exact C.
      * destruct (K x1 x0 W 128) as (B & C); [lia..|]. 
        destruct (lz64 x1 + 128 =? 192) eqn:E; [apply Z.eqb_eq in E; lia|]. split; [intros; lia|]. intros _. split; [lia|].
        specialize (C eq_refl). match goal with |- _ <= ?v * _ < _ => replace v with (x0 + W * x1) by lia end. exact C.
    + destruct (K x2 (x0 + W * x1) W2 64) as (B & C); [lia..|].
      destruct (lz64 x2 + 64 =? 128) eqn:E; [apply Z.eqb_eq in E; lia|].
      destruct (lz64 x2 + 64 =? 192) eqn:E'; [apply Z.eqb_eq in E'; lia|]. split; [intros; lia|]. intros _. split; [lia|].
      specialize (C eq_refl). match goal with |- _ <= ?v * _ < _ => replace v with (x0 + W * x1 + W2 * x2) by lia end. exact C.
  - destruct (K x3 (x0 + W * x1 + W2 * x2) W3 0) as (B & C); [lia..|].
    destruct (lz64 x3 =? 64) eqn:E; [apply Z.eqb_eq in E; lia|].
    destruct (lz64 x3 =? 128) eqn:E'; [apply Z.eqb_eq in E'; lia|].
    destruct (lz64 x3 =? 192) eqn:E''; [apply Z.eqb_eq in E''; lia|].
    split; [intros; lia|]. intros _. split; [lia|].
    specialize (C eq_refl). rewrite Z.add_0_r in C. exact C.
Qed.
