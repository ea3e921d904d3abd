(** U256ModNewton.v -- error analysis of the Newton iterations of Reciprocal (U256Mod.v). *)
From Verif Require Import Base U256 U256Facts U256Mod U256ModMul U256ModFacts U256Shift U256Udivrem.
Ltac Zify.zify_post_hook ::= idtac.

(** One Newton step for 1/y: with r*y = N - e, the value r' = g*(r*G - t), t = (r^2*y - f)/D, satisfies
    D*r'*y = g*(N^2 - e^2 + f*y). *)
Lemma newton_step r y t f D G N g : G * D = 2 * N -> r * r * y = D * t + f ->
  D * (g * (r * G - t) * y) = g * (N * N - (N - r * y) * (N - r * y) + f * y).
Proof.
  intros HG HE.
  assert (E1 : D * t = r * r * y - f) by lia.
  transitivity (g * (r * y * (G * D) - (D * t) * y)); [ring|]. rewrite HG, E1. ring.
Qed.

Lemma sq_bnd e B : - B <= e <= B -> 0 <= e * e <= B * B.
Proof.
  intros H. destruct (Z.le_gt_cases 0 e).
  - split; [apply Z.mul_nonneg_nonneg; lia|]. apply Z.mul_le_mono_nonneg; lia.
  - replace (e * e) with ((- e) * (- e)) by ring.
    split; [apply Z.mul_nonneg_nonneg; lia|]. apply Z.mul_le_mono_nonneg; lia.
Qed.

(** mod.go:64-71 *)
Lemma recip_r0_spec y3 : 2 ^ 63 <= y3 < W ->
  exists r0, recip_r0 y3 = Ok r0 /\ 0 < r0 < 2 ^ 32 /\ - 2 ^ 64 <= 2 ^ 95 - r0 * y3 <= 2 ^ 64 /\
    ((y3 < 2 ^ 63 + 2 ^ 32 /\ r0 = 2 ^ 32 - 1) \/ 2 ^ 63 + 2 ^ 32 <= y3).
Proof.
  intros Hy. unfold recip_r0, wshr. rewrite Z.shiftr_div_pow2 by lia.
  assert (Hd : y3 = 2 ^ 32 * (y3 / 2 ^ 32) + y3 mod 2 ^ 32) by (apply Z.div_mod; lia).
  assert (Hm : 0 <= y3 mod 2 ^ 32 < 2 ^ 32) by (apply Z.mod_pos_bound; lia).
  set (yl := y3 mod 2 ^ 32) in *. set (yh := y3 / 2 ^ 32) in *. clearbody yl yh.
  assert (Hh : 2 ^ 31 <= yh < 2 ^ 32) by lia.
  cbv zeta. rewrite (Z.mod_small yh 4294967296) by lia.
  destruct (yh =? 2147483648) eqn:E.
  - apply Z.eqb_eq in E. exists 4294967295. split; [reflexivity|]. lia.
  - apply Z.eqb_neq in E. unfold div32. destruct (yh <=? 2147483648) eqn:E1; [apply Z.leb_le in E1; lia|].
    cbn [bind fst]. eexists. split; [reflexivity|].
    change (2147483648 * 4294967296 + 0) with (2 ^ 63).
    assert (Hq : 2 ^ 63 = yh * (2 ^ 63 / yh) + 2 ^ 63 mod yh) by (apply Z.div_mod; lia).
    assert (Hr : 0 <= 2 ^ 63 mod yh < yh) by (apply Z.mod_pos_bound; lia).
    assert (Hb : 2 ^ 31 <= 2 ^ 63 / yh < 2 ^ 32).
    { split; [apply Z.div_le_lower_bound; lia|]. apply Z.div_lt_upper_bound; lia. }
    rewrite Z.mod_small by lia.
    set (q := 2 ^ 63 / yh) in *. set (r := 2 ^ 63 mod yh) in *. clearbody q r.
    split; [lia|]. split; [|right; lia].
    assert (0 <= q * yl <= 2 ^ 64).
    { split; [apply Z.mul_nonneg_nonneg; lia|]. change (2 ^ 64) with (2 ^ 32 * 2 ^ 32).
      apply Z.mul_le_mono_nonneg; lia. }
    replace (q * y3) with (2 ^ 32 * (yh * q) + q * yl) by (rewrite Hd; ring). lia.
Qed.

Lemma lor_nz a b : a <> 0 -> (Z.lor a b =? 0) = false.
Proof. intros H. apply Z.eqb_neq. intros E. apply Z.lor_eq_0_iff in E. tauto. Qed.

(** mod.go:75-85 *)
Lemma recip_r1_spec r0 y3 : 2 ^ 63 <= y3 < W -> 0 < r0 < 2 ^ 32 -> - 2 ^ 64 <= 2 ^ 95 - r0 * y3 <= 2 ^ 64 ->
  ((y3 < 2 ^ 63 + 2 ^ 32 /\ r0 = 2 ^ 32 - 1) \/ 2 ^ 63 + 2 ^ 32 <= y3) ->
  0 < recip_r1 r0 y3 < W /\ - 2 ^ 65 <= 2 ^ 127 - recip_r1 r0 y3 * y3 <= 2 ^ 65 /\
  (y3 = 2 ^ 63 -> recip_r1 r0 y3 = W - 1).
Proof.
  intros Hy Hr He Hc.
  destruct (Z.eq_dec y3 (2 ^ 63)) as [->|Hne].
  { destruct Hc as [[_ ->]|Hc]; [|lia]. 
    replace (recip_r1 (2 ^ 32 - 1) (2 ^ 63)) with (W - 1) by (vm_compute; reflexivity). lia. }
  assert (Hrr : 0 <= r0 * r0 < W).
  { split; [apply Z.mul_nonneg_nonneg; lia|]. apply Z.le_lt_trans with ((2 ^ 32 - 1) * (2 ^ 32 - 1)); [|reflexivity].
    apply Z.mul_le_mono_nonneg; lia. }
  remember (recip_r1 r0 y3) as v eqn:Ev. revert Ev.
  unfold recip_r1. unfold wmul at 1. rewrite (Z.mod_small (r0 * r0)) by assumption. cbv zeta.
  destruct (mul64 (r0 * r0) y3) as [t f] eqn:E. intros Ev. apply mul64_spec in E; [|unfold is_w; lia..].
  destruct E as (E & Hf & Ht). unfold is_w in Hf.
  set (R := 2 * (r0 * 2 ^ 32 - t)).
  assert (HR : wmul (wsub (wshl r0 32) t) 2 = R mod W).
  { unfold wmul, wsub, wshl. rewrite Z.shiftl_mul_pow2 by lia.
    rewrite (Z.mod_small (r0 * 2 ^ 32)) by lia. rewrite Zmult_mod_idemp_l. f_equal. unfold R. ring. }
  rewrite HR in Ev.
  pose proof (newton_step r0 y3 t f (2 ^ 64) (2 ^ 32) (2 ^ 95) 2 eq_refl ltac:(lia)) as HN.
  change (2 * (r0 * 2 ^ 32 - t)) with R in HN.
  pose proof (sq_bnd _ _ He) as Hs. set (e := 2 ^ 95 - r0 * y3) in *.
  assert (Hfy : 0 <= f * y3 <= (W - 1) * y3).
  { split; [apply Z.mul_nonneg_nonneg; lia|]. apply Z.mul_le_mono_nonneg_r; lia. }
  set (ee := e * e) in *. set (fy := f * y3) in *. clearbody ee fy.
  assert (Hb : - 2 ^ 65 <= 2 ^ 127 - R * y3 <= 2 ^ 65) by lia.
  assert (HR0 : 0 < R).
  { apply Z.mul_pos_cancel_r with y3; lia. }
  assert (HR1 : R < W).
  { destruct Hc as [[Hc ->]|Hc].
    - clear HN. subst R. lia.
    - apply Z.nle_gt. intros Hge.
      assert (W * y3 <= R * y3) by (apply Z.mul_le_mono_nonneg_r; lia). lia. }
  rewrite Z.mod_small in Ev by lia. rewrite lor_nz in Ev by lia. cbv iota in Ev. rewrite Ev.
  split; [lia|]. split; [exact Hb|]. intros Hx. contradiction.
Qed.

(** mod.go:90-117 *)
Lemma recip_r2_spec r1 y2 y3 rh rl : 2 ^ 63 <= y3 < W -> 0 <= y2 < W -> 0 < r1 < W ->
  - 2 ^ 65 <= 2 ^ 127 - r1 * y3 <= 2 ^ 65 -> (y3 = 2 ^ 63 -> r1 = W - 1) ->
  recip_r2 r1 y2 y3 = (rh, rl) ->
  0 <= rh < W /\ 0 <= rl < W /\ 0 < rl + W * rh /\
  - 2 ^ 135 <= 2 ^ 255 - (rl + W * rh) * (y2 + W * y3) <= 2 ^ 135.
Proof.
  intros Hy3 Hy2 Hr He Hmax.
  destruct (Z.le_gt_cases (y2 + W * y3) (2 ^ 127 + 1)) as [Hsm|Hbig].
  { assert (y3 = 2 ^ 63) by lia. rewrite (Hmax H). subst y3.
    assert (Hc : y2 = 0 \/ y2 = 1) by lia. destruct Hc as [->| ->].
    - replace (recip_r2 (W - 1) 0 (2 ^ 63)) with (W - 1, W - 1) by (vm_compute; reflexivity). intros [= <- <-]. lia.
    - set (u := recip_r2 (W - 1) 1 (2 ^ 63)). vm_compute in u. subst u. intros [= <- <-]. lia. }
  unfold recip_r2.
  destruct (recip_e2 r1 y2 y3) as [eh el] eqn:E2. apply recip_e2_spec in E2; [|lia..].
  destruct E2 as (Heh & Hel & f & Hf & E2).
  destruct (recip_t2 r1 eh el) as [r2h r2l] eqn:T2. apply recip_t2_spec in T2; [|lia..].
  destruct T2 as (Hh & Hl & k & T2).
  set (t := el + W * eh) in *. set (Y := y2 + W * y3) in *.
  set (R := 2 * (r1 * W - t)).
  pose proof (newton_step r1 Y t f W2 W (2 ^ 191) 2 eq_refl E2) as HN.
  change (2 * (r1 * W - t)) with R in HN.
  assert (HE : - 2 ^ 131 <= 2 ^ 191 - r1 * Y <= 2 ^ 131).
  { replace (r1 * Y) with (W * (r1 * y3) + r1 * y2) by (unfold Y; ring).
    pose proof (mul_bnd r1 y2 ltac:(lia) ltac:(lia)). lia. }
  pose proof (sq_bnd _ _ HE) as Hs. set (e := 2 ^ 191 - r1 * Y) in *.
  assert (HY : 2 ^ 127 + 2 <= Y < W2) by (unfold Y in *; lia).
  assert (Hfy : 0 <= f * Y <= (W2 - 1) * Y).
  { split; [apply Z.mul_nonneg_nonneg; lia|]. apply Z.mul_le_mono_nonneg_r; lia. }
  set (ee := e * e) in *. set (fy := f * Y) in *. clearbody ee fy. clear E2.
  assert (Hb : - 2 ^ 135 <= 2 ^ 255 - R * Y <= 2 ^ 135) by lia.
  assert (HR0 : 0 < R) by (apply Z.mul_pos_cancel_r with Y; lia).
  assert (HR1 : R < W2).
  { apply Z.nle_gt. intros Hge.
    assert (W2 * Y <= R * Y) by (apply Z.mul_le_mono_nonneg_r; lia). lia. }
  assert (HRr : R = r2l + W * r2h) by (unfold R in *; lia).
  clearbody R.
  assert (Hnz : Z.lor r2h r2l <> 0).
  { intros Ez. apply Z.lor_eq_0_iff in Ez. lia. }
  rewrite lor_nz by exact Hnz. cbv iota. intros [= <- <-].
  rewrite <- HRr. lia.
Qed.

(** mod.go:122-176 *)
Lemma recip_r3_ok rl rh y0 y1 y2 y3 x0 x1 x2 x3 q0 q1 q2 q3 q4 a b c :
  0 <= y0 < W -> 0 <= y1 < W -> 0 <= y2 < W -> 2 ^ 63 <= y3 < W ->
  2 ^ 255 < y0 + W * y1 + W2 * y2 + W3 * y3 ->
  0 <= rl < W -> 0 <= rh < W ->
  - 2 ^ 135 <= 2 ^ 255 - (rl + W * rh) * (y2 + W * y3) <= 2 ^ 135 ->
  recip_sq2 rl rh = (x0, x1, x2, x3) ->
  recip_mul3 x0 x1 x2 x3 y0 y1 y2 y3 = (q0, q1, q2, q3, q4) ->
  recip_r3 rl rh q0 q1 q2 q3 q4 = (a, b, c) ->
  0 <= a < W /\ 0 <= b < W /\ 0 <= c < W /\
  - 2 ^ 258 <= 2 ^ 447 - (a + W * b + W2 * c) * (y0 + W * y1 + W2 * y2 + W3 * y3) <= 2 ^ 258.
Proof.
  intros H0 H1 H2 H3 Hy Hrl Hrh He ES EM ER.
  apply recip_sq2_spec in ES; [|lia..]. destruct ES as ((X0 & X1 & X2 & X3) & ES).
  apply recip_mul3_spec in EM; [|lia..]. destruct EM as ((Q0 & Q1 & Q2 & Q3 & Q4) & e & Hee & EM).
  apply recip_r3_spec in ER; [|lia..]. destruct ER as ((Ha & Hb & Hc) & t & f & k & k' & Hf & ER & ER2).
  set (y := y0 + W * y1 + W2 * y2 + W3 * y3) in *. set (r := rl + W * rh) in *.
  set (q := q0 + W * q1 + W2 * q2 + W3 * q3 + W4 * q4) in *.
  assert (EM' : r * r * y = W3 * q + e).
  { rewrite ES. exact EM. }
  clear EM.
  set (T := t - W3 * k).
  assert (ET : W3 * r - q = W2 * T + f) by (unfold T; lia).
  assert (EM2 : r * r * y = W5 * (r * W - T) + (e - W3 * f)) by lia.
  pose proof (newton_step r y (r * W - T) (e - W3 * f) W5 W (2 ^ 383) 2 eq_refl EM2) as HN.
  replace (2 * (r * W - (r * W - T))) with (2 * T) in HN by ring.
  set (R := 2 * T) in *.
  assert (Hr : 0 <= r < W2) by (unfold r; lia).
  assert (HE : - 2 ^ 264 <= 2 ^ 383 - r * y <= 2 ^ 264).
  { replace (r * y) with (W2 * (r * (y2 + W * y3)) + r * (y0 + W * y1)) by (unfold y; ring).
    assert (0 <= r * (y0 + W * y1) <= W2 * W2).
    { split; [apply Z.mul_nonneg_nonneg; lia|]. apply Z.mul_le_mono_nonneg; lia. }
    lia. }
  pose proof (sq_bnd _ _ HE) as Hs. set (e3 := 2 ^ 383 - r * y) in *.
  assert (Hyy : 2 ^ 255 < y < W4) by (unfold y in *; lia).
  assert (Hfy : - W5 * y <= (e - W3 * f) * y <= 6 * W3 * y).
  { split; apply Z.mul_le_mono_nonneg_r; lia. }
  set (ee := e3 * e3) in *. set (fy := (e - W3 * f) * y) in *. clearbody ee fy.
  assert (Hbd : - 2 ^ 132 <= 2 ^ 447 - R * y <= 2 ^ 258) by lia.
  assert (HR0 : 0 < R) by (apply Z.mul_pos_cancel_r with y; lia).
  assert (HR1 : R < W3).
  { apply Z.nle_gt. intros Hge.
    assert (W3 * y <= R * y) by (apply Z.mul_le_mono_nonneg_r; lia). lia. }
  assert (HRr : R = a + W * b + W2 * c) by (unfold R, T in *; lia).
  rewrite <- HRr. lia.
Qed.

(** mod.go:182-240 *)
Lemma recip_r4_ok rl rm rh y0 y1 y2 y3 a4l a4h d4l d4h f4l f4h x0 x1 x2 x3 x4 x5 x6 a b c d g :
  0 <= y0 < W -> 0 <= y1 < W -> 0 <= y2 < W -> 2 ^ 63 <= y3 < W ->
  2 ^ 255 < y0 + W * y1 + W2 * y2 + W3 * y3 ->
  0 <= rl < W -> 0 <= rm < W -> 0 <= rh < W ->
  - 2 ^ 258 <= 2 ^ 447 - (rl + W * rm + W2 * rh) * (y0 + W * y1 + W2 * y2 + W3 * y3) <= 2 ^ 258 ->
  recip_sq3 rl rm rh = (a4l, a4h, d4l, d4h, f4l, f4h) ->
  recip_mul4 a4l a4h d4l d4h f4l f4h y0 y1 y2 y3 = (x0, x1, x2, x3, x4, x5, x6) ->
  recip_r4 rl rm rh x0 x1 x2 x3 x4 x5 x6 = (a, b, c, d, g) ->
  (0 <= a < W /\ 0 <= b < W /\ 0 <= c < W /\ 0 <= d < W /\ 0 <= g < W) /\
  let r := a + W * b + W2 * c + W3 * d + W4 * g in
  let y := y0 + W * y1 + W2 * y2 + W3 * y3 in
  0 < r /\ (r - 1) * y <= 2 ^ 574 /\ 2 ^ 574 < (r + 2) * y.
Proof.
  intros H0 H1 H2 H3 Hy Hrl Hrm Hrh He ES EM ER.
  apply recip_sq3_spec in ES; [|lia..]. destruct ES as ((X0 & X1 & X2 & X3 & X4 & X5) & ES).
  apply recip_mul4_spec in EM; [|lia..]. destruct EM as ((Q0 & Q1 & Q2 & Q3 & Q4 & Q5 & Q6) & e & Hee & EM).
  apply recip_r4_spec in ER; [|lia..]. destruct ER as ((Ha & Hb & Hc & Hd & Hg) & f & k & Hf & ER).
  split; [lia|]. intros rr.
  set (y := y0 + W * y1 + W2 * y2 + W3 * y3) in *. set (r := rl + W * rm + W2 * rh) in *.
  set (q := x0 + W * x1 + W2 * x2 + W3 * x3 + W4 * x4 + W5 * x5 + W * W5 * x6) in *.
  assert (EM' : r * r * y = W3 * q + e).
  { rewrite ES. exact EM. }
  clear EM.
  set (R := rr - W5 * k).
  assert (ET : W4 * r - q = W2 * R + f) by (unfold R; lia).
  assert (EM2 : r * r * y = W5 * (r * W2 - R) + (e - W3 * f)) by lia.
  pose proof (newton_step r y (r * W2 - R) (e - W3 * f) W5 W2 (2 ^ 447) 1 eq_refl EM2) as HN.
  replace (1 * (r * W2 - (r * W2 - R))) with R in HN by ring.
  pose proof (sq_bnd _ _ He) as Hs. set (e3 := 2 ^ 447 - r * y) in *.
  assert (Hyy : 2 ^ 255 < y < W4) by (unfold y in *; lia).
  assert (Hfy : (W3 - W5) * y <= (e - W3 * f) * y <= 4 * W4 * y).
  { split; apply Z.mul_le_mono_nonneg_r; lia. }
  set (ee := e3 * e3) in *. set (fy := (e - W3 * f) * y) in *. clearbody ee fy.
  assert (Hb1 : W5 * (R * y) <= W5 * 2 ^ 574 + 4 * W4 * y) by lia.
  assert (Hb2 : W5 * 2 ^ 574 - 2 ^ 516 - W5 * y <= W5 * (R * y)) by lia.
  assert (HR0 : 0 < R) by (apply Z.mul_pos_cancel_r with y; lia).
  assert (HR1 : R < W5).
  { apply Z.nle_gt. intros Hge.
    assert (W5 * y <= R * y) by (apply Z.mul_le_mono_nonneg_r; lia). lia. }
  assert (HRr : R = rr) by (unfold R, rr in *; lia).
  rewrite <- HRr. clear HRr ET EM2 ER. clearbody R y.
  split; [exact HR0|].
  rewrite Z.mul_sub_distr_r, Z.mul_add_distr_r. lia.
Qed.
