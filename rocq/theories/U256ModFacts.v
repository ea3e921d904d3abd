(** U256ModFacts.v -- the remaining blocks of Reciprocal and reduce4, and the error analysis of the
    four Newton steps. *)
From Verif Require Import Base U256 U256Facts U256Mod U256ModMul U256Shift U256Udivrem.
Ltac Zify.zify_post_hook ::= idtac.

(** execute the next statement of a block *)
Ltac st1 :=
  lazymatch goal with
  | |- (match mul64 ?a ?b with (_, _) => _ end) = _ -> _ =>
      let h := fresh "h" in let l := fresh "l" in let p := fresh "p" in let E := fresh "E" in
      let R := fresh "R" in let Q := fresh "Q" in let B := fresh "B" in smul h l p E R Q B
  | |- (match add64 ?a ?b ?c with (_, _) => _ end) = _ -> _ =>
      let s := fresh "s" in let k := fresh "c" in let E := fresh "E" in
      let R := fresh "R" in let Q := fresh "Q" in sadd s k E R Q
  | |- (match sub64 ?a ?b ?c with (_, _) => _ end) = _ -> _ =>
      let s := fresh "s" in let k := fresh "c" in let E := fresh "E" in
      let R := fresh "R" in let Q := fresh "Q" in ssub s k E R Q
  end.

(** mod.go:90-104 *)
Lemma recip_e2_spec r1 y2 y3 eh el : 0 <= r1 < W -> 0 <= y2 < W -> 0 <= y3 < W ->
  recip_e2 r1 y2 y3 = (eh, el) ->
  0 <= eh < W /\ 0 <= el < W /\
  exists f, 0 <= f < W2 /\ r1 * r1 * (y2 + W * y3) = W2 * (el + W * eh) + f.
Proof.
  intros H1 H2 H3. unfold recip_e2. repeat st1. intros [= <- <-].
  split; [lia|]. split; [lia|].
  exists (r1 * r1 * (y2 + W * y3) - W2 * (s3 + W * s4)). split; [|ring].
  replace (r1 * r1 * (y2 + W * y3)) with (l * y2 + W * (l * y3) + W * (h * y2) + W2 * (h * y3)).
  - unprod. lia.
  - unfold prod_is in *. replace (r1 * r1) with (h * W + l) by congruence. ring.
Qed.

(** mod.go:107-112 *)
Lemma recip_t2_spec r1 eh el rh rl : 0 <= r1 < W -> 0 <= eh < W -> 0 <= el < W ->
  recip_t2 r1 eh el = (rh, rl) ->
  0 <= rh < W /\ 0 <= rl < W /\
  exists k, 2 * (W * r1 - (el + W * eh)) = rl + W * rh + W2 * k.
Proof.
  intros H1 H2 H3. unfold recip_t2. repeat st1. intros [= <- <-].
  split; [lia|]. split; [lia|]. exists (c2 - 2 * c0). lia.
Qed.

(** mod.go:122-132 *)
Lemma recip_sq2_spec rl rh a b c d : 0 <= rl < W -> 0 <= rh < W -> recip_sq2 rl rh = (a, b, c, d) ->
  (0 <= a < W /\ 0 <= b < W /\ 0 <= c < W /\ 0 <= d < W) /\
  (rl + W * rh) * (rl + W * rh) = a + W * b + W2 * c + W3 * d.
Proof.
  intros H1 H2. unfold recip_sq2. repeat st1. intros [= <- <- <- <-].
  split; [lia|].
  transitivity (rl * rl + 2 * W * (rl * rh) + W2 * (rh * rh)); [ring|]. unprod. lia.
Qed.

(** mod.go:167-176 *)
Lemma recip_r3_spec rl rh q0 q1 q2 q3 q4 o0 o1 o2 :
  0 <= rl < W -> 0 <= rh < W -> 0 <= q0 < W -> 0 <= q1 < W -> 0 <= q2 < W -> 0 <= q3 < W -> 0 <= q4 < W ->
  recip_r3 rl rh q0 q1 q2 q3 q4 = (o0, o1, o2) ->
  (0 <= o0 < W /\ 0 <= o1 < W /\ 0 <= o2 < W) /\
  exists t f k k', 0 <= f < W2 /\
    W3 * (rl + W * rh) - (q0 + W * q1 + W2 * q2 + W3 * q3 + W4 * q4) = W2 * t + f - W5 * k /\
    2 * t = o0 + W * o1 + W2 * o2 + W3 * k'.
Proof.
  intros H1 H2 Q0 Q1 Q2 Q3 Q4. unfold recip_r3. repeat st1. intros [= <- <- <-].
  split; [lia|]. exists (s1 + W * s2 + W2 * s3), (s + W * s0), c3, c6. lia.
Qed.

(** mod.go:182-203 *)
Lemma recip_sq3_spec rl rm rh a b c d e f : 0 <= rl < W -> 0 <= rm < W -> 0 <= rh < W ->
  recip_sq3 rl rm rh = (a, b, c, d, e, f) ->
  (0 <= a < W /\ 0 <= b < W /\ 0 <= c < W /\ 0 <= d < W /\ 0 <= e < W /\ 0 <= f < W) /\
  (rl + W * rm + W2 * rh) * (rl + W * rm + W2 * rh) = a + W * b + W2 * c + W3 * d + W4 * e + W5 * f.
Proof.
  intros H1 H2 H3. unfold recip_sq3. repeat st1. intros [= <- <- <- <- <- <-].
  split; [lia|].
  transitivity (rl * rl + 2 * W * (rl * rm) + 2 * W2 * (rl * rh) + W2 * (rm * rm) + 2 * W3 * (rm * rh) + W4 * (rh * rh)); [ring|].
  unprod. lia.
Qed.

(** mod.go:234-240 *)
Lemma recip_r4_spec rl rm rh x0 x1 x2 x3 x4 x5 x6 o0 o1 o2 o3 o4 :
  0 <= rl < W -> 0 <= rm < W -> 0 <= rh < W -> 0 <= x0 < W -> 0 <= x1 < W -> 0 <= x2 < W -> 0 <= x3 < W ->
  0 <= x4 < W -> 0 <= x5 < W -> 0 <= x6 < W ->
  recip_r4 rl rm rh x0 x1 x2 x3 x4 x5 x6 = (o0, o1, o2, o3, o4) ->
  (0 <= o0 < W /\ 0 <= o1 < W /\ 0 <= o2 < W /\ 0 <= o3 < W /\ 0 <= o4 < W) /\
  exists f k, 0 <= f < W2 /\
    W4 * (rl + W * rm + W2 * rh) - (x0 + W * x1 + W2 * x2 + W3 * x3 + W4 * x4 + W5 * x5 + W * W5 * x6)
    = W2 * (o0 + W * o1 + W2 * o2 + W3 * o3 + W4 * o4) + f - W2 * W5 * k.
Proof.
  intros. revert H9. unfold recip_r4. repeat st1. intros [= <- <- <- <- <-].
  split; [lia|]. exists (s + W * s0), c5. lia.
Qed.

(** mod.go:281-289 *)
Lemma recip_borrow_spec q0 q1 q2 q3 q4 q5 q6 q7 q8 :
  0 <= q0 < W -> 0 <= q1 < W -> 0 <= q2 < W -> 0 <= q3 < W -> 0 <= q4 < W -> 0 <= q5 < W -> 0 <= q6 < W ->
  0 <= q7 < W -> 0 <= q8 < W ->
  recip_borrow q0 q1 q2 q3 q4 q5 q6 q7 q8 =
  if q0 + W * q1 + W2 * q2 + W3 * q3 + W4 * q4 + W5 * q5 + W * W5 * q6 + W2 * W5 * q7 + W3 * W5 * q8 <=? 2 ^ 574
  then 0 else 1.
Proof.
  intros. destruct (_ <=? _) eqn:E; [apply Z.leb_le in E|apply Z.leb_gt in E];
  revert E; generalize (eq_refl (recip_borrow q0 q1 q2 q3 q4 q5 q6 q7 q8));
  generalize (recip_borrow q0 q1 q2 q3 q4 q5 q6 q7 q8) at 1 3; intros b;
  unfold recip_borrow; intros Eb; symmetry in Eb; revert Eb; repeat st1; intros -> Hq; change (2 ^ 574) with (4611686018427387904 * (W3 * W5)) in Hq; lia.
Qed.

(** mod.go:292-296 *)
Lemma recip_dec_spec i0 i1 i2 i3 i4 x0 x1 x2 x3 x4 :
  0 <= i0 < W -> 0 <= i1 < W -> 0 <= i2 < W -> 0 <= i3 < W -> 0 <= i4 < W ->
  recip_dec i0 i1 i2 i3 i4 = (x0, x1, x2, x3, x4) ->
  (0 <= x0 < W /\ 0 <= x1 < W /\ 0 <= x2 < W /\ 0 <= x3 < W /\ 0 <= x4 < W) /\
  exists k, i0 + W * i1 + W2 * i2 + W3 * i3 + W4 * i4 - 1 = x0 + W * x1 + W2 * x2 + W3 * x3 + W4 * x4 - W5 * k.
Proof.
  intros. revert H4. unfold recip_dec. repeat st1. intros [= <- <- <- <- <-].
  split; [lia|]. exists c3; lia.
Qed.

(** mod.go:307-311 *)
Lemma recip_dbl_spec i0 i1 i2 i3 i4 x0 x1 x2 x3 x4 :
  0 <= i0 < W -> 0 <= i1 < W -> 0 <= i2 < W -> 0 <= i3 < W -> 0 <= i4 < W ->
  recip_dbl i0 i1 i2 i3 i4 = (x0, x1, x2, x3, x4) ->
  (0 <= x0 < W /\ 0 <= x1 < W /\ 0 <= x2 < W /\ 0 <= x3 < W /\ 0 <= x4 < W) /\
  exists k, 2 * (i0 + W * i1 + W2 * i2 + W3 * i3 + W4 * i4) = x0 + W * x1 + W2 * x2 + W3 * x3 + W4 * x4 + W5 * k.
Proof.
  intros. revert H4. unfold recip_dbl. repeat st1. intros [= <- <- <- <- <-].
  split; [lia|]. exists c3; lia.
Qed.

(** mod.go:443-447 *)
Lemma reduce_sub_spec x0 x1 x2 x3 x4 r0 r1 r2 r3 r4 o0 o1 o2 o3 o4 b :
  0 <= x0 < W -> 0 <= x1 < W -> 0 <= x2 < W -> 0 <= x3 < W -> 0 <= x4 < W ->
  0 <= r0 < W -> 0 <= r1 < W -> 0 <= r2 < W -> 0 <= r3 < W -> 0 <= r4 < W ->
  reduce_sub x0 x1 x2 x3 x4 r0 r1 r2 r3 r4 = (o0, o1, o2, o3, o4, b) ->
  (0 <= o0 < W /\ 0 <= o1 < W /\ 0 <= o2 < W /\ 0 <= o3 < W /\ 0 <= o4 < W) /\
  (x0 + W * x1 + W2 * x2 + W3 * x3 + W4 * x4) - (r0 + W * r1 + W2 * r2 + W3 * r3 + W4 * r4) =
  (o0 + W * o1 + W2 * o2 + W3 * o3 + W4 * o4) - W5 * b.
Proof.
  intros. revert H9. unfold reduce_sub. repeat st1. intros [= <- <- <- <- <- <-]. lia.
Qed.

(** mod.go:452-456 *)
Lemma reduce_add_spec r0 r1 r2 r3 r4 m0 m1 m2 m3 o0 o1 o2 o3 o4 :
  0 <= r0 < W -> 0 <= r1 < W -> 0 <= r2 < W -> 0 <= r3 < W -> 0 <= r4 < W ->
  0 <= m0 < W -> 0 <= m1 < W -> 0 <= m2 < W -> 0 <= m3 < W ->
  reduce_add r0 r1 r2 r3 r4 m0 m1 m2 m3 = (o0, o1, o2, o3, o4) ->
  (0 <= o0 < W /\ 0 <= o1 < W /\ 0 <= o2 < W /\ 0 <= o3 < W /\ 0 <= o4 < W) /\
  exists k, (r0 + W * r1 + W2 * r2 + W3 * r3 + W4 * r4) + (m0 + W * m1 + W2 * m2 + W3 * m3) =
  (o0 + W * o1 + W2 * o2 + W3 * o3 + W4 * o4) + W5 * k.
Proof.
  intros. revert H8. unfold reduce_add. repeat st1. intros [= <- <- <- <- <-].
  split; [lia|]. exists c3. lia.
Qed.

(** mod.go:463-467 *)
Lemma reduce_step_spec r0 r1 r2 r3 r4 m0 m1 m2 m3 o0 o1 o2 o3 o4 b :
  0 <= r0 < W -> 0 <= r1 < W -> 0 <= r2 < W -> 0 <= r3 < W -> 0 <= r4 < W ->
  0 <= m0 < W -> 0 <= m1 < W -> 0 <= m2 < W -> 0 <= m3 < W ->
  reduce_step r0 r1 r2 r3 r4 m0 m1 m2 m3 = (o0, o1, o2, o3, o4, b) ->
  (0 <= o0 < W /\ 0 <= o1 < W /\ 0 <= o2 < W /\ 0 <= o3 < W /\ 0 <= o4 < W) /\ 0 <= b <= 1 /\
  (r0 + W * r1 + W2 * r2 + W3 * r3 + W4 * r4) - (m0 + W * m1 + W2 * m2 + W3 * m3) =
  (o0 + W * o1 + W2 * o2 + W3 * o3 + W4 * o4) - W5 * b.
Proof.
  intros. revert H8. unfold reduce_step. repeat st1. intros [= <- <- <- <- <- <-]. lia.
Qed.
