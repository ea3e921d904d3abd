(** U256ModMul.v -- the multi-word products inside Reciprocal and reduce4 (U256Mod.v) are exact up to
    the words the code drops.  One lemma per block; every discarded carry is shown to be zero (or, for
    the product modulo 2^320, accounted for). *)
From Verif Require Import Base U256 U256Facts U256Mod.
Ltac Zify.zify_post_hook ::= idtac.

Definition prod_is (p x y : Z) : Prop := p = x * y.

Lemma mul_bnd x y : 0 <= x < W -> 0 <= y < W -> 0 <= x * y <= 340282366920938463426481119284349108225.
Proof.
  intros Hx Hy. split; [apply Z.mul_nonneg_nonneg; lia|].
  change 340282366920938463426481119284349108225 with ((W-1)*(W-1)). apply Z.mul_le_mono_nonneg; lia.
Qed.

Lemma mul64_r x y h l : 0 <= x < W -> 0 <= y < W -> mul64 x y = (h, l) ->
  exists p, prod_is p x y /\ p = h * W + l /\ 0 <= l < W /\ 0 <= h <= W - 2 /\
    0 <= p <= 340282366920938463426481119284349108225.
Proof.
  intros Hx Hy E. apply mul64_spec in E; auto. destruct E as (E & ? & ?).
  exists (x * y). split; [reflexivity|]. split; [exact E|]. split; [assumption|]. split; [assumption|].
  now apply mul_bnd.
Qed.
Lemma add64_r x y c s c' : 0 <= x < W -> 0 <= y < W -> 0 <= c <= 1 -> add64 x y c = (s, c') ->
  x + y + c = s + W * c' /\ 0 <= s < W /\ 0 <= c' <= 1.
Proof. exact (add64_spec x y c s c'). Qed.
Lemma sub64_r x y c s c' : 0 <= x < W -> 0 <= y < W -> 0 <= c <= 1 -> sub64 x y c = (s, c') ->
  x - y - c = s - W * c' /\ 0 <= s < W /\ 0 <= c' <= 1.
Proof. exact (sub64_spec x y c s c'). Qed.

Ltac wr := first [assumption | lia].
(** the next statement of the block *)
Ltac smul h l p E R Q B :=
  lazymatch goal with |- (match mul64 ?a ?b with (_, _) => _ end) = _ -> _ =>
    destruct (mul64 a b) as [h l] eqn:E; apply mul64_r in E; [|wr..];
    destruct E as (p & ? & E & R & Q & B) end.
Ltac sadd s c E R C :=
  lazymatch goal with |- (match add64 ?a ?b ?d with (_, _) => _ end) = _ -> _ =>
    destruct (add64 a b d) as [s c] eqn:E; apply add64_r in E; [|wr..];
    destruct E as (E & R & C) end.
Ltac ssub s c E R C :=
  lazymatch goal with |- (match sub64 ?a ?b ?d with (_, _) => _ end) = _ -> _ =>
    destruct (sub64 a b d) as [s c] eqn:E; apply sub64_r in E; [|wr..];
    destruct E as (E & R & C) end.
Ltac unprod := repeat match goal with H : prod_is ?p ?x ?y |- _ => unfold prod_is in H; rewrite <- H; clear H end.

(** mod.go:143-164 *)
Lemma recip_mul3_spec x0 x1 x2 x3 y0 y1 y2 y3 o0 o1 o2 o3 o4 : 0 <= x0 < W -> 0 <= x1 < W -> 0 <= x2 < W -> 0 <= x3 < W -> 0 <= y0 < W -> 0 <= y1 < W -> 0 <= y2 < W -> 0 <= y3 < W ->
  recip_mul3 x0 x1 x2 x3 y0 y1 y2 y3 = (o0, o1, o2, o3, o4) ->
  (0 <= o0 < W /\ 0 <= o1 < W /\ 0 <= o2 < W /\ 0 <= o3 < W /\ 0 <= o4 < W) /\
  exists e, 0 <= e <= 37662610412320084583014736539245998496614132666784207077376 /\
  (x0 + 18446744073709551616 * x1 + 340282366920938463463374607431768211456 * x2 + 6277101735386680763835789423207666416102355444464034512896 * x3) * (y0 + 18446744073709551616 * y1 + 340282366920938463463374607431768211456 * y2 + 6277101735386680763835789423207666416102355444464034512896 * y3) =
  6277101735386680763835789423207666416102355444464034512896 * (o0 + 18446744073709551616 * o1 + 340282366920938463463374607431768211456 * o2 + 6277101735386680763835789423207666416102355444464034512896 * o3 + 115792089237316195423570985008687907853269984665640564039457584007913129639936 * o4) + e.
Proof.
  intros Wx0 Wx1 Wx2 Wx3 Wy0 Wy1 Wy2 Wy3. unfold recip_mul3.
  smul q0_1 d_1 p20 E1 R1 Q1 B1.
  smul q1_1 t0_1 p30 E2 R2 Q2 B2.
  sadd q0_2 c_1 E3 R3 C3.
  sadd q1_2 d_2 E4 R4 C4.
  assert (Hd4 : q0_2 + 18446744073709551616 * q1_2 + 340282366920938463463374607431768211456 * d_2 = q0_1 + p30) by lia.
  assert (H4 : q0_2 + 18446744073709551616 * q1_2 = q0_1 + p30) by lia.
  clear Hd4 E2 E3 E4.
  smul t1_1 d_3 p11 E5 R5 Q5 B5.
  sadd q0_3 c_2 E6 R6 C6.
  smul q2_1 t0_2 p31 E7 R7 Q7 B7.
  sadd q1_3 c_3 E8 R8 C8.
  sadd q2_2 d_4 E9 R9 C9.
  assert (Hd9 : q0_3 + 18446744073709551616 * q1_3 + 340282366920938463463374607431768211456 * q2_2 + 6277101735386680763835789423207666416102355444464034512896 * d_4 = q0_1 + p30 + t1_1 + 18446744073709551616 * p31) by lia.
  assert (H9 : q0_3 + 18446744073709551616 * q1_3 + 340282366920938463463374607431768211456 * q2_2 = q0_1 + p30 + t1_1 + 18446744073709551616 * p31) by lia.
  clear Hd9 E6 E7 E8 E9 H4.
  smul t1_2 t0_3 p21 E10 R10 Q10 B10.
  sadd q0_4 c_4 E11 R11 C11.
  sadd q1_4 c_5 E12 R12 C12.
  sadd q2_3 d_5 E13 R13 C13.
  assert (Hd13 : q0_4 + 18446744073709551616 * q1_4 + 340282366920938463463374607431768211456 * q2_3 + 6277101735386680763835789423207666416102355444464034512896 * d_5 = q0_1 + p30 + t1_1 + 18446744073709551616 * p31 + p21) by lia.
  assert (H13 : q0_4 + 18446744073709551616 * q1_4 + 340282366920938463463374607431768211456 * q2_3 = q0_1 + p30 + t1_1 + 18446744073709551616 * p31 + p21) by lia.
  clear Hd13 E10 E11 E12 E13 H9.
  smul t1_3 t0_4 p12 E14 R14 Q14 B14.
  sadd q0_5 c_6 E15 R15 C15.
  sadd q1_5 c_7 E16 R16 C16.
  smul q3_1 t0_5 p32 E17 R17 Q17 B17.
  sadd q2_4 c_8 E18 R18 C18.
  sadd q3_2 d_6 E19 R19 C19.
  assert (Hd19 : q0_5 + 18446744073709551616 * q1_5 + 340282366920938463463374607431768211456 * q2_4 + 6277101735386680763835789423207666416102355444464034512896 * q3_2 + 115792089237316195423570985008687907853269984665640564039457584007913129639936 * d_6 = q0_1 + p30 + t1_1 + 18446744073709551616 * p31 + p21 + p12 + 340282366920938463463374607431768211456 * p32) by lia.
  assert (H19 : q0_5 + 18446744073709551616 * q1_5 + 340282366920938463463374607431768211456 * q2_4 + 6277101735386680763835789423207666416102355444464034512896 * q3_2 = q0_1 + p30 + t1_1 + 18446744073709551616 * p31 + p21 + p12 + 340282366920938463463374607431768211456 * p32) by lia.
  clear Hd19 E14 E15 E16 E17 E18 E19 H13.
  smul t1_4 d_7 p02 E20 R20 Q20 B20.
  sadd q0_6 c_9 E21 R21 C21.
  smul t1_5 t0_6 p22 E22 R22 Q22 B22.
  sadd q1_6 c_10 E23 R23 C23.
  sadd q2_5 c_11 E24 R24 C24.
  sadd q3_3 d_8 E25 R25 C25.
  assert (Hd25 : q0_6 + 18446744073709551616 * q1_6 + 340282366920938463463374607431768211456 * q2_5 + 6277101735386680763835789423207666416102355444464034512896 * q3_3 + 115792089237316195423570985008687907853269984665640564039457584007913129639936 * d_8 = q0_1 + p30 + t1_1 + 18446744073709551616 * p31 + p21 + p12 + 340282366920938463463374607431768211456 * p32 + t1_4 + 18446744073709551616 * p22) by lia.
  assert (H25 : q0_6 + 18446744073709551616 * q1_6 + 340282366920938463463374607431768211456 * q2_5 + 6277101735386680763835789423207666416102355444464034512896 * q3_3 = q0_1 + p30 + t1_1 + 18446744073709551616 * p31 + p21 + p12 + 340282366920938463463374607431768211456 * p32 + t1_4 + 18446744073709551616 * p22) by lia.
  clear Hd25 E21 E22 E23 E24 E25 H19.
  smul t1_6 t0_7 p13 E26 R26 Q26 B26.
  sadd q1_7 c_12 E27 R27 C27.
  sadd q2_6 c_13 E28 R28 C28.
  smul q4_1 t0_8 p33 E29 R29 Q29 B29.
  sadd q3_4 c_14 E30 R30 C30.
  sadd q4_2 d_9 E31 R31 C31.
  assert (Hd31 : q0_6 + 18446744073709551616 * q1_7 + 340282366920938463463374607431768211456 * q2_6 + 6277101735386680763835789423207666416102355444464034512896 * q3_4 + 115792089237316195423570985008687907853269984665640564039457584007913129639936 * q4_2 + 2135987035920910082395021706169552114602704522356652769947041607822219725780640550022962086936576 * d_9 = q0_1 + p30 + t1_1 + 18446744073709551616 * p31 + p21 + p12 + 340282366920938463463374607431768211456 * p32 + t1_4 + 18446744073709551616 * p22 + 18446744073709551616 * p13 + 6277101735386680763835789423207666416102355444464034512896 * p33) by lia.
  assert (H31 : q0_6 + 18446744073709551616 * q1_7 + 340282366920938463463374607431768211456 * q2_6 + 6277101735386680763835789423207666416102355444464034512896 * q3_4 + 115792089237316195423570985008687907853269984665640564039457584007913129639936 * q4_2 = q0_1 + p30 + t1_1 + 18446744073709551616 * p31 + p21 + p12 + 340282366920938463463374607431768211456 * p32 + t1_4 + 18446744073709551616 * p22 + 18446744073709551616 * p13 + 6277101735386680763835789423207666416102355444464034512896 * p33) by lia.
  clear Hd31 E26 E27 E28 E29 E30 E31 H25.
  smul t1_7 t0_9 p03 E32 R32 Q32 B32.
  sadd q0_7 c_15 E33 R33 C33.
  sadd q1_8 c_16 E34 R34 C34.
  smul t1_8 t0_10 p23 E35 R35 Q35 B35.
  sadd q2_7 c_17 E36 R36 C36.
  sadd q3_5 c_18 E37 R37 C37.
  sadd q4_3 d_10 E38 R38 C38.
  assert (Hd38 : q0_7 + 18446744073709551616 * q1_8 + 340282366920938463463374607431768211456 * q2_7 + 6277101735386680763835789423207666416102355444464034512896 * q3_5 + 115792089237316195423570985008687907853269984665640564039457584007913129639936 * q4_3 + 2135987035920910082395021706169552114602704522356652769947041607822219725780640550022962086936576 * d_10 = q0_1 + p30 + t1_1 + 18446744073709551616 * p31 + p21 + p12 + 340282366920938463463374607431768211456 * p32 + t1_4 + 18446744073709551616 * p22 + 18446744073709551616 * p13 + 6277101735386680763835789423207666416102355444464034512896 * p33 + p03 + 340282366920938463463374607431768211456 * p23) by lia.
  assert (H38 : q0_7 + 18446744073709551616 * q1_8 + 340282366920938463463374607431768211456 * q2_7 + 6277101735386680763835789423207666416102355444464034512896 * q3_5 + 115792089237316195423570985008687907853269984665640564039457584007913129639936 * q4_3 = q0_1 + p30 + t1_1 + 18446744073709551616 * p31 + p21 + p12 + 340282366920938463463374607431768211456 * p32 + t1_4 + 18446744073709551616 * p22 + 18446744073709551616 * p13 + 6277101735386680763835789423207666416102355444464034512896 * p33 + p03 + 340282366920938463463374607431768211456 * p23) by lia.
  clear Hd38 E32 E33 E34 E35 E36 E37 E38 H31.
  intros [= <- <- <- <- <-].
  pose proof (mul_bnd x0 y0 ltac:(assumption) ltac:(assumption)) as M00.
  pose proof (mul_bnd x0 y1 ltac:(assumption) ltac:(assumption)) as M01.
  pose proof (mul_bnd x1 y0 ltac:(assumption) ltac:(assumption)) as M10.
  split; [repeat split; lia|].
  exists (340282366920938463463374607431768211456 * d_1 + 340282366920938463463374607431768211456 * d_3 + 340282366920938463463374607431768211456 * d_7 + (x0 * y0) + 18446744073709551616 * (x0 * y1) + 18446744073709551616 * (x1 * y0)). split; [lia|].
  transitivity (1 * (x0 * y0) + 18446744073709551616 * (x0 * y1) + 340282366920938463463374607431768211456 * (x0 * y2) + 6277101735386680763835789423207666416102355444464034512896 * (x0 * y3) + 18446744073709551616 * (x1 * y0) + 340282366920938463463374607431768211456 * (x1 * y1) + 6277101735386680763835789423207666416102355444464034512896 * (x1 * y2) + 115792089237316195423570985008687907853269984665640564039457584007913129639936 * (x1 * y3) + 340282366920938463463374607431768211456 * (x2 * y0) + 6277101735386680763835789423207666416102355444464034512896 * (x2 * y1) + 115792089237316195423570985008687907853269984665640564039457584007913129639936 * (x2 * y2) + 2135987035920910082395021706169552114602704522356652769947041607822219725780640550022962086936576 * (x2 * y3) + 6277101735386680763835789423207666416102355444464034512896 * (x3 * y0) + 115792089237316195423570985008687907853269984665640564039457584007913129639936 * (x3 * y1) + 2135987035920910082395021706169552114602704522356652769947041607822219725780640550022962086936576 * (x3 * y2) + 39402006196394479212279040100143613805079739270465446667948293404245721771497210611414266254884915640806627990306816 * (x3 * y3)); [ring|].
  unprod. lia.
Qed.

(** mod.go:207-231 *)
Lemma recip_mul4_spec a4l a4h d4l d4h f4l f4h y0 y1 y2 y3 o0 o1 o2 o3 o4 o5 o6 : 0 <= a4l < W -> 0 <= a4h < W -> 0 <= d4l < W -> 0 <= d4h < W -> 0 <= f4l < W -> 0 <= f4h < W -> 0 <= y0 < W -> 0 <= y1 < W -> 0 <= y2 < W -> 0 <= y3 < W ->
  recip_mul4 a4l a4h d4l d4h f4l f4h y0 y1 y2 y3 = (o0, o1, o2, o3, o4, o5, o6) ->
  (0 <= o0 < W /\ 0 <= o1 < W /\ 0 <= o2 < W /\ 0 <= o3 < W /\ 0 <= o4 < W /\ 0 <= o5 < W /\ 0 <= o6 < W) /\
  exists e, 0 <= e <= 463168356949264781694283940034751631413079938662562256157830336031652518559744 /\
  (a4l + 18446744073709551616 * a4h + 340282366920938463463374607431768211456 * d4l + 6277101735386680763835789423207666416102355444464034512896 * d4h + 115792089237316195423570985008687907853269984665640564039457584007913129639936 * f4l + 2135987035920910082395021706169552114602704522356652769947041607822219725780640550022962086936576 * f4h) * (y0 + 18446744073709551616 * y1 + 340282366920938463463374607431768211456 * y2 + 6277101735386680763835789423207666416102355444464034512896 * y3) =
  6277101735386680763835789423207666416102355444464034512896 * (o0 + 18446744073709551616 * o1 + 340282366920938463463374607431768211456 * o2 + 6277101735386680763835789423207666416102355444464034512896 * o3 + 115792089237316195423570985008687907853269984665640564039457584007913129639936 * o4 + 2135987035920910082395021706169552114602704522356652769947041607822219725780640550022962086936576 * o5 + 39402006196394479212279040100143613805079739270465446667948293404245721771497210611414266254884915640806627990306816 * o6) + e.
Proof.
  intros Wa4l Wa4h Wd4l Wd4h Wf4l Wf4h Wy0 Wy1 Wy2 Wy3. unfold recip_mul4.
  smul x1_1 x0_1 p30 E1 R1 Q1 B1.
  smul x3_1 x2_1 p50 E2 R2 Q2 B2.
  smul t1_1 t0_1 p40 E3 R3 Q3 B3.
  sadd x1_2 c_1 E4 R4 C4.
  sadd x2_2 c_2 E5 R5 C5.
  sadd x3_2 d_1 E6 R6 C6.
  assert (Hd6 : x0_1 + 18446744073709551616 * x1_2 + 340282366920938463463374607431768211456 * x2_2 + 6277101735386680763835789423207666416102355444464034512896 * x3_2 + 115792089237316195423570985008687907853269984665640564039457584007913129639936 * d_1 = p30 + 340282366920938463463374607431768211456 * p50 + 18446744073709551616 * p40) by lia.
  assert (H6 : x0_1 + 18446744073709551616 * x1_2 + 340282366920938463463374607431768211456 * x2_2 + 6277101735386680763835789423207666416102355444464034512896 * x3_2 = p30 + 340282366920938463463374607431768211456 * p50 + 18446744073709551616 * p40) by lia.
  clear Hd6 E1 E2 E3 E4 E5 E6.
  smul t1_2 t0_2 p31 E7 R7 Q7 B7.
  sadd x1_3 c_3 E8 R8 C8.
  sadd x2_3 c_4 E9 R9 C9.
  smul x4_1 t0_3 p51 E10 R10 Q10 B10.
  sadd x3_3 c_5 E11 R11 C11.
  sadd x4_2 d_2 E12 R12 C12.
  assert (Hd12 : x0_1 + 18446744073709551616 * x1_3 + 340282366920938463463374607431768211456 * x2_3 + 6277101735386680763835789423207666416102355444464034512896 * x3_3 + 115792089237316195423570985008687907853269984665640564039457584007913129639936 * x4_2 + 2135987035920910082395021706169552114602704522356652769947041607822219725780640550022962086936576 * d_2 = p30 + 340282366920938463463374607431768211456 * p50 + 18446744073709551616 * p40 + 18446744073709551616 * p31 + 6277101735386680763835789423207666416102355444464034512896 * p51) by lia.
  assert (H12 : x0_1 + 18446744073709551616 * x1_3 + 340282366920938463463374607431768211456 * x2_3 + 6277101735386680763835789423207666416102355444464034512896 * x3_3 + 115792089237316195423570985008687907853269984665640564039457584007913129639936 * x4_2 = p30 + 340282366920938463463374607431768211456 * p50 + 18446744073709551616 * p40 + 18446744073709551616 * p31 + 6277101735386680763835789423207666416102355444464034512896 * p51) by lia.
  clear Hd12 E7 E8 E9 E10 E11 E12 H6.
  smul t1_3 t0_4 p21 E13 R13 Q13 B13.
  sadd x0_2 c_6 E14 R14 C14.
  sadd x1_4 c_7 E15 R15 C15.
  smul t1_4 t0_5 p41 E16 R16 Q16 B16.
  sadd x2_4 c_8 E17 R17 C17.
  sadd x3_4 c_9 E18 R18 C18.
  sadd x4_3 d_3 E19 R19 C19.
  assert (Hd19 : x0_2 + 18446744073709551616 * x1_4 + 340282366920938463463374607431768211456 * x2_4 + 6277101735386680763835789423207666416102355444464034512896 * x3_4 + 115792089237316195423570985008687907853269984665640564039457584007913129639936 * x4_3 + 2135987035920910082395021706169552114602704522356652769947041607822219725780640550022962086936576 * d_3 = p30 + 340282366920938463463374607431768211456 * p50 + 18446744073709551616 * p40 + 18446744073709551616 * p31 + 6277101735386680763835789423207666416102355444464034512896 * p51 + p21 + 340282366920938463463374607431768211456 * p41) by lia.
  assert (H19 : x0_2 + 18446744073709551616 * x1_4 + 340282366920938463463374607431768211456 * x2_4 + 6277101735386680763835789423207666416102355444464034512896 * x3_4 + 115792089237316195423570985008687907853269984665640564039457584007913129639936 * x4_3 = p30 + 340282366920938463463374607431768211456 * p50 + 18446744073709551616 * p40 + 18446744073709551616 * p31 + 6277101735386680763835789423207666416102355444464034512896 * p51 + p21 + 340282366920938463463374607431768211456 * p41) by lia.
  clear Hd19 E13 E14 E15 E16 E17 E18 E19 H12.
  smul t1_5 t0_6 p12 E20 R20 Q20 B20.
  sadd x0_3 c_10 E21 R21 C21.
  sadd x1_5 c_11 E22 R22 C22.
  smul t1_6 t0_7 p32 E23 R23 Q23 B23.
  sadd x2_5 c_12 E24 R24 C24.
  sadd x3_5 c_13 E25 R25 C25.
  smul x5_1 t0_8 p52 E26 R26 Q26 B26.
  sadd x4_4 c_14 E27 R27 C27.
  sadd x5_2 d_4 E28 R28 C28.
  assert (Hd28 : x0_3 + 18446744073709551616 * x1_5 + 340282366920938463463374607431768211456 * x2_5 + 6277101735386680763835789423207666416102355444464034512896 * x3_5 + 115792089237316195423570985008687907853269984665640564039457584007913129639936 * x4_4 + 2135987035920910082395021706169552114602704522356652769947041607822219725780640550022962086936576 * x5_2 + 39402006196394479212279040100143613805079739270465446667948293404245721771497210611414266254884915640806627990306816 * d_4 = p30 + 340282366920938463463374607431768211456 * p50 + 18446744073709551616 * p40 + 18446744073709551616 * p31 + 6277101735386680763835789423207666416102355444464034512896 * p51 + p21 + 340282366920938463463374607431768211456 * p41 + p12 + 340282366920938463463374607431768211456 * p32 + 115792089237316195423570985008687907853269984665640564039457584007913129639936 * p52) by lia.
  assert (H28 : x0_3 + 18446744073709551616 * x1_5 + 340282366920938463463374607431768211456 * x2_5 + 6277101735386680763835789423207666416102355444464034512896 * x3_5 + 115792089237316195423570985008687907853269984665640564039457584007913129639936 * x4_4 + 2135987035920910082395021706169552114602704522356652769947041607822219725780640550022962086936576 * x5_2 = p30 + 340282366920938463463374607431768211456 * p50 + 18446744073709551616 * p40 + 18446744073709551616 * p31 + 6277101735386680763835789423207666416102355444464034512896 * p51 + p21 + 340282366920938463463374607431768211456 * p41 + p12 + 340282366920938463463374607431768211456 * p32 + 115792089237316195423570985008687907853269984665640564039457584007913129639936 * p52) by lia.
  clear Hd28 E20 E21 E22 E23 E24 E25 E26 E27 E28 H19.
  smul t1_7 t0_9 p22 E29 R29 Q29 B29.
  sadd x1_6 c_15 E30 R30 C30.
  sadd x2_6 c_16 E31 R31 C31.
  smul t1_8 t0_10 p42 E32 R32 Q32 B32.
  sadd x3_6 c_17 E33 R33 C33.
  sadd x4_5 c_18 E34 R34 C34.
  sadd x5_3 d_5 E35 R35 C35.
  assert (Hd35 : x0_3 + 18446744073709551616 * x1_6 + 340282366920938463463374607431768211456 * x2_6 + 6277101735386680763835789423207666416102355444464034512896 * x3_6 + 115792089237316195423570985008687907853269984665640564039457584007913129639936 * x4_5 + 2135987035920910082395021706169552114602704522356652769947041607822219725780640550022962086936576 * x5_3 + 39402006196394479212279040100143613805079739270465446667948293404245721771497210611414266254884915640806627990306816 * d_5 = p30 + 340282366920938463463374607431768211456 * p50 + 18446744073709551616 * p40 + 18446744073709551616 * p31 + 6277101735386680763835789423207666416102355444464034512896 * p51 + p21 + 340282366920938463463374607431768211456 * p41 + p12 + 340282366920938463463374607431768211456 * p32 + 115792089237316195423570985008687907853269984665640564039457584007913129639936 * p52 + 18446744073709551616 * p22 + 6277101735386680763835789423207666416102355444464034512896 * p42) by lia.
  assert (H35 : x0_3 + 18446744073709551616 * x1_6 + 340282366920938463463374607431768211456 * x2_6 + 6277101735386680763835789423207666416102355444464034512896 * x3_6 + 115792089237316195423570985008687907853269984665640564039457584007913129639936 * x4_5 + 2135987035920910082395021706169552114602704522356652769947041607822219725780640550022962086936576 * x5_3 = p30 + 340282366920938463463374607431768211456 * p50 + 18446744073709551616 * p40 + 18446744073709551616 * p31 + 6277101735386680763835789423207666416102355444464034512896 * p51 + p21 + 340282366920938463463374607431768211456 * p41 + p12 + 340282366920938463463374607431768211456 * p32 + 115792089237316195423570985008687907853269984665640564039457584007913129639936 * p52 + 18446744073709551616 * p22 + 6277101735386680763835789423207666416102355444464034512896 * p42) by lia.
  clear Hd35 E29 E30 E31 E32 E33 E34 E35 H28.
  smul t1_9 t0_11 p13 E36 R36 Q36 B36.
  sadd x1_7 c_19 E37 R37 C37.
  sadd x2_7 c_20 E38 R38 C38.
  smul t1_10 t0_12 p33 E39 R39 Q39 B39.
  sadd x3_7 c_21 E40 R40 C40.
  sadd x4_6 c_22 E41 R41 C41.
  smul x6_1 t0_13 p53 E42 R42 Q42 B42.
  sadd x5_4 c_23 E43 R43 C43.
  sadd x6_2 d_6 E44 R44 C44.
  assert (Hd44 : x0_3 + 18446744073709551616 * x1_7 + 340282366920938463463374607431768211456 * x2_7 + 6277101735386680763835789423207666416102355444464034512896 * x3_7 + 115792089237316195423570985008687907853269984665640564039457584007913129639936 * x4_6 + 2135987035920910082395021706169552114602704522356652769947041607822219725780640550022962086936576 * x5_4 + 39402006196394479212279040100143613805079739270465446667948293404245721771497210611414266254884915640806627990306816 * x6_2 + 726838724295606890549323807888004534353641360687318060281490199180639288113397923326191050713763565560762521606266177933534601628614656 * d_6 = p30 + 340282366920938463463374607431768211456 * p50 + 18446744073709551616 * p40 + 18446744073709551616 * p31 + 6277101735386680763835789423207666416102355444464034512896 * p51 + p21 + 340282366920938463463374607431768211456 * p41 + p12 + 340282366920938463463374607431768211456 * p32 + 115792089237316195423570985008687907853269984665640564039457584007913129639936 * p52 + 18446744073709551616 * p22 + 6277101735386680763835789423207666416102355444464034512896 * p42 + 18446744073709551616 * p13 + 6277101735386680763835789423207666416102355444464034512896 * p33 + 2135987035920910082395021706169552114602704522356652769947041607822219725780640550022962086936576 * p53) by lia.
  assert (H44 : x0_3 + 18446744073709551616 * x1_7 + 340282366920938463463374607431768211456 * x2_7 + 6277101735386680763835789423207666416102355444464034512896 * x3_7 + 115792089237316195423570985008687907853269984665640564039457584007913129639936 * x4_6 + 2135987035920910082395021706169552114602704522356652769947041607822219725780640550022962086936576 * x5_4 + 39402006196394479212279040100143613805079739270465446667948293404245721771497210611414266254884915640806627990306816 * x6_2 = p30 + 340282366920938463463374607431768211456 * p50 + 18446744073709551616 * p40 + 18446744073709551616 * p31 + 6277101735386680763835789423207666416102355444464034512896 * p51 + p21 + 340282366920938463463374607431768211456 * p41 + p12 + 340282366920938463463374607431768211456 * p32 + 115792089237316195423570985008687907853269984665640564039457584007913129639936 * p52 + 18446744073709551616 * p22 + 6277101735386680763835789423207666416102355444464034512896 * p42 + 18446744073709551616 * p13 + 6277101735386680763835789423207666416102355444464034512896 * p33 + 2135987035920910082395021706169552114602704522356652769947041607822219725780640550022962086936576 * p53) by lia.
  clear Hd44 E36 E37 E38 E39 E40 E41 E42 E43 E44 H35.
  smul t1_11 t0_14 p03 E45 R45 Q45 B45.
  sadd x0_4 c_24 E46 R46 C46.
  sadd x1_8 c_25 E47 R47 C47.
  smul t1_12 t0_15 p23 E48 R48 Q48 B48.
  sadd x2_8 c_26 E49 R49 C49.
  sadd x3_8 c_27 E50 R50 C50.
  smul t1_13 t0_16 p43 E51 R51 Q51 B51.
  sadd x4_7 c_28 E52 R52 C52.
  sadd x5_5 c_29 E53 R53 C53.
  sadd x6_3 d_7 E54 R54 C54.
  assert (Hd54 : x0_4 + 18446744073709551616 * x1_8 + 340282366920938463463374607431768211456 * x2_8 + 6277101735386680763835789423207666416102355444464034512896 * x3_8 + 115792089237316195423570985008687907853269984665640564039457584007913129639936 * x4_7 + 2135987035920910082395021706169552114602704522356652769947041607822219725780640550022962086936576 * x5_5 + 39402006196394479212279040100143613805079739270465446667948293404245721771497210611414266254884915640806627990306816 * x6_3 + 726838724295606890549323807888004534353641360687318060281490199180639288113397923326191050713763565560762521606266177933534601628614656 * d_7 = p30 + 340282366920938463463374607431768211456 * p50 + 18446744073709551616 * p40 + 18446744073709551616 * p31 + 6277101735386680763835789423207666416102355444464034512896 * p51 + p21 + 340282366920938463463374607431768211456 * p41 + p12 + 340282366920938463463374607431768211456 * p32 + 115792089237316195423570985008687907853269984665640564039457584007913129639936 * p52 + 18446744073709551616 * p22 + 6277101735386680763835789423207666416102355444464034512896 * p42 + 18446744073709551616 * p13 + 6277101735386680763835789423207666416102355444464034512896 * p33 + 2135987035920910082395021706169552114602704522356652769947041607822219725780640550022962086936576 * p53 + p03 + 340282366920938463463374607431768211456 * p23 + 115792089237316195423570985008687907853269984665640564039457584007913129639936 * p43) by lia.
  assert (H54 : x0_4 + 18446744073709551616 * x1_8 + 340282366920938463463374607431768211456 * x2_8 + 6277101735386680763835789423207666416102355444464034512896 * x3_8 + 115792089237316195423570985008687907853269984665640564039457584007913129639936 * x4_7 + 2135987035920910082395021706169552114602704522356652769947041607822219725780640550022962086936576 * x5_5 + 39402006196394479212279040100143613805079739270465446667948293404245721771497210611414266254884915640806627990306816 * x6_3 = p30 + 340282366920938463463374607431768211456 * p50 + 18446744073709551616 * p40 + 18446744073709551616 * p31 + 6277101735386680763835789423207666416102355444464034512896 * p51 + p21 + 340282366920938463463374607431768211456 * p41 + p12 + 340282366920938463463374607431768211456 * p32 + 115792089237316195423570985008687907853269984665640564039457584007913129639936 * p52 + 18446744073709551616 * p22 + 6277101735386680763835789423207666416102355444464034512896 * p42 + 18446744073709551616 * p13 + 6277101735386680763835789423207666416102355444464034512896 * p33 + 2135987035920910082395021706169552114602704522356652769947041607822219725780640550022962086936576 * p53 + p03 + 340282366920938463463374607431768211456 * p23 + 115792089237316195423570985008687907853269984665640564039457584007913129639936 * p43) by lia.
  clear Hd54 E45 E46 E47 E48 E49 E50 E51 E52 E53 E54 H44.
  intros [= <- <- <- <- <- <- <-].
  pose proof (mul_bnd a4l y0 ltac:(assumption) ltac:(assumption)) as M00.
  pose proof (mul_bnd a4l y1 ltac:(assumption) ltac:(assumption)) as M01.
  pose proof (mul_bnd a4l y2 ltac:(assumption) ltac:(assumption)) as M02.
  pose proof (mul_bnd a4h y0 ltac:(assumption) ltac:(assumption)) as M10.
  pose proof (mul_bnd a4h y1 ltac:(assumption) ltac:(assumption)) as M11.
  pose proof (mul_bnd d4l y0 ltac:(assumption) ltac:(assumption)) as M20.
  split; [repeat split; lia|].
  exists ((a4l * y0) + 18446744073709551616 * (a4l * y1) + 340282366920938463463374607431768211456 * (a4l * y2) + 18446744073709551616 * (a4h * y0) + 340282366920938463463374607431768211456 * (a4h * y1) + 340282366920938463463374607431768211456 * (d4l * y0)). split; [lia|].
  transitivity (1 * (a4l * y0) + 18446744073709551616 * (a4l * y1) + 340282366920938463463374607431768211456 * (a4l * y2) + 6277101735386680763835789423207666416102355444464034512896 * (a4l * y3) + 18446744073709551616 * (a4h * y0) + 340282366920938463463374607431768211456 * (a4h * y1) + 6277101735386680763835789423207666416102355444464034512896 * (a4h * y2) + 115792089237316195423570985008687907853269984665640564039457584007913129639936 * (a4h * y3) + 340282366920938463463374607431768211456 * (d4l * y0) + 6277101735386680763835789423207666416102355444464034512896 * (d4l * y1) + 115792089237316195423570985008687907853269984665640564039457584007913129639936 * (d4l * y2) + 2135987035920910082395021706169552114602704522356652769947041607822219725780640550022962086936576 * (d4l * y3) + 6277101735386680763835789423207666416102355444464034512896 * (d4h * y0) + 115792089237316195423570985008687907853269984665640564039457584007913129639936 * (d4h * y1) + 2135987035920910082395021706169552114602704522356652769947041607822219725780640550022962086936576 * (d4h * y2) + 39402006196394479212279040100143613805079739270465446667948293404245721771497210611414266254884915640806627990306816 * (d4h * y3) + 115792089237316195423570985008687907853269984665640564039457584007913129639936 * (f4l * y0) + 2135987035920910082395021706169552114602704522356652769947041607822219725780640550022962086936576 * (f4l * y1) + 39402006196394479212279040100143613805079739270465446667948293404245721771497210611414266254884915640806627990306816 * (f4l * y2) + 726838724295606890549323807888004534353641360687318060281490199180639288113397923326191050713763565560762521606266177933534601628614656 * (f4l * y3) + 2135987035920910082395021706169552114602704522356652769947041607822219725780640550022962086936576 * (f4h * y0) + 39402006196394479212279040100143613805079739270465446667948293404245721771497210611414266254884915640806627990306816 * (f4h * y1) + 726838724295606890549323807888004534353641360687318060281490199180639288113397923326191050713763565560762521606266177933534601628614656 * (f4h * y2) + 13407807929942597099574024998205846127479365820592393377723561443721764030073546976801874298166903427690031858186486050853753882811946569946433649006084096 * (f4h * y3)); [ring|].
  unprod. lia.
Qed.

(** mod.go:250-276 *)
Lemma recip_full_spec x0 x1 x2 x3 x4 y0 y1 y2 y3 o0 o1 o2 o3 o4 o5 o6 o7 o8 : 0 <= x0 < W -> 0 <= x1 < W -> 0 <= x2 < W -> 0 <= x3 < W -> 0 <= x4 < W -> 0 <= y0 < W -> 0 <= y1 < W -> 0 <= y2 < W -> 0 <= y3 < W ->
  recip_full x0 x1 x2 x3 x4 y0 y1 y2 y3 = (o0, o1, o2, o3, o4, o5, o6, o7, o8) ->
  (0 <= o0 < W /\ 0 <= o1 < W /\ 0 <= o2 < W /\ 0 <= o3 < W /\ 0 <= o4 < W /\ 0 <= o5 < W /\ 0 <= o6 < W /\ 0 <= o7 < W /\ 0 <= o8 < W) /\
  (x0 + 18446744073709551616 * x1 + 340282366920938463463374607431768211456 * x2 + 6277101735386680763835789423207666416102355444464034512896 * x3 + 115792089237316195423570985008687907853269984665640564039457584007913129639936 * x4) * (y0 + 18446744073709551616 * y1 + 340282366920938463463374607431768211456 * y2 + 6277101735386680763835789423207666416102355444464034512896 * y3) =
  o0 + 18446744073709551616 * o1 + 340282366920938463463374607431768211456 * o2 + 6277101735386680763835789423207666416102355444464034512896 * o3 + 115792089237316195423570985008687907853269984665640564039457584007913129639936 * o4 + 2135987035920910082395021706169552114602704522356652769947041607822219725780640550022962086936576 * o5 + 39402006196394479212279040100143613805079739270465446667948293404245721771497210611414266254884915640806627990306816 * o6 + 726838724295606890549323807888004534353641360687318060281490199180639288113397923326191050713763565560762521606266177933534601628614656 * o7 + 13407807929942597099574024998205846127479365820592393377723561443721764030073546976801874298166903427690031858186486050853753882811946569946433649006084096 * o8.
Proof.
  intros Wx0 Wx1 Wx2 Wx3 Wx4 Wy0 Wy1 Wy2 Wy3. unfold recip_full.
  smul q1_1 q0_1 p00 E1 R1 Q1 B1.
  smul q3_1 q2_1 p20 E2 R2 Q2 B2.
  smul q5_1 q4_1 p40 E3 R3 Q3 B3.
  smul t1_1 t0_1 p10 E4 R4 Q4 B4.
  sadd q1_2 c_1 E5 R5 C5.
  sadd q2_2 c_2 E6 R6 C6.
  smul t1_2 t0_2 p30 E7 R7 Q7 B7.
  sadd q3_2 c_3 E8 R8 C8.
  sadd q4_2 c_4 E9 R9 C9.
  sadd q5_2 d_1 E10 R10 C10.
  assert (Hd10 : q0_1 + 18446744073709551616 * q1_2 + 340282366920938463463374607431768211456 * q2_2 + 6277101735386680763835789423207666416102355444464034512896 * q3_2 + 115792089237316195423570985008687907853269984665640564039457584007913129639936 * q4_2 + 2135987035920910082395021706169552114602704522356652769947041607822219725780640550022962086936576 * q5_2 + 39402006196394479212279040100143613805079739270465446667948293404245721771497210611414266254884915640806627990306816 * d_1 = p00 + 340282366920938463463374607431768211456 * p20 + 115792089237316195423570985008687907853269984665640564039457584007913129639936 * p40 + 18446744073709551616 * p10 + 6277101735386680763835789423207666416102355444464034512896 * p30) by lia.
  assert (H10 : q0_1 + 18446744073709551616 * q1_2 + 340282366920938463463374607431768211456 * q2_2 + 6277101735386680763835789423207666416102355444464034512896 * q3_2 + 115792089237316195423570985008687907853269984665640564039457584007913129639936 * q4_2 + 2135987035920910082395021706169552114602704522356652769947041607822219725780640550022962086936576 * q5_2 = p00 + 340282366920938463463374607431768211456 * p20 + 115792089237316195423570985008687907853269984665640564039457584007913129639936 * p40 + 18446744073709551616 * p10 + 6277101735386680763835789423207666416102355444464034512896 * p30) by lia.
  clear Hd10 E1 E2 E3 E4 E5 E6 E7 E8 E9 E10.
  smul t1_3 t0_3 p01 E11 R11 Q11 B11.
  sadd q1_3 c_5 E12 R12 C12.
  sadd q2_3 c_6 E13 R13 C13.
  smul t1_4 t0_4 p21 E14 R14 Q14 B14.
  sadd q3_3 c_7 E15 R15 C15.
  sadd q4_3 c_8 E16 R16 C16.
  smul q6_1 t0_5 p41 E17 R17 Q17 B17.
  sadd q5_3 c_9 E18 R18 C18.
  sadd q6_2 d_2 E19 R19 C19.
  assert (Hd19 : q0_1 + 18446744073709551616 * q1_3 + 340282366920938463463374607431768211456 * q2_3 + 6277101735386680763835789423207666416102355444464034512896 * q3_3 + 115792089237316195423570985008687907853269984665640564039457584007913129639936 * q4_3 + 2135987035920910082395021706169552114602704522356652769947041607822219725780640550022962086936576 * q5_3 + 39402006196394479212279040100143613805079739270465446667948293404245721771497210611414266254884915640806627990306816 * q6_2 + 726838724295606890549323807888004534353641360687318060281490199180639288113397923326191050713763565560762521606266177933534601628614656 * d_2 = p00 + 340282366920938463463374607431768211456 * p20 + 115792089237316195423570985008687907853269984665640564039457584007913129639936 * p40 + 18446744073709551616 * p10 + 6277101735386680763835789423207666416102355444464034512896 * p30 + 18446744073709551616 * p01 + 6277101735386680763835789423207666416102355444464034512896 * p21 + 2135987035920910082395021706169552114602704522356652769947041607822219725780640550022962086936576 * p41) by lia.
  assert (H19 : q0_1 + 18446744073709551616 * q1_3 + 340282366920938463463374607431768211456 * q2_3 + 6277101735386680763835789423207666416102355444464034512896 * q3_3 + 115792089237316195423570985008687907853269984665640564039457584007913129639936 * q4_3 + 2135987035920910082395021706169552114602704522356652769947041607822219725780640550022962086936576 * q5_3 + 39402006196394479212279040100143613805079739270465446667948293404245721771497210611414266254884915640806627990306816 * q6_2 = p00 + 340282366920938463463374607431768211456 * p20 + 115792089237316195423570985008687907853269984665640564039457584007913129639936 * p40 + 18446744073709551616 * p10 + 6277101735386680763835789423207666416102355444464034512896 * p30 + 18446744073709551616 * p01 + 6277101735386680763835789423207666416102355444464034512896 * p21 + 2135987035920910082395021706169552114602704522356652769947041607822219725780640550022962086936576 * p41) by lia.
  clear Hd19 E11 E12 E13 E14 E15 E16 E17 E18 E19 H10.
  smul t1_5 t0_6 p11 E20 R20 Q20 B20.
  sadd q2_4 c_10 E21 R21 C21.
  sadd q3_4 c_11 E22 R22 C22.
  smul t1_6 t0_7 p31 E23 R23 Q23 B23.
  sadd q4_4 c_12 E24 R24 C24.
  sadd q5_4 c_13 E25 R25 C25.
  sadd q6_3 d_3 E26 R26 C26.
  assert (Hd26 : q0_1 + 18446744073709551616 * q1_3 + 340282366920938463463374607431768211456 * q2_4 + 6277101735386680763835789423207666416102355444464034512896 * q3_4 + 115792089237316195423570985008687907853269984665640564039457584007913129639936 * q4_4 + 2135987035920910082395021706169552114602704522356652769947041607822219725780640550022962086936576 * q5_4 + 39402006196394479212279040100143613805079739270465446667948293404245721771497210611414266254884915640806627990306816 * q6_3 + 726838724295606890549323807888004534353641360687318060281490199180639288113397923326191050713763565560762521606266177933534601628614656 * d_3 = p00 + 340282366920938463463374607431768211456 * p20 + 115792089237316195423570985008687907853269984665640564039457584007913129639936 * p40 + 18446744073709551616 * p10 + 6277101735386680763835789423207666416102355444464034512896 * p30 + 18446744073709551616 * p01 + 6277101735386680763835789423207666416102355444464034512896 * p21 + 2135987035920910082395021706169552114602704522356652769947041607822219725780640550022962086936576 * p41 + 340282366920938463463374607431768211456 * p11 + 115792089237316195423570985008687907853269984665640564039457584007913129639936 * p31) by lia.
  assert (H26 : q0_1 + 18446744073709551616 * q1_3 + 340282366920938463463374607431768211456 * q2_4 + 6277101735386680763835789423207666416102355444464034512896 * q3_4 + 115792089237316195423570985008687907853269984665640564039457584007913129639936 * q4_4 + 2135987035920910082395021706169552114602704522356652769947041607822219725780640550022962086936576 * q5_4 + 39402006196394479212279040100143613805079739270465446667948293404245721771497210611414266254884915640806627990306816 * q6_3 = p00 + 340282366920938463463374607431768211456 * p20 + 115792089237316195423570985008687907853269984665640564039457584007913129639936 * p40 + 18446744073709551616 * p10 + 6277101735386680763835789423207666416102355444464034512896 * p30 + 18446744073709551616 * p01 + 6277101735386680763835789423207666416102355444464034512896 * p21 + 2135987035920910082395021706169552114602704522356652769947041607822219725780640550022962086936576 * p41 + 340282366920938463463374607431768211456 * p11 + 115792089237316195423570985008687907853269984665640564039457584007913129639936 * p31) by lia.
  clear Hd26 E20 E21 E22 E23 E24 E25 E26 H19.
  smul t1_7 t0_8 p02 E27 R27 Q27 B27.
  sadd q2_5 c_14 E28 R28 C28.
  sadd q3_5 c_15 E29 R29 C29.
  smul t1_8 t0_9 p22 E30 R30 Q30 B30.
  sadd q4_5 c_16 E31 R31 C31.
  sadd q5_5 c_17 E32 R32 C32.
  smul q7_1 t0_10 p42 E33 R33 Q33 B33.
  sadd q6_4 c_18 E34 R34 C34.
  sadd q7_2 d_4 E35 R35 C35.
  assert (Hd35 : q0_1 + 18446744073709551616 * q1_3 + 340282366920938463463374607431768211456 * q2_5 + 6277101735386680763835789423207666416102355444464034512896 * q3_5 + 115792089237316195423570985008687907853269984665640564039457584007913129639936 * q4_5 + 2135987035920910082395021706169552114602704522356652769947041607822219725780640550022962086936576 * q5_5 + 39402006196394479212279040100143613805079739270465446667948293404245721771497210611414266254884915640806627990306816 * q6_4 + 726838724295606890549323807888004534353641360687318060281490199180639288113397923326191050713763565560762521606266177933534601628614656 * q7_2 + 13407807929942597099574024998205846127479365820592393377723561443721764030073546976801874298166903427690031858186486050853753882811946569946433649006084096 * d_4 = p00 + 340282366920938463463374607431768211456 * p20 + 115792089237316195423570985008687907853269984665640564039457584007913129639936 * p40 + 18446744073709551616 * p10 + 6277101735386680763835789423207666416102355444464034512896 * p30 + 18446744073709551616 * p01 + 6277101735386680763835789423207666416102355444464034512896 * p21 + 2135987035920910082395021706169552114602704522356652769947041607822219725780640550022962086936576 * p41 + 340282366920938463463374607431768211456 * p11 + 115792089237316195423570985008687907853269984665640564039457584007913129639936 * p31 + 340282366920938463463374607431768211456 * p02 + 115792089237316195423570985008687907853269984665640564039457584007913129639936 * p22 + 39402006196394479212279040100143613805079739270465446667948293404245721771497210611414266254884915640806627990306816 * p42) by lia.
  assert (H35 : q0_1 + 18446744073709551616 * q1_3 + 340282366920938463463374607431768211456 * q2_5 + 6277101735386680763835789423207666416102355444464034512896 * q3_5 + 115792089237316195423570985008687907853269984665640564039457584007913129639936 * q4_5 + 2135987035920910082395021706169552114602704522356652769947041607822219725780640550022962086936576 * q5_5 + 39402006196394479212279040100143613805079739270465446667948293404245721771497210611414266254884915640806627990306816 * q6_4 + 726838724295606890549323807888004534353641360687318060281490199180639288113397923326191050713763565560762521606266177933534601628614656 * q7_2 = p00 + 340282366920938463463374607431768211456 * p20 + 115792089237316195423570985008687907853269984665640564039457584007913129639936 * p40 + 18446744073709551616 * p10 + 6277101735386680763835789423207666416102355444464034512896 * p30 + 18446744073709551616 * p01 + 6277101735386680763835789423207666416102355444464034512896 * p21 + 2135987035920910082395021706169552114602704522356652769947041607822219725780640550022962086936576 * p41 + 340282366920938463463374607431768211456 * p11 + 115792089237316195423570985008687907853269984665640564039457584007913129639936 * p31 + 340282366920938463463374607431768211456 * p02 + 115792089237316195423570985008687907853269984665640564039457584007913129639936 * p22 + 39402006196394479212279040100143613805079739270465446667948293404245721771497210611414266254884915640806627990306816 * p42) by lia.
  clear Hd35 E27 E28 E29 E30 E31 E32 E33 E34 E35 H26.
  smul t1_9 t0_11 p12 E36 R36 Q36 B36.
  sadd q3_6 c_19 E37 R37 C37.
  sadd q4_6 c_20 E38 R38 C38.
  smul t1_10 t0_12 p32 E39 R39 Q39 B39.
  sadd q5_6 c_21 E40 R40 C40.
  sadd q6_5 c_22 E41 R41 C41.
  sadd q7_3 d_5 E42 R42 C42.
  assert (Hd42 : q0_1 + 18446744073709551616 * q1_3 + 340282366920938463463374607431768211456 * q2_5 + 6277101735386680763835789423207666416102355444464034512896 * q3_6 + 115792089237316195423570985008687907853269984665640564039457584007913129639936 * q4_6 + 2135987035920910082395021706169552114602704522356652769947041607822219725780640550022962086936576 * q5_6 + 39402006196394479212279040100143613805079739270465446667948293404245721771497210611414266254884915640806627990306816 * q6_5 + 726838724295606890549323807888004534353641360687318060281490199180639288113397923326191050713763565560762521606266177933534601628614656 * q7_3 + 13407807929942597099574024998205846127479365820592393377723561443721764030073546976801874298166903427690031858186486050853753882811946569946433649006084096 * d_5 = p00 + 340282366920938463463374607431768211456 * p20 + 115792089237316195423570985008687907853269984665640564039457584007913129639936 * p40 + 18446744073709551616 * p10 + 6277101735386680763835789423207666416102355444464034512896 * p30 + 18446744073709551616 * p01 + 6277101735386680763835789423207666416102355444464034512896 * p21 + 2135987035920910082395021706169552114602704522356652769947041607822219725780640550022962086936576 * p41 + 340282366920938463463374607431768211456 * p11 + 115792089237316195423570985008687907853269984665640564039457584007913129639936 * p31 + 340282366920938463463374607431768211456 * p02 + 115792089237316195423570985008687907853269984665640564039457584007913129639936 * p22 + 39402006196394479212279040100143613805079739270465446667948293404245721771497210611414266254884915640806627990306816 * p42 + 6277101735386680763835789423207666416102355444464034512896 * p12 + 2135987035920910082395021706169552114602704522356652769947041607822219725780640550022962086936576 * p32) by lia.
  assert (H42 : q0_1 + 18446744073709551616 * q1_3 + 340282366920938463463374607431768211456 * q2_5 + 6277101735386680763835789423207666416102355444464034512896 * q3_6 + 115792089237316195423570985008687907853269984665640564039457584007913129639936 * q4_6 + 2135987035920910082395021706169552114602704522356652769947041607822219725780640550022962086936576 * q5_6 + 39402006196394479212279040100143613805079739270465446667948293404245721771497210611414266254884915640806627990306816 * q6_5 + 726838724295606890549323807888004534353641360687318060281490199180639288113397923326191050713763565560762521606266177933534601628614656 * q7_3 = p00 + 340282366920938463463374607431768211456 * p20 + 115792089237316195423570985008687907853269984665640564039457584007913129639936 * p40 + 18446744073709551616 * p10 + 6277101735386680763835789423207666416102355444464034512896 * p30 + 18446744073709551616 * p01 + 6277101735386680763835789423207666416102355444464034512896 * p21 + 2135987035920910082395021706169552114602704522356652769947041607822219725780640550022962086936576 * p41 + 340282366920938463463374607431768211456 * p11 + 115792089237316195423570985008687907853269984665640564039457584007913129639936 * p31 + 340282366920938463463374607431768211456 * p02 + 115792089237316195423570985008687907853269984665640564039457584007913129639936 * p22 + 39402006196394479212279040100143613805079739270465446667948293404245721771497210611414266254884915640806627990306816 * p42 + 6277101735386680763835789423207666416102355444464034512896 * p12 + 2135987035920910082395021706169552114602704522356652769947041607822219725780640550022962086936576 * p32) by lia.
  clear Hd42 E36 E37 E38 E39 E40 E41 E42 H35.
  smul t1_11 t0_13 p03 E43 R43 Q43 B43.
  sadd q3_7 c_23 E44 R44 C44.
  sadd q4_7 c_24 E45 R45 C45.
  smul t1_12 t0_14 p23 E46 R46 Q46 B46.
  sadd q5_7 c_25 E47 R47 C47.
  sadd q6_6 c_26 E48 R48 C48.
  smul q8_1 t0_15 p43 E49 R49 Q49 B49.
  sadd q7_4 c_27 E50 R50 C50.
  sadd q8_2 d_6 E51 R51 C51.
  assert (Hd51 : q0_1 + 18446744073709551616 * q1_3 + 340282366920938463463374607431768211456 * q2_5 + 6277101735386680763835789423207666416102355444464034512896 * q3_7 + 115792089237316195423570985008687907853269984665640564039457584007913129639936 * q4_7 + 2135987035920910082395021706169552114602704522356652769947041607822219725780640550022962086936576 * q5_7 + 39402006196394479212279040100143613805079739270465446667948293404245721771497210611414266254884915640806627990306816 * q6_6 + 726838724295606890549323807888004534353641360687318060281490199180639288113397923326191050713763565560762521606266177933534601628614656 * q7_4 + 13407807929942597099574024998205846127479365820592393377723561443721764030073546976801874298166903427690031858186486050853753882811946569946433649006084096 * q8_2 + 247330401473104534060502521019647190035131349101211839914063056092897225106531867170316401061243044989597671426016139339351365034306751209967546155101893167916606772148699136 * d_6 = p00 + 340282366920938463463374607431768211456 * p20 + 115792089237316195423570985008687907853269984665640564039457584007913129639936 * p40 + 18446744073709551616 * p10 + 6277101735386680763835789423207666416102355444464034512896 * p30 + 18446744073709551616 * p01 + 6277101735386680763835789423207666416102355444464034512896 * p21 + 2135987035920910082395021706169552114602704522356652769947041607822219725780640550022962086936576 * p41 + 340282366920938463463374607431768211456 * p11 + 115792089237316195423570985008687907853269984665640564039457584007913129639936 * p31 + 340282366920938463463374607431768211456 * p02 + 115792089237316195423570985008687907853269984665640564039457584007913129639936 * p22 + 39402006196394479212279040100143613805079739270465446667948293404245721771497210611414266254884915640806627990306816 * p42 + 6277101735386680763835789423207666416102355444464034512896 * p12 + 2135987035920910082395021706169552114602704522356652769947041607822219725780640550022962086936576 * p32 + 6277101735386680763835789423207666416102355444464034512896 * p03 + 2135987035920910082395021706169552114602704522356652769947041607822219725780640550022962086936576 * p23 + 726838724295606890549323807888004534353641360687318060281490199180639288113397923326191050713763565560762521606266177933534601628614656 * p43) by lia.
  assert (H51 : q0_1 + 18446744073709551616 * q1_3 + 340282366920938463463374607431768211456 * q2_5 + 6277101735386680763835789423207666416102355444464034512896 * q3_7 + 115792089237316195423570985008687907853269984665640564039457584007913129639936 * q4_7 + 2135987035920910082395021706169552114602704522356652769947041607822219725780640550022962086936576 * q5_7 + 39402006196394479212279040100143613805079739270465446667948293404245721771497210611414266254884915640806627990306816 * q6_6 + 726838724295606890549323807888004534353641360687318060281490199180639288113397923326191050713763565560762521606266177933534601628614656 * q7_4 + 13407807929942597099574024998205846127479365820592393377723561443721764030073546976801874298166903427690031858186486050853753882811946569946433649006084096 * q8_2 = p00 + 340282366920938463463374607431768211456 * p20 + 115792089237316195423570985008687907853269984665640564039457584007913129639936 * p40 + 18446744073709551616 * p10 + 6277101735386680763835789423207666416102355444464034512896 * p30 + 18446744073709551616 * p01 + 6277101735386680763835789423207666416102355444464034512896 * p21 + 2135987035920910082395021706169552114602704522356652769947041607822219725780640550022962086936576 * p41 + 340282366920938463463374607431768211456 * p11 + 115792089237316195423570985008687907853269984665640564039457584007913129639936 * p31 + 340282366920938463463374607431768211456 * p02 + 115792089237316195423570985008687907853269984665640564039457584007913129639936 * p22 + 39402006196394479212279040100143613805079739270465446667948293404245721771497210611414266254884915640806627990306816 * p42 + 6277101735386680763835789423207666416102355444464034512896 * p12 + 2135987035920910082395021706169552114602704522356652769947041607822219725780640550022962086936576 * p32 + 6277101735386680763835789423207666416102355444464034512896 * p03 + 2135987035920910082395021706169552114602704522356652769947041607822219725780640550022962086936576 * p23 + 726838724295606890549323807888004534353641360687318060281490199180639288113397923326191050713763565560762521606266177933534601628614656 * p43) by lia.
  clear Hd51 E43 E44 E45 E46 E47 E48 E49 E50 E51 H42.
  smul t1_13 t0_16 p13 E52 R52 Q52 B52.
  sadd q4_8 c_28 E53 R53 C53.
  sadd q5_8 c_29 E54 R54 C54.
  smul t1_14 t0_17 p33 E55 R55 Q55 B55.
  sadd q6_7 c_30 E56 R56 C56.
  sadd q7_5 c_31 E57 R57 C57.
  sadd q8_3 d_7 E58 R58 C58.
  assert (Hd58 : q0_1 + 18446744073709551616 * q1_3 + 340282366920938463463374607431768211456 * q2_5 + 6277101735386680763835789423207666416102355444464034512896 * q3_7 + 115792089237316195423570985008687907853269984665640564039457584007913129639936 * q4_8 + 2135987035920910082395021706169552114602704522356652769947041607822219725780640550022962086936576 * q5_8 + 39402006196394479212279040100143613805079739270465446667948293404245721771497210611414266254884915640806627990306816 * q6_7 + 726838724295606890549323807888004534353641360687318060281490199180639288113397923326191050713763565560762521606266177933534601628614656 * q7_5 + 13407807929942597099574024998205846127479365820592393377723561443721764030073546976801874298166903427690031858186486050853753882811946569946433649006084096 * q8_3 + 247330401473104534060502521019647190035131349101211839914063056092897225106531867170316401061243044989597671426016139339351365034306751209967546155101893167916606772148699136 * d_7 = p00 + 340282366920938463463374607431768211456 * p20 + 115792089237316195423570985008687907853269984665640564039457584007913129639936 * p40 + 18446744073709551616 * p10 + 6277101735386680763835789423207666416102355444464034512896 * p30 + 18446744073709551616 * p01 + 6277101735386680763835789423207666416102355444464034512896 * p21 + 2135987035920910082395021706169552114602704522356652769947041607822219725780640550022962086936576 * p41 + 340282366920938463463374607431768211456 * p11 + 115792089237316195423570985008687907853269984665640564039457584007913129639936 * p31 + 340282366920938463463374607431768211456 * p02 + 115792089237316195423570985008687907853269984665640564039457584007913129639936 * p22 + 39402006196394479212279040100143613805079739270465446667948293404245721771497210611414266254884915640806627990306816 * p42 + 6277101735386680763835789423207666416102355444464034512896 * p12 + 2135987035920910082395021706169552114602704522356652769947041607822219725780640550022962086936576 * p32 + 6277101735386680763835789423207666416102355444464034512896 * p03 + 2135987035920910082395021706169552114602704522356652769947041607822219725780640550022962086936576 * p23 + 726838724295606890549323807888004534353641360687318060281490199180639288113397923326191050713763565560762521606266177933534601628614656 * p43 + 115792089237316195423570985008687907853269984665640564039457584007913129639936 * p13 + 39402006196394479212279040100143613805079739270465446667948293404245721771497210611414266254884915640806627990306816 * p33) by lia.
  assert (H58 : q0_1 + 18446744073709551616 * q1_3 + 340282366920938463463374607431768211456 * q2_5 + 6277101735386680763835789423207666416102355444464034512896 * q3_7 + 115792089237316195423570985008687907853269984665640564039457584007913129639936 * q4_8 + 2135987035920910082395021706169552114602704522356652769947041607822219725780640550022962086936576 * q5_8 + 39402006196394479212279040100143613805079739270465446667948293404245721771497210611414266254884915640806627990306816 * q6_7 + 726838724295606890549323807888004534353641360687318060281490199180639288113397923326191050713763565560762521606266177933534601628614656 * q7_5 + 13407807929942597099574024998205846127479365820592393377723561443721764030073546976801874298166903427690031858186486050853753882811946569946433649006084096 * q8_3 = p00 + 340282366920938463463374607431768211456 * p20 + 115792089237316195423570985008687907853269984665640564039457584007913129639936 * p40 + 18446744073709551616 * p10 + 6277101735386680763835789423207666416102355444464034512896 * p30 + 18446744073709551616 * p01 + 6277101735386680763835789423207666416102355444464034512896 * p21 + 2135987035920910082395021706169552114602704522356652769947041607822219725780640550022962086936576 * p41 + 340282366920938463463374607431768211456 * p11 + 115792089237316195423570985008687907853269984665640564039457584007913129639936 * p31 + 340282366920938463463374607431768211456 * p02 + 115792089237316195423570985008687907853269984665640564039457584007913129639936 * p22 + 39402006196394479212279040100143613805079739270465446667948293404245721771497210611414266254884915640806627990306816 * p42 + 6277101735386680763835789423207666416102355444464034512896 * p12 + 2135987035920910082395021706169552114602704522356652769947041607822219725780640550022962086936576 * p32 + 6277101735386680763835789423207666416102355444464034512896 * p03 + 2135987035920910082395021706169552114602704522356652769947041607822219725780640550022962086936576 * p23 + 726838724295606890549323807888004534353641360687318060281490199180639288113397923326191050713763565560762521606266177933534601628614656 * p43 + 115792089237316195423570985008687907853269984665640564039457584007913129639936 * p13 + 39402006196394479212279040100143613805079739270465446667948293404245721771497210611414266254884915640806627990306816 * p33) by lia.
  clear Hd58 E52 E53 E54 E55 E56 E57 E58 H51.
  intros [= <- <- <- <- <- <- <- <- <-].
  split; [repeat split; lia|].
  transitivity (1 * (x0 * y0) + 18446744073709551616 * (x0 * y1) + 340282366920938463463374607431768211456 * (x0 * y2) + 6277101735386680763835789423207666416102355444464034512896 * (x0 * y3) + 18446744073709551616 * (x1 * y0) + 340282366920938463463374607431768211456 * (x1 * y1) + 6277101735386680763835789423207666416102355444464034512896 * (x1 * y2) + 115792089237316195423570985008687907853269984665640564039457584007913129639936 * (x1 * y3) + 340282366920938463463374607431768211456 * (x2 * y0) + 6277101735386680763835789423207666416102355444464034512896 * (x2 * y1) + 115792089237316195423570985008687907853269984665640564039457584007913129639936 * (x2 * y2) + 2135987035920910082395021706169552114602704522356652769947041607822219725780640550022962086936576 * (x2 * y3) + 6277101735386680763835789423207666416102355444464034512896 * (x3 * y0) + 115792089237316195423570985008687907853269984665640564039457584007913129639936 * (x3 * y1) + 2135987035920910082395021706169552114602704522356652769947041607822219725780640550022962086936576 * (x3 * y2) + 39402006196394479212279040100143613805079739270465446667948293404245721771497210611414266254884915640806627990306816 * (x3 * y3) + 115792089237316195423570985008687907853269984665640564039457584007913129639936 * (x4 * y0) + 2135987035920910082395021706169552114602704522356652769947041607822219725780640550022962086936576 * (x4 * y1) + 39402006196394479212279040100143613805079739270465446667948293404245721771497210611414266254884915640806627990306816 * (x4 * y2) + 726838724295606890549323807888004534353641360687318060281490199180639288113397923326191050713763565560762521606266177933534601628614656 * (x4 * y3)); [ring|].
  unprod. lia.
Qed.

(** mod.go:362-392 *)
Lemma reduce_q_spec x0 x1 x2 x3 x4 mu0 mu1 mu2 mu3 mu4 o0 o1 o2 o3 o4 : 0 <= x0 < W -> 0 <= x1 < W -> 0 <= x2 < W -> 0 <= x3 < W -> 0 <= x4 < W -> 0 <= mu0 < W -> 0 <= mu1 < W -> 0 <= mu2 < W -> 0 <= mu3 < W -> 0 <= mu4 < W ->
  reduce_q x0 x1 x2 x3 x4 mu0 mu1 mu2 mu3 mu4 = (o0, o1, o2, o3, o4) ->
  (0 <= o0 < W /\ 0 <= o1 < W /\ 0 <= o2 < W /\ 0 <= o3 < W /\ 0 <= o4 < W) /\
  exists e, 0 <= e <= 4271974071841820164790043412339104229205409044713305539894083215644439451561281100045924173873152 /\
  (x0 + 18446744073709551616 * x1 + 340282366920938463463374607431768211456 * x2 + 6277101735386680763835789423207666416102355444464034512896 * x3 + 115792089237316195423570985008687907853269984665640564039457584007913129639936 * x4) * (mu0 + 18446744073709551616 * mu1 + 340282366920938463463374607431768211456 * mu2 + 6277101735386680763835789423207666416102355444464034512896 * mu3 + 115792089237316195423570985008687907853269984665640564039457584007913129639936 * mu4) =
  2135987035920910082395021706169552114602704522356652769947041607822219725780640550022962086936576 * (o0 + 18446744073709551616 * o1 + 340282366920938463463374607431768211456 * o2 + 6277101735386680763835789423207666416102355444464034512896 * o3 + 115792089237316195423570985008687907853269984665640564039457584007913129639936 * o4) + e.
Proof.
  intros Wx0 Wx1 Wx2 Wx3 Wx4 Wmu0 Wmu1 Wmu2 Wmu3 Wmu4. unfold reduce_q.
  smul q0_1 d_1 p30 E1 R1 Q1 B1.
  smul q1_1 t0_1 p40 E2 R2 Q2 B2.
  sadd q0_2 c_1 E3 R3 C3.
  sadd q1_2 d_2 E4 R4 C4.
  assert (Hd4 : q0_2 + 18446744073709551616 * q1_2 + 340282366920938463463374607431768211456 * d_2 = q0_1 + p40) by lia.
  assert (H4 : q0_2 + 18446744073709551616 * q1_2 = q0_1 + p40) by lia.
  clear Hd4 E2 E3 E4.
  smul t1_1 d_3 p21 E5 R5 Q5 B5.
  sadd q0_3 c_2 E6 R6 C6.
  smul q2_1 t0_2 p41 E7 R7 Q7 B7.
  sadd q1_3 c_3 E8 R8 C8.
  sadd q2_2 d_4 E9 R9 C9.
  assert (Hd9 : q0_3 + 18446744073709551616 * q1_3 + 340282366920938463463374607431768211456 * q2_2 + 6277101735386680763835789423207666416102355444464034512896 * d_4 = q0_1 + p40 + t1_1 + 18446744073709551616 * p41) by lia.
  assert (H9 : q0_3 + 18446744073709551616 * q1_3 + 340282366920938463463374607431768211456 * q2_2 = q0_1 + p40 + t1_1 + 18446744073709551616 * p41) by lia.
  clear Hd9 E6 E7 E8 E9 H4.
  smul t1_2 t0_3 p31 E10 R10 Q10 B10.
  sadd q0_4 c_4 E11 R11 C11.
  sadd q1_4 c_5 E12 R12 C12.
  sadd q2_3 d_5 E13 R13 C13.
  assert (Hd13 : q0_4 + 18446744073709551616 * q1_4 + 340282366920938463463374607431768211456 * q2_3 + 6277101735386680763835789423207666416102355444464034512896 * d_5 = q0_1 + p40 + t1_1 + 18446744073709551616 * p41 + p31) by lia.
  assert (H13 : q0_4 + 18446744073709551616 * q1_4 + 340282366920938463463374607431768211456 * q2_3 = q0_1 + p40 + t1_1 + 18446744073709551616 * p41 + p31) by lia.
  clear Hd13 E10 E11 E12 E13 H9.
  smul t1_3 t0_4 p22 E14 R14 Q14 B14.
  sadd q0_5 c_6 E15 R15 C15.
  sadd q1_5 c_7 E16 R16 C16.
  smul q3_1 t0_5 p42 E17 R17 Q17 B17.
  sadd q2_4 c_8 E18 R18 C18.
  sadd q3_2 d_6 E19 R19 C19.
  assert (Hd19 : q0_5 + 18446744073709551616 * q1_5 + 340282366920938463463374607431768211456 * q2_4 + 6277101735386680763835789423207666416102355444464034512896 * q3_2 + 115792089237316195423570985008687907853269984665640564039457584007913129639936 * d_6 = q0_1 + p40 + t1_1 + 18446744073709551616 * p41 + p31 + p22 + 340282366920938463463374607431768211456 * p42) by lia.
  assert (H19 : q0_5 + 18446744073709551616 * q1_5 + 340282366920938463463374607431768211456 * q2_4 + 6277101735386680763835789423207666416102355444464034512896 * q3_2 = q0_1 + p40 + t1_1 + 18446744073709551616 * p41 + p31 + p22 + 340282366920938463463374607431768211456 * p42) by lia.
  clear Hd19 E14 E15 E16 E17 E18 E19 H13.
  smul t1_4 d_7 p12 E20 R20 Q20 B20.
  sadd q0_6 c_9 E21 R21 C21.
  smul t1_5 t0_6 p32 E22 R22 Q22 B22.
  sadd q1_6 c_10 E23 R23 C23.
  sadd q2_5 c_11 E24 R24 C24.
  sadd q3_3 d_8 E25 R25 C25.
  assert (Hd25 : q0_6 + 18446744073709551616 * q1_6 + 340282366920938463463374607431768211456 * q2_5 + 6277101735386680763835789423207666416102355444464034512896 * q3_3 + 115792089237316195423570985008687907853269984665640564039457584007913129639936 * d_8 = q0_1 + p40 + t1_1 + 18446744073709551616 * p41 + p31 + p22 + 340282366920938463463374607431768211456 * p42 + t1_4 + 18446744073709551616 * p32) by lia.
  assert (H25 : q0_6 + 18446744073709551616 * q1_6 + 340282366920938463463374607431768211456 * q2_5 + 6277101735386680763835789423207666416102355444464034512896 * q3_3 = q0_1 + p40 + t1_1 + 18446744073709551616 * p41 + p31 + p22 + 340282366920938463463374607431768211456 * p42 + t1_4 + 18446744073709551616 * p32) by lia.
  clear Hd25 E21 E22 E23 E24 E25 H19.
  smul t1_6 d_9 p03 E26 R26 Q26 B26.
  sadd q0_7 c_12 E27 R27 C27.
  smul t1_7 t0_7 p23 E28 R28 Q28 B28.
  sadd q1_7 c_13 E29 R29 C29.
  sadd q2_6 c_14 E30 R30 C30.
  smul q4_1 t0_8 p43 E31 R31 Q31 B31.
  sadd q3_4 c_15 E32 R32 C32.
  sadd q4_2 d_10 E33 R33 C33.
  assert (Hd33 : q0_7 + 18446744073709551616 * q1_7 + 340282366920938463463374607431768211456 * q2_6 + 6277101735386680763835789423207666416102355444464034512896 * q3_4 + 115792089237316195423570985008687907853269984665640564039457584007913129639936 * q4_2 + 2135987035920910082395021706169552114602704522356652769947041607822219725780640550022962086936576 * d_10 = q0_1 + p40 + t1_1 + 18446744073709551616 * p41 + p31 + p22 + 340282366920938463463374607431768211456 * p42 + t1_4 + 18446744073709551616 * p32 + t1_6 + 18446744073709551616 * p23 + 6277101735386680763835789423207666416102355444464034512896 * p43) by lia.
  assert (H33 : q0_7 + 18446744073709551616 * q1_7 + 340282366920938463463374607431768211456 * q2_6 + 6277101735386680763835789423207666416102355444464034512896 * q3_4 + 115792089237316195423570985008687907853269984665640564039457584007913129639936 * q4_2 = q0_1 + p40 + t1_1 + 18446744073709551616 * p41 + p31 + p22 + 340282366920938463463374607431768211456 * p42 + t1_4 + 18446744073709551616 * p32 + t1_6 + 18446744073709551616 * p23 + 6277101735386680763835789423207666416102355444464034512896 * p43) by lia.
  clear Hd33 E27 E28 E29 E30 E31 E32 E33 H25.
  smul t1_8 t0_9 p13 E34 R34 Q34 B34.
  sadd q0_8 c_16 E35 R35 C35.
  sadd q1_8 c_17 E36 R36 C36.
  smul t1_9 t0_10 p33 E37 R37 Q37 B37.
  sadd q2_7 c_18 E38 R38 C38.
  sadd q3_5 c_19 E39 R39 C39.
  sadd q4_3 d_11 E40 R40 C40.
  assert (Hd40 : q0_8 + 18446744073709551616 * q1_8 + 340282366920938463463374607431768211456 * q2_7 + 6277101735386680763835789423207666416102355444464034512896 * q3_5 + 115792089237316195423570985008687907853269984665640564039457584007913129639936 * q4_3 + 2135987035920910082395021706169552114602704522356652769947041607822219725780640550022962086936576 * d_11 = q0_1 + p40 + t1_1 + 18446744073709551616 * p41 + p31 + p22 + 340282366920938463463374607431768211456 * p42 + t1_4 + 18446744073709551616 * p32 + t1_6 + 18446744073709551616 * p23 + 6277101735386680763835789423207666416102355444464034512896 * p43 + p13 + 340282366920938463463374607431768211456 * p33) by lia.
  assert (H40 : q0_8 + 18446744073709551616 * q1_8 + 340282366920938463463374607431768211456 * q2_7 + 6277101735386680763835789423207666416102355444464034512896 * q3_5 + 115792089237316195423570985008687907853269984665640564039457584007913129639936 * q4_3 = q0_1 + p40 + t1_1 + 18446744073709551616 * p41 + p31 + p22 + 340282366920938463463374607431768211456 * p42 + t1_4 + 18446744073709551616 * p32 + t1_6 + 18446744073709551616 * p23 + 6277101735386680763835789423207666416102355444464034512896 * p43 + p13 + 340282366920938463463374607431768211456 * p33) by lia.
  clear Hd40 E34 E35 E36 E37 E38 E39 E40 H33.
  smul t1_10 t0_11 p04 E41 R41 Q41 B41.
  sadd d_12 c_20 E42 R42 C42.
  sadd q1_9 c_21 E43 R43 C43.
  smul t1_11 t0_12 p24 E44 R44 Q44 B44.
  sadd q2_8 c_22 E45 R45 C45.
  sadd q3_6 c_23 E46 R46 C46.
  smul q5_1 t0_13 p44 E47 R47 Q47 B47.
  sadd q4_4 c_24 E48 R48 C48.
  sadd q5_2 d_13 E49 R49 C49.
  assert (Hd49 : d_12 + 18446744073709551616 * q1_9 + 340282366920938463463374607431768211456 * q2_8 + 6277101735386680763835789423207666416102355444464034512896 * q3_6 + 115792089237316195423570985008687907853269984665640564039457584007913129639936 * q4_4 + 2135987035920910082395021706169552114602704522356652769947041607822219725780640550022962086936576 * q5_2 + 39402006196394479212279040100143613805079739270465446667948293404245721771497210611414266254884915640806627990306816 * d_13 = q0_1 + p40 + t1_1 + 18446744073709551616 * p41 + p31 + p22 + 340282366920938463463374607431768211456 * p42 + t1_4 + 18446744073709551616 * p32 + t1_6 + 18446744073709551616 * p23 + 6277101735386680763835789423207666416102355444464034512896 * p43 + p13 + 340282366920938463463374607431768211456 * p33 + p04 + 340282366920938463463374607431768211456 * p24 + 115792089237316195423570985008687907853269984665640564039457584007913129639936 * p44) by lia.
  assert (H49 : d_12 + 18446744073709551616 * q1_9 + 340282366920938463463374607431768211456 * q2_8 + 6277101735386680763835789423207666416102355444464034512896 * q3_6 + 115792089237316195423570985008687907853269984665640564039457584007913129639936 * q4_4 + 2135987035920910082395021706169552114602704522356652769947041607822219725780640550022962086936576 * q5_2 = q0_1 + p40 + t1_1 + 18446744073709551616 * p41 + p31 + p22 + 340282366920938463463374607431768211456 * p42 + t1_4 + 18446744073709551616 * p32 + t1_6 + 18446744073709551616 * p23 + 6277101735386680763835789423207666416102355444464034512896 * p43 + p13 + 340282366920938463463374607431768211456 * p33 + p04 + 340282366920938463463374607431768211456 * p24 + 115792089237316195423570985008687907853269984665640564039457584007913129639936 * p44) by lia.
  clear Hd49 E41 E42 E43 E44 E45 E46 E47 E48 E49 H40.
  smul t1_12 t0_14 p14 E50 R50 Q50 B50.
  sadd q1_10 c_25 E51 R51 C51.
  sadd q2_9 c_26 E52 R52 C52.
  smul t1_13 t0_15 p34 E53 R53 Q53 B53.
  sadd q3_7 c_27 E54 R54 C54.
  sadd q4_5 c_28 E55 R55 C55.
  sadd q5_3 d_14 E56 R56 C56.
  assert (Hd56 : d_12 + 18446744073709551616 * q1_10 + 340282366920938463463374607431768211456 * q2_9 + 6277101735386680763835789423207666416102355444464034512896 * q3_7 + 115792089237316195423570985008687907853269984665640564039457584007913129639936 * q4_5 + 2135987035920910082395021706169552114602704522356652769947041607822219725780640550022962086936576 * q5_3 + 39402006196394479212279040100143613805079739270465446667948293404245721771497210611414266254884915640806627990306816 * d_14 = q0_1 + p40 + t1_1 + 18446744073709551616 * p41 + p31 + p22 + 340282366920938463463374607431768211456 * p42 + t1_4 + 18446744073709551616 * p32 + t1_6 + 18446744073709551616 * p23 + 6277101735386680763835789423207666416102355444464034512896 * p43 + p13 + 340282366920938463463374607431768211456 * p33 + p04 + 340282366920938463463374607431768211456 * p24 + 115792089237316195423570985008687907853269984665640564039457584007913129639936 * p44 + 18446744073709551616 * p14 + 6277101735386680763835789423207666416102355444464034512896 * p34) by lia.
  assert (H56 : d_12 + 18446744073709551616 * q1_10 + 340282366920938463463374607431768211456 * q2_9 + 6277101735386680763835789423207666416102355444464034512896 * q3_7 + 115792089237316195423570985008687907853269984665640564039457584007913129639936 * q4_5 + 2135987035920910082395021706169552114602704522356652769947041607822219725780640550022962086936576 * q5_3 = q0_1 + p40 + t1_1 + 18446744073709551616 * p41 + p31 + p22 + 340282366920938463463374607431768211456 * p42 + t1_4 + 18446744073709551616 * p32 + t1_6 + 18446744073709551616 * p23 + 6277101735386680763835789423207666416102355444464034512896 * p43 + p13 + 340282366920938463463374607431768211456 * p33 + p04 + 340282366920938463463374607431768211456 * p24 + 115792089237316195423570985008687907853269984665640564039457584007913129639936 * p44 + 18446744073709551616 * p14 + 6277101735386680763835789423207666416102355444464034512896 * p34) by lia.
  clear Hd56 E50 E51 E52 E53 E54 E55 E56 H49.
  intros [= <- <- <- <- <-].
  pose proof (mul_bnd x0 mu0 ltac:(assumption) ltac:(assumption)) as M00.
  pose proof (mul_bnd x0 mu1 ltac:(assumption) ltac:(assumption)) as M01.
  pose proof (mul_bnd x0 mu2 ltac:(assumption) ltac:(assumption)) as M02.
  pose proof (mul_bnd x1 mu0 ltac:(assumption) ltac:(assumption)) as M10.
  pose proof (mul_bnd x1 mu1 ltac:(assumption) ltac:(assumption)) as M11.
  pose proof (mul_bnd x2 mu0 ltac:(assumption) ltac:(assumption)) as M20.
  split; [repeat split; lia|].
  exists (6277101735386680763835789423207666416102355444464034512896 * d_1 + 6277101735386680763835789423207666416102355444464034512896 * d_3 + 6277101735386680763835789423207666416102355444464034512896 * d_7 + 6277101735386680763835789423207666416102355444464034512896 * d_9 + (x0 * mu0) + 18446744073709551616 * (x0 * mu1) + 340282366920938463463374607431768211456 * (x0 * mu2) + 18446744073709551616 * (x1 * mu0) + 340282366920938463463374607431768211456 * (x1 * mu1) + 340282366920938463463374607431768211456 * (x2 * mu0) + 115792089237316195423570985008687907853269984665640564039457584007913129639936 * d_12). split; [lia|].
  transitivity (1 * (x0 * mu0) + 18446744073709551616 * (x0 * mu1) + 340282366920938463463374607431768211456 * (x0 * mu2) + 6277101735386680763835789423207666416102355444464034512896 * (x0 * mu3) + 115792089237316195423570985008687907853269984665640564039457584007913129639936 * (x0 * mu4) + 18446744073709551616 * (x1 * mu0) + 340282366920938463463374607431768211456 * (x1 * mu1) + 6277101735386680763835789423207666416102355444464034512896 * (x1 * mu2) + 115792089237316195423570985008687907853269984665640564039457584007913129639936 * (x1 * mu3) + 2135987035920910082395021706169552114602704522356652769947041607822219725780640550022962086936576 * (x1 * mu4) + 340282366920938463463374607431768211456 * (x2 * mu0) + 6277101735386680763835789423207666416102355444464034512896 * (x2 * mu1) + 115792089237316195423570985008687907853269984665640564039457584007913129639936 * (x2 * mu2) + 2135987035920910082395021706169552114602704522356652769947041607822219725780640550022962086936576 * (x2 * mu3) + 39402006196394479212279040100143613805079739270465446667948293404245721771497210611414266254884915640806627990306816 * (x2 * mu4) + 6277101735386680763835789423207666416102355444464034512896 * (x3 * mu0) + 115792089237316195423570985008687907853269984665640564039457584007913129639936 * (x3 * mu1) + 2135987035920910082395021706169552114602704522356652769947041607822219725780640550022962086936576 * (x3 * mu2) + 39402006196394479212279040100143613805079739270465446667948293404245721771497210611414266254884915640806627990306816 * (x3 * mu3) + 726838724295606890549323807888004534353641360687318060281490199180639288113397923326191050713763565560762521606266177933534601628614656 * (x3 * mu4) + 115792089237316195423570985008687907853269984665640564039457584007913129639936 * (x4 * mu0) + 2135987035920910082395021706169552114602704522356652769947041607822219725780640550022962086936576 * (x4 * mu1) + 39402006196394479212279040100143613805079739270465446667948293404245721771497210611414266254884915640806627990306816 * (x4 * mu2) + 726838724295606890549323807888004534353641360687318060281490199180639288113397923326191050713763565560762521606266177933534601628614656 * (x4 * mu3) + 13407807929942597099574024998205846127479365820592393377723561443721764030073546976801874298166903427690031858186486050853753882811946569946433649006084096 * (x4 * mu4)); [ring|].
  unprod. lia.
Qed.

(** mod.go:414-436 *)
Lemma reduce_r2_spec q0 q1 q2 q3 q4 m0 m1 m2 m3 o0 o1 o2 o3 o4 : 0 <= q0 < W -> 0 <= q1 < W -> 0 <= q2 < W -> 0 <= q3 < W -> 0 <= q4 < W -> 0 <= m0 < W -> 0 <= m1 < W -> 0 <= m2 < W -> 0 <= m3 < W ->
  reduce_r2 q0 q1 q2 q3 q4 m0 m1 m2 m3 = (o0, o1, o2, o3, o4) ->
  (0 <= o0 < W /\ 0 <= o1 < W /\ 0 <= o2 < W /\ 0 <= o3 < W /\ 0 <= o4 < W) /\
  exists k, (q0 + 18446744073709551616 * q1 + 340282366920938463463374607431768211456 * q2 + 6277101735386680763835789423207666416102355444464034512896 * q3 + 115792089237316195423570985008687907853269984665640564039457584007913129639936 * q4) * (m0 + 18446744073709551616 * m1 + 340282366920938463463374607431768211456 * m2 + 6277101735386680763835789423207666416102355444464034512896 * m3) =
  o0 + 18446744073709551616 * o1 + 340282366920938463463374607431768211456 * o2 + 6277101735386680763835789423207666416102355444464034512896 * o3 + 115792089237316195423570985008687907853269984665640564039457584007913129639936 * o4 + 2135987035920910082395021706169552114602704522356652769947041607822219725780640550022962086936576 * k.
Proof.
  intros Wq0 Wq1 Wq2 Wq3 Wq4 Wm0 Wm1 Wm2 Wm3. unfold reduce_r2.
  smul r4_1 r3_1 p03 E1 R1 Q1 B1.
  smul d_1 t0_1 p13 E2 R2 Q2 B2.
  sadd r4_2 d_2 E3 R3 C3.
  assert (H3 : 6277101735386680763835789423207666416102355444464034512896 * r3_1 + 115792089237316195423570985008687907853269984665640564039457584007913129639936 * r4_2 + 2135987035920910082395021706169552114602704522356652769947041607822219725780640550022962086936576 * (d_1 + d_2) = 6277101735386680763835789423207666416102355444464034512896 * p03 + 115792089237316195423570985008687907853269984665640564039457584007913129639936 * p13) by lia.
  clear E1 E2 E3.
  smul t1_1 r2_1 p02 E4 R4 Q4 B4.
  sadd r3_2 c_1 E5 R5 C5.
  smul d_3 t0_2 p22 E6 R6 Q6 B6.
  sadd r4_3 d_4 E7 R7 C7.
  assert (H7 : 340282366920938463463374607431768211456 * r2_1 + 6277101735386680763835789423207666416102355444464034512896 * r3_2 + 115792089237316195423570985008687907853269984665640564039457584007913129639936 * r4_3 + 2135987035920910082395021706169552114602704522356652769947041607822219725780640550022962086936576 * (d_1 + d_2 + d_3 + d_4) = 6277101735386680763835789423207666416102355444464034512896 * p03 + 115792089237316195423570985008687907853269984665640564039457584007913129639936 * p13 + 340282366920938463463374607431768211456 * p02 + 115792089237316195423570985008687907853269984665640564039457584007913129639936 * p22) by lia.
  clear E4 E5 E6 E7 H3.
  smul t1_2 t0_3 p12 E8 R8 Q8 B8.
  sadd r3_3 c_2 E9 R9 C9.
  sadd r4_4 d_5 E10 R10 C10.
  assert (H10 : 340282366920938463463374607431768211456 * r2_1 + 6277101735386680763835789423207666416102355444464034512896 * r3_3 + 115792089237316195423570985008687907853269984665640564039457584007913129639936 * r4_4 + 2135987035920910082395021706169552114602704522356652769947041607822219725780640550022962086936576 * (d_1 + d_2 + d_3 + d_4 + d_5) = 6277101735386680763835789423207666416102355444464034512896 * p03 + 115792089237316195423570985008687907853269984665640564039457584007913129639936 * p13 + 340282366920938463463374607431768211456 * p02 + 115792089237316195423570985008687907853269984665640564039457584007913129639936 * p22 + 6277101735386680763835789423207666416102355444464034512896 * p12) by lia.
  clear E8 E9 E10 H7.
  smul t1_3 r1_1 p01 E11 R11 Q11 B11.
  sadd r2_2 c_3 E12 R12 C12.
  smul t1_4 t0_4 p21 E13 R13 Q13 B13.
  sadd r3_4 c_4 E14 R14 C14.
  sadd r4_5 d_6 E15 R15 C15.
  assert (H15 : 18446744073709551616 * r1_1 + 340282366920938463463374607431768211456 * r2_2 + 6277101735386680763835789423207666416102355444464034512896 * r3_4 + 115792089237316195423570985008687907853269984665640564039457584007913129639936 * r4_5 + 2135987035920910082395021706169552114602704522356652769947041607822219725780640550022962086936576 * (d_1 + d_2 + d_3 + d_4 + d_5 + d_6) = 6277101735386680763835789423207666416102355444464034512896 * p03 + 115792089237316195423570985008687907853269984665640564039457584007913129639936 * p13 + 340282366920938463463374607431768211456 * p02 + 115792089237316195423570985008687907853269984665640564039457584007913129639936 * p22 + 6277101735386680763835789423207666416102355444464034512896 * p12 + 18446744073709551616 * p01 + 6277101735386680763835789423207666416102355444464034512896 * p21) by lia.
  clear E11 E12 E13 E14 E15 H10.
  smul t1_5 t0_5 p11 E16 R16 Q16 B16.
  sadd r2_3 c_5 E17 R17 C17.
  sadd r3_5 c_6 E18 R18 C18.
  smul d_7 t0_6 p31 E19 R19 Q19 B19.
  sadd r4_6 d_8 E20 R20 C20.
  assert (H20 : 18446744073709551616 * r1_1 + 340282366920938463463374607431768211456 * r2_3 + 6277101735386680763835789423207666416102355444464034512896 * r3_5 + 115792089237316195423570985008687907853269984665640564039457584007913129639936 * r4_6 + 2135987035920910082395021706169552114602704522356652769947041607822219725780640550022962086936576 * (d_1 + d_2 + d_3 + d_4 + d_5 + d_6 + d_7 + d_8) = 6277101735386680763835789423207666416102355444464034512896 * p03 + 115792089237316195423570985008687907853269984665640564039457584007913129639936 * p13 + 340282366920938463463374607431768211456 * p02 + 115792089237316195423570985008687907853269984665640564039457584007913129639936 * p22 + 6277101735386680763835789423207666416102355444464034512896 * p12 + 18446744073709551616 * p01 + 6277101735386680763835789423207666416102355444464034512896 * p21 + 340282366920938463463374607431768211456 * p11 + 115792089237316195423570985008687907853269984665640564039457584007913129639936 * p31) by lia.
  clear E16 E17 E18 E19 E20 H15.
  smul t1_6 r0_1 p00 E21 R21 Q21 B21.
  sadd r1_2 c_7 E22 R22 C22.
  smul t1_7 t0_7 p20 E23 R23 Q23 B23.
  sadd r2_4 c_8 E24 R24 C24.
  sadd r3_6 c_9 E25 R25 C25.
  smul d_9 t0_8 p40 E26 R26 Q26 B26.
  sadd r4_7 d_10 E27 R27 C27.
  assert (H27 : r0_1 + 18446744073709551616 * r1_2 + 340282366920938463463374607431768211456 * r2_4 + 6277101735386680763835789423207666416102355444464034512896 * r3_6 + 115792089237316195423570985008687907853269984665640564039457584007913129639936 * r4_7 + 2135987035920910082395021706169552114602704522356652769947041607822219725780640550022962086936576 * (d_1 + d_2 + d_3 + d_4 + d_5 + d_6 + d_7 + d_8 + d_9 + d_10) = 6277101735386680763835789423207666416102355444464034512896 * p03 + 115792089237316195423570985008687907853269984665640564039457584007913129639936 * p13 + 340282366920938463463374607431768211456 * p02 + 115792089237316195423570985008687907853269984665640564039457584007913129639936 * p22 + 6277101735386680763835789423207666416102355444464034512896 * p12 + 18446744073709551616 * p01 + 6277101735386680763835789423207666416102355444464034512896 * p21 + 340282366920938463463374607431768211456 * p11 + 115792089237316195423570985008687907853269984665640564039457584007913129639936 * p31 + p00 + 340282366920938463463374607431768211456 * p20 + 115792089237316195423570985008687907853269984665640564039457584007913129639936 * p40) by lia.
  clear E21 E22 E23 E24 E25 E26 E27 H20.
  smul t1_8 t0_9 p10 E28 R28 Q28 B28.
  sadd r1_3 c_10 E29 R29 C29.
  sadd r2_5 c_11 E30 R30 C30.
  smul t1_9 t0_10 p30 E31 R31 Q31 B31.
  sadd r3_7 c_12 E32 R32 C32.
  sadd r4_8 d_11 E33 R33 C33.
  assert (H33 : r0_1 + 18446744073709551616 * r1_3 + 340282366920938463463374607431768211456 * r2_5 + 6277101735386680763835789423207666416102355444464034512896 * r3_7 + 115792089237316195423570985008687907853269984665640564039457584007913129639936 * r4_8 + 2135987035920910082395021706169552114602704522356652769947041607822219725780640550022962086936576 * (d_1 + d_2 + d_3 + d_4 + d_5 + d_6 + d_7 + d_8 + d_9 + d_10 + d_11) = 6277101735386680763835789423207666416102355444464034512896 * p03 + 115792089237316195423570985008687907853269984665640564039457584007913129639936 * p13 + 340282366920938463463374607431768211456 * p02 + 115792089237316195423570985008687907853269984665640564039457584007913129639936 * p22 + 6277101735386680763835789423207666416102355444464034512896 * p12 + 18446744073709551616 * p01 + 6277101735386680763835789423207666416102355444464034512896 * p21 + 340282366920938463463374607431768211456 * p11 + 115792089237316195423570985008687907853269984665640564039457584007913129639936 * p31 + p00 + 340282366920938463463374607431768211456 * p20 + 115792089237316195423570985008687907853269984665640564039457584007913129639936 * p40 + 18446744073709551616 * p10 + 6277101735386680763835789423207666416102355444464034512896 * p30) by lia.
  clear E28 E29 E30 E31 E32 E33 H27.
  intros [= <- <- <- <- <-].
  split; [repeat split; lia|].
  exists (d_1 + d_2 + d_3 + d_4 + d_5 + d_6 + d_7 + d_8 + d_9 + d_10 + d_11 + (q2 * m3) + (q3 * m2) + 18446744073709551616 * (q3 * m3) + (q4 * m1) + 18446744073709551616 * (q4 * m2) + 340282366920938463463374607431768211456 * (q4 * m3)).
  transitivity (1 * (q0 * m0) + 18446744073709551616 * (q0 * m1) + 340282366920938463463374607431768211456 * (q0 * m2) + 6277101735386680763835789423207666416102355444464034512896 * (q0 * m3) + 18446744073709551616 * (q1 * m0) + 340282366920938463463374607431768211456 * (q1 * m1) + 6277101735386680763835789423207666416102355444464034512896 * (q1 * m2) + 115792089237316195423570985008687907853269984665640564039457584007913129639936 * (q1 * m3) + 340282366920938463463374607431768211456 * (q2 * m0) + 6277101735386680763835789423207666416102355444464034512896 * (q2 * m1) + 115792089237316195423570985008687907853269984665640564039457584007913129639936 * (q2 * m2) + 2135987035920910082395021706169552114602704522356652769947041607822219725780640550022962086936576 * (q2 * m3) + 6277101735386680763835789423207666416102355444464034512896 * (q3 * m0) + 115792089237316195423570985008687907853269984665640564039457584007913129639936 * (q3 * m1) + 2135987035920910082395021706169552114602704522356652769947041607822219725780640550022962086936576 * (q3 * m2) + 39402006196394479212279040100143613805079739270465446667948293404245721771497210611414266254884915640806627990306816 * (q3 * m3) + 115792089237316195423570985008687907853269984665640564039457584007913129639936 * (q4 * m0) + 2135987035920910082395021706169552114602704522356652769947041607822219725780640550022962086936576 * (q4 * m1) + 39402006196394479212279040100143613805079739270465446667948293404245721771497210611414266254884915640806627990306816 * (q4 * m2) + 726838724295606890549323807888004534353641360687318060281490199180639288113397923326191050713763565560762521606266177933534601628614656 * (q4 * m3)); [ring|].
  unprod. lia.
Qed.

