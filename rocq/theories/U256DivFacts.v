(** U256DivFacts.v -- correctness of the word-by-word division (Moeller-Granlund 2-by-1 division,
    Knuth's algorithm D with a single qhat correction, normalisation). *)
From Verif Require Import Base U256 BitFacts U256Facts U256Shift U256Bits U256Div.
From Coq Require Import ZifyBool.
Ltac Zify.zify_post_hook ::= Z.div_mod_to_equations.

Lemma modW_eq a b k : a = b + k * W -> a mod W = b mod W.
Proof. intros ->. apply Z_mod_plus_full. Qed.

(** ** 2-by-1 division with a precomputed reciprocal *)
Lemma reciprocal2by1_spec d : W <= 2 * d -> d < W ->
  exists v, reciprocal2by1 d = Ok v /\ is_w v /\ exists k, (v + W) * d + k = W * W /\ 1 <= k <= d.
Proof.
  intros H1 H2. unfold reciprocal2by1, div64, wnot.
  replace ((d =? 0) || (d <=? W - 1 - d)) with false by lia. cbn [bind fst].
  eexists; split; [reflexivity|].
  replace ((W - 1 - d) * W + (W - 1)) with (W * W - 1 - d * W) by lia.
  set (q := (W * W - 1 - d * W) / d).
  assert (Hq : W * W - 1 - d * W = d * q + (W * W - 1 - d * W) mod d) by (apply Z.div_mod; lia).
  assert (Hr : 0 <= (W * W - 1 - d * W) mod d < d) by (apply Z.mod_pos_bound; lia).
  set (r := (W * W - 1 - d * W) mod d) in *. clearbody q r.
  split.
  - unfold is_w. split.
    + destruct (Z.ltb_spec q 0); [|lia]. assert (d * q <= d * (-1)) by (apply Z.mul_le_mono_nonneg_l; lia). lia.
    + destruct (Z.ltb_spec q W); [lia|]. assert (d * W <= d * q) by (apply Z.mul_le_mono_nonneg_l; lia). lia.
  - exists (r + 1). lia.
Qed.

Lemma udivrem2by1_spec uh ul d v k q r : is_w ul -> 0 <= uh < d -> W <= 2 * d -> d < W -> is_w v ->
  (v + W) * d + k = W * W -> 1 <= k <= d -> udivrem2by1 uh ul d v = (q, r) ->
  uh * W + ul = q * d + r /\ 0 <= r < d /\ is_w q.
Proof.
  intros Hul Huh Hd1 Hd2 Hv Hvk Hk. unfold udivrem2by1.
  assert (Huhw : is_w uh) by (unfold is_w in *; lia).
  destruct (mul64 v uh) as [qh0 ql0] eqn:E1. apply mul64_spec in E1; auto. destruct E1 as (E1 & Hql0 & Hqh0).
  destruct (add64 ql0 ul 0) as [ql c] eqn:E2. apply add64_spec in E2; try lia; auto. destruct E2 as (E2 & Hql & Hc).
  destruct (add64 qh0 uh c) as [qh1 c2] eqn:E3. apply add64_spec in E3; try lia; auto.
  2: { unfold is_w in *; lia. }
  destruct E3 as (E3 & Hqh1 & Hc2).
  unfold is_w in *.
  (* the exact value q1*W + q0 = (v+W)*uh + ul fits in two words *)
  assert (Hup : (v + W) * uh + ul < W * W).
  { assert ((v + W) * uh <= (v + W) * (d - 1)) by (apply Z.mul_le_mono_nonneg_l; lia). lia. }
  assert (Hqq : qh1 * W + ql + W * W * c2 = (v + W) * uh + ul) by lia.
  assert (c2 = 0) by lia. subst c2.
  assert (Hqq' : qh1 * W + ql = (v + W) * uh + ul) by lia. clear Hqq E1 E2 E3.
  (* r~ = u - (q1+1) d *)
  set (rt := uh * W + ul - (qh1 + 1) * d).
  assert (Hb : W * rt = uh * k + ul * (W - d) + ql * d - W * d).
  { unfold rt. 
    assert (qh1 * W = (v + W) * uh + ul - ql) by lia.
    replace (W * (uh * W + ul - (qh1 + 1) * d)) with (uh * (W * W) + W * ul - (qh1 * W) * d - W * d) by ring.
    rewrite H, <- Hvk. ring. }
  assert (Hlo1 : ql + 1 - W <= rt).
  { assert (0 <= uh * k) by (apply Z.mul_nonneg_nonneg; lia).
    assert (0 <= ul * (W - d)) by (apply Z.mul_nonneg_nonneg; lia).
    assert ((W - ql) * d <= (W - ql) * (W - 1)) by (apply Z.mul_le_mono_nonneg_l; lia).
    assert (W * rt >= - ((W - ql) * (W - 1))) by lia. lia. }
  assert (Hlo2 : - d <= rt).
  { assert (0 <= uh * k) by (apply Z.mul_nonneg_nonneg; lia).
    assert (0 <= ul * (W - d)) by (apply Z.mul_nonneg_nonneg; lia).
    assert (0 <= ql * d) by (apply Z.mul_nonneg_nonneg; lia). lia. }
  assert (Hhi : rt < W - d \/ rt < ql).
  { assert (uh * k <= (d - 1) * d) by (apply Z.mul_le_mono_nonneg; lia).
    assert (ul * (W - d) <= (W - 1) * (W - d)) by (apply Z.mul_le_mono_nonneg_r; lia).
    assert (W * rt < (W - d) * (W - d) + ql * d) by lia.
    destruct (Z.ltb_spec rt (W - d)); [now left|right].
    destruct (Z.ltb_spec rt ql); [assumption|exfalso].
    assert ((W - d) * (W - d) <= rt * (W - d)) by (apply Z.mul_le_mono_nonneg_r; lia).
    assert (ql * d <= rt * d) by (apply Z.mul_le_mono_nonneg_r; lia). lia. }
  assert (Hq1 : qh1 + 1 <= W) by lia.
  assert (Hrm : wsub ul (wmul (wadd qh1 1) d) = rt mod W).
  { destruct (wadd_eq qh1 1) as [k0 Ek0]. destruct (wmul_eq (wadd qh1 1) d) as [k1 Ek1].
    unfold wsub. rewrite Ek1, Ek0. apply modW_eq with (k := k1 + k0 * d - uh). unfold rt. ring. }
  rewrite Hrm. 
  assert (Hu : uh * W + ul = (qh1 + 1) * d + rt) by (unfold rt; lia).
  assert (Hsgn : rt mod W = if rt <? 0 then rt + W else rt).
  { destruct (rt <? 0) eqn:E; lia. }
  rewrite Hsgn. clearbody rt. clear Hrm Hsgn Hb Hup Hqq' Hvk.
  assert (HqW : uh * W + ul < d * W) by nia.
  destruct (rt <? 0) eqn:Eneg.
  - replace (ql <? rt + W) with true by lia.
    replace (wadd (rt + W) d) with (rt + d) by (unfold wadd; lia).
    replace (wsub (wadd qh1 1) 1) with qh1 by (unfold wsub, wadd; lia).
    replace (d <=? rt + d) with false by lia. intros [= <- <-]. lia.
  - assert (HqW' : qh1 + 1 < W).
    { destruct (Z.eq_dec (qh1 + 1) W) as [e|]; [rewrite e in Hu; lia|lia]. }
    destruct (ql <? rt) eqn:E1.
    + replace (wadd rt d) with (rt + d) by (unfold wadd; lia).
      replace (wsub (wadd qh1 1) 1) with qh1 by (unfold wsub, wadd; lia).
      replace (d <=? rt + d) with true by lia.
      replace (wsub (rt + d) d) with rt by (unfold wsub; lia).
      replace (wadd qh1 1) with (qh1 + 1) by (unfold wadd; lia).
      intros [= <- <-].
      (* then rt < W - d, and rt < d because W <= 2d *)
      lia.
    + replace (wadd qh1 1) with (qh1 + 1) by (unfold wadd; lia).
      destruct (d <=? rt) eqn:E2.
      * replace (wsub rt d) with (rt - d) by (unfold wsub; lia).
        intros [= <- <-].
        assert (qh1 + 2 < W + 1). { destruct (Z.eq_dec (qh1 + 2) W) as [e|]; lia. }
        assert (qh1 + 2 <> W). { intros e. replace (qh1 + 1) with (W - 1) in Hu by lia. lia. }
        replace (wadd (qh1 + 1) 1) with (qh1 + 2) by (unfold wadd; lia). lia.
      * intros [= <- <-]. lia.
Qed.

(** ** Word lists *)
Lemma geti_app {A} (a b : list A) x i : i = length a -> geti (a ++ x :: b) i = Ok x.
Proof.
  intros ->. unfold geti. rewrite nth_error_app2 by lia. rewrite Nat.sub_diag. reflexivity.
Qed.
Lemma seti_app {A} (a b : list A) x v i : i = length a -> seti (a ++ x :: b) i v = Ok (a ++ v :: b).
Proof.
  intros ->. induction a as [|y a IH]; cbn [app length seti]; [reflexivity|]. now rewrite IH.
Qed.
Lemma seti_panic {A} (l : list A) i v : (length l <= i)%nat -> seti l i v = Panic.
Proof.
  revert i; induction l as [|y l IH]; intros i Hi; cbn [seti length] in *; [reflexivity|].
  destruct i; [lia|]. now rewrite IH by lia.
Qed.
Lemma geti_panic {A} (l : list A) i : (length l <= i)%nat -> geti l i = Panic.
Proof. intros H. unfold geti. apply nth_error_None in H. now rewrite H. Qed.

Lemma Wpow_pos n : 0 < W ^ Z.of_nat n.
Proof. apply Z.pow_pos_nonneg; lia. Qed.
Lemma Wpow_S n : W ^ Z.of_nat (S n) = W * W ^ Z.of_nat n.
Proof. rewrite Nat2Z.inj_succ, Z.pow_succ_r by lia. reflexivity. Qed.
Lemma Wpow_add n m : W ^ Z.of_nat (n + m) = W ^ Z.of_nat n * W ^ Z.of_nat m.
Proof. rewrite Nat2Z.inj_add, Z.pow_add_r by lia. reflexivity. Qed.

Lemma lval_app a b : lval (a ++ b) = lval a + W ^ Z.of_nat (length a) * lval b.
Proof.
  induction a as [|x a IH].
  - change (length (@nil Z)) with O. change (Z.of_nat 0) with 0. rewrite Z.pow_0_r. cbn [app lval]. lia.
  - cbn [app lval length]. rewrite IH, Wpow_S. ring.
Qed.
Lemma lval_range l : Forall is_w l -> 0 <= lval l < W ^ Z.of_nat (length l).
Proof.
  induction 1 as [|x l Hx Hl IH].
  - cbn. lia.
  - cbn [lval length]. rewrite Wpow_S. unfold is_w in *. lia.
Qed.
Lemma lval_zeros n : lval (repeat 0 n) = 0.
Proof. induction n; cbn [repeat lval]; lia. Qed.

Lemma addTo_loop_spec y : forall xa xb c, length xa = length y -> Forall is_w xa -> Forall is_w y -> 0 <= c <= 1 ->
  exists xa' c', addTo_loop (xa ++ xb) y c = Ok (xa' ++ xb, c') /\ length xa' = length y /\ Forall is_w xa' /\
    lval xa + lval y + c = lval xa' + W ^ Z.of_nat (length y) * c' /\ 0 <= c' <= 1.
Proof.
  induction y as [|yi y IH]; intros xa xb c Hlen Hxa Hy Hc.
  { destruct xa; [|discriminate]. exists [], c. cbn [app addTo_loop lval length].
    change (Z.of_nat 0) with 0. rewrite Z.pow_0_r. repeat split; auto; lia. }
  destruct xa as [|xi xa]; [discriminate|]. cbn [app addTo_loop].
  inversion Hxa; subst. inversion Hy; subst.
  destruct (add64 xi yi c) as [s c1] eqn:E. apply add64_spec in E; auto. destruct E as (E & Hs & Hc1).
  destruct (IH xa xb c1) as (xa' & c' & E' & Hl & Hf & Hv & Hc'); auto.
  rewrite E'. cbn [bind fst snd]. exists (s :: xa'), c'. cbn [app length lval]. rewrite Wpow_S.
  repeat split; auto; try lia.
Qed.

Lemma subMulTo_loop_spec y : forall xa xb m b, length xa = length y -> Forall is_w xa -> Forall is_w y ->
  is_w m -> is_w b ->
  exists xa' b', subMulTo_loop (xa ++ xb) y m b = Ok (xa' ++ xb, b') /\ length xa' = length y /\ Forall is_w xa' /\
    lval xa - lval y * m - b = lval xa' - W ^ Z.of_nat (length y) * b' /\ is_w b'.
Proof.
  induction y as [|yi y IH]; intros xa xb m b Hlen Hxa Hy Hm Hb.
  { destruct xa; [|discriminate]. exists [], b. cbn [app subMulTo_loop lval length].
    change (Z.of_nat 0) with 0. rewrite Z.pow_0_r. repeat split; auto; unfold is_w in *; lia. }
  destruct xa as [|xi xa]; [discriminate|]. cbn [app subMulTo_loop].
  inversion Hxa; subst. inversion Hy; subst.
  destruct (sub64 xi b 0) as [s c1] eqn:E1. apply sub64_spec in E1; auto; try lia. destruct E1 as (E1 & Hs & Hc1).
  destruct (mul64 yi m) as [ph pl] eqn:E2. apply mul64_spec in E2; auto. destruct E2 as (E2 & Hpl & Hph).
  destruct (sub64 s pl 0) as [t c2] eqn:E3. apply sub64_spec in E3; auto; try lia. destruct E3 as (E3 & Ht & Hc2).
  assert (Hym : 0 <= yi * m <= (W - 1) * (W - 1)) by (unfold is_w in *; nia).
  assert (Hsum : 0 <= ph + c1 + c2 < W) by (unfold is_w in *; lia).
  replace (wadd (wadd ph c1) c2) with (ph + c1 + c2) by (unfold wadd; unfold is_w in *; lia).
  destruct (IH xa xb m (ph + c1 + c2)) as (xa' & b' & E' & Hl & Hf & Hv & Hb'); auto.
  rewrite E'. cbn [bind fst snd]. exists (t :: xa'), b'. cbn [app length lval]. rewrite Wpow_S.
  repeat split; auto; try (unfold is_w in *; lia).
Qed.

(** ** One digit of Knuth's algorithm *)
Lemma qhat_bounds dh dl dr u2 u1 u0 ur B U D q :
  0 < B -> W <= 2 * dh -> dh < W -> is_w dl -> 0 <= dr < B ->
  is_w u2 -> is_w u1 -> is_w u0 -> 0 <= ur < B ->
  D = (dh * W + dl) * B + dr -> U = (u2 * (W * W) + u1 * W + u0) * B + ur ->
  0 <= U < W * D -> q = U / D ->
  forall qhat,
  (dh <= u2 -> qhat = W - 1) ->
  (u2 < dh -> exists q0 r0, u2 * W + u1 = q0 * dh + r0 /\ 0 <= r0 < dh /\ is_w q0 /\
     qhat = if (r0 * W + u0 <? q0 * dl) then q0 - 1 else q0) ->
  q <= qhat <= q + 1 /\ is_w qhat /\ is_w q.
Proof.
  intros HB Hdh1 Hdh2 Hdl Hdr Hu2 Hu1 Hu0 Hur HD HU HUD Hq qhat Hc1 Hc2. unfold is_w in *.
  assert (HWB : 0 < W * B) by lia.
  assert (HDlow : dh * (W * B) <= D) by (rewrite HD; assert (0 <= dl * B) by (apply Z.mul_nonneg_nonneg; lia); lia).
  assert (HDpos : 0 < D) by (assert (0 < dh * (W * B)) by (apply Z.mul_pos_pos; lia); lia).
  assert (HdlB : dl * B + dr <= W * B - 1).
  { assert (dl * B <= (W - 1) * B) by (apply Z.mul_le_mono_nonneg_r; lia). lia. }
  assert (Hqs : U = D * q + U mod D) by (rewrite Hq; apply Z.div_mod; lia).
  assert (Hqr : 0 <= U mod D < D) by (apply Z.mod_pos_bound; lia).
  assert (Hq0 : 0 <= q) by (rewrite Hq; apply Z.div_pos; lia).
  assert (HqW : q < W) by (rewrite Hq; apply Z.div_lt_upper_bound; lia).
  (* it suffices to bound qhat*D *)
  assert (Hup : (qhat - 1) * D <= U -> qhat <= q + 1).
  { intros H. assert (qhat - 1 <= q); [|lia]. rewrite Hq. apply Z.div_le_lower_bound; lia. }
  assert (Hlow : forall z, U < (z + 1) * D -> q <= z).
  { intros z H. assert (q < z + 1); [|lia]. rewrite Hq. apply Z.div_lt_upper_bound; lia. }
  destruct (Z.ltb_spec u2 dh) as [Hlt|Hge].
  - destruct (Hc2 Hlt) as (q0 & r0 & Hqr0 & Hr0 & Hq0w & Eq). clear Hc1 Hc2.
    assert (HqD : U < (q0 + 1) * D).
    { assert ((q0 + 1) * (dh * (W * B)) <= (q0 + 1) * D) by (apply Z.mul_le_mono_nonneg_l; lia).
      assert ((u2 * W + u1 + 1) * (W * B) <= (q0 + 1) * dh * (W * B)) by (apply Z.mul_le_mono_nonneg_r; lia).
      assert (u0 * B <= (W - 1) * B) by (apply Z.mul_le_mono_nonneg_r; lia). lia. }
    assert (Hq0D : q0 * D = q0 * (dh * W + dl) * B + q0 * dr) by (rewrite HD; ring).
    destruct (r0 * W + u0 <? q0 * dl) eqn:Et; subst qhat.
    + assert (Htop : u2 * (W * W) + u1 * W + u0 + 1 <= q0 * (dh * W + dl)) by lia.
      assert (HU2 : U < q0 * D).
      { assert ((u2 * (W * W) + u1 * W + u0 + 1) * B <= q0 * (dh * W + dl) * B) by (apply Z.mul_le_mono_nonneg_r; lia).
        assert (0 <= q0 * dr) by (apply Z.mul_nonneg_nonneg; lia). lia. }
      assert (1 <= q0). { destruct (Z.ltb_spec q0 1); [|lia]. assert (q0 = 0) by lia. subst q0. lia. }
      assert (q <= q0 - 1) by (apply Hlow; replace (q0 - 1 + 1) with q0 by lia; assumption).
      assert (Hupper : (q0 - 1 - 1) * D <= U).
      { assert (q0 * dh * (W * B) <= (u2 * W + u1) * (W * B)) by (apply Z.mul_le_mono_nonneg_r; lia).
        assert (0 <= dl * B) by (apply Z.mul_nonneg_nonneg; lia).
        assert (q0 * (dl * B + dr) <= W * (W * B)) by (apply Z.mul_le_mono_nonneg; lia).
        assert (W * (W * B) <= 2 * dh * (W * B)) by (apply Z.mul_le_mono_nonneg_r; lia).
        assert (0 <= u0 * B) by (apply Z.mul_nonneg_nonneg; lia).
        rewrite HD in HDlow. lia. }
      specialize (Hup Hupper). lia.
    + assert (q <= q0) by (apply Hlow; assumption).
      assert (Hupper : (q0 - 1) * D <= U).
      { assert (q0 * (dh * W + dl) * B <= (u2 * (W * W) + u1 * W + u0) * B) by (apply Z.mul_le_mono_nonneg_r; lia).
        assert (q0 * dr <= W * B) by (apply Z.mul_le_mono_nonneg; lia).
        assert (1 * (W * B) <= dh * (W * B)) by (apply Z.mul_le_mono_nonneg_r; lia). lia. }
      specialize (Hup Hupper). lia.
  - assert (qhat = W - 1) by (apply Hc1; lia). subst qhat.
    assert (Hupper : (W - 1 - 1) * D <= U).
    { assert (D <= (dh + 1) * (W * B)) by (rewrite HD; lia).
      assert ((W - 2) * D <= (W - 2) * ((dh + 1) * (W * B))) by (apply Z.mul_le_mono_nonneg_l; lia).
      assert ((W - 2) * (dh + 1) * (W * B) <= dh * W * (W * B)) by (apply Z.mul_le_mono_nonneg_r; lia).
      assert (dh * (W * (W * B)) <= u2 * (W * (W * B))) by (apply Z.mul_le_mono_nonneg_r; lia).
      assert (0 <= u1 * (W * B)) by (apply Z.mul_nonneg_nonneg; lia).
      assert (0 <= u0 * B) by (apply Z.mul_nonneg_nonneg; lia). lia. }
    specialize (Hup Hupper). lia.
Qed.

Lemma Forall_split {A} (P : A -> Prop) a b : Forall P (a ++ b) <-> Forall P a /\ Forall P b.
Proof. apply Forall_app. Qed.

Lemma knuth_step_spec dr dl dh v k lo ur u0 u1 u2 hi quot :
  let d := dr ++ [dl; dh] in
  let win := ur ++ [u0; u1; u2] in
  let j := length lo in
  Forall is_w d -> W <= 2 * dh -> is_w v -> (v + W) * dh + k = W * W -> 1 <= k <= dh ->
  length ur = length dr -> Forall is_w win -> lval win < W * lval d ->
  exists q rem, lval win = q * lval d + lval rem /\ 0 <= lval rem < lval d /\ is_w q /\
    length rem = length d /\ Forall is_w rem /\
    knuth_step j quot (lo ++ win ++ hi) d dh dl v =
      (do quot' <- seti quot j q; Ok (quot', lo ++ rem ++ 0 :: hi)).
Proof.
  intros d win j Hd Hdh Hv Hvk Hk Hlen Hwin HUD.
  assert (Hn : length d = S (S (length dr))) by (unfold d; rewrite app_length; cbn; lia).
  unfold knuth_step. rewrite Hn.
  apply Forall_app in Hd as Hd'. destruct Hd' as [Hdr Hd2].
  inversion Hd2 as [|? ? Hdl Hd3]; subst. inversion Hd3 as [|? ? Hdhw _]; subst. clear Hd2 Hd3.
  apply Forall_app in Hwin as Hw'. destruct Hw' as [Hur Hw2].
  inversion Hw2 as [|? ? Hu0 Hw3]; subst. inversion Hw3 as [|? ? Hu1 Hw4]; subst.
  inversion Hw4 as [|? ? Hu2 _]; subst. clear Hw2 Hw3 Hw4.
  (* reads *)
  assert (G2 : geti (lo ++ win ++ hi) (j + S (S (length dr))) = Ok u2).
  { unfold win. replace (lo ++ (ur ++ [u0; u1; u2]) ++ hi) with ((lo ++ ur ++ [u0; u1]) ++ u2 :: hi)
      by (rewrite <- !app_assoc; reflexivity).
    apply geti_app. rewrite !app_length. cbn [length]. unfold j. lia. }
  assert (G1 : geti (lo ++ win ++ hi) (j + S (S (length dr)) - 1) = Ok u1).
  { unfold win. replace (lo ++ (ur ++ [u0; u1; u2]) ++ hi) with ((lo ++ ur ++ [u0]) ++ u1 :: u2 :: hi)
      by (rewrite <- !app_assoc; reflexivity).
    apply geti_app. rewrite !app_length. cbn [length]. unfold j. lia. }
  assert (G0 : geti (lo ++ win ++ hi) (j + S (S (length dr)) - 2) = Ok u0).
  { unfold win. replace (lo ++ (ur ++ [u0; u1; u2]) ++ hi) with ((lo ++ ur) ++ u0 :: u1 :: u2 :: hi)
      by (rewrite <- !app_assoc; reflexivity).
    apply geti_app. rewrite !app_length. cbn [length]. unfold j. lia. }
  rewrite G2, G1, G0. cbn [bind].
  (* qhat *)
  set (B := W ^ Z.of_nat (length dr)).
  assert (HB : 0 < B) by apply Wpow_pos.
  assert (EvD : lval d = (dh * W + dl) * B + lval dr).
  { unfold d. rewrite lval_app. cbn [lval]. fold B. ring. }
  assert (EvU : lval win = (u2 * (W * W) + u1 * W + u0) * B + lval ur).
  { unfold win. rewrite lval_app. cbn [lval]. rewrite Hlen. fold B. ring. }
  assert (Hdrr : 0 <= lval dr < B) by (apply lval_range; assumption).
  assert (Hurr : 0 <= lval ur < B) by (unfold B; rewrite <- Hlen; apply lval_range; assumption).
  assert (Hwr : 0 <= lval win) by (apply lval_range; assumption).
  match goal with |- context [subMulTo _ _ ?Q] => set (qhat := Q) end.
  assert (Hqh : let q := lval win / lval d in q <= qhat <= q + 1 /\ is_w qhat /\ is_w q).
  { cbv zeta.
    eapply (qhat_bounds dh dl (lval dr) u2 u1 u0 (lval ur) B (lval win) (lval d)); eauto.
    - unfold is_w in *; lia.
    - intros H. unfold qhat. replace (dh <=? u2) with true by lia. reflexivity.
    - intros H. unfold qhat. replace (dh <=? u2) with false by lia.
      destruct (udivrem2by1 u2 u1 dh v) as [q0 r0] eqn:Eq0.
      apply (udivrem2by1_spec u2 u1 dh v k) in Eq0; auto; try (unfold is_w in *; lia).
      destruct Eq0 as (E1 & E2 & E3). exists q0, r0. split; [assumption|]. split; [assumption|]. split; [assumption|].
      destruct (mul64 q0 dl) as [ph pl] eqn:Em. apply mul64_spec in Em; auto. destruct Em as (Em & Hpl & Hph).
      replace ((r0 <? ph) || (ph =? r0) && (u0 <? pl)) with (r0 * W + u0 <? q0 * dl) by (unfold is_w in *; lia).
      destruct (r0 * W + u0 <? q0 * dl) eqn:Ec; [|reflexivity].
      assert (q0 <> 0) by (intros ->; unfold is_w in *; lia).
      unfold wsub. unfold is_w in *. lia. }
  cbv zeta in Hqh. destruct Hqh as (Hqb & Hqhw & Hqw).
  clearbody qhat. clear G0 G1 G2.
  set (q := lval win / lval d) in *.
  assert (HDpos : 0 < lval d).
  { rewrite EvD. assert (0 < (dh * W + dl) * B) by (apply Z.mul_pos_pos; unfold is_w in *; lia). lia. }
  assert (Hdm : lval win = q * lval d + lval win mod lval d) by (rewrite (Z.mul_comm q); apply Z.div_mod; lia).
  assert (Hrr : 0 <= lval win mod lval d < lval d) by (apply Z.mod_pos_bound; lia).
  assert (HDn : lval d < W ^ Z.of_nat (length d)) by (apply lval_range; assumption).
  set (Bn := W ^ Z.of_nat (length d)) in *.
  (* multiply and subtract *)
  set (wl := ur ++ [u0; u1]).
  assert (Hwl : length wl = length d) by (unfold wl; rewrite app_length, Hn; cbn; lia).
  assert (Fwl : Forall is_w wl) by (unfold wl; apply Forall_app; auto).
  assert (Evw : lval win = lval wl + Bn * u2).
  { unfold win, wl. replace (ur ++ [u0; u1; u2]) with ((ur ++ [u0; u1]) ++ [u2]) by (rewrite <- app_assoc; reflexivity).
    rewrite (lval_app (ur ++ [u0; u1]) [u2]). fold wl. rewrite Hwl. fold Bn. cbn [lval]. lia. }
  assert (Ewin : win ++ hi = wl ++ u2 :: hi).
  { unfold win, wl. rewrite <- !app_assoc. reflexivity. }
  rewrite Ewin.
  assert (Esk : forall l, skipn j (lo ++ l) = l).
  { intros l. unfold j. rewrite skipn_app, skipn_all, Nat.sub_diag. reflexivity. }
  assert (Efi : forall l, firstn j (lo ++ l) = lo).
  { intros l. unfold j. rewrite firstn_app, firstn_all, Nat.sub_diag. cbn. apply app_nil_r. }
  rewrite Esk, Efi. unfold subMulTo.
  destruct (subMulTo_loop_spec d wl (u2 :: hi) qhat 0 Hwl Fwl Hd Hqhw is_w_0)
    as (x & borrow & Esub & Hlx & Fx & Evx & Hbw).
  rewrite Esub. cbn [bind]. fold Bn in Evx.
  assert (Hj : (j + S (S (length dr)))%nat = length (lo ++ x)) by (rewrite app_length, Hlx, Hn; reflexivity).
  rewrite app_assoc, seti_app by exact Hj. cbn [bind]. rewrite <- app_assoc.
  assert (Hxr : 0 <= lval x < Bn) by (unfold Bn; rewrite <- Hlx; apply lval_range; assumption).
  assert (Hqc : qhat = q \/ qhat = q + 1) by lia.
  exists q.
  destruct Hqc as [Hqc|Hqc].
  - (* qhat is exact: no borrow *)
    assert (Hz : lval x + Bn * (u2 - borrow) = lval win mod lval d) by (rewrite Hqc in Evx; lia).
    assert (Hub : u2 = borrow).
    { destruct (Z.ltb_spec u2 borrow).
      - assert (Bn * (u2 - borrow) <= Bn * (-1)) by (apply Z.mul_le_mono_nonneg_l; lia). lia.
      - destruct (Z.ltb_spec borrow u2); [|lia].
        assert (Bn * 1 <= Bn * (u2 - borrow)) by (apply Z.mul_le_mono_nonneg_l; lia). lia. }
    exists x. rewrite Hub in *. replace (borrow <? borrow) with false by lia. cbn [bind].
    replace (wsub borrow borrow) with 0 by (unfold wsub; rewrite Z.sub_diag; reflexivity).
    rewrite Hqc. clearbody q. repeat split; auto; unfold is_w in *; try lia.
  - (* qhat one too large: add back *)
    assert (Hz : lval x + Bn * (u2 - borrow) + lval d = lval win mod lval d) by (rewrite Hqc in Evx; lia).
    assert (Hub : borrow = u2 + 1).
    { destruct (Z.ltb_spec (u2 - borrow) (-1)).
      - assert (Bn * (u2 - borrow) <= Bn * (-2)) by (apply Z.mul_le_mono_nonneg_l; lia). lia.
      - destruct (Z.ltb_spec (-1) (u2 - borrow)); [|lia].
        assert (Bn * 0 <= Bn * (u2 - borrow)) by (apply Z.mul_le_mono_nonneg_l; lia). lia. }
    replace (u2 <? borrow) with true by lia. rewrite Esk, Efi. unfold addTo.
    destruct (addTo_loop_spec d x (wsub u2 borrow :: hi) 0) as (y & c & Eadd & Hly & Fy & Evy & Hc); auto; try lia.
    rewrite Eadd. cbn [bind]. fold Bn in Evy.
    assert (Hj' : (j + S (S (length dr)))%nat = length (lo ++ y)) by (rewrite app_length, Hly, Hn; reflexivity).
    rewrite !(app_assoc lo y). rewrite geti_app by exact Hj'. cbn [bind].
    rewrite seti_app by exact Hj'. cbn [bind]. rewrite <- app_assoc.
    assert (Hyr : 0 <= lval y < Bn) by (unfold Bn; rewrite <- Hly; apply lval_range; assumption).
    assert (Hc1 : c = 1).
    { rewrite Hub in Hz. assert (lval y + Bn * (c - 1) = lval win mod lval d) by lia.
      destruct (Z.eq_dec c 0) as [e|]; [|lia]. rewrite e in *. lia. }
    exists y. rewrite Hub, Hc1 in *. 
    replace (wadd (wsub u2 (u2 + 1)) 1) with 0.
    2: { unfold wadd, wsub. replace (u2 - (u2 + 1)) with (-1) by lia. reflexivity. }
    replace (wsub qhat 1) with q by (unfold wsub; unfold is_w in *; lia).
    clearbody q. repeat split; auto; unfold is_w in *; try lia.
Qed.
