(** U256Udivrem.v -- the division loops and Udivrem: exact quotient and remainder, or a panic, and
    exactly when. *)
From Verif Require Import Base U256 BitFacts U256Facts U256Shift U256Bits U256Div U256DivFacts.
From Coq Require Import ZifyBool.
Ltac Zify.zify_post_hook ::= Z.div_mod_to_equations.

Lemma split3 {A} m (l : list A) : length l = S (S (S m)) ->
  exists ur u0 u1 u2, l = ur ++ [u0; u1; u2] /\ length ur = m.
Proof.
  revert l; induction m as [|m IH]; intros l H.
  - destruct l as [|a [|b [|c [|]]]]; try discriminate. exists [], a, b, c. auto.
  - destruct l as [|x l]; [discriminate|]. destruct (IH l) as (ur & u0 & u1 & u2 & -> & Hl); [cbn in H; lia|].
    exists (x :: ur), u0, u1, u2. split; [reflexivity|cbn; lia].
Qed.

Lemma knuth_loop_spec dr dl dh v kk :
  let d := dr ++ [dl; dh] in
  Forall is_w d -> W <= 2 * dh -> is_w v -> (v + W) * dh + kk = W * W -> 1 <= kk <= dh ->
  forall k lo R hi qa qb, length lo = k -> Forall is_w lo -> length R = length d -> Forall is_w R ->
    lval R < lval d -> length qa = k ->
    exists Qs Rf hi', knuth_loop k (qa ++ qb) (lo ++ R ++ hi) d dh dl v = Ok (Qs ++ qb, Rf ++ hi') /\
      length Qs = k /\ Forall is_w Qs /\ length Rf = length d /\ Forall is_w Rf /\
      lval lo + W ^ Z.of_nat k * lval R = lval d * lval Qs + lval Rf /\ 0 <= lval Rf < lval d.
Proof.
  intros d Hd Hdh Hv Hvk Hk. induction k as [|k IH]; intros lo R hi qa qb Hlo Flo HR FR HRD Hqa.
  { destruct lo; [|discriminate]. destruct qa; [|discriminate]. cbn [knuth_loop app].
    exists [], R, hi. cbn [lval app length]. change (Z.of_nat 0) with 0. rewrite Z.pow_0_r.
    pose proof (lval_range R FR). repeat split; auto; lia. }
  destruct (exists_last (l := lo)) as (lo' & a & ->); [intros ->; discriminate|].
  rewrite app_length in Hlo; cbn [length] in Hlo.
  apply Forall_app in Flo as [Flo' Fa]. inversion Fa as [|? ? Ha _]; subst.
  assert (Hlo' : length lo' = k) by lia.
  destruct (exists_last (l := qa)) as (qa' & a' & ->); [intros ->; discriminate|].
  rewrite app_length in Hqa; cbn [length] in Hqa. assert (Hqa' : length qa' = k) by lia.
  destruct (split3 (length dr) (a :: R)) as (ur & u0 & u1 & u2 & Ew & Hur).
  { cbn [length]. rewrite HR. unfold d. rewrite app_length. cbn; lia. }
  assert (Fw : Forall is_w (a :: R)) by (constructor; auto).
  assert (Hwd : lval (a :: R) < W * lval d) by (cbn [lval]; unfold is_w in *; lia).
  rewrite Ew in Fw, Hwd.
  destruct (knuth_step_spec dr dl dh v kk lo' ur u0 u1 u2 hi ((qa' ++ [a']) ++ qb) Hd Hdh Hv Hvk Hk Hur Fw Hwd)
    as (q & rem & Edm & Hrem & Hqw & Hlr & Frem & Estep).
  fold d in Edm, Hrem, Hlr, Estep.
  cbn [knuth_loop].
  replace ((lo' ++ [a]) ++ R ++ hi) with (lo' ++ (ur ++ [u0; u1; u2]) ++ hi).
  2: { rewrite <- Ew. rewrite <- !app_assoc. reflexivity. }
  rewrite Hlo' in Estep. rewrite Estep.
  rewrite <- (app_assoc qa' [a'] qb). cbn [app]. rewrite seti_app by auto. cbn [bind fst snd].
  destruct (IH lo' rem (0 :: hi) qa' (q :: qb)) as (Qs & Rf & hi' & E & H1 & H2 & H3 & H4 & H5 & H6); auto; try lia.
  rewrite E.
  exists (Qs ++ [q]), Rf, hi'. split; [rewrite <- app_assoc; reflexivity|].
  split; [rewrite app_length; cbn; lia|]. split; [apply Forall_app; auto|].
  split; [assumption|]. split; [assumption|]. split; [|assumption].
  rewrite !lval_app. cbn [lval]. rewrite Hlo', H1, Wpow_S.
  rewrite <- Ew in Edm. cbn [lval] in Edm.
  set (P := W ^ Z.of_nat k) in *.
  replace (lval lo' + P * (a + W * 0) + W * P * lval R) with (lval lo' + P * (a + W * lval R)) by ring.
  rewrite Edm. 
  replace (lval lo' + P * (q * lval d + lval rem)) with (lval lo' + P * lval rem + P * q * lval d) by ring.
  rewrite H5. ring.
Qed.

Lemma knuth_loop_panic dr dl dh v kk :
  let d := dr ++ [dl; dh] in
  Forall is_w d -> W <= 2 * dh -> is_w v -> (v + W) * dh + kk = W * W -> 1 <= kk <= dh ->
  forall k lo R hi quot, length lo = k -> Forall is_w lo -> length R = length d -> Forall is_w R ->
    lval R < lval d -> (length quot < k)%nat ->
    knuth_loop k quot (lo ++ R ++ hi) d dh dl v = Panic.
Proof.
  intros d Hd Hdh Hv Hvk Hk [|k] lo R hi quot Hlo Flo HR FR HRD Hq; [lia|].
  destruct (exists_last (l := lo)) as (lo' & a & ->); [intros ->; discriminate|].
  rewrite app_length in Hlo; cbn [length] in Hlo.
  apply Forall_app in Flo as [Flo' Fa]. inversion Fa as [|? ? Ha _]; subst.
  assert (Hlo' : length lo' = k) by lia.
  destruct (split3 (length dr) (a :: R)) as (ur & u0 & u1 & u2 & Ew & Hur).
  { cbn [length]. rewrite HR. unfold d. rewrite app_length. cbn; lia. }
  assert (Fw : Forall is_w (a :: R)) by (constructor; auto).
  assert (Hwd : lval (a :: R) < W * lval d) by (cbn [lval]; unfold is_w in *; lia).
  rewrite Ew in Fw, Hwd.
  destruct (knuth_step_spec dr dl dh v kk lo' ur u0 u1 u2 hi quot Hd Hdh Hv Hvk Hk Hur Fw Hwd)
    as (q & rem & Edm & Hrem & Hqw & Hlr & Frem & Estep).
  fold d in Estep. cbn [knuth_loop].
  replace ((lo' ++ [a]) ++ R ++ hi) with (lo' ++ (ur ++ [u0; u1; u2]) ++ hi).
  2: { rewrite <- Ew. rewrite <- !app_assoc. reflexivity. }
  rewrite Hlo' in Estep. rewrite Estep. rewrite seti_panic by lia. reflexivity.
Qed.

Lemma by1_loop_spec d v kk : W <= 2 * d -> d < W -> is_w v -> (v + W) * d + kk = W * W -> 1 <= kk <= d ->
  forall k lo hi qa qb rem, length lo = k -> Forall is_w lo -> 0 <= rem < d -> length qa = k ->
  exists Qs r, by1_loop k (qa ++ qb) (lo ++ hi) d v rem = Ok (Qs ++ qb, r) /\
    length Qs = k /\ Forall is_w Qs /\ lval lo + W ^ Z.of_nat k * rem = d * lval Qs + r /\ 0 <= r < d.
Proof.
  intros H1 H2 Hv Hvk Hk. induction k as [|k IH]; intros lo hi qa qb rem Hlo Flo Hrem Hqa.
  { destruct lo; [|discriminate]. destruct qa; [|discriminate]. cbn [by1_loop app].
    exists [], rem. cbn [lval app length]. change (Z.of_nat 0) with 0. rewrite Z.pow_0_r.
    repeat split; auto; lia. }
  destruct (exists_last (l := lo)) as (lo' & a & ->); [intros ->; discriminate|].
  rewrite app_length in Hlo; cbn [length] in Hlo.
  apply Forall_app in Flo as [Flo' Fa]. inversion Fa as [|? ? Ha _]; subst.
  assert (Hlo' : length lo' = k) by lia.
  destruct (exists_last (l := qa)) as (qa' & a' & ->); [intros ->; discriminate|].
  rewrite app_length in Hqa; cbn [length] in Hqa. assert (Hqa' : length qa' = k) by lia.
  cbn [by1_loop]. rewrite <- (app_assoc lo' [a] hi). cbn [app]. rewrite geti_app by auto. cbn [bind].
  destruct (udivrem2by1 rem a d v) as [q r1] eqn:Eq.
  apply (udivrem2by1_spec rem a d v kk) in Eq; auto. destruct Eq as (E1 & E2 & E3).
  rewrite <- (app_assoc qa' [a'] qb). cbn [app]. rewrite seti_app by auto. cbn [bind].
  destruct (IH lo' (a :: hi) qa' (q :: qb) r1) as (Qs & r & E & HQ & FQ & Hval & Hr); auto.
  rewrite E. exists (Qs ++ [q]), r. split; [rewrite <- app_assoc; reflexivity|].
  split; [rewrite app_length; cbn; lia|]. split; [apply Forall_app; auto|]. split; [|assumption].
  rewrite !lval_app. cbn [lval]. rewrite Hlo', HQ, Wpow_S. set (P := W ^ Z.of_nat k) in *.
  replace (lval lo' + P * (a + W * 0) + W * P * rem) with (lval lo' + P * (rem * W + a)) by ring.
  rewrite E1. replace (lval lo' + P * (q * d + r1)) with (lval lo' + P * r1 + P * q * d) by ring.
  rewrite Hval. ring.
Qed.

Lemma by1_loop_panic d v k : forall lo hi quot rem, length lo = k -> (length quot < k)%nat ->
  by1_loop k quot (lo ++ hi) d v rem = Panic.
Proof.
  destruct k as [|k]; intros lo hi quot rem Hlo Hq; [lia|].
  destruct (exists_last (l := lo)) as (lo' & a & ->); [intros ->; discriminate|].
  rewrite app_length in Hlo; cbn [length] in Hlo.
  cbn [by1_loop]. rewrite <- (app_assoc lo' [a] hi). cbn [app]. rewrite geti_app by lia. cbn [bind].
  destruct (udivrem2by1 rem a d v) as [q r1]. rewrite seti_panic by lia. reflexivity.
Qed.

(** ** Normalisation shifts *)
Lemma lsh_word0 z n : 0 <= n < 64 -> is_w z ->
  exists hi a, wshl z n = a /\ wshr z (64 - n) = hi /\ z * 2 ^ n = W * hi + a /\
    0 <= a <= W - 2 ^ n /\ 0 <= hi < 2 ^ n /\
    (forall h, 0 <= h < 2 ^ n -> Z.lor a h = a + h).
Proof.
  intros Hn Hz. destruct (Z.eq_dec n 0) as [->|]; [|apply lsh_word; [lia|assumption]].
  exists 0, z. unfold wshl, wshr. rewrite Z.shiftl_0_r, Z.sub_0_r, Z.shiftr_div_pow2 by lia.
  rewrite <- W_pow. change (2 ^ 0) with 1. unfold is_w in *.
  repeat split; try lia. intros h Hh. replace h with 0 by lia. rewrite Z.lor_0_r. lia.
Qed.
Lemma rsh_word0 z n : 0 <= n < 64 -> is_w z ->
  exists hi lo a, wshr z n = hi /\ wshl z (64 - n) = a /\ z = 2 ^ n * hi + lo /\ 0 <= lo < 2 ^ n /\
    2 ^ n * a = W * lo /\ 0 <= a <= W - 2 ^ (64 - n) /\ 0 <= hi < 2 ^ (64 - n) /\
    (forall h, 0 <= h < 2 ^ (64 - n) -> Z.lor h a = a + h).
Proof.
  intros Hn Hz. destruct (Z.eq_dec n 0) as [->|]; [|apply rsh_word; [lia|assumption]].
  exists z, 0, 0. unfold wshl, wshr. rewrite Z.shiftr_0_r, Z.sub_0_r, Z.shiftl_mul_pow2 by lia.
  rewrite <- W_pow, Z_mod_mult. change (2 ^ 0) with 1. unfold is_w in *.
  repeat split; try lia. intros h Hh. rewrite Z.lor_0_r. lia.
Qed.

Lemma shl_words_spec s l : 0 <= s < 64 -> Forall is_w l -> forall prev, is_w prev ->
  Forall is_w (shl_words s prev l) /\ length (shl_words s prev l) = length l /\
  lval (shl_words s prev l) + W ^ Z.of_nat (length l) * wshr (last l prev) (64 - s)
    = 2 ^ s * lval l + wshr prev (64 - s).
Proof.
  intros Hs. induction 1 as [|a l Ha Hl IH]; intros prev Hp.
  { cbn [shl_words lval length last]. change (Z.of_nat 0) with 0. rewrite Z.pow_0_r. repeat split; auto. lia. }
  cbn [shl_words]. destruct (IH a Ha) as (H1 & H2 & H3).
  destruct (lsh_word0 a s Hs Ha) as (hi & a' & E1 & E2 & E3 & Ha' & Hhi & HL).
  destruct (lsh_word0 prev s Hs Hp) as (hip & ap & E1p & E2p & E3p & Ha'p & Hhip & HLp).
  rewrite E1, E2p. rewrite HL by lia.
  split; [constructor; [unfold is_w; lia|assumption]|]. split; [cbn [length]; lia|].
  cbn [lval length]. rewrite Wpow_S.
  assert (El : last (a :: l) prev = last l a).
  { destruct l; [reflexivity|]. cbn [last]. 
    generalize z. clear. induction l as [|y l IHl]; intros z; [reflexivity|]. apply (IHl y). }
  rewrite El. rewrite E2 in H3. set (P := W ^ Z.of_nat (length l)) in *.
  set (X := lval (shl_words s a l)) in *. set (L := wshr (last l a) (64 - s)) in *.
  clearbody X L P. 
  replace (a' + hip + W * X + W * P * L) with (a' + hip + W * (X + P * L)) by ring.
  rewrite H3. replace (2 ^ s * (a + W * lval l)) with (a * 2 ^ s + W * (2 ^ s * lval l)) by ring. rewrite E3. ring.
Qed.

Lemma shr_words_spec s l : 0 <= s < 64 -> Forall is_w l ->
  Forall is_w (shr_words s l) /\ length (shr_words s l) = length l /\
  2 ^ s * lval (shr_words s l) + (hd 0 l) mod 2 ^ s = lval l.
Proof.
  intros Hs. induction 1 as [|a l Ha Hl IH].
  { cbn [shr_words hd lval length]. rewrite Z.mod_0_l by lia. repeat split; auto. lia. }
  assert (HP : 0 < 2 ^ s) by lia.
  assert (Hpart : forall z, is_w z -> exists hi lo a, wshr z s = hi /\ wshl z (64 - s) = a /\ z = 2 ^ s * hi + lo /\
     0 <= lo < 2 ^ s /\ 2 ^ s * a = W * lo /\ 0 <= a <= W - 2 ^ (64 - s) /\ 0 <= hi < 2 ^ (64 - s) /\
    (forall h, 0 <= h < 2 ^ (64 - s) -> Z.lor h a = a + h) /\ z mod 2 ^ s = lo).
  { intros z Hz. destruct (rsh_word0 z s Hs Hz) as (hi & lo & b & E1 & E2 & E3 & H1 & H2 & H3 & H4 & H5).
    exists hi, lo, b. repeat (split; [assumption|]). symmetry. apply Z.mod_unique_pos with (q := hi); lia. }
  destruct (Hpart a Ha) as (hi & lo & a' & E1 & E2 & E3 & Hlo & Ea & Ha' & Hhi & HL & Em).
  assert (H64 : 2 ^ (64 - s) <= W).
  { rewrite W_pow. apply Z.pow_le_mono_r; lia. }
  destruct l as [|b t].
  { cbn [shr_words hd lval length]. rewrite E1, Em.
    split; [constructor; [unfold is_w; lia|constructor]|]. split; [reflexivity|]. lia. }
  destruct IH as (H1 & H2 & H3). pose proof (Forall_inv Hl) as Hb.
  destruct (Hpart b Hb) as (hib & lob & b' & E1b & E2b & E3b & Hlob & Eb & Hb' & Hhib & HLb & Emb).
  change (shr_words s (a :: b :: t)) with (Z.lor (wshr a s) (wshl b (64 - s)) :: shr_words s (b :: t)).
  rewrite E1, E2b, HLb by assumption.
  split; [constructor; [unfold is_w; lia|assumption]|]. split; [cbn [length] in *; lia|].
  cbn [hd] in H3 |- *. change (lval (?x :: shr_words s (b :: t))) with (x + W * lval (shr_words s (b :: t))).
  change (lval (a :: b :: t)) with (a + W * lval (b :: t)).
  rewrite Em. rewrite Emb in H3. rewrite <- H3. 
  replace (2 ^ s * (b' + hi + W * lval (shr_words s (b :: t)))) with
    (2 ^ s * b' + 2 ^ s * hi + W * (2 ^ s * lval (shr_words s (b :: t)))) by ring.
  rewrite Eb. rewrite E3 at 1. ring.
Qed.

(** ** Significant words *)
Lemma siglen_le l : (siglen l <= length l)%nat.
Proof. induction l as [|a l IH]; cbn [siglen length]; [lia|]. destruct (siglen l); [destruct (a =? 0)|]; lia. Qed.

Lemma siglen_zero l : Forall is_w l -> (siglen l = 0%nat <-> lval l = 0).
Proof.
  induction 1 as [|a l Ha Hl IH]; cbn [siglen lval]; [tauto|].
  pose proof (lval_range l Hl). unfold is_w in *.
  destruct (siglen l) as [|k].
  - assert (lval l = 0) by tauto. destruct (a =? 0) eqn:E; split; intros; try discriminate; try lia; reflexivity.
  - assert (lval l <> 0) by (intros e; destruct IH as [_ IH]; discriminate (IH e)). split; [discriminate|]. lia.
Qed.

Lemma siglen_split l : Forall is_w l -> lval l <> 0 ->
  exists pre t n, l = pre ++ t :: repeat 0 n /\ t <> 0 /\ siglen l = S (length pre) /\ is_w t /\ Forall is_w pre.
Proof.
  induction 1 as [|a l Ha Hl IH]; [cbn; lia|].
  intros H0. cbn [siglen lval] in *.
  destruct (siglen l) as [|k] eqn:Ek.
  - assert (E0 : lval l = 0) by (now apply siglen_zero). 
    exists [], a, (length l). assert (a <> 0) by lia. replace (a =? 0) with false by lia.
    split; [|repeat split; auto; apply Ha].
    cbn. f_equal. clear Ek IH H0. induction Hl as [|b l Hb Hl IHl]; [reflexivity|].
    cbn [lval length repeat] in *. pose proof (lval_range l Hl). unfold is_w in *.
    f_equal; [lia|]. apply IHl. lia.
  - destruct IH as (pre & t & n & El & Ht & Es & Hwt & Fp).
    { intros e. apply siglen_zero in e; auto. lia. }
    exists (a :: pre), t, n. rewrite El. cbn [app length]. repeat split; auto; try apply Hwt; try lia.
Qed.

Lemma siglen_bounds l : Forall is_w l -> lval l <> 0 ->
  W ^ (Z.of_nat (siglen l) - 1) <= lval l < W ^ Z.of_nat (siglen l).
Proof.
  intros Hl H0. destruct (siglen_split l Hl H0) as (pre & t & n & El & Ht & Es & Hwt & Fp).
  rewrite Es. replace (Z.of_nat (S (length pre)) - 1) with (Z.of_nat (length pre)) by lia.
  rewrite Wpow_S, El, lval_app. cbn [lval]. rewrite lval_zeros.
  pose proof (lval_range pre Fp). pose proof (Wpow_pos (length pre)).
  set (P := W ^ Z.of_nat (length pre)) in *. clearbody P. unfold is_w in *.
  assert (P * 1 <= P * t) by (apply Z.mul_le_mono_nonneg_l; lia).
  assert (P * t <= P * (W - 1)) by (apply Z.mul_le_mono_nonneg_l; lia). lia.
Qed.

Lemma limbs_toZ x : lval (limbs x) = toZ x.
Proof. unfold limbs, toZ. cbn [lval]. lia. Qed.
Lemma limbs_wf x : wf x -> Forall is_w (limbs x).
Proof. intros (?&?&?&?). unfold limbs. auto. Qed.
Lemma of_words_spec l : Forall is_w l -> (length l <= 4)%nat -> wf (of_words l) /\ toZ (of_words l) = lval l.
Proof.
  intros Hl Hn. unfold of_words, wf, toZ. cbn [l0 l1 l2 l3].
  assert (H0 : is_w 0) by (unfold is_w; lia).
  assert (Hnth : forall i, is_w (nth i l 0)).
  { intros i. destruct (Nat.lt_ge_cases i (length l)).
    - apply (proj1 (Forall_forall _ _) Hl). now apply nth_In.
    - rewrite nth_overflow by assumption. assumption. }
  split; [auto|].
  destruct l as [|a [|b [|c [|d [|e l]]]]]; cbn [nth lval length] in *; lia.
Qed.

Lemma norm_unshift P U D Q R S m : 0 < P -> P * U = P * D * Q + R -> P * S + m = R -> 0 <= m < P -> U = D * Q + S /\ m = 0.
Proof.
  intros HP E1 E2 Hm. assert (E : P * (U - D * Q - S) = m) by (rewrite <- E2 in E1; lia).
  assert (U - D * Q - S = 0); [|lia].
  set (X := U - D * Q - S) in *. clearbody X. 
  destruct (Z.lt_trichotomy X 0) as [|[|]]; [|assumption|].
  - assert (P * X <= P * (-1)) by (apply Z.mul_le_mono_nonneg_l; lia). lia.
  - assert (P * 1 <= P * X) by (apply Z.mul_le_mono_nonneg_l; lia). lia.
Qed.

Lemma lz64_spec t : 0 < t < W -> 0 <= lz64 t < 64 /\ W <= 2 * (t * 2 ^ lz64 t) /\ t * 2 ^ lz64 t < W.
Proof.
  intros Ht. destruct (len64_spec t) as (H1 & H2 & H3); [unfold is_w; lia|]. specialize (H3 ltac:(lia)).
  unfold lz64. set (n := len64 t) in *. clearbody n.
  assert (n <> 0). { intros ->. cbn in H2. lia. }
  split; [lia|].
  assert (EW : W = 2 ^ n * 2 ^ (64 - n)) by (rewrite <- Z.pow_add_r by lia; rewrite W_pow; f_equal; lia).
  assert (EW2 : W = 2 * (2 ^ (n - 1) * 2 ^ (64 - n))).
  { rewrite EW. replace (2 ^ n) with (2 * 2 ^ (n - 1)); [lia|]. rewrite <- Z.pow_succ_r by lia. f_equal; lia. }
  assert (0 < 2 ^ (64 - n)) by (apply Z.pow_pos_nonneg; lia).
  set (P := 2 ^ (64 - n)) in *. clearbody P.
  split.
  - rewrite EW2 at 1. assert (2 ^ (n - 1) * P <= t * P) by (apply Z.mul_le_mono_nonneg_r; lia). lia.
  - rewrite EW at 1. apply Z.mul_lt_mono_pos_r; lia.
Qed.

Lemma wshr_small t s : 0 <= s < 64 -> is_w t -> 0 <= wshr t (64 - s) < 2 ^ s /\ (t * 2 ^ s < W -> wshr t (64 - s) = 0).
Proof.
  intros Hs Ht. destruct (lsh_word0 t s Hs Ht) as (hi & a & E1 & -> & E3 & Ha & Hh & _).
  split; [assumption|]. intros. lia.
Qed.

Lemma lval_top l t : Forall is_w (l ++ [t]) ->
  W ^ Z.of_nat (length l) * t <= lval (l ++ [t]) < W ^ Z.of_nat (length l) * (t + 1).
Proof.
  intros H. apply Forall_app in H as [H1 _]. rewrite lval_app. cbn [lval].
  pose proof (lval_range l H1). lia.
Qed.

Lemma lval_firstn_pre pre (t : Z) n : firstn (S (length pre)) (pre ++ t :: repeat 0 n) = pre ++ [t].
Proof.
  replace (pre ++ t :: repeat 0 n) with ((pre ++ [t]) ++ repeat 0 n) by (rewrite <- app_assoc; reflexivity).
  replace (S (length pre)) with (length (pre ++ [t]) + 0)%nat by (rewrite app_length; cbn; lia).
  rewrite firstn_app_2. cbn. now rewrite app_nil_r.
Qed.

(** normalised divisor *)
Lemma dn_spec pre t : Forall is_w pre -> is_w t -> t <> 0 ->
  exists dr dh, shl_words (lz64 t) 0 (pre ++ [t]) = dr ++ [dh] /\ length dr = length pre /\ Forall is_w (dr ++ [dh]) /\
    W <= 2 * dh /\ dh < W /\ lval (dr ++ [dh]) = 2 ^ lz64 t * lval (pre ++ [t]).
Proof.
  intros Fp Ht H0. destruct (lz64_spec t) as (Hs & Hlo & Hhi); [unfold is_w in *; lia|].
  set (s := lz64 t) in *. clearbody s.
  assert (FA : Forall is_w (pre ++ [t])) by (apply Forall_app; auto).
  destruct (shl_words_spec s (pre ++ [t]) Hs FA 0) as (F & L & V); [unfold is_w; lia|].
  rewrite last_last in V. destruct (wshr_small t s Hs Ht) as [_ Hz]. rewrite Hz in V by assumption.
  rewrite Z.mul_0_r, Z.add_0_r in V. 
  assert (Ez : wshr 0 (64 - s) = 0) by apply Z.shiftr_0_l. rewrite Ez, Z.add_0_r in V.
  destruct (exists_last (l := shl_words s 0 (pre ++ [t]))) as (dr & dh & E).
  { intros e. rewrite e, app_length in L. cbn in L. lia. }
  exists dr, dh. rewrite E in F, L, V. rewrite !app_length in L. cbn [length] in L.
  assert (Ldr : length dr = length pre) by lia.
  split; [exact E|]. split; [exact Ldr|]. split; [exact F|].
  pose proof (lval_top dr dh F) as [_ T1]. pose proof (lval_top pre t FA) as [T2 _].
  assert (Hdh : is_w dh) by (apply Forall_app in F as [_ F']; apply (Forall_inv F')).
  rewrite Ldr in T1. pose proof (Wpow_pos (length pre)) as HP.
  set (P := W ^ Z.of_nat (length pre)) in *. clearbody P.
  assert (Hps : 0 < 2 ^ s) by lia.
  split; [|split; [apply Hdh|exact V]].
  assert (P * (t * 2 ^ s) < P * (dh + 1)).
  { eapply Z.le_lt_trans; [|exact T1]. rewrite V.
    replace (P * (t * 2 ^ s)) with (2 ^ s * (P * t)) by ring. apply Z.mul_le_mono_nonneg_l; lia. }
  apply Z.mul_lt_mono_pos_l in H; [|assumption]. lia.
Qed.

(** shifted dividend *)
Lemma un_spec pre t s : 0 <= s < 64 -> Forall is_w pre -> is_w t ->
  let un := shl_words s 0 (pre ++ [t]) ++ [wshr t (64 - s)] in
  Forall is_w un /\ length un = S (S (length pre)) /\ lval un = 2 ^ s * lval (pre ++ [t]).
Proof.
  intros Hs Fp Ht un. assert (FA : Forall is_w (pre ++ [t])) by (apply Forall_app; auto).
  destruct (shl_words_spec s (pre ++ [t]) Hs FA 0) as (F & L & V); [unfold is_w; lia|].
  rewrite last_last in V. assert (Ez : wshr 0 (64 - s) = 0) by apply Z.shiftr_0_l. rewrite Ez, Z.add_0_r in V.
  destruct (wshr_small t s Hs Ht) as [Hz _].
  assert (2 ^ s < W) by (rewrite W_pow; apply Z.pow_lt_mono_r; lia).
  unfold un. split; [apply Forall_app; split; [assumption|]; constructor; [unfold is_w; lia|constructor]|].
  rewrite app_length, L, app_length. cbn [length]. split; [lia|].
  rewrite lval_app, L. cbn [lval]. rewrite Z.mul_0_r, Z.add_0_r. exact V.
Qed.

Definition Udivrem_fits (quot u : list Z) (d : Int) : bool :=
  negb (siglen (limbs d) =? 0)%nat && negb (siglen u =? 0)%nat && (siglen u <? 9)%nat
  && (siglen (limbs d) <=? S (siglen u))%nat && (S (siglen u) - siglen (limbs d) <=? length quot)%nat.

Theorem Udivrem_spec quot u d : Forall is_w u -> wf d ->
  if Udivrem_fits quot u d then
    exists Qs rem, Udivrem quot u d = Ok (Qs ++ skipn (length Qs) quot, rem) /\
      length Qs = (S (siglen u) - siglen (limbs d))%nat /\ Forall is_w Qs /\ wf rem /\
      lval u = toZ d * lval Qs + toZ rem /\ toZ rem < toZ d
  else Udivrem quot u d = Panic.
Proof.
  intros Fu Wd. unfold Udivrem_fits, Udivrem.
  pose proof (limbs_wf d Wd) as Fd.
  destruct (Z.eq_dec (lval (limbs d)) 0) as [e|Hd0].
  { apply siglen_zero in e; auto. rewrite e. reflexivity. }
  destruct (siglen_split (limbs d) Fd Hd0) as (dp & dt & dz & Ed & Hdt0 & Esd & Hdt & Fdp).
  assert (LD : (length dp < 4)%nat).
  { assert (length (limbs d) = 4%nat) by reflexivity. rewrite Ed, app_length in H. cbn [length] in H. lia. }
  rewrite Esd. rewrite Ed. rewrite geti_app by reflexivity. cbn [bind]. rewrite lval_firstn_pre.
  assert (ED : toZ d = lval (dp ++ [dt])).
  { rewrite <- limbs_toZ, Ed, !lval_app. cbn [lval]. rewrite lval_zeros. reflexivity. }
  destruct (Z.eq_dec (lval u) 0) as [e|Hu0].
  { apply siglen_zero in e; auto. rewrite e. reflexivity. }
  destruct (siglen_split u Fu Hu0) as (up & ut & uz & Eu & Hut0 & Esu & Hut & Fup).
  rewrite Esu. cbn [Nat.eqb negb andb].
  destruct (Nat.ltb_spec (S (length up)) 9) as [HL|HL].
  2: { cbn [andb]. replace (9 <? S (S (length up)))%nat with true by (symmetry; apply Nat.ltb_lt; lia). reflexivity. }
  replace (9 <? S (S (length up)))%nat with false by (symmetry; apply Nat.ltb_ge; lia).
  assert (G1 : geti u (length up) = Ok ut) by (rewrite Eu; now apply geti_app).
  assert (G2 : firstn (S (length up)) u = up ++ [ut]) by (rewrite Eu; apply lval_firstn_pre).
  rewrite G1. cbn [bind]. rewrite G2.
  assert (EU : lval u = lval (up ++ [ut])).
  { rewrite Eu, !lval_app. cbn [lval]. rewrite lval_zeros. reflexivity. }
  destruct (dn_spec dp dt Fdp Hdt Hdt0) as (dr & dh & Edn & Ldr & Fdn & Hdh1 & Hdh2 & Vdn).
  destruct (lz64_spec dt) as (Hs & _ & Hs2); [unfold is_w in *; lia|].
  set (s := lz64 dt) in *.
  destruct (un_spec up ut s Hs Fup Hut) as (Fun & Lun & Vun).
  assert (Htop : wshr ut (64 - s) < dh).
  { destruct (wshr_small ut s Hs Hut) as [[_ Hz] _].
    assert (2 ^ s <= 2 ^ 63) by (apply Z.pow_le_mono_r; lia).
    replace (2 ^ 63) with (W / 2) in * by reflexivity. lia. }
  assert (Htop0 : 0 <= wshr ut (64 - s)) by (apply (wshr_small ut s Hs Hut)).
  cbv zeta in *. rewrite Edn.
  set (un := shl_words s 0 (up ++ [ut]) ++ [wshr ut (64 - s)]) in *.
  destruct (reciprocal2by1_spec dh Hdh1 Hdh2) as (v & Ev & Hv & kk & Hvk & Hkk).
  destruct dr as [|dr0 dr'].
  { (* one-word divisor *)
    cbn [app]. destruct dp; [|discriminate]. cbn [length].
    replace (S (S (length up)) - 1)%nat with (S (length up)) by lia.
    replace (1 <=? S (S (length up)))%nat with true by reflexivity. cbn [andb].
    unfold udivremBy1. rewrite Ev. cbn [bind]. rewrite Lun.
    assert (Lsh : length (shl_words s 0 (up ++ [ut])) = S (length up)).
    { unfold un in Lun. rewrite app_length in Lun. cbn [length] in Lun. lia. }
    unfold un. rewrite geti_app by lia. cbn [bind].
    destruct (Nat.leb_spec (S (length up)) (length quot)) as [HQ|HQ].
    - rewrite <- (firstn_skipn (S (length up)) quot).
      destruct (by1_loop_spec dh v kk Hdh1 Hdh2 Hv Hvk Hkk (S (length up)) (shl_words s 0 (up ++ [ut]))
        [wshr ut (64 - s)] (firstn (S (length up)) quot) (skipn (S (length up)) quot) (wshr ut (64 - s)))
        as (Qs & r & E & HLQ & FQ & Hval & Hr); auto.
      { unfold un in Fun. apply Forall_app in Fun. tauto. }
      { rewrite firstn_length. lia. }
      rewrite E. cbn [bind fst snd]. exists Qs, (SetUint64 (wshr r s)).
      assert (Hps : 0 < 2 ^ s) by lia.
      assert (Hrw : is_w r) by (unfold is_w; lia).
      destruct (rsh_word0 r s Hs Hrw) as (hi & lo & a & E1 & _ & E3 & Hlo & _ & _ & Hhi & _).
      assert (Vun' : 2 ^ s * lval (up ++ [ut]) = dh * lval Qs + r).
      { rewrite <- Hval, <- Vun. unfold un. rewrite lval_app, Lsh. cbn [lval]. ring. }
      cbn [app lval] in Vdn. 
      assert (Edh : dh = 2 ^ s * dt) by (cbn [app lval] in Vdn; lia).
      destruct (norm_unshift (2 ^ s) (lval (up ++ [ut])) dt (lval Qs) r hi lo) as [HU Hlo0]; auto.
      { rewrite Vun', Edh. ring. }
      assert (ESU : toZ (SetUint64 (wshr r s)) = hi) by (rewrite E1; unfold SetUint64, toZ; cbn [l0 l1 l2 l3]; lia).
      cbn [app lval] in ED.
      assert (Hhi2 : 0 <= hi < W).
      { split; [lia|]. apply Z.le_lt_trans with r; [|lia]. 
        assert (1 * hi <= 2 ^ s * hi) by (apply Z.mul_le_mono_nonneg_r; lia). lia. }
      assert (Hwf : wf (SetUint64 (wshr r s))).
      { rewrite E1. assert (is_w 0) by (unfold is_w; lia). unfold wf, SetUint64; cbn [l0 l1 l2 l3]. auto. }
      rewrite firstn_skipn, HLQ. refine (conj eq_refl (conj eq_refl (conj FQ (conj Hwf (conj _ _))))).
      + rewrite ESU, EU. rewrite HU. replace (toZ d) with dt by lia. ring.
      + rewrite ESU. replace (toZ d) with dt by lia. 
        assert (2 ^ s * hi < 2 ^ s * dt) by lia. apply Z.mul_lt_mono_pos_l in H; lia.
    - rewrite by1_loop_panic by assumption. reflexivity. }
  (* Knuth *)
  set (dr := dr0 :: dr') in *.
  destruct (exists_last (l := dr)) as (dr1 & dl & Edr); [discriminate|].
  assert (Hm : match dr ++ [dh] with [dn0] => do qr <- udivremBy1 quot un dn0; Ok (fst qr, SetUint64 (wshr (snd qr) s))
     | _ => do qu <- udivremKnuth quot un (dr ++ [dh]);
                let '(quot, un) := qu in
                if (length un <? S (length dp))%nat then Panic
                else Ok (quot, of_words (shr_words s (firstn (S (length dp)) un))) end
     = (do qu <- udivremKnuth quot un (dr ++ [dh]);
                let '(quot, un) := qu in
                if (length un <? S (length dp))%nat then Panic
                else Ok (quot, of_words (shr_words s (firstn (S (length dp)) un))))).
  { unfold dr. cbn [app]. destruct dr'; reflexivity. }
  rewrite Hm; clear Hm. clearbody dr. clear dr0 dr'.
  assert (Edn2 : dr ++ [dh] = dr1 ++ [dl; dh]) by (rewrite Edr, <- app_assoc; reflexivity).
  rewrite Edn2 in Fdn, Vdn |- *.
  assert (Ld : length (dr1 ++ [dl; dh]) = S (length dp)).
  { rewrite app_length. rewrite Edr, app_length in Ldr. cbn [length] in *. lia. }
  assert (Eknuth : udivremKnuth quot un (dr1 ++ [dl; dh]) =
     knuth_loop (length un - S (length dp)) quot un (dr1 ++ [dl; dh]) dh dl v).
  { unfold udivremKnuth. rewrite Ld.
    assert (Edp : length dp = S (length dr1)) by (rewrite Edr, app_length in Ldr; cbn [length] in Ldr; lia).
    rewrite Edp.
    assert (Ga : geti (dr1 ++ [dl; dh]) (S (length dr1)) = Ok dh).
    { replace (dr1 ++ [dl; dh]) with ((dr1 ++ [dl]) ++ [dh]) by (rewrite <- app_assoc; reflexivity).
      apply geti_app. rewrite app_length; cbn; lia. }
    assert (Gb : geti (dr1 ++ [dl; dh]) (length dr1) = Ok dl) by (now apply geti_app).
    rewrite Ga, Gb.
    cbn [bind]. rewrite Ev. reflexivity. }
  rewrite Eknuth. rewrite Lun.
  destruct (Nat.leb_spec (S (length dp)) (S (S (length up)))) as [Hle|Hle].
  2: { cbn [andb]. replace (S (S (length up)) - S (length dp))%nat with 0%nat by lia. cbn [knuth_loop bind].
       rewrite Lun. replace (S (S (length up)) <? S (length dp))%nat with true by (symmetry; apply Nat.ltb_lt; lia).
       reflexivity. }
  cbn [andb]. set (k := (S (S (length up)) - S (length dp))%nat) in *.
  (* split of the dividend *)
  set (lo := firstn k un). set (R := skipn k un).
  assert (Eun : un = lo ++ R) by (symmetry; apply firstn_skipn).
  assert (Llo : length lo = k) by (unfold lo; rewrite firstn_length; lia).
  assert (LR : length R = S (length dp)) by (unfold R; rewrite skipn_length; lia).
  assert (FR : Forall is_w R /\ Forall is_w lo) by (rewrite Eun in Fun; apply Forall_app in Fun; tauto).
  destruct FR as [FR Flo].
  assert (HRD : lval R < lval (dr1 ++ [dl; dh])).
  { destruct (exists_last (l := R)) as (R' & x & ER); [intros e; rewrite e in LR; discriminate|].
    assert (x = wshr ut (64 - s)).
    { rewrite ER in Eun. unfold un in Eun. rewrite app_assoc in Eun. apply app_inj_tail in Eun. symmetry; tauto. }
    rewrite ER in FR |- *. pose proof (lval_top R' x FR) as [_ T].
    rewrite <- Edn2 in Fdn |- *. pose proof (lval_top dr dh Fdn) as [T' _].
    assert (length R' = length dr) by (rewrite ER, app_length in LR; cbn [length] in LR; lia).
    rewrite H0 in T. pose proof (Wpow_pos (length dr)). set (P := W ^ Z.of_nat (length dr)) in *.
    clearbody P. eapply Z.lt_le_trans; [exact T|]. eapply Z.le_trans; [|exact T'].
    apply Z.mul_le_mono_nonneg_l; lia. }
  destruct (Nat.leb_spec k (length quot)) as [HQ|HQ].
  2: { rewrite Eun. rewrite <- (app_nil_r R). 
       rewrite (knuth_loop_panic dr1 dl dh v kk Fdn Hdh1 Hv Hvk Hkk k lo R [] quot); auto. now rewrite Ld. }
  destruct (knuth_loop_spec dr1 dl dh v kk Fdn Hdh1 Hv Hvk Hkk k lo R [] (firstn k quot) (skipn k quot))
    as (Qs & Rf & hi' & E & LQ & FQ & LRf & FRf & Hval & HRf); auto.
  { now rewrite Ld. }
  { rewrite firstn_length. lia. }
  rewrite firstn_skipn, app_nil_r, <- Eun in E. rewrite E. cbn [bind].
  rewrite Ld in LRf.
  replace (length (Rf ++ hi') <? S (length dp))%nat with false
    by (symmetry; apply Nat.ltb_ge; rewrite app_length; lia).
  assert (EF : firstn (S (length dp)) (Rf ++ hi') = Rf).
  { rewrite <- LRf. rewrite <- (Nat.add_0_r (length Rf)), firstn_app_2. cbn [firstn]. apply app_nil_r. }
  cbn [firstn] in EF |- *. rewrite EF.
  destruct (shr_words_spec s Rf Hs FRf) as (Fr & Lr & Vr).
  destruct (of_words_spec (shr_words s Rf) Fr) as [Wr Tr]; [rewrite Lr, LRf; lia|].
  exists Qs, (of_words (shr_words s Rf)). rewrite LQ.
  assert (Hps : 0 < 2 ^ s) by lia.
  destruct (norm_unshift (2 ^ s) (lval u) (toZ d) (lval Qs) (lval Rf) (lval (shr_words s Rf)) (hd 0 Rf mod 2 ^ s))
    as [HU Hlo0]; auto.
  { rewrite EU, ED, <- Vun, <- Vdn, <- Hval, Eun, lval_app, Llo. ring. }
  { apply Z.mod_pos_bound; assumption. }
  refine (conj eq_refl (conj eq_refl (conj FQ (conj Wr _)))). rewrite Tr. split; [assumption|].
  rewrite Hlo0 in Vr. rewrite Vdn, <- ED in HRf.
  assert (2 ^ s * lval (shr_words s Rf) < 2 ^ s * toZ d) by lia.
  apply Z.mul_lt_mono_pos_l in H; lia.
Qed.
