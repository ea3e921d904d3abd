(** StatsFacts.v -- what the statistics compute: drawdown *)
From Coq Require Import Floats.SpecFloat Lia ZifyBool.
From Verif Require Import Base Float64 Float64Facts FloatSpec Prices Stats.
Ltac Zify.zify_post_hook ::= idtac.
Open Scope Z_scope.
Local Ltac lia := first [solve [drop_pow; Lia.lia] | solve [hide_pow; Lia.lia] | Lia.lia].

(** ** prices as doubles *)
Definition rd (p : Z) : Z := val (f64_of_int p).
Lemma near_mono N N' D v v' : 0 < D -> N < N' -> near N D v -> near N' D v' -> v <= v'.
Proof.
  intros HD HN [R K] [R' K']. specialize (K v' R'). specialize (K' v R). destruct (Z_le_gt_dec v v') as [|C]; [assumption|].
  assert (v' * D < v * D) by (apply Z.mul_lt_mono_pos_r; lia). lia.
Qed.
Lemma price_fin p : 0 <= p < 2 ^ 256 -> fin (f64_of_int p) (rd p) /\ near (p * 2 ^ 1074) 1 (rd p).
Proof.
  intros Hp. destruct (of_int_near p) as (v & HN & HF). assert (fin (f64_of_int p) v) as F.
  { apply HF. assert (0 <= v) by (refine (near_ge _ _ _ _ _ HN repr_0 _); lia).
    rewrite Z.abs_eq by assumption. apply Z.le_lt_trans with (2 ^ 1330); [|reflexivity].
    refine (near_le _ _ _ _ _ HN _ _); [lia|apply repr_pow; lia|]. rewrite Z.mul_1_r. change (2 ^ 1330) with (2 ^ 256 * 2 ^ 1074). apply Z.mul_le_mono_nonneg_r; lia. }
  pose proof (fin_val _ _ F) as E. subst v. split; assumption.
Qed.
Lemma rd_mono p q : 0 <= p <= q -> q < 2 ^ 256 -> rd p <= rd q.
Proof.
  intros H Hq. destruct (Z.eq_dec p q) as [->|]; [lia|]. destruct (price_fin p ltac:(lia)) as [_ Np]. destruct (price_fin q ltac:(lia)) as [_ Nq].
  apply (near_mono (p * 2 ^ 1074) (q * 2 ^ 1074) 1); try assumption; [lia|]. apply Z.mul_lt_mono_pos_r; lia.
Qed.
Lemma rd_pos p : 0 < p < 2 ^ 256 -> 2 ^ 1074 <= rd p.
Proof.
  intros H. destruct (price_fin p ltac:(lia)) as [_ N]. refine (near_ge _ _ _ _ _ N _ _); [lia|apply repr_pow; lia|]. rewrite Z.mul_1_r.
  rewrite <- (Z.mul_1_l (2 ^ 1074)) at 1. apply Z.mul_le_mono_nonneg_r; lia.
Qed.
Lemma rd_nonneg p : 0 <= p < 2 ^ 256 -> 0 <= rd p.
Proof. intros H. destruct (price_fin p H) as [_ N]. refine (near_ge _ _ _ _ _ N repr_0 _); lia. Qed.
Lemma rd_0 : rd 0 = 0.
Proof. reflexivity. Qed.

Lemma max_fin x y a b : fin x a -> fin y b -> fin (f64_max x y) (Z.max a b).
Proof.
  intros Hx Hy. pose proof (ltb_val y x b a Hy Hx) as L.
  assert (fin (if f64_lt y x then x else y) (Z.max a b)) as K.
  { unfold f64_lt. rewrite L. destruct (b <? a) eqn:E; [rewrite Z.max_l|rewrite Z.max_r]; (assumption || lia). }
  destruct x as [s|s| |s m e], y as [s'|s'| |s' m' e']; try contradiction; try exact K.
  cbn [fin] in *. subst. destruct s; reflexivity.
Qed.
Lemma min_fin x y a b : fin x a -> fin y b -> fin (f64_min x y) (Z.min a b).
Proof.
  intros Hx Hy. pose proof (ltb_val x y a b Hx Hy) as L.
  assert (fin (if f64_lt x y then x else y) (Z.min a b)) as K.
  { unfold f64_lt. rewrite L. destruct (a <? b) eqn:E; [rewrite Z.min_l|rewrite Z.min_r]; (assumption || lia). }
  destruct x as [s|s| |s m e], y as [s'|s'| |s' m' e']; try contradiction; try exact K.
  cbn [fin] in *. subst. destruct s; reflexivity.
Qed.

(** ** relative difference of two prices *)
Lemma change_fin x y a b : fin x b -> fin y a -> 0 < a -> 0 <= b -> a <= 2 ^ 1330 -> b <= 2 ^ 1330 -> 2 ^ 1074 <= a ->
  exists c w, near (b - a) 1 c /\ near (c * 2 ^ 1074) a w /\ fin (f64_div (f64_sub x y) y) w /\ - a <= c <= b /\ - 2 ^ 1074 <= w
    /\ (b <= a -> w <= 0) /\ (a <= b -> 0 <= w).
Proof.
  intros Hx Hy Ha Hb La Lb Ua. destruct (fin_repr _ _ Hy) as [Ra Ba]. destruct (fin_repr _ _ Hx) as [Rb Bb].
  destruct (sub_near x y b a Hx Hy) as (c & Nc & Fc).
  assert (- a <= c) as C1 by (refine (near_ge _ _ _ _ _ Nc (repr_opp _ Ra) _); lia).
  assert (c <= b) as C2 by (refine (near_le _ _ _ _ _ Nc Rb _); lia).
  specialize (Fc ltac:(lia)). destruct (div_near' _ y c a Fc Hy ltac:(lia)) as (w & Nw & Fw).
  rewrite Z.sgn_pos, Z.mul_1_l, Z.abs_eq in Nw by lia.
  assert (- 2 ^ 1074 <= w) as W1.
  { refine (near_ge _ _ _ _ _ Nw (repr_opp _ (repr_pow 1074 _)) _); [lia|lia|]. rewrite Z.mul_opp_l, <- Z.mul_opp_r, Z.mul_comm. apply Z.mul_le_mono_nonneg_r; lia. }
  assert (w <= 2 ^ 1330) as W2.
  { refine (near_le _ _ _ _ _ Nw (repr_pow 1330 _) _); [lia|lia|]. apply Z.le_trans with (2 ^ 1330 * 2 ^ 1074); [apply Z.mul_le_mono_nonneg_r|apply Z.mul_le_mono_nonneg_l]; lia. }
  exists c, w. split; [assumption|]. split; [assumption|]. split; [|split; [lia|]; split; [assumption|]; split].
  - apply Fw. apply Z.le_lt_trans with (2 ^ 1330); [|reflexivity]. assert (2 ^ 1074 <= 2 ^ 1330) by (vm_compute; discriminate). lia.
  - intros L. assert (c <= 0) as C3 by (refine (near_le _ _ _ _ _ Nc repr_0 _); lia).
    refine (near_le _ _ _ _ _ Nw repr_0 _); [lia|]. rewrite Z.mul_0_l. apply Z.mul_nonpos_nonneg; lia.
  - intros L. assert (0 <= c) as C3 by (refine (near_ge _ _ _ _ _ Nc repr_0 _); lia).
    refine (near_ge _ _ _ _ _ Nw repr_0 _); [lia|]. rewrite Z.mul_0_l. apply Z.mul_nonneg_nonneg; lia.
Qed.

Lemma change_error U M p G A b B c w : 2 ^ 60 <= U -> 0 < M <= G -> 0 <= p <= G ->
  2 ^ 53 * Z.abs (b - p * U) <= p * U + 2 ^ 52 -> 2 ^ 53 * Z.abs (A - M * U) <= M * U + 2 ^ 52 ->
  0 <= b <= B -> 0 <= A <= B -> B = A \/ B = b -> - B <= c <= B -> 2 ^ 53 * Z.abs (c - (b - A)) <= Z.abs (b - A) + 2 ^ 52 ->
  2 ^ 53 * Z.abs (w * A - c * U) <= Z.abs (c * U) + 2 ^ 52 * A ->
  2 ^ 50 * Z.abs (w * M - (p - M) * U) <= G * U.
Proof.
  intros HU HM Hp E1 E2 Hb HAB HB Hc E3 E4.
  assert (U <= M * U) as HMU. { rewrite <- (Z.mul_1_l U) at 1. apply Z.mul_le_mono_nonneg_r; lia. }
  assert (p * U <= G * U) as HpU by (apply Z.mul_le_mono_nonneg_r; lia). assert (0 <= p * U) by (apply Z.mul_nonneg_nonneg; lia).
  assert (M * U <= G * U) as HMG by (apply Z.mul_le_mono_nonneg_r; lia).
  assert (64 * (M * U) <= 65 * A) as HA by (generalize dependent (M * U); generalize dependent (p * U); intros; lia).
  assert (64 * B <= 65 * (G * U)) as HBG by (generalize dependent (M * U); generalize dependent (p * U); generalize dependent (G * U); intros; lia).
  assert (2 ^ 58 <= A) as HA2 by (generalize dependent (M * U); generalize dependent (p * U); intros; lia).
  assert (Z.abs (c * U) <= B * U) as HcU. { rewrite Z.abs_mul, (Z.abs_eq U) by lia. apply Z.mul_le_mono_nonneg_r; lia. }
  set (X := M * U) in *. set (Y := G * U) in *. set (T := Y * A).
  assert (2 ^ 53 * Z.abs (M * (w * A - c * U)) <= X * B + 2 ^ 52 * (M * A)) as F4.
  { rewrite Z.abs_mul, (Z.abs_eq M) by lia. replace (X * B + 2 ^ 52 * (M * A)) with (M * (B * U + 2 ^ 52 * A)) by (unfold X; ring).
    replace (2 ^ 53 * (M * Z.abs (w * A - c * U))) with (M * (2 ^ 53 * Z.abs (w * A - c * U))) by ring. apply Z.mul_le_mono_nonneg_l; [lia|]. lia. }
  assert (2 ^ 60 * (M * A) <= T) as G4.
  { apply Z.le_trans with (X * A); [|apply Z.mul_le_mono_nonneg_r; lia]. unfold X. replace (M * U * A) with (U * (M * A)) by ring. apply Z.mul_le_mono_nonneg_r; [apply Z.mul_nonneg_nonneg; lia|lia]. }
  assert (0 <= M * A) as MA by (apply Z.mul_nonneg_nonneg; lia).
  assert (2 ^ 58 * Y <= T) as GY. { unfold T. rewrite (Z.mul_comm Y A). apply Z.mul_le_mono_nonneg_r; lia. }
  assert (64 * (X * Y) <= 65 * T) as GXY.
  { unfold T. replace (64 * (X * Y)) with (Y * (64 * X)) by ring. replace (65 * (Y * A)) with (Y * (65 * A)) by ring. apply Z.mul_le_mono_nonneg_l; lia. }
  assert (64 * (X * B) <= 65 * (X * Y)) as GXB.
  { replace (64 * (X * B)) with (X * (64 * B)) by ring. replace (65 * (X * Y)) with (X * (65 * Y)) by ring. apply Z.mul_le_mono_nonneg_l; lia. }
  assert (2 ^ 53 * Z.abs (X * (c - (b - A))) <= X * B + 2 ^ 52 * X) as F3.
  { rewrite Z.abs_mul, (Z.abs_eq X) by lia. replace (X * B + 2 ^ 52 * X) with (X * (B + 2 ^ 52)) by ring.
    replace (2 ^ 53 * (X * Z.abs (c - (b - A)))) with (X * (2 ^ 53 * Z.abs (c - (b - A)))) by ring. apply Z.mul_le_mono_nonneg_l; lia. }
  assert (2 ^ 53 * Z.abs (X * (b - p * U)) <= X * Y + 2 ^ 52 * X) as F1.
  { rewrite Z.abs_mul, (Z.abs_eq X) by lia. replace (X * Y + 2 ^ 52 * X) with (X * (Y + 2 ^ 52)) by ring.
    replace (2 ^ 53 * (X * Z.abs (b - p * U))) with (X * (2 ^ 53 * Z.abs (b - p * U))) by ring. apply Z.mul_le_mono_nonneg_l; [lia|]. lia. }
  assert (2 ^ 53 * Z.abs (p * U * (A - X)) <= X * Y + 2 ^ 52 * Y) as F2.
  { rewrite Z.abs_mul, (Z.abs_eq (p * U)) by lia. replace (X * Y + 2 ^ 52 * Y) with (Y * (X + 2 ^ 52)) by ring.
    replace (2 ^ 53 * (p * U * Z.abs (A - X))) with (p * U * (2 ^ 53 * Z.abs (A - X))) by ring. apply Z.mul_le_mono_nonneg; lia. }
  assert ((w * M - (p - M) * U) * A = M * (w * A - c * U) + X * (c - (b - A)) + X * (b - p * U) - p * U * (A - X)) as EQ by (unfold X; ring).
  assert (2 ^ 53 * Z.abs ((w * M - (p - M) * U) * A) <= 8 * T) as FIN.
  { rewrite EQ. clear EQ. revert F1 F2 F3 F4 G4 GY GXY GXB MA HMG. generalize (M * (w * A - c * U)) (X * (c - (b - A))) (X * (b - p * U)) (p * U * (A - X)) (M * A) (X * Y) (X * B) T X Y. intros. lia. }
  rewrite Z.abs_mul, (Z.abs_eq A) in FIN by lia. apply (Z.mul_le_mono_pos_r _ _ A); [lia|].
  revert FIN. unfold T. replace (2 ^ 50 * Z.abs (w * M - (p - M) * U) * A) with (2 ^ 50 * (Z.abs (w * M - (p - M) * U) * A)) by ring.
  generalize (Z.abs (w * M - (p - M) * U) * A) (Y * A). intros. lia.
Qed.

Definition price (p : Z) : Prop := 0 <= p < 2 ^ 256.
(** (q - p) / p as the code computes it, in units of 2^-1074: it errs by less than 2^-50 of the larger price over p *)
Lemma change_of p q x y : price p -> price q -> 0 < p -> fin y (rd p) -> fin x (rd q) ->
  exists w, fin (f64_div (f64_sub x y) y) w /\ Z.abs (w * p - (q - p) * 2 ^ 1074) <= Z.max p q * 2 ^ 1024 /\ - 2 ^ 1074 <= w
    /\ (rd q <= rd p -> w <= 0) /\ (rd p <= rd q -> 0 <= w).
Proof.
  intros Pp Pq Hp Hy Hx. destruct (price_fin p Pp) as [_ Np]. destruct (price_fin q Pq) as [_ Nq].
  pose proof (rd_pos p ltac:(unfold price in *; lia)) as Hp1. pose proof (rd_nonneg q Pq) as Hq0.
  assert (forall p, price p -> rd p <= 2 ^ 1330) as UB.
  { intros r Pr. destruct (price_fin r Pr) as [_ Nr]. refine (near_le _ _ _ _ _ Nr (repr_pow 1330 _) _); [lia|lia|]. rewrite Z.mul_1_r.
    change (2 ^ 1330) with (2 ^ 256 * 2 ^ 1074). unfold price in *. apply Z.mul_le_mono_nonneg_r; lia. }
  assert (0 < rd p) as Hp0 by (apply Z.lt_le_trans with (2 ^ 1074); [reflexivity|assumption]).
  destruct (change_fin x y (rd p) (rd q) Hx Hy Hp0 Hq0 (UB p Pp) (UB q Pq) Hp1) as (c & w & Nc & Nw & Fw & Hc & Hw & W1 & W2).
  exists w. split; [exact Fw|]. split; [|split; [exact Hw|]; split; assumption].
  pose proof (near_error _ _ _ Z.lt_0_1 Nq) as E1. pose proof (near_error _ _ _ Z.lt_0_1 Np) as E2.
  pose proof (near_error _ _ _ Z.lt_0_1 Nc) as E3. pose proof (near_error _ _ _ Hp0 Nw) as E4. rewrite Z.mul_1_r in E1, E2, E3.
  assert (0 <= q * 2 ^ 1074) by (unfold price in *; apply Z.mul_nonneg_nonneg; lia). assert (0 <= p * 2 ^ 1074) by (unfold price in *; apply Z.mul_nonneg_nonneg; lia).
  rewrite (Z.abs_eq (q * _)) in E1 by assumption. rewrite (Z.abs_eq (p * _)) in E2 by assumption. rewrite Z.mul_1_r in E1, E2, E3.
  pose proof (change_error (2 ^ 1074) p q (Z.max p q) (rd p) (rd q) (Z.max (rd p) (rd q)) c w ltac:(vm_compute; discriminate) ltac:(lia) ltac:(unfold price in *; lia)
    E1 E2 ltac:(lia) ltac:(lia) ltac:(lia) ltac:(lia) E3 E4) as K.
  change (2 ^ 1074) with (2 ^ 50 * 2 ^ 1024) in K at 2. rewrite (Z.mul_comm (2 ^ 50) (2 ^ 1024)), Z.mul_assoc, (Z.mul_comm _ (2 ^ 50)) in K.
  apply Z.mul_le_mono_pos_l in K; [exact K|reflexivity].
Qed.

(** ** maximum drawdown *)
(** the change from [m] to [p], as a fraction of [m] in units of 2^-1074, is [w] up to 2^-50 *)
Definition falls (m p w : Z) : Prop := Z.abs (w * m - (p - m) * 2 ^ 1074) <= m * 2 ^ 1024.

Lemma step_fin mx dd M v p : price M -> 0 < M -> price p -> fin mx (rd M) -> fin dd v ->
  exists w, fin (fst (drawdownStep (mx, dd) (f64_of_int p))) (rd (Z.max M p)) /\ fin (snd (drawdownStep (mx, dd) (f64_of_int p))) (Z.min v w)
    /\ - 2 ^ 1074 <= w <= 0 /\ falls (Z.max M p) p w /\ (M <= p -> w = 0).
Proof.
  intros PM HM Pp Hm Hd. destruct (price_fin p Pp) as [Fp Np]. unfold drawdownStep. cbn [fst snd].
  assert (price (Z.max M p)) as PX by (unfold price in *; lia). 
  assert (Z.max (rd M) (rd p) = rd (Z.max M p)) as EM.
  { unfold price in *. destruct (Z_le_dec M p) as [L|L].
    - rewrite (Z.max_r M p) by lia. apply Z.max_r. apply rd_mono; lia.
    - rewrite (Z.max_l M p) by lia. apply Z.max_l. apply rd_mono; lia. }
  pose proof (max_fin _ _ _ _ Hm Fp) as FX. rewrite EM in FX.
  destruct (change_of (Z.max M p) p _ _ PX Pp ltac:(lia) FX Fp) as (w & Fw & Hf & Hw & W1 & W2). exists w.
  rewrite (Z.max_l (Z.max M p) p) in Hf by lia. specialize (W1 ltac:(lia)).
  split; [exact FX|]. split; [now apply min_fin|]. split; [lia|]. split; [exact Hf|].
  intros L. rewrite Z.max_r in W2 by lia. specialize (W2 ltac:(lia)). lia.
Qed.

(** the highest price up to each point *)
Fixpoint highs (M : Z) (l : list Z) : list (Z * Z) :=
  match l with [] => [] | p :: l => (Z.max M p, p) :: highs (Z.max M p) l end.
Lemma fold_fin l : forall mx dd M v, price M -> 0 < M -> Forall price l -> fin mx (rd M) -> fin dd v -> - 2 ^ 1074 <= v <= 0 ->
  exists v', fin (snd (fold_left drawdownStep (map f64_of_int l) (mx, dd))) v' /\ - 2 ^ 1074 <= v' <= v
    /\ (forall m p, In (m, p) (highs M l) -> exists w, v' <= w /\ falls m p w)
    /\ (v' = v \/ exists m p, In (m, p) (highs M l) /\ falls m p v')
    /\ ((forall m p, In (m, p) (highs M l) -> m = p) -> v' = v).
Proof.
  induction l as [|p l IH]; intros mx dd M v PM HM PL Hm Hd Hv; cbn [map fold_left highs].
  - exists v. split; [exact Hd|]. split; [lia|]. split; [intros m q []|]. split; [now left|reflexivity].
  - inversion PL as [|? ? Pp PL']; subst. destruct (step_fin mx dd M v p PM HM Pp Hm Hd) as (w & F1 & F2 & Hw & Hf & Hz).
    destruct (drawdownStep (mx, dd) (f64_of_int p)) as [mx' dd']. cbn [fst snd] in F1, F2.
    destruct (IH mx' dd' (Z.max M p) (Z.min v w) ltac:(unfold price in *; lia) ltac:(lia) PL' F1 F2 ltac:(lia)) as (v' & G1 & G2 & G3 & G4 & G5).
    exists v'. split; [exact G1|]. split; [lia|]. split; [|split].
    + intros m q [E|I]; [|now apply G3]. injection E as <- <-. exists w. split; [lia|assumption].
    + destruct G4 as [->|(m & q & I & G4)].
      * destruct (Z_le_dec v w) as [L|L]; [left; lia|right]. exists (Z.max M p), p. split; [now left|]. rewrite Z.min_r by lia. exact Hf.
      * right. exists m, q. split; [now right|assumption].
    + intros Hall. rewrite G5 by (intros m q I; apply Hall; now right). specialize (Hall (Z.max M p) p (or_introl eq_refl)). rewrite Hz by lia. lia.
Qed.

(** a high is the first price or one of those before *)
Lemma highs_spec l : forall M m p, In (m, p) (highs M l) -> exists j, nth_error l j = Some p /\ M <= m /\
  (forall i q, (i <= j)%nat -> nth_error l i = Some q -> q <= m) /\ (m = M \/ exists i, (i <= j)%nat /\ nth_error l i = Some m).
Proof.
  induction l as [|x l IH]; intros M m p I; [destruct I|]. destruct I as [E|I].
  - injection E as <- <-. exists O. split; [reflexivity|]. split; [lia|]. split.
    + intros i q Hi Hq. assert (i = O) by lia. subst. injection Hq as <-. lia.
    + destruct (Z_le_dec x M); [left; lia|right]. exists O. split; [lia|]. rewrite Z.max_r by lia. reflexivity.
  - destruct (IH _ _ _ I) as (j & H1 & H2 & H3 & H4). exists (S j). split; [exact H1|]. split; [lia|]. split.
    + intros [|i] q Hi Hq; [injection Hq as <-; lia|]. apply (H3 i); [lia|exact Hq].
    + destruct H4 as [->|(i & Hi & H4)].
      * destruct (Z_le_dec x M); [left; lia|right]. exists O. split; [lia|]. rewrite Z.max_r by lia. reflexivity.
      * right. exists (S i). split; [lia|exact H4].
Qed.
Lemma highs_all l : forall M j p, nth_error l j = Some p -> exists m, In (m, p) (highs M l) /\ M <= m /\ (forall i q, (i <= j)%nat -> nth_error l i = Some q -> q <= m).
Proof.
  induction l as [|x l IH]; intros M [|j] p H; try discriminate.
  - injection H as <-. exists (Z.max M x). split; [now left|]. split; [lia|]. intros i q Hi Hq. assert (i = O) by lia. subst. injection Hq as <-. lia.
  - destruct (IH (Z.max M x) j p H) as (m & I & H1 & H2). exists m. split; [now right|]. split; [lia|].
    intros [|i] q Hi Hq; [injection Hq as <-; lia|]. apply (H2 i); [lia|exact Hq].
Qed.

Theorem drawdown_spec first rest : Forall price (first :: rest) -> 0 < first ->
  exists v, fin (calculateMaximumDrawdown (first :: rest)) v /\ - 2 ^ 1074 <= v <= 0
    /\ (forall i j p q, (i <= j)%nat -> nth_error (first :: rest) i = Some p -> nth_error (first :: rest) j = Some q -> v * p <= (q - p) * 2 ^ 1074 + p * 2 ^ 1024)
    /\ (exists i j p q, (i <= j)%nat /\ nth_error (first :: rest) i = Some p /\ nth_error (first :: rest) j = Some q /\ 0 < p /\ (q - p) * 2 ^ 1074 - p * 2 ^ 1024 <= v * p)
    /\ ((forall i p q, nth_error (first :: rest) i = Some p -> nth_error (first :: rest) (S i) = Some q -> p <= q) -> v = 0).
Proof.
  intros PL Hf. assert (price first) as PF by now inversion PL.
  assert (exists v, fin (snd (fold_left drawdownStep (map f64_of_int (first :: rest)) (f64_of_int first, f64_zero))) v /\ - 2 ^ 1074 <= v <= 0
    /\ (forall m p, In (m, p) (highs first (first :: rest)) -> exists w, v <= w /\ falls m p w)
    /\ (v = 0 \/ exists m p, In (m, p) (highs first (first :: rest)) /\ falls m p v)
    /\ ((forall m p, In (m, p) (highs first (first :: rest)) -> m = p) -> v = 0)) as (v & F & B & G1 & G2 & G3).
  { destruct (price_fin first PF) as [Ff _].
    apply fold_fin; try assumption; [reflexivity|]. split; [vm_compute; discriminate|lia]. }
  assert (fin (calculateMaximumDrawdown (first :: rest)) v) as F'.
  { destruct rest as [|x rest]; [|exact F]. cbn [calculateMaximumDrawdown fin f64_zero]. apply G3. intros m p [E|[]]. injection E as <- <-. lia. }
  exists v. split; [exact F'|]. split; [exact B|]. split; [|split].
  - intros i j p q Hij Hi Hj. destruct (highs_all _ first j q Hj) as (m & I & Hm & Hall). destruct (G1 m q I) as (w & L & Hw).
    specialize (Hall i p Hij Hi). unfold falls in Hw. rewrite Forall_forall in PL. pose proof (PL p (nth_error_In _ _ Hi)) as Pp. pose proof (PL q (nth_error_In _ _ Hj)) as Pq. unfold price in *.
    assert (v * m <= (q - m) * 2 ^ 1074 + m * 2 ^ 1024) as K. { assert (v * m <= w * m) by (apply Z.mul_le_mono_nonneg_r; lia). lia. }
    apply (Z.mul_le_mono_pos_r _ _ m); [lia|]. assert (p * (v * m) <= p * ((q - m) * 2 ^ 1074 + m * 2 ^ 1024)) as K2 by (apply Z.mul_le_mono_nonneg_l; lia).
    assert (p * q * 2 ^ 1074 <= m * q * 2 ^ 1074) as K3 by (apply Z.mul_le_mono_nonneg_r; [lia|]; apply Z.mul_le_mono_nonneg_r; lia).
    replace (v * p * m) with (p * (v * m)) by ring.
    replace (((q - p) * 2 ^ 1074 + p * 2 ^ 1024) * m) with (m * q * 2 ^ 1074 - p * m * 2 ^ 1074 + p * m * 2 ^ 1024) by ring.
    replace (p * ((q - m) * 2 ^ 1074 + m * 2 ^ 1024)) with (p * q * 2 ^ 1074 - p * m * 2 ^ 1074 + p * m * 2 ^ 1024) in K2 by ring. lia.
  - destruct G2 as [->|(m & p & I & G2)].
    + exists O, O, first, first. split; [lia|]. split; [reflexivity|]. split; [reflexivity|]. split; [assumption|]. lia.
    + destruct (highs_spec _ _ _ _ I) as (j & Hj & Hm & _ & [->|(i & Hij & Hi)]).
      * exists O, j, first, p. split; [lia|]. split; [reflexivity|]. split; [assumption|]. split; [assumption|]. unfold falls in G2. lia.
      * exists i, j, m, p. split; [assumption|]. split; [assumption|]. split; [assumption|]. split; [lia|]. unfold falls in G2. lia.
  - intros Hmono. apply G3. intros m p I. destruct (highs_spec _ _ _ _ I) as (j & Hj & Hm & Hall & Hor).
    assert (forall j i a b, (i <= j)%nat -> nth_error (first :: rest) i = Some a -> nth_error (first :: rest) j = Some b -> a <= b) as Mono.
    { clear - Hmono. induction j as [|j IH]; intros i a b Hij Ha Hb; [assert (i = O) by lia; subst; rewrite Ha in Hb; injection Hb as <-; lia|].
      destruct (Nat.eq_dec i (S j)) as [->|]; [rewrite Ha in Hb; injection Hb as <-; lia|].
      assert (exists c, nth_error (first :: rest) j = Some c) as [c E].
      { assert (S j < length (first :: rest))%nat as L by (apply nth_error_Some; rewrite Hb; discriminate).
        assert (nth_error (first :: rest) j <> None) as NN by (apply nth_error_Some; lia). destruct (nth_error (first :: rest) j) as [c|]; [now exists c|contradiction]. }
      apply Z.le_trans with c; [apply (IH i); (assumption || lia)|]. now apply (Hmono j). }
    specialize (Hall j p ltac:(lia) Hj). destruct Hor as [->|(i & Hij & Hi)].
    + pose proof (Mono j O first p ltac:(lia) eq_refl Hj). lia.
    + pose proof (Mono j i m p Hij Hi Hj). lia.
Qed.
