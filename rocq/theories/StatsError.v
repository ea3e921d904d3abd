(** StatsError.v -- rounding errors of the deviations *)
From Coq Require Import Floats.SpecFloat Lia ZifyBool.
From Verif Require Import Base Float64 Float64Facts FloatSpec Prices Stats StatsFacts StatsRisk.
Ltac Zify.zify_post_hook ::= idtac.
Open Scope Z_scope.
Local Ltac lia := first [solve [drop_pow; Lia.lia] | solve [hide_pow; Lia.lia] | Lia.lia].

(** ** rounding an integer number of units *)
Lemma repr_small v : Z.abs v <= 2 ^ 53 -> repr v.
Proof.
  intros H. destruct (Z.eq_dec v (2 ^ 53)) as [->|]; [apply (repr_pow 53); lia|]. destruct (Z.eq_dec v (- 2 ^ 53)) as [->|]; [apply repr_opp, (repr_pow 53); lia|].
  exists v, 0. split; [change (2 ^ 0) with 1; ring|]. lia.
Qed.
Lemma near_error_int N v : near N 1 v -> 2 ^ 53 * Z.abs (v - N) <= Z.abs N.
Proof.
  assert (forall N v, 0 <= N -> near N 1 v -> 2 ^ 53 * Z.abs (v - N) <= N) as K.
  { clear. intros N v HN H. destruct (Z_le_dec N (2 ^ 53)) as [L|L].
    - rewrite (near_exact N 1 v Z.lt_0_1 H N (repr_small N ltac:(lia)) ltac:(lia)). replace (N - N) with 0 by ring. cbn. lia.
    - destruct H as [_ H]. set (k := Z.log2 N - 52). pose proof (Z.log2_spec N ltac:(lia)) as HL. assert (53 <= Z.log2 N) as HL2 by (apply Z.log2_le_pow2; lia).
      assert (0 <= k) as Hk by (unfold k; lia). set (P := 2 ^ k). assert (0 < P) as HP by (apply Z.pow_pos_nonneg; lia).
      assert (2 ^ 52 * P <= N) as HL3. { unfold P. rewrite <- Z.pow_add_r by lia. replace (52 + k) with (Z.log2 N) by (unfold k; lia). lia. }
      assert (N < 2 ^ 53 * P) as HU. { unfold P. rewrite <- Z.pow_add_r by lia. replace (53 + k) with (Z.succ (Z.log2 N)) by (unfold k; lia). lia. }
      set (w := (2 * N + P) / (2 * P)). pose proof (half_up N P HP) as HH. fold w in HH.
      assert (repr (w * P)) as Hw.
      { assert (0 <= w <= 2 ^ 53) as Hw. { split; [apply Z.div_pos; lia|]. assert (w < 2 ^ 53 + 1); [|lia]. apply Z.div_lt_upper_bound; lia. }
        destruct (Z.eq_dec w (2 ^ 53)) as [->|]; [unfold P; rewrite <- Z.pow_add_r by lia; apply repr_pow; lia|]. exists w, k. split; [reflexivity|]. lia. }
      specialize (H (w * P) Hw). rewrite !Z.mul_1_r in H. generalize dependent (w * P). intros. lia. }
  intros H. destruct (Z_le_dec 0 N) as [HN|HN].
  - rewrite (Z.abs_eq N) by lia. now apply K.
  - apply near_opp in H. pose proof (K (- N) (- v) ltac:(lia) H). lia.
Qed.

(** ** square root *)
Lemma sqrt_near x a : fin x a -> 0 <= a -> exists w, fin (f64_sqrt x) w /\ 0 <= w /\ 2 ^ 48 * Z.abs (w * w - a * 2 ^ 1074) <= a * 2 ^ 1074.
Proof.
  intros Hx Hv. unfold f64_sqrt. destruct x as [s|s| |s m e]; try contradiction; cbn [SFsqrt].
  - cbn [fin] in Hx. subst a. exists 0. split; [reflexivity|]. split; [lia|]. cbn. lia.
  - destruct Hx as [-> HB]. pose proof (finite_pos _ _ HB) as HP. pose proof (bounded_inv _ _ HB) as (He & Hm & _).
    destruct s; cbn [neg] in Hv; [lia|]. cbn [SFsqrt neg]. unfold SFsqrt_core_binary.
    set (e1 := Z.min (fexp 53 1024 (Z.div2 (Zdigits2 (Zpos m) + e + 1))) (Z.div2 e)).
    assert (2 * e1 <= e) as H1. { unfold e1. rewrite Z.div2_div with (a := e). pose proof (Z.mul_div_le e 2 ltac:(lia)). lia. }
    assert (match e - 2 * e1 with Zpos _ => Z.shiftl (Zpos m) (e - 2 * e1) | Z0 => Zpos m | Zneg _ => 0 end = Zpos m * 2 ^ (e - 2 * e1)) as ->.
    { destruct (e - 2 * e1) eqn:ED; [change (2 ^ 0) with 1; lia| |lia]. rewrite Z.shiftl_mul_pow2 by lia. reflexivity. }
    set (n := Zpos m * 2 ^ (e - 2 * e1)). assert (0 < n) as Hn by (apply Z.mul_pos_pos; [lia|apply Z.pow_pos_nonneg; lia]).
    destruct (Z.sqrtrem n) as [q r] eqn:ES. pose proof (Z.sqrtrem_spec n ltac:(lia)) as HS. rewrite ES in HS. destruct HS as [HS Hr].
    assert (q = Z.sqrt n) as Hq by (rewrite <- Z.sqrtrem_sqrt, ES; reflexivity).
    assert (Zdigits2 (Zpos m) = Z.log2 (Zpos m) + 1) as DM by apply digits_log2. pose proof (Z.log2_nonneg (Zpos m)) as LM.
    assert (Z.log2 (Zpos m) < 53) as LM2 by (apply Z.log2_lt_pow2; lia).
    set (t := Z.div2 (Zdigits2 (Zpos m) + e + 1)) in *.
    assert (-537 <= t <= 512) as Ht.
    { unfold t. rewrite Z.div2_div. pose proof (Z.mul_div_le (Zdigits2 (Zpos m) + e + 1) 2 ltac:(lia)). pose proof (Z.mul_succ_div_gt (Zdigits2 (Zpos m) + e + 1) 2 ltac:(lia)). lia. }
    assert (-590 <= e1 <= t - 53) as He1.
    { unfold e1. rewrite Z.div2_div with (a := e). pose proof (Z.mul_succ_div_gt e 2 ltac:(lia)). unfold fexp, emin. lia. }
    assert (Zdigits2 q + e1 = t) as HD.
    { rewrite Hq, sqrt_digits by assumption. unfold t. rewrite Z.div2_div. assert (Zdigits2 n = Zdigits2 (Zpos m) + (e - 2 * e1)) as ->.
      { unfold n. rewrite digits_log2. destruct (Zpos m * 2 ^ (e - 2 * e1)) as [|p|p] eqn:EP; [unfold n in Hn; lia| |unfold n in Hn; lia].
        rewrite digits_log2, <- EP, Z.log2_mul_pow2 by lia. lia. }
      replace (Zdigits2 (Zpos m) + (e - 2 * e1) + 1) with (Zdigits2 (Zpos m) + e + 1 + (- e1) * 2) by ring. rewrite Z.div_add by lia. ring. }
    set (l := if Zeq_bool r 0 then loc_Exact else loc_Inexact (if Zle_bool r q then Lt else Gt)).
    assert (exists r4, 0 <= r4 < 4 /\ loc_ok l 4 r4) as (r4 & Hr4 & Hl).
    { unfold l. destruct (Zeq_bool r 0); [exists 0; cbn; lia|]. destruct (Zle_bool r q); [exists 1|exists 3]; cbn; lia. }
    assert (2 ^ 52 <= q) as Hq52.
    { destruct q as [|p|p]; [|rewrite digits_log2 in HD|]; [exfalso; change (Zdigits2 0) with 0 in HD; lia| |exfalso; rewrite Hq in *; pose proof (Z.sqrt_nonneg n); lia].
      apply Z.le_trans with (2 ^ Z.log2 (Zpos p)); [apply Z.pow_le_mono_r; lia|]. apply Z.log2_spec. lia. }
    assert (q < 2 ^ (t - e1)) as HqU.
    { destruct q as [|p|p]; try lia. rewrite digits_log2 in HD. replace (t - e1) with (Z.succ (Z.log2 (Zpos p))) by lia. apply Z.log2_spec. lia. }
    pose proof (round_near false q e1 l 4 r4 0 ltac:(lia) Hr4 Hl ltac:(lia) ltac:(lia) ltac:(lia) ltac:(rewrite HD; unfold e1; lia)) as (w & HN & HF).
    cbn [neg] in HN. change (4 * 2 ^ 0) with 4 in HN. rewrite Z.add_0_r in HN. set (P := 2 ^ (e1 + 1074)) in *.
    assert (2 ^ 480 <= P) as HP480 by (apply Z.pow_le_mono_r; lia).
    assert (0 <= w) as Hw. { refine (near_ge _ _ _ _ _ HN repr_0 _); [lia|]. apply Z.mul_nonneg_nonneg; lia. }
    assert ((q + 1) * P <= 2 ^ 1600) as HU.
    { apply Z.le_trans with (2 ^ (t - e1) * 2 ^ (e1 + 1074)); [apply Z.mul_le_mono_nonneg_r; lia|]. rewrite <- Z.pow_add_r by lia. apply Z.pow_le_mono_r; lia. }
    exists w. split; [|split; [exact Hw|]].
    + apply HF. rewrite Z.abs_eq by assumption. apply Z.le_lt_trans with (2 ^ 1600); [|reflexivity].
      refine (near_le _ _ _ _ _ HN (repr_pow 1600 _) _); [lia|lia|]. apply Z.le_trans with (4 * ((q + 1) * P)); [|lia].
      rewrite Z.mul_assoc. apply Z.mul_le_mono_nonneg_r; lia.
    + pose proof (near_error _ _ _ (eq_refl : 0 < 4) HN) as E4.
      assert (Zpos m * 2 ^ (e + 1074) * 2 ^ 1074 = n * (P * P)) as ->.
      { unfold n, P. rewrite <- !Z.mul_assoc, <- !Z.pow_add_r by lia. f_equal. f_equal. lia. }
      set (X := q * P). assert (2 ^ 52 * P <= X) as HX by (apply Z.mul_le_mono_nonneg_r; lia).
      assert (0 <= r4 * P <= 3 * P) as HrP by (split; [apply Z.mul_nonneg_nonneg; lia|apply Z.mul_le_mono_nonneg_r; lia]).
      replace ((q * 4 + r4) * P) with (4 * X + r4 * P) in E4 by (unfold X; ring).
      assert (2 ^ 50 * Z.abs (w - X) <= X) as HE.
      { generalize dependent (r4 * P). intros rp. clear - HP480 HX. intros E4 HrP. assert (2 ^ 60 <= P) by (apply Z.le_trans with (2 ^ 480); [vm_compute; discriminate|assumption]). clear HP480. lia. }
      assert (n * (P * P) = X * X + r * (P * P)) as EN by (rewrite HS; unfold X; ring).
      assert (0 <= r * (P * P)) as R0 by (apply Z.mul_nonneg_nonneg; [lia|apply Z.mul_nonneg_nonneg; lia]).
      assert (2 ^ 51 * (r * (P * P)) <= X * X) as R1.
      { apply Z.le_trans with (2 ^ 51 * ((2 * q) * (P * P))).
        - apply Z.mul_le_mono_nonneg_l; [lia|]. apply Z.mul_le_mono_nonneg_r; [apply Z.mul_nonneg_nonneg; lia|lia].
        - replace (2 ^ 51 * (2 * q * (P * P))) with (X * (2 ^ 52 * P)) by (unfold X; ring). apply Z.mul_le_mono_nonneg_l; lia. }
      rewrite EN. set (E := w - X) in *. replace (w * w) with (X * X + 2 * (E * X) + E * E) by (unfold E; ring).
      assert (2 ^ 50 * Z.abs (E * X) <= X * X) as EX.
      { rewrite Z.abs_mul, (Z.abs_eq X) by lia. rewrite Z.mul_assoc. apply Z.mul_le_mono_nonneg_r; lia. }
      assert (2 ^ 50 * (E * E) <= Z.abs (E * X)) as EE.
      { rewrite <- Z.abs_square, Z.abs_mul, (Z.abs_eq X) by lia. replace (2 ^ 50 * (Z.abs E * Z.abs E)) with (Z.abs E * (2 ^ 50 * Z.abs E)) by ring. apply Z.mul_le_mono_nonneg_l; lia. }
      assert (0 <= E * E) by apply Z.square_nonneg.
      clear - EX EE R0 R1 H. revert EX EE R0 R1 H. generalize (E * X) (E * E) (r * (P * P)) (X * X). intros. lia.
Qed.

(** ** sums *)
Definition total (f : Z -> Z) (l : list spec_float) : Z := fold_right (fun x s => f (val x) + s) 0 l.
Definition squares : list spec_float -> Z := total (fun r => r * r).
Definition sums : list spec_float -> Z := total (fun r => r).
Definition abses : list spec_float -> Z := total Z.abs.
Lemma squares_cons r l : squares (r :: l) = val r * val r + squares l.
Proof. reflexivity. Qed.
Lemma sums_cons r l : sums (r :: l) = val r + sums l.
Proof. reflexivity. Qed.
Lemma abses_cons r l : abses (r :: l) = Z.abs (val r) + abses l.
Proof. reflexivity. Qed.
Lemma squares_nonneg l : 0 <= squares l.
Proof. induction l as [|x l IH]; cbn [squares total fold_right]; [lia|]. fold squares. pose proof (Z.square_nonneg (val x)). unfold squares, total in IH. lia. Qed.

Lemma square_near x r : fin x r -> Z.abs r < 2 ^ 1084 -> exists s, fin (f64_mul x x) s /\ 0 <= s <= 2 ^ 1094 /\ 2 ^ 53 * Z.abs (s * 2 ^ 1074 - r * r) <= r * r + 2 ^ 52 * 2 ^ 1074.
Proof.
  intros Hx Hr. destruct (square_fin x r Hx Hr) as (s & Fs & Hs). exists s. split; [exact Fs|]. split; [exact Hs|].
  destruct (mul_near x x r r Hx Hx) as (s' & Ns & Fs').
  assert (s' = s) as ->.
  { assert (fin (f64_mul x x) s') as F.
    { apply Fs'. assert (0 <= s') as S0 by (refine (near_ge _ _ _ _ _ Ns repr_0 _); [lia|]; rewrite Z.mul_0_l; apply Z.square_nonneg).
      rewrite Z.abs_eq by assumption. apply Z.le_lt_trans with (2 ^ 1094); [|reflexivity].
      refine (near_le _ _ _ _ _ Ns (repr_pow 1094 _) _); [lia|lia|]. rewrite <- Z.abs_square. change (2 ^ 1094 * 2 ^ 1074) with (2 ^ 1084 * 2 ^ 1084). apply Z.mul_le_mono_nonneg; lia. }
    rewrite (fin_val _ _ F). symmetry. apply fin_val. exact Fs. }
  pose proof (near_error _ _ _ (eq_refl : 0 < 2 ^ 1074) Ns) as E. rewrite (Z.abs_eq (r * r)) in E by apply Z.square_nonneg. exact E.
Qed.
Lemma add_value x y a b c : fin x a -> fin y b -> fin (f64_add x y) c -> Z.abs (a + b) < 2 ^ 2097 -> 2 ^ 53 * Z.abs (c - (a + b)) <= Z.abs (a + b).
Proof.
  intros Hx Hy Hc B. destruct (add_near x y a b Hx Hy) as (c' & Nc & Fc).
  assert (fin (f64_add x y) c') as F.
  { apply Fc. apply Z.le_lt_trans with (2 ^ 2097); [|reflexivity].
    apply Z.abs_le. split; [refine (near_ge _ _ _ _ _ Nc (repr_opp _ (repr_pow 2097 _)) _)|refine (near_le _ _ _ _ _ Nc (repr_pow 2097 _) _)]; lia. }
  rewrite (fin_val _ _ Hc), <- (fin_val _ _ F). exact (near_error_int _ _ Nc).
Qed.
(** one more square *)
Lemma squares_step U k a s c Q r2 : 0 <= k <= 2 ^ 40 -> 0 < U -> 0 <= Q -> 0 <= r2 -> 0 <= a -> 0 <= s ->
  2 ^ 53 * Z.abs (a * U - Q) <= 3 * k * Q + 2 ^ 53 * k * U -> 2 ^ 53 * Z.abs (s * U - r2) <= r2 + 2 ^ 52 * U -> 2 ^ 53 * Z.abs (c - (a + s)) <= Z.abs (a + s) ->
  2 ^ 53 * Z.abs (c * U - (Q + r2)) <= 3 * (k + 1) * (Q + r2) + 2 ^ 53 * (k + 1) * U.
Proof.
  intros Hk HU HQ Hr Ha Hs H1 H2 H3.
  assert (2 ^ 53 * Z.abs (c * U - a * U - s * U) <= a * U + s * U) as H3'.
  { replace (c * U - a * U - s * U) with ((c - (a + s)) * U) by ring. rewrite Z.abs_mul, (Z.abs_eq U) by lia. rewrite Z.mul_assoc, <- Z.mul_add_distr_r. apply Z.mul_le_mono_nonneg_r; lia. }
  assert (0 <= k * Q <= 2 ^ 40 * Q) as HP by (split; [apply Z.mul_nonneg_nonneg|apply Z.mul_le_mono_nonneg_r]; lia).
  assert (0 <= k * U <= 2 ^ 40 * U) as HW by (split; [apply Z.mul_nonneg_nonneg|apply Z.mul_le_mono_nonneg_r]; lia).
  assert (0 <= k * r2) as HR by (apply Z.mul_nonneg_nonneg; lia).
  replace (3 * (k + 1) * (Q + r2) + 2 ^ 53 * (k + 1) * U) with (3 * (k * Q) + 3 * (k * r2) + 3 * Q + 3 * r2 + 2 ^ 53 * (k * U) + 2 ^ 53 * U) by ring.
  replace (3 * k * Q + 2 ^ 53 * k * U) with (3 * (k * Q) + 2 ^ 53 * (k * U)) in H1 by ring.
  clear H3. generalize dependent (c * U). generalize dependent (a * U). generalize dependent (s * U). generalize dependent (k * Q). generalize dependent (k * U). generalize dependent (k * r2). intros. lia.
Qed.
Lemma squares_error l : forall x a k Q, Forall bounded_return l -> fin x a -> 0 <= a <= k * 2 ^ 1094 -> 0 <= Q -> 0 <= k -> k + Z.of_nat (length l) < 2 ^ 40 ->
  2 ^ 53 * Z.abs (a * 2 ^ 1074 - Q) <= 3 * k * Q + 2 ^ 53 * k * 2 ^ 1074 ->
  exists s, fin (fold_left (fun sum r => f64_add sum (f64_mul r r)) l x) s /\ 0 <= s <= (k + Z.of_nat (length l)) * 2 ^ 1094 /\
    2 ^ 53 * Z.abs (s * 2 ^ 1074 - (Q + squares l)) <= 3 * (k + Z.of_nat (length l)) * (Q + squares l) + 2 ^ 53 * (k + Z.of_nat (length l)) * 2 ^ 1074.
Proof.
  induction l as [|r l IH]; intros x a k Q HL Hx Ha HQ Hk Hlen HE; cbn [fold_left length].
  - exists a. rewrite Z.add_0_r. split; [assumption|]. split; [assumption|]. change (squares []) with 0. rewrite Z.add_0_r. exact HE.
  - inversion HL as [|? ? Hr HL']; subst. cbn [length] in Hlen. rewrite Nat2Z.inj_succ in *.
    destruct Hr as (v & Fv & Hv). destruct (square_near r v Fv Hv) as (s & Fs & Hs & Es).
    destruct (sum_step x _ a s k 1094 Hx Fs Hk ltac:(lia) ltac:(lia) ltac:(lia) ltac:(lia)) as (c & Fc & Hc & Hc0). specialize (Hc0 ltac:(lia)).
    assert (Z.abs (a + s) < 2 ^ 2097) as B.
    { apply Z.le_lt_trans with (2 ^ 40 * 2 ^ 1094 + 2 ^ 1094); [|reflexivity]. assert (k * 2 ^ 1094 <= 2 ^ 40 * 2 ^ 1094) by (apply Z.mul_le_mono_nonneg_r; lia). lia. }
    pose proof (add_value _ _ _ _ _ Hx Fs Fc B) as Ec.
    pose proof (squares_step (2 ^ 1074) k a s c Q (v * v) ltac:(lia) eq_refl HQ (Z.square_nonneg v) ltac:(lia) ltac:(lia) HE Es Ec) as E'.
    destruct (IH _ c (k + 1) (Q + v * v) HL' Fc ltac:(lia) ltac:(pose proof (Z.square_nonneg v); lia) ltac:(lia) ltac:(lia) E') as (s' & F' & H' & E2).
    exists s'. split; [exact F'|]. replace (k + Z.succ (Z.of_nat (length l))) with (k + 1 + Z.of_nat (length l)) by lia. split; [exact H'|].
    replace (Q + squares (r :: l)) with (Q + v * v + squares l); [exact E2|]. rewrite squares_cons, <- (fin_val _ _ Fv). ring.
Qed.
Lemma sums_error l : forall x a k T A, Forall bounded_return l -> fin x a -> Z.abs a <= k * 2 ^ 1084 -> Z.abs T <= A -> 0 <= k -> k + Z.of_nat (length l) < 2 ^ 40 ->
  2 ^ 53 * Z.abs (a - T) <= 2 * k * A ->
  exists s, fin (fold_left f64_add l x) s /\ Z.abs s <= (k + Z.of_nat (length l)) * 2 ^ 1084 /\
    2 ^ 53 * Z.abs (s - (T + sums l)) <= 2 * (k + Z.of_nat (length l)) * (A + abses l) /\ Z.abs (T + sums l) <= A + abses l.
Proof.
  induction l as [|r l IH]; intros x a k T A HL Hx Ha HT Hk Hlen HE; cbn [fold_left length].
  - exists a. rewrite Z.add_0_r. split; [assumption|]. split; [assumption|]. change (sums []) with 0. change (abses []) with 0. rewrite !Z.add_0_r. split; assumption.
  - inversion HL as [|? ? Hr HL']; subst. cbn [length] in Hlen. rewrite Nat2Z.inj_succ in *. destruct Hr as (v & Fv & Hv).
    destruct (sum_step x _ a v k 1084 Hx Fv Hk ltac:(lia) ltac:(lia) Ha ltac:(lia)) as (c & Fc & Hc & _).
    assert (Z.abs (a + v) < 2 ^ 2097) as B.
    { apply Z.le_lt_trans with (2 ^ 40 * 2 ^ 1084 + 2 ^ 1084); [|reflexivity]. assert (k * 2 ^ 1084 <= 2 ^ 40 * 2 ^ 1084) by (apply Z.mul_le_mono_nonneg_r; lia). lia. }
    pose proof (add_value _ _ _ _ _ Hx Fv Fc B) as Ec.
    assert (2 ^ 53 * Z.abs (c - (T + v)) <= 2 * (k + 1) * (A + Z.abs v)) as E'.
    { assert (0 <= k * A <= 2 ^ 40 * A) as HP by (split; [apply Z.mul_nonneg_nonneg|apply Z.mul_le_mono_nonneg_r]; lia).
      assert (0 <= k * Z.abs v) by (apply Z.mul_nonneg_nonneg; lia).
      replace (2 * (k + 1) * (A + Z.abs v)) with (2 * (k * A) + 2 * (k * Z.abs v) + 2 * A + 2 * Z.abs v) by ring. replace (2 * k * A) with (2 * (k * A)) in HE by ring.
      clear - Ec HE HT HP H. generalize dependent (k * Z.abs v). generalize dependent (k * A). intros. lia. }
    destruct (IH _ c (k + 1) (T + v) (A + Z.abs v) HL' Fc Hc ltac:(lia) ltac:(lia) ltac:(lia) E') as (s' & F' & H' & E2 & E3).
    exists s'. split; [exact F'|]. replace (k + Z.succ (Z.of_nat (length l))) with (k + 1 + Z.of_nat (length l)) by lia. split; [exact H'|].
    replace (T + sums (r :: l)) with (T + v + sums l) by (rewrite sums_cons, <- (fin_val _ _ Fv); ring).
    replace (A + abses (r :: l)) with (A + Z.abs v + abses l) by (rewrite abses_cons, <- (fin_val _ _ Fv); ring).
    split; assumption.
Qed.
(** (|r1| + ... + |rn|)^2 <= n * (r1^2 + ... + rn^2) *)
Lemma abses_nonneg l : 0 <= abses l.
Proof. unfold abses. induction l as [|x l IH]; cbn [total fold_right]; [lia|]. unfold total in IH. lia. Qed.
Lemma cross l r : 2 * (abses l * r) <= squares l + Z.of_nat (length l) * (r * r).
Proof.
  induction l as [|x l IH]; [cbn; lia|]. cbn [length]. rewrite Nat2Z.inj_succ. rewrite abses_cons, squares_cons.
  pose proof (Z.square_nonneg (Z.abs (val x) - r)) as K. replace ((Z.abs (val x) - r) * (Z.abs (val x) - r)) with (Z.abs (val x) * Z.abs (val x) - 2 * (Z.abs (val x) * r) + r * r) in K by ring. rewrite Z.abs_square in K.
  replace (2 * ((Z.abs (val x) + abses l) * r)) with (2 * (Z.abs (val x) * r) + 2 * (abses l * r)) by ring. rewrite Z.mul_succ_l.
  generalize dependent (Z.abs (val x) * r). generalize dependent (abses l * r). generalize dependent (val x * val x). generalize dependent (Z.of_nat (length l) * (r * r)). generalize (r * r). intros. lia.
Qed.
Lemma cauchy l : abses l * abses l <= Z.of_nat (length l) * squares l.
Proof.
  induction l as [|x l IH]; [cbn; lia|]. cbn [length]. rewrite Nat2Z.inj_succ. pose proof (cross l (Z.abs (val x))) as C. rewrite Z.abs_square in C. rewrite abses_cons, squares_cons.
  replace ((Z.abs (val x) + abses l) * (Z.abs (val x) + abses l)) with (Z.abs (val x) * Z.abs (val x) + 2 * (abses l * Z.abs (val x)) + abses l * abses l) by ring. rewrite Z.abs_square.
  rewrite Z.mul_succ_l, Z.mul_add_distr_l.
  generalize dependent (abses l * Z.abs (val x)). generalize dependent (abses l * abses l). generalize dependent (Z.of_nat (length l) * (val x * val x)). generalize dependent (Z.of_nat (length l) * squares l). generalize (val x * val x). intros. lia.
Qed.

(** ** quotients *)
Lemma rd_exact n : 0 < n <= 2 ^ 53 -> rd n = n * 2 ^ 1074.
Proof.
  intros H. destruct (price_fin n ltac:(unfold price; split; [lia|apply Z.le_lt_trans with (2 ^ 53); [lia|reflexivity]])) as [_ N].
  apply (near_exact _ _ _ Z.lt_0_1 N); [|ring].
  destruct (Z.eq_dec n (2 ^ 53)) as [->|]; [change (2 ^ 53 * 2 ^ 1074) with (2 ^ 1127); apply repr_pow; lia|]. exists n, 1074. split; [reflexivity|]. lia.
Qed.
Lemma quotient_near x a n k : fin x a -> 0 < n < 2 ^ 64 -> 0 <= a <= 2 ^ k -> 0 <= k <= 2000 ->
  exists v, fin (f64_div x (f64_of_int n)) v /\ 0 <= v <= 2 ^ k /\ 2 ^ 53 * Z.abs (v * rd n - a * 2 ^ 1074) <= a * 2 ^ 1074 + 2 ^ 52 * rd n.
Proof.
  intros Hx Hn Ha Hk. destruct (quotient_fin x a n k Hx Hn Ha Hk) as (v & Fv & Hv & _). exists v. split; [exact Fv|]. split; [exact Hv|].
  assert (n < 2 ^ 256) as Hn2 by (apply Z.lt_le_trans with (2 ^ 64); [lia|vm_compute; discriminate]).
  destruct (price_fin n ltac:(unfold price; lia)) as [Fn _]. pose proof (rd_pos n ltac:(lia)) as Ln.
  assert (0 < rd n) as Hn0 by (apply Z.lt_le_trans with (2 ^ 1074); [reflexivity|assumption]).
  destruct (div_near' _ _ _ _ Hx Fn ltac:(lia)) as (v' & Nv & Fv'). rewrite Z.sgn_pos, Z.mul_1_l, Z.abs_eq in Nv by lia.
  assert (0 <= v') as V0 by (refine (near_ge _ _ _ _ _ Nv repr_0 _); [lia|]; rewrite Z.mul_0_l; apply Z.mul_nonneg_nonneg; lia).
  assert (v' <= 2 ^ k) as V1 by (refine (near_le _ _ _ _ _ Nv (repr_pow k _) _); [lia|lia|]; apply Z.mul_le_mono_nonneg; lia).
  assert (fin (f64_div x (f64_of_int n)) v') as F'. { apply Fv'. rewrite Z.abs_eq by assumption. eapply Z.le_lt_trans; [exact V1|]. apply Z.pow_lt_mono_r; lia. }
  assert (v' = v) as -> by (rewrite (fin_val _ _ F'); symmetry; now apply fin_val).
  pose proof (near_error _ _ _ Hn0 Nv) as E. rewrite (Z.abs_eq (a * _)) in E by (apply Z.mul_nonneg_nonneg; lia). exact E.
Qed.
(** by an exactly represented number *)
Lemma quotient_error U Q n a v k : 0 < n < 2 ^ 40 -> 0 < U -> 0 <= Q -> 0 <= a -> 0 <= k <= 2 * n ->
  2 ^ 53 * Z.abs (a * U - Q) <= 3 * k * Q + 2 ^ 53 * k * U -> 2 ^ 53 * Z.abs (v * (n * U) - a * U) <= a * U + 2 ^ 52 * (n * U) ->
  2 ^ 53 * Z.abs (v * n * U - Q) <= (3 * k + 2) * Q + 2 ^ 53 * (k + n) * U.
Proof.
  intros Hn HU HQ Ha Hk H1 H2.
  assert (0 <= k * Q <= 2 ^ 41 * Q) as HP by (split; [apply Z.mul_nonneg_nonneg|apply Z.mul_le_mono_nonneg_r]; lia).
  assert (0 <= k * U <= 2 * (n * U)) as HW by (split; [apply Z.mul_nonneg_nonneg; lia|rewrite Z.mul_assoc; apply Z.mul_le_mono_nonneg_r; lia]).
  replace (v * n * U) with (v * (n * U)) by ring. replace ((3 * k + 2) * Q + 2 ^ 53 * (k + n) * U) with (3 * (k * Q) + 2 * Q + 2 ^ 53 * (k * U) + 2 ^ 53 * (n * U)) by ring.
  replace (3 * k * Q + 2 ^ 53 * k * U) with (3 * (k * Q) + 2 ^ 53 * (k * U)) in H1 by ring.
  assert (0 <= a * U) by (apply Z.mul_nonneg_nonneg; lia). assert (0 <= n * U) by (apply Z.mul_nonneg_nonneg; lia).
  generalize dependent (v * (n * U)). generalize dependent (a * U). generalize dependent (k * Q). generalize dependent (k * U). generalize dependent (n * U). intros. lia.
Qed.

(** ** down deviation *)
Lemma fold_pick (pick : spec_float -> bool) l : forall x,
  fold_left (fun sum r => if pick r then f64_add sum (f64_mul r r) else sum) l x = fold_left (fun sum r => f64_add sum (f64_mul r r)) (filter pick l) x.
Proof. induction l as [|r l IH]; intros x; [reflexivity|]. cbn [fold_left filter]. rewrite IH. destruct (pick r); reflexivity. Qed.
Lemma filter_ext_in' (f g : spec_float -> bool) l : (forall x, In x l -> f x = g x) -> filter f l = filter g l.
Proof. exact (@filter_ext_in spec_float f g l). Qed.
Lemma filter_length_le' (f : spec_float -> bool) l : (length (filter f l) <= length l)%nat.
Proof. induction l as [|x l IH]; cbn [filter]; [lia|]. destruct (f x); cbn [length]; lia. Qed.
Definition losses (l : list spec_float) : list spec_float := filter (fun r => val r <? 0) l.

Lemma down_core U n k Q q w : 2 <= n -> 0 <= k <= n -> 0 <= U -> 0 <= Q -> 0 <= q -> n < 2 ^ 40 ->
  2 ^ 53 * Z.abs (q * n * U - Q) <= (3 * k + 2) * Q + 2 ^ 53 * (k + n) * U -> 2 ^ 48 * Z.abs (w * w - q * U) <= q * U ->
  2 ^ 48 * Z.abs (w * w * n - Q) <= n * Q + 2 ^ 50 * n * U.
Proof.
  intros Hn Hk HU HQ Hq Hn2 H1 H2.
  assert (2 ^ 48 * Z.abs (w * w * n - q * n * U) <= q * n * U) as H2'.
  { replace (w * w * n - q * n * U) with (n * (w * w - q * U)) by ring. rewrite Z.abs_mul, (Z.abs_eq n) by lia.
    replace (2 ^ 48 * (n * Z.abs (w * w - q * U))) with (n * (2 ^ 48 * Z.abs (w * w - q * U))) by ring. replace (q * n * U) with (n * (q * U)) by ring. apply Z.mul_le_mono_nonneg_l; lia. }
  assert (0 <= k * Q <= n * Q) as K1 by (split; [apply Z.mul_nonneg_nonneg|apply Z.mul_le_mono_nonneg_r]; lia).
  assert (0 <= k * U <= n * U) as K2 by (split; [apply Z.mul_nonneg_nonneg|apply Z.mul_le_mono_nonneg_r]; lia).
  assert (2 * Q <= n * Q <= 2 ^ 40 * Q) as K3 by (split; apply Z.mul_le_mono_nonneg_r; lia).
  replace ((3 * k + 2) * Q + 2 ^ 53 * (k + n) * U) with (3 * (k * Q) + 2 * Q + 2 ^ 53 * (k * U) + 2 ^ 53 * (n * U)) in H1 by ring. replace (2 ^ 50 * n * U) with (2 ^ 50 * (n * U)) by ring.
  clear H2. generalize dependent (w * w * n). generalize dependent (q * n * U). generalize dependent (k * Q). generalize dependent (k * U). generalize dependent (n * Q). generalize dependent (n * U). intros. lia.
Qed.
Theorem down_deviation_error ln prices : logarithm ln -> Forall positive prices -> 2 < Z.of_nat (length prices) < 2 ^ 31 ->
  exists v, fin (calculateDownDeviation ln prices) v /\ 0 <= v /\
    let n := Z.of_nat (length prices) - 1 in let Q := squares (losses (getReturns ln prices)) in
    2 ^ 48 * Z.abs (v * v * n - Q) <= n * Q + 2 ^ 50 * n * 2 ^ 1074.
Proof.
  intros Hln HP HL. cbv zeta. unfold calculateDownDeviation. destruct (Z.of_nat (length prices) <=? 2) eqn:E; [lia|].
  pose proof (returns_fin ln Hln prices HP) as HR. pose proof (returns_length ln prices) as HN. cbv zeta. rewrite fold_pick.
  assert (filter (fun r => f64_lt r f64_zero) (getReturns ln prices) = losses (getReturns ln prices)) as ->.
  { apply filter_ext_in'. intros x Hx. rewrite Forall_forall in HR. destruct (HR x Hx) as (r & Fr & _). unfold f64_lt. rewrite (ltb_val _ f64_zero r 0 Fr eq_refl), (fin_val _ _ Fr). reflexivity. }
  set (R := getReturns ln prices) in *. set (L := losses R).
  assert (Forall bounded_return L) as HLb. { rewrite Forall_forall in *. intros x Hx. apply filter_In in Hx as [Hx _]. now apply HR. }
  assert (length L <= length R)%nat as LL by apply filter_length_le'.
  replace (Z.of_nat (length prices) - 1) with (Z.of_nat (length R)) by lia. set (n := Z.of_nat (length R)) in *.
  destruct (squares_error L f64_zero 0 0 0 HLb eq_refl ltac:(lia) ltac:(lia) ltac:(lia) ltac:(lia) ltac:(cbn; lia)) as (s & Fs & Hs & Es). rewrite !Z.add_0_l in Es, Hs.
  destruct (quotient_near _ s n 1200 Fs ltac:(lia)) as (q & Fq & Hq & Eq); [|lia|].
  { split; [lia|]. apply Z.le_trans with (2 ^ 31 * 2 ^ 1094); [|vm_compute; discriminate]. eapply Z.le_trans; [apply Hs|]. apply Z.mul_le_mono_nonneg_r; lia. }
  rewrite rd_exact in Eq by lia.
  pose proof (quotient_error (2 ^ 1074) (squares L) n s q (Z.of_nat (length L)) ltac:(lia) eq_refl (squares_nonneg L) ltac:(lia) ltac:(lia) Es Eq) as E2.
  destruct (sqrt_near _ q Fq ltac:(lia)) as (v & Fv & Hv & Ev). exists v. split; [exact Fv|]. split; [exact Hv|].
  assert (2 <= n) as B1 by lia. assert (0 <= Z.of_nat (length L) <= n) as B2 by lia. assert (n < 2 ^ 40) as B3 by lia. destruct Hq as [Hq _].
  exact (down_core (2 ^ 1074) n (Z.of_nat (length L)) (squares L) q v B1 B2 ltac:(vm_compute; discriminate) (squares_nonneg L) Hq B3 E2 Ev).
Qed.

(** ** standard deviation *)
Lemma std_core U n Q A T s t v1 t2 D v2 c : 2 <= n < 2 ^ 31 -> 0 < U -> 0 <= Q -> 0 <= s -> 0 <= t2 -> 0 <= v1 -> 0 <= v2 -> 0 <= D ->
  2 ^ 53 * Z.abs (s * U - Q) <= 3 * n * Q + 2 ^ 53 * n * U -> 2 ^ 53 * Z.abs (v1 * ((n - 1) * U) - s * U) <= s * U + 2 ^ 52 * ((n - 1) * U) ->
  2 ^ 53 * Z.abs (t - T) <= 2 * n * A -> Z.abs T <= A -> A * A <= n * Q ->
  2 ^ 53 * Z.abs (t2 * U - t * t) <= t * t + 2 ^ 52 * U -> 2 ^ 53 * Z.abs (D - n * (n - 1) * U) <= n * (n - 1) * U ->
  2 ^ 53 * Z.abs (v2 * D - t2 * U) <= t2 * U + 2 ^ 52 * D -> 2 ^ 53 * Z.abs (c - (v1 - v2)) <= Z.abs (v1 - v2) ->
  2 ^ 53 * Z.abs (c * (n * (n - 1) * U) - (n * Q - T * T)) <= 9 * (n * (n * Q)) + 16 * (n * Q) + 2 ^ 56 * (n * n * U).
Proof.
  intros Hn HU HQ Hs Ht2 Hv1 Hv2 HD E1 E2 E3 HT HA E4 E5 E6 E7.
  pose proof (quotient_error U Q (n - 1) s v1 n ltac:(lia) HU HQ Hs ltac:(lia) E1 E2) as F1. clear E1 E2.
  set (M := n * (n - 1) * U) in *. set (Y := n * Q) in *.
  assert (0 <= Y) as HY by (apply Z.mul_nonneg_nonneg; lia).
  assert (2 ^ 53 * Z.abs (v1 * M - Y) <= 3 * (n * Y) + 2 * Y + 2 ^ 54 * (n * n * U)) as G1.
  { replace (v1 * M - Y) with (n * (v1 * (n - 1) * U - Q)) by (unfold M, Y; ring). rewrite Z.abs_mul, (Z.abs_eq n) by lia.
    replace (2 ^ 53 * (n * Z.abs (v1 * (n - 1) * U - Q))) with (n * (2 ^ 53 * Z.abs (v1 * (n - 1) * U - Q))) by ring.
    eapply Z.le_trans; [apply Z.mul_le_mono_nonneg_l; [lia|exact F1]|].
    replace (n * ((3 * n + 2) * Q + 2 ^ 53 * (n + (n - 1)) * U)) with (3 * (n * Y) + 2 * Y + 2 ^ 54 * (n * n * U) - 2 ^ 53 * (n * U)) by (unfold Y; ring).
    assert (0 <= n * U) by (apply Z.mul_nonneg_nonneg; lia). lia. }
  assert (0 <= A) as HA0 by lia.
  assert (Z.abs (t + T) <= 3 * A) as G2.
  { assert (n * A <= 2 ^ 31 * A) by (apply Z.mul_le_mono_nonneg_r; lia). replace (2 * n * A) with (2 * (n * A)) in E3 by ring. clear - E3 HT H HA0. lia. }
  assert (2 ^ 53 * Z.abs (t * t - T * T) <= 6 * (n * Y)) as G3.
  { replace (t * t - T * T) with ((t - T) * (t + T)) by ring. rewrite Z.abs_mul, Z.mul_assoc. apply Z.le_trans with (2 * n * A * (3 * A)); [apply Z.mul_le_mono_nonneg; lia|].
    replace (2 * n * A * (3 * A)) with (6 * (n * (A * A))) by ring. apply Z.mul_le_mono_nonneg_l; [lia|]. apply Z.mul_le_mono_nonneg_l; lia. }
  assert (T * T <= Y) as G4. { rewrite <- Z.abs_square. apply Z.le_trans with (A * A); [|exact HA]. apply Z.mul_le_mono_nonneg; lia. }
  assert (0 <= T * T) as G4' by apply Z.square_nonneg. assert (0 <= t * t) as G4'' by apply Z.square_nonneg.
  assert (2 ^ 53 * Z.abs (v2 * D - v2 * M) <= v2 * M) as G5.
  { rewrite <- Z.mul_sub_distr_l, Z.abs_mul, (Z.abs_eq v2) by lia. replace (2 ^ 53 * (v2 * Z.abs (D - M))) with (v2 * (2 ^ 53 * Z.abs (D - M))) by ring. apply Z.mul_le_mono_nonneg_l; lia. }
  assert (0 <= M) as HM by (unfold M; apply Z.mul_nonneg_nonneg; [apply Z.mul_nonneg_nonneg; lia|lia]).
  assert (2 ^ 53 * Z.abs (c * M - (v1 * M - v2 * M)) <= Z.abs (v1 * M - v2 * M)) as G6.
  { rewrite <- Z.mul_sub_distr_r, <- Z.mul_sub_distr_r, !Z.abs_mul, (Z.abs_eq M) by lia. rewrite Z.mul_assoc. apply Z.mul_le_mono_nonneg_r; lia. }
  assert (M <= n * n * U) as G7. { unfold M. apply Z.mul_le_mono_nonneg_r; [lia|]. apply Z.mul_le_mono_nonneg_l; lia. }
  assert (U <= n * n * U) as G8. { rewrite <- (Z.mul_1_l U) at 1. apply Z.mul_le_mono_nonneg_r; [lia|]. apply Z.le_trans with (2 * 2); [lia|]. apply Z.mul_le_mono_nonneg; lia. }
  assert (2 * Y <= n * Y <= 2 ^ 31 * Y) as G9 by (split; apply Z.mul_le_mono_nonneg_r; lia).
  assert (0 <= v1 * M) by (apply Z.mul_nonneg_nonneg; lia). assert (0 <= v2 * M) by (apply Z.mul_nonneg_nonneg; lia). assert (0 <= t2 * U) by (apply Z.mul_nonneg_nonneg; lia).
  clear - G1 G3 E4 E5 E6 G4 G4' G4'' G5 G6 G7 G8 G9 H H0 H1 HM HD HU HY.
  set (N := n * n * U) in *. set (z := c * M) in *. set (x1 := v1 * M) in *. set (x2 := v2 * M) in *. set (y := v2 * D) in *. set (p := t2 * U) in *. set (tt := t * t) in *. set (TT := T * T) in *. set (nY := n * Y) in *.
  clearbody N z x1 x2 y p tt TT nY Y M.
  assert (tt <= 2 * Y) as K1 by (clear - G3 G4 G4' G9 HY; lia).
  assert (D <= 2 * N) as K2 by (clear - E5 G7 HM; lia).
  assert (p <= 3 * Y + U) as K3 by (clear - E4 K1 HU HY; lia).
  assert (y <= 4 * Y + 4 * N) as K4 by (clear - E6 K3 K2 G8 HY HU; lia).
  assert (x2 <= 5 * Y + 5 * N) as K5 by (clear - G5 K4 H0 HU HY; lia).
  assert (2 ^ 53 * Z.abs (x2 - TT) <= 6 * nY + 10 * Y + 2 ^ 55 * N) as K6.
  { assert (2 ^ 53 * Z.abs (x2 - TT) <= x2 + (p + 2 ^ 52 * D) + (tt + 2 ^ 52 * U) + 6 * nY) as K by (clear - G5 E6 E4 G3; lia).
    clear - K K1 K2 K3 K5 G8 HY HU. lia. }
  assert (x1 <= 2 * Y + 4 * N) as K7 by (clear - G1 G9 HY G8 HU; lia).
  assert (x2 <= 2 * Y + 5 * N) as K8 by (clear - K6 G4 G9 HY G8 HU; lia).
  clear - G1 G6 K6 K7 K8 H H0 G9 HY G8 HU. lia.
Qed.
Lemma std_last U n Q TT c w : 2 <= n < 2 ^ 31 -> 0 < U -> 0 <= Q -> 0 <= TT -> 0 <= c ->
  2 ^ 53 * Z.abs (c * (n * (n - 1) * U) - (n * Q - TT)) <= 9 * (n * (n * Q)) + 16 * (n * Q) + 2 ^ 56 * (n * n * U) ->
  2 ^ 48 * Z.abs (w * w - c * U) <= c * U ->
  2 ^ 46 * Z.abs (w * w * (n * (n - 1)) - (n * Q - TT)) <= n * n * (Q + 2 ^ 50 * U).
Proof.
  intros Hn HU HQ HT Hc E1 E2. assert (0 <= n * (n - 1)) as Hm by (apply Z.mul_nonneg_nonneg; lia).
  assert (2 ^ 48 * Z.abs (w * w * (n * (n - 1)) - c * (n * (n - 1) * U)) <= c * (n * (n - 1) * U)) as E2'.
  { replace (w * w * (n * (n - 1)) - c * (n * (n - 1) * U)) with (n * (n - 1) * (w * w - c * U)) by ring. rewrite Z.abs_mul, (Z.abs_eq (n * (n - 1))) by lia.
    replace (2 ^ 48 * (n * (n - 1) * Z.abs (w * w - c * U))) with (n * (n - 1) * (2 ^ 48 * Z.abs (w * w - c * U))) by ring. replace (c * (n * (n - 1) * U)) with (n * (n - 1) * (c * U)) by ring.
    apply Z.mul_le_mono_nonneg_l; lia. }
  assert (0 <= n * Q) as HY by (apply Z.mul_nonneg_nonneg; lia).
  assert (2 * (n * Q) <= n * (n * Q) <= 2 ^ 31 * (n * Q)) as G by (split; apply Z.mul_le_mono_nonneg_r; lia).
  assert (0 <= n * n * U) as HN by (apply Z.mul_nonneg_nonneg; [apply Z.square_nonneg|lia]).
  replace (n * n * (Q + 2 ^ 50 * U)) with (n * (n * Q) + 2 ^ 50 * (n * n * U)) by ring. clear E2.
  generalize dependent (w * w * (n * (n - 1))). generalize dependent (c * (n * (n - 1) * U)). generalize dependent (n * (n * Q)). generalize dependent (n * Q). generalize dependent (n * n * U). intros. lia.
Qed.
Theorem std_error ln prices : logarithm ln -> Forall positive prices -> 2 < Z.of_nat (length prices) < 2 ^ 31 ->
  let n := Z.of_nat (length prices) - 1 in let Q := squares (getReturns ln prices) in let T := sums (getReturns ln prices) in
  (exists v, fin (calculateStd ln prices) v /\ 0 <= v /\ 2 ^ 46 * Z.abs (v * v * (n * (n - 1)) - (n * Q - T * T)) <= n * n * (Q + 2 ^ 50 * 2 ^ 1074))
  \/ calculateStd ln prices = S754_nan /\ 2 ^ 46 * (n * Q - T * T) <= n * n * (Q + 2 ^ 50 * 2 ^ 1074).
Proof.
  intros Hln HP HL. cbv zeta. unfold calculateStd. destruct (Z.of_nat (length prices) <=? 2) eqn:E; [lia|].
  pose proof (returns_fin ln Hln prices HP) as HR. pose proof (returns_length ln prices) as HN. cbv zeta.
  set (R := getReturns ln prices) in *. replace (Z.of_nat (length prices) - 1) with (Z.of_nat (length R)) by lia.
  set (n := Z.of_nat (length R)) in *. assert (2 <= n < 2 ^ 31) as Hn by (unfold n; lia).
  destruct (squares_error R f64_zero 0 0 0 HR eq_refl ltac:(lia) ltac:(lia) ltac:(lia) ltac:(fold n; lia) ltac:(cbn; lia)) as (s & Fs & Hs & Es). rewrite !Z.add_0_l in Es, Hs. fold n in Hs, Es.
  destruct (sums_error R f64_zero 0 0 0 0 HR eq_refl ltac:(lia) ltac:(lia) ltac:(lia) ltac:(fold n; lia) ltac:(cbn; lia)) as (t & Ft & Ht & Et & HTA). rewrite !Z.add_0_l in Ht, Et, HTA. fold n in Ht, Et.
  assert (0 <= s <= 2 ^ 1200) as Hs'.
  { split; [lia|]. apply Z.le_trans with (2 ^ 31 * 2 ^ 1094); [|vm_compute; discriminate]. eapply Z.le_trans; [apply Hs|]. apply Z.mul_le_mono_nonneg_r; lia. }
  assert (Z.abs t <= 2 ^ 1115) as Ht'.
  { eapply Z.le_trans; [exact Ht|]. change (2 ^ 1115) with (2 ^ 31 * 2 ^ 1084). apply Z.mul_le_mono_nonneg_r; lia. }
  destruct (quotient_near _ s (n - 1) 1200 Fs ltac:(lia) Hs' ltac:(lia)) as (v1 & F1 & H1 & E1). rewrite rd_exact in E1 by lia.
  destruct (mul_near _ _ _ _ Ft Ft) as (t2 & Nt & F2).
  assert (0 <= t2) as T0 by (refine (near_ge _ _ _ _ _ Nt repr_0 _); [lia|]; rewrite Z.mul_0_l; apply Z.square_nonneg).
  assert (t2 <= 2 ^ 1200) as T1.
  { refine (near_le _ _ _ _ _ Nt (repr_pow 1200 _) _); [lia|lia|]. rewrite <- Z.abs_square. apply Z.le_trans with (2 ^ 1115 * 2 ^ 1115); [apply Z.mul_le_mono_nonneg; lia|vm_compute; discriminate]. }
  assert (Z.abs t2 < 2 ^ 2098) as T2 by (rewrite Z.abs_eq by assumption; apply Z.le_lt_trans with (2 ^ 1200); [assumption|reflexivity]). specialize (F2 T2).
  pose proof (near_error _ _ _ (eq_refl : 0 < 2 ^ 1074) Nt) as E4. rewrite (Z.abs_eq (t * t)) in E4 by apply Z.square_nonneg.
  assert (0 < n * (n - 1) < 2 ^ 62) as Hnn.
  { split; [apply Z.mul_pos_pos; lia|]. apply Z.le_lt_trans with ((2 ^ 31 - 1) * (2 ^ 31 - 1)); [apply Z.mul_le_mono_nonneg; lia|reflexivity]. }
  assert (int64 (n * (n - 1)) = n * (n - 1)) as EI.
  { revert Hnn. generalize (n * (n - 1)). intros z Hz. unfold int64. rewrite Z.mod_small by lia. lia. }
  rewrite EI. destruct (quotient_near _ t2 (n * (n - 1)) 1200 F2 ltac:(lia) ltac:(lia) ltac:(lia)) as (v2 & F3 & H3 & E6).
  assert (price (n * (n - 1))) as PN by (split; [lia|apply Z.lt_le_trans with (2 ^ 62); [lia|vm_compute; discriminate]]).
  destruct (price_fin _ PN) as [_ ND]. pose proof (near_error_int _ _ ND) as E5.
  rewrite (Z.abs_eq (_ * 2 ^ 1074)) in E5 by (apply Z.mul_nonneg_nonneg; lia). pose proof (rd_nonneg _ PN) as HD.
  destruct (sub_near _ _ _ _ F1 F3) as (c & Nc & Fc). pose proof (near_error_int _ _ Nc) as E7.
  assert (Z.abs c <= 2 ^ 1200) as Hc.
  { apply Z.abs_le. split; [refine (near_ge _ _ _ _ _ Nc (repr_opp _ (repr_pow 1200 _)) _)|refine (near_le _ _ _ _ _ Nc (repr_pow 1200 _) _)]; lia. }
  specialize (Fc ltac:(apply Z.le_lt_trans with (2 ^ 1200); [assumption|reflexivity])).
  pose proof (cauchy R) as CS. fold n in CS.
  pose proof (std_core (2 ^ 1074) n (squares R) (abses R) (sums R) s t v1 t2 (rd (n * (n - 1))) v2 c Hn eq_refl (squares_nonneg R) ltac:(lia) T0 ltac:(lia) ltac:(lia) HD
    Es E1 Et HTA CS E4 E5 E6 E7) as K.
  destruct (Z_le_dec 0 c) as [L|L].
  - left. destruct (sqrt_near _ c Fc L) as (v & Fv & Hv & Ev). exists v. split; [exact Fv|]. split; [exact Hv|].
    apply (std_last (2 ^ 1074) n (squares R) (sums R * sums R) c v Hn eq_refl (squares_nonneg R) (Z.square_nonneg _) L K Ev).
  - right. split; [apply (sqrt_neg _ c Fc); lia|].
    pose proof (squares_nonneg R) as HQ. assert (c * (n * (n - 1) * 2 ^ 1074) <= 0) as CN by (apply Z.mul_nonpos_nonneg; [lia|apply Z.mul_nonneg_nonneg; lia]).
    assert (0 <= n * squares R) as HY by (apply Z.mul_nonneg_nonneg; lia).
    assert (2 * (n * squares R) <= n * (n * squares R)) as G by (apply Z.mul_le_mono_nonneg_r; lia).
    assert (0 <= n * n * 2 ^ 1074) as HN0 by (apply Z.mul_nonneg_nonneg; [apply Z.square_nonneg|lia]).
    replace (n * n * (squares R + 2 ^ 50 * 2 ^ 1074)) with (n * (n * squares R) + 2 ^ 50 * (n * n * 2 ^ 1074)) by ring.
    clear - K CN HY G HN0. generalize dependent (c * (n * (n - 1) * 2 ^ 1074)). generalize dependent (n * (n * squares R)). generalize dependent (n * squares R). generalize dependent (n * n * 2 ^ 1074). intros. lia.
Qed.
