(** FloatSpec.v -- the operations of the binary64 specification round to the nearest representable number.
    Values are integers in units of 2^-1074, the smallest positive double. *)
From Coq Require Import Floats.SpecFloat Zpower Lia ZifyBool.
From Verif Require Import Base Float64 Float64Facts.
Ltac Zify.zify_post_hook ::= idtac.
Open Scope Z_scope.

(** The arithmetic below mentions powers like 2^1074.  [hide_pow] replaces the large ones by variables, together with
    how they compare, so that the certificates that lia leaves in the proofs contain small numbers only. *)
Ltac hide_pow :=
  repeat match goal with
  | H : context [2 ^ Zpos ?n] |- _ =>
      let b := eval compute in (Pos.leb 200 n) in
      match b with true => let P := fresh "P" in
        assert (0 < 2 ^ Zpos n) by reflexivity; set (P := 2 ^ Zpos n) in * end
  | |- context [2 ^ Zpos ?n] =>
      let b := eval compute in (Pos.leb 200 n) in
      match b with true => let P := fresh "P" in
        assert (0 < 2 ^ Zpos n) by reflexivity; set (P := 2 ^ Zpos n) in * end
  end;
  repeat match goal with
  | P := 2 ^ ?a, Q := 2 ^ ?b |- _ =>
      let c := eval compute in (Z.ltb a b) in
      match c with true =>
        match goal with
        | H : Q = _ * P |- _ => fail 1
        | H : _ * P <= Q |- _ => fail 1
        | _ =>
          let d := eval compute in (b - a) in
          let s := eval compute in (Z.leb d 150) in
          match s with
          | true => assert (Q = 2 ^ d * P) by reflexivity
          | false => assert (2 ^ 150 * P <= Q) by (vm_compute; discriminate)
          end
        end
      end
  end;
  repeat match goal with P := 2 ^ _ |- _ => clearbody P end.
(** forgets the hypotheses about large powers *)
Ltac drop_pow :=
  repeat match goal with
  | H : context [2 ^ Zpos ?n] |- _ =>
      let b := eval compute in (Pos.leb 200 n) in match b with true => clear H end
  end.
Local Ltac lia := first [solve [drop_pow; Lia.lia] | solve [hide_pow; Lia.lia] | Lia.lia].

(** ** representable numbers *)
Definition repr (v : Z) : Prop := exists m k, v = m * 2 ^ k /\ Z.abs m < 2 ^ 53 /\ 0 <= k.
(** [v] is a representable number nearest to N/D (D > 0) *)
Definition near (N D v : Z) : Prop := repr v /\ forall w, repr w -> Z.abs (v * D - N) <= Z.abs (w * D - N).

Lemma repr_opp v : repr v -> repr (- v).
Proof. intros (m & k & -> & Hm & Hk). exists (- m), k. split; [ring|]. split; lia. Qed.
Lemma repr_0 : repr 0.
Proof. exists 0, 0. split; [reflexivity|]. split; [reflexivity|lia]. Qed.
Lemma repr_pow k : 0 <= k -> repr (2 ^ k).
Proof. intros H. exists 1, k. split; [ring|]. split; [reflexivity|lia]. Qed.
Lemma near_opp N D v : near N D v -> near (- N) D (- v).
Proof.
  intros [H K]. split; [now apply repr_opp|]. intros w Hw. specialize (K (- w) (repr_opp w Hw)).
  replace (- v * D - - N) with (- (v * D - N)) by ring. replace (w * D - - N) with (- (- w * D - N)) by ring. rewrite !Z.abs_opp. exact K.
Qed.
Lemma near_ge N D v w : 0 < D -> near N D v -> repr w -> w * D <= N -> w <= v.
Proof.
  intros HD [_ K] Hw H. destruct (Z_le_gt_dec w v) as [|C]; [assumption|]. specialize (K w Hw).
  assert (v * D < w * D) by (apply Z.mul_lt_mono_pos_r; lia). lia.
Qed.
Lemma near_le N D v w : 0 < D -> near N D v -> repr w -> N <= w * D -> v <= w.
Proof.
  intros HD H Hw L. apply near_opp in H. apply repr_opp in Hw. pose proof (near_ge _ _ _ _ HD H Hw ltac:(lia)). lia.
Qed.
Lemma near_exact N D v : 0 < D -> near N D v -> forall w, repr w -> w * D = N -> v = w.
Proof. intros HD H w Hw E. apply Z.le_antisymm; [apply (near_le N D)|apply (near_ge N D)]; (assumption || lia). Qed.
(** scaling the fraction *)
Lemma near_scale N D v c : 0 < c -> near (N * c) (D * c) v -> near N D v.
Proof.
  intros Hc [H K]. split; [assumption|]. intros w Hw. specialize (K w Hw).
  replace (v * (D * c) - N * c) with ((v * D - N) * c) in K by ring. replace (w * (D * c) - N * c) with ((w * D - N) * c) in K by ring.
  rewrite !Z.abs_mul, (Z.abs_eq c) in K by lia. now apply Z.mul_le_mono_pos_r in K.
Qed.

(** ** what a float stands for *)
Definition fin (x : spec_float) (v : Z) : Prop :=
  match x with
  | S754_zero _ => v = 0
  | S754_finite s m e => v = neg s (Zpos m * 2 ^ (e + 1074)) /\ bounded 53 1024 m e = true
  | _ => False
  end.
(** the result of an operation with exact value N/D in units *)
Definition result (N D : Z) (x : spec_float) : Prop :=
  exists v, near N D v /\ (Z.abs v < 2 ^ 2098 -> fin x v).

Lemma bounded_inv m e : bounded 53 1024 m e = true -> -1074 <= e <= 971 /\ Zpos m < 2 ^ 53 /\ (e = -1074 \/ 2 ^ 52 <= Zpos m).
Proof.
  unfold bounded, canonical_mantissa. intros H. apply andb_true_iff in H as [H1 H2]. apply Zeq_bool_eq in H1. apply Zle_bool_imp_le in H2.
  change (Zpos (digits2_pos m)) with (Zdigits2 (Zpos m)) in H1. rewrite digits_log2 in H1. unfold fexp, emin in H1.
  pose proof (Z.log2_spec (Zpos m) ltac:(lia)) as HL. pose proof (Z.log2_nonneg (Zpos m)).
  assert (Z.log2 (Zpos m) <= 52) as L by lia. split; [lia|]. split.
  - apply Z.lt_le_trans with (2 ^ Z.succ (Z.log2 (Zpos m))); [lia|]. apply Z.pow_le_mono_r; lia.
  - destruct (Z.eq_dec e (-1074)) as [|n]; [now left|right]. assert (Z.log2 (Zpos m) = 52) as E by lia. rewrite E in HL. lia.
Qed.
Lemma bounded_intro m e : -1074 <= e <= 971 -> Zpos m < 2 ^ 53 -> (e = -1074 \/ 2 ^ 52 <= Zpos m) -> bounded 53 1024 m e = true.
Proof.
  intros He Hm H. unfold bounded, canonical_mantissa. apply andb_true_iff. split; [|apply Z.leb_le; lia].
  apply Zeq_is_eq_bool. change (Zpos (digits2_pos m)) with (Zdigits2 (Zpos m)). rewrite digits_log2. unfold fexp, emin.
  assert (Z.log2 (Zpos m) <= 52). { assert (Z.log2 (Zpos m) < 53); [apply Z.log2_lt_pow2; lia|lia]. }
  destruct H as [->|H]; [lia|]. assert (52 <= Z.log2 (Zpos m)) by (apply Z.log2_le_pow2; lia). lia.
Qed.
Lemma fin_repr x v : fin x v -> repr v /\ Z.abs v < 2 ^ 2098.
Proof.
  destruct x as [s|s| |s m e]; cbn [fin]; intros H; try contradiction.
  - subst. split; [apply repr_0|reflexivity].
  - destruct H as [-> H]. apply bounded_inv in H as (He & Hm & _). split.
    + exists (neg s (Zpos m)), (e + 1074). destruct s; cbn [neg]; (split; [ring|]; split; lia).
    + replace (Z.abs (neg s (Zpos m * 2 ^ (e + 1074)))) with (Zpos m * 2 ^ (e + 1074)).
      2: { pose proof (Z.pow_pos_nonneg 2 (e + 1074)). destruct s; cbn [neg]; rewrite ?Z.abs_opp, Z.abs_eq; try lia; apply Z.mul_nonneg_nonneg; lia. }
      apply Z.lt_le_trans with (2 ^ 53 * 2 ^ (e + 1074)); [apply Z.mul_lt_mono_pos_r; [apply Z.pow_pos_nonneg; lia|lia]|].
      rewrite <- Z.pow_add_r by lia. apply Z.pow_le_mono_r; lia.
Qed.

(** ** shifting right *)
Definition bits_ok (rb sb : bool) (d r : Z) : Prop :=
  if rb then (if sb then d < 2 * r else 2 * r = d) else (if sb then 0 < r /\ 2 * r < d else r = 0).
Lemma bits_loc rb sb m d r : 0 < d -> bits_ok rb sb d r -> loc_ok (loc_of_shr_record (Build_shr_record m rb sb)) d r.
Proof. intros Hd. destruct rb, sb; cbn [loc_of_shr_record loc_ok bits_ok]; lia. Qed.
Lemma loc_bits l d r m : loc_ok l d r -> exists rb sb, shr_record_of_loc m l = Build_shr_record m rb sb /\ bits_ok rb sb d r.
Proof. destruct l as [|[]]; cbn [loc_ok shr_record_of_loc]; intros H; eexists; eexists; (split; [reflexivity|]); cbn [bits_ok]; lia. Qed.
Lemma shr_1_bits m rb sb d r : 0 <= m -> 0 < d -> 0 <= r < d -> bits_ok rb sb d r ->
  exists rb' sb', shr_1 (Build_shr_record m rb sb) = Build_shr_record (m / 2) rb' sb' /\ bits_ok rb' sb' (2 * d) ((m mod 2) * d + r).
Proof.
  intros Hm Hd Hr H. rewrite <- Z.div2_div. exists (Z.odd m), (orb rb sb).
  split; [destruct m as [|[]|]; try lia; reflexivity|]. rewrite Zmod_odd. destruct (Z.odd m), rb, sb; cbn [bits_ok orb] in *; lia.
Qed.
Lemma shr_bits n : forall m rb sb d r, 0 <= m -> 0 < d -> 0 <= r < d -> bits_ok rb sb d r ->
  exists rb' sb', niter n shr_1 (Build_shr_record m rb sb) = Build_shr_record (m / 2 ^ Z.of_nat n) rb' sb' /\
    bits_ok rb' sb' (d * 2 ^ Z.of_nat n) ((m mod 2 ^ Z.of_nat n) * d + r).
Proof.
  induction n as [|n IH]; intros m rb sb d r Hm Hd Hr H.
  - exists rb, sb. cbn [niter Z.of_nat]. change (2 ^ 0) with 1. rewrite Z.div_1_r, Z.mod_1_r, Z.mul_1_r. split; [reflexivity|]. now replace (0 * d + r) with r by lia.
  - cbn [niter]. destruct (shr_1_bits m rb sb d r Hm Hd Hr H) as (rb1 & sb1 & -> & H1).
    assert (0 <= m mod 2 < 2) by (apply Z.mod_pos_bound; lia).
    assert (0 <= (m mod 2) * d + r < 2 * d) as Hr1 by (destruct (Z.eq_dec (m mod 2) 0) as [E|E]; [rewrite E|replace (m mod 2) with 1 by lia]; lia).
    destruct (IH (m / 2) rb1 sb1 (2 * d) _ ltac:(apply Z.div_pos; lia) ltac:(lia) Hr1 H1) as (rb' & sb' & -> & H2).
    exists rb', sb'. rewrite Nat2Z.inj_succ, Z.pow_succ_r by lia. set (P := 2 ^ Z.of_nat n) in *. assert (0 < P) by (apply Z.pow_pos_nonneg; lia).
    rewrite Z.div_div by lia. split; [reflexivity|]. replace (d * (2 * P)) with (2 * d * P) by ring.
    rewrite Z.rem_mul_r by lia. replace ((m mod 2 + 2 * ((m / 2) mod P)) * d + r) with ((m / 2) mod P * (2 * d) + (m mod 2 * d + r)) by ring. exact H2.
Qed.

(** ** rounding *)
(** the rounded mantissa is within half a unit *)
Lemma rne_half m l d r : 0 < d -> 0 <= r < d -> loc_ok l d r -> 2 * Z.abs (round_nearest_even m l * d - (m * d + r)) <= d.
Proof.
  intros Hd Hr H. destruct l as [|[]]; cbn [round_nearest_even loc_ok] in *; try lia. destruct (Z.even m); lia.
Qed.
Lemma rne_range m l : m <= round_nearest_even m l <= m + 1.
Proof. destruct l as [|[]]; cbn [round_nearest_even]; try lia. destruct (Z.even m); lia. Qed.

(** the exponent of a double of magnitude (q + r/d) 2^e *)
Lemma round_spec sx q e l d r : 0 < d -> 0 <= r < d -> loc_ok l d r -> 0 <= q ->
  let E := fexp 53 1024 (Zdigits2 q + e) in e <= E ->
  exists M, 0 <= M /\ 2 * Z.abs (M * (d * 2 ^ (E - e)) - (q * d + r)) <= d * 2 ^ (E - e) /\
    (E = -1074 \/ 2 ^ 52 * 2 ^ (E - e) <= q) /\ q < 2 ^ 53 * 2 ^ (E - e) /\ M <= 2 ^ 53 /\ -1074 <= E /\
    match binary_round_aux 53 1024 sx q e l with
    | S754_zero s => s = sx /\ M = 0
    | S754_finite s m e' => s = sx /\ Zpos m * 2 ^ (e' - E) = M /\ E <= e' <= 971 /\ bounded 53 1024 m e' = true
    | S754_infinity s => s = sx /\ 2 ^ 52 <= M /\ 971 <= E /\ (E = 971 -> M = 2 ^ 53)
    | S754_nan => False
    end.
Proof.
  intros Hd Hr Hl Hq E HE. assert (-1074 <= E) as HEm by (unfold E, fexp, emin; lia).
  assert ((E = -1074 \/ 2 ^ 52 * 2 ^ (E - e) <= q) /\ q < 2 ^ 53 * 2 ^ (E - e)) as [HQ1 HQ2].
  { destruct (Z.eq_dec q 0) as [->|n].
    - split; [|apply Z.mul_pos_pos; [lia|apply Z.pow_pos_nonneg; lia]]. left. unfold E, fexp, emin in *. cbn [Zdigits2] in *. lia.
    - destruct q as [|p|p]; try lia. unfold E, fexp, emin in *. rewrite digits_log2 in *. pose proof (Z.log2_spec (Zpos p) ltac:(lia)) as HL. pose proof (Z.log2_nonneg (Zpos p)).
      rewrite <- !Z.pow_add_r by lia. split.
      + destruct (Z_le_dec (Z.log2 (Zpos p) + 1 + e - 53) (-1074)); [left; lia|right]. apply Z.le_trans with (2 ^ Z.log2 (Zpos p)); [apply Z.pow_le_mono_r; lia|lia].
      + apply Z.lt_le_trans with (2 ^ Z.succ (Z.log2 (Zpos p))); [lia|]. apply Z.pow_le_mono_r; lia. }
  unfold binary_round_aux. unfold shr_fexp at 1. fold E.
  destruct (loc_bits l d r q Hl) as (rb & sb & -> & HB).
  assert (exists rb' sb', shr (Build_shr_record q rb sb) e (E - e) = (Build_shr_record (q / 2 ^ (E - e)) rb' sb', E) /\
    bits_ok rb' sb' (d * 2 ^ (E - e)) ((q mod 2 ^ (E - e)) * d + r)) as (rb' & sb' & -> & HB').
  { destruct (shr_bits (Z.to_nat (E - e)) q rb sb d r Hq Hd Hr HB) as (rb' & sb' & EQ & HB'). rewrite Z2Nat.id in * by lia.
    exists rb', sb'. split; [|assumption]. unfold shr. destruct (E - e) as [|p|p] eqn:EP; try lia.
    - cbn in EQ. change (2 ^ 0) with 1. rewrite Z.div_1_r in *. injection EQ as <- <-. f_equal. lia.
    - rewrite iter_pos_nat. change (Z.to_nat (Zpos p)) with (Pos.to_nat p) in EQ. rewrite EQ. f_equal. lia. }
  set (P := 2 ^ (E - e)) in *. assert (0 < P) as HP by (apply Z.pow_pos_nonneg; lia).
  assert (0 <= q mod P < P) as HM by (apply Z.mod_pos_bound; lia).
  assert (0 <= q mod P * d + r < d * P) as HR.
  { split; [apply Z.add_nonneg_nonneg; [apply Z.mul_nonneg_nonneg|]; lia|]. assert (q mod P * d <= (P - 1) * d) by (apply Z.mul_le_mono_nonneg_r; lia). lia. }
  assert (0 < d * P) as HdP by (apply Z.mul_pos_pos; lia).
  pose proof (bits_loc rb' sb' (q / P) _ _ HdP HB') as HL.
  pose proof (rne_half (q / P) _ _ _ HdP HR HL) as HH. pose proof (rne_range (q / P) (loc_of_shr_record (Build_shr_record (q / P) rb' sb'))) as HRg.
  cbn [shr_m]. set (M := round_nearest_even (q / P) _) in *. exists M.
  assert (0 <= q / P) as Hq0 by (apply Z.div_pos; lia).
  assert (q = P * (q / P) + q mod P) as DM by (apply Z.div_mod; lia).
  assert (q / P < 2 ^ 53) as Hq1 by (apply Z.div_lt_upper_bound; lia).
  assert (E = -1074 \/ 2 ^ 52 <= q / P) as Hq2 by (destruct HQ1; [now left|right; apply Z.div_le_lower_bound; lia]).
  split; [lia|]. split. { replace (q * d + r) with (q / P * (d * P) + (q mod P * d + r)) by (rewrite DM at 3; ring). exact HH. }
  split; [assumption|]. split; [assumption|]. split; [lia|]. split; [assumption|].
  assert (0 <= M <= 2 ^ 53 /\ (E = -1074 \/ 2 ^ 52 <= M)) as [HM1 HM2] by (split; [lia|destruct Hq2; [now left|right; lia]]).
  clearbody M. clear - HM1 HM2 HEm. clearbody E. unfold shr_fexp. cbn [shr_record_of_loc].
  destruct (Z.eq_dec M 0) as [->|HM0].
  { cbn [Zdigits2]. assert (fexp 53 1024 (0 + E) = -1074 \/ True) by tauto. destruct HM2 as [->|]; [|lia]. vm_compute. auto. }
  destruct (Z.eq_dec M (2 ^ 53)) as [->|HM3].
  - rewrite (digits_unique (2 ^ 53) 53) by lia.
    assert (fexp 53 1024 (53 + 1 + E) - E = 1) as -> by (unfold fexp, emin; lia).
    change (2 ^ 53) with (2 ^ 52 * 2 ^ 1) at 1. rewrite shr_exact by lia. cbn [shr_m]. change (2 ^ 52) with (Zpos (Z.to_pos (2 ^ 52))) at 1.
    destruct (E + 1 <=? 1024 - 53) eqn:EB.
    + split; [reflexivity|]. split; [replace (E + 1 - E) with 1 by lia; reflexivity|]. split; [lia|]. apply bounded_intro; [lia|reflexivity|right; vm_compute; discriminate].
    + split; [reflexivity|]. lia.
  - assert (Zdigits2 M + E - 53 <= E) as HDg.
    { destruct M as [|p|p]; try lia. rewrite digits_log2. assert (Z.log2 (Zpos p) < 53) by (apply Z.log2_lt_pow2; lia). lia. }
    rewrite shr_none by (unfold fexp, emin; lia). cbn [shr_m]. destruct M as [|p|p]; try lia. destruct (E <=? 1024 - 53) eqn:EB.
    + split; [reflexivity|]. split; [replace (E - E) with 0 by lia; change (2 ^ 0) with 1; lia|]. split; [lia|]. apply bounded_intro; lia.
    + split; [reflexivity|]. lia.
Qed.

(** hence nearest *)
Lemma round_near sx q e l d r c : 0 < d -> 0 <= r < d -> loc_ok l d r -> 0 <= q -> 0 <= c -> 0 <= e + 1074 + c ->
  e <= fexp 53 1024 (Zdigits2 q + e) -> result (neg sx ((q * d + r) * 2 ^ (e + 1074 + c))) (d * 2 ^ c) (binary_round_aux 53 1024 sx q e l).
Proof.
  intros Hd Hr Hl Hq Hc He HE. destruct (round_spec sx q e l d r Hd Hr Hl Hq HE) as (M & HM0 & HH & HQ1 & HQ2 & HM & HEm & HX).
  set (E := fexp 53 1024 (Zdigits2 q + e)) in *.
  set (V := M * 2 ^ (E + 1074)).
  assert (near ((q * d + r) * 2 ^ (e + 1074 + c)) (d * 2 ^ c) V) as HN.
  { split.
    - destruct (Z.eq_dec M (2 ^ 53)) as [EM|]; [exists (2 ^ 52), (E + 1 + 1074)|exists M, (E + 1074)].
      + split; [|split; [reflexivity|lia]]. unfold V. rewrite EM. replace (E + 1 + 1074) with (Z.succ (E + 1074)) by lia. rewrite Z.pow_succ_r by lia. ring.
      + split; [reflexivity|]. lia.
    - intros w (mw & kw & -> & Hmw & Hkw). unfold V. set (U := 2 ^ (e + 1074 + c)). set (C := 2 ^ c). set (P := 2 ^ (E - e)) in *.
      assert (0 < U) as HU by (apply Z.pow_pos_nonneg; lia). assert (0 < P) as HP by (apply Z.pow_pos_nonneg; lia). assert (0 < C) as HC by (apply Z.pow_pos_nonneg; lia).
      assert (2 ^ (E + 1074) * C = P * U) as HPU by (unfold P, U, C; rewrite <- !Z.pow_add_r by lia; f_equal; lia).
      set (X := q * d + r) in *.
      assert (0 < d * P) as HdP by (apply Z.mul_pos_pos; lia).
      (* every integer multiple of P U is at least as far *)
      assert (forall j, Z.abs (M * (d * P) - X) <= Z.abs (j * (d * P) - X)) as HJ.
      { intros j. destruct (Z.eq_dec j M) as [->|Hj]; [lia|].
        assert (d * P <= Z.abs ((j - M) * (d * P))). { rewrite Z.abs_mul, (Z.abs_eq (d * P)) by lia. assert (1 * (d * P) <= Z.abs (j - M) * (d * P)) by (apply Z.mul_le_mono_nonneg_r; lia). lia. }
        replace ((j - M) * (d * P)) with (j * (d * P) - M * (d * P)) in H by ring. lia. }
      assert (forall a b, Z.abs (a - X) <= Z.abs (b - X) -> Z.abs (a * U - X * U) <= Z.abs (b * U - X * U)) as HS.
      { intros a b H. replace (a * U - X * U) with ((a - X) * U) by ring. replace (b * U - X * U) with ((b - X) * U) by ring.
        rewrite !Z.abs_mul. apply Z.mul_le_mono_nonneg_r; lia. }
      assert (M * 2 ^ (E + 1074) * (d * C) = M * (d * P) * U) as ->.
      { replace (M * 2 ^ (E + 1074) * (d * C)) with (M * d * (2 ^ (E + 1074) * C)) by ring. rewrite HPU. ring. }
      destruct (Z_le_gt_dec (E + 1074) kw) as [K|K].
      + assert (mw * 2 ^ kw * (d * C) = mw * 2 ^ (kw - (E + 1074)) * (d * P) * U) as ->.
        { replace (2 ^ kw) with (2 ^ (kw - (E + 1074)) * 2 ^ (E + 1074)) by (rewrite <- Z.pow_add_r by lia; f_equal; lia).
          replace (mw * (2 ^ (kw - (E + 1074)) * 2 ^ (E + 1074)) * (d * C)) with (mw * 2 ^ (kw - (E + 1074)) * d * (2 ^ (E + 1074) * C)) by ring. rewrite HPU. ring. }
        apply HS, HJ.
      + destruct HQ1 as [HQ1|HQ1]; [lia|].
        (* w lies below 2^52 units of the last place, which is below X *)
        assert (2 ^ 52 * (d * P) <= X) as HXl.
        { unfold X. assert (2 ^ 52 * P * d <= q * d) by (apply Z.mul_le_mono_nonneg_r; lia). lia. }
        eapply Z.le_trans; [apply HS, (HJ (2 ^ 52))|].
        assert (mw * 2 ^ kw * (d * C) <= 2 ^ 52 * (d * P) * U) as HW.
        { replace (2 ^ 52 * (d * P) * U) with (2 ^ 52 * (P * U) * d) by ring. rewrite <- HPU.
          replace (mw * 2 ^ kw * (d * C)) with (mw * 2 ^ kw * C * d) by ring. apply Z.mul_le_mono_nonneg_r; [lia|]. rewrite Z.mul_assoc. apply Z.mul_le_mono_nonneg_r; [lia|].
          apply Z.le_trans with (2 ^ 53 * 2 ^ kw); [apply Z.mul_le_mono_nonneg_r; [apply Z.pow_nonneg; lia|lia]|].
          rewrite <- !Z.pow_add_r by lia. apply Z.pow_le_mono_r; lia. }
        assert (2 ^ 52 * (d * P) * U <= X * U) by (apply Z.mul_le_mono_nonneg_r; lia). lia. }
  exists (neg sx V). split.
  - destruct sx; cbn [neg]; [apply near_opp|]; exact HN.
  - intros HV. assert (V < 2 ^ 2098) as HV'. { destruct sx; cbn [neg] in HV; lia. } clear HV.
    destruct (binary_round_aux 53 1024 sx q e l) as [s|s| |s m e']; cbn [fin].
    + destruct HX as [-> HX]. unfold V. rewrite HX. destruct sx; reflexivity.
    + destruct HX as (_ & H52 & H971 & HX). exfalso. unfold V in HV'. clear - HV' H52 H971 HX HEm.
      destruct (Z.eq_dec E 971) as [E9|]; [rewrite (HX E9), E9 in HV'; vm_compute in HV'; discriminate|].
      assert (2 ^ 52 * 2 ^ (E + 1074) <= M * 2 ^ (E + 1074)) by (apply Z.mul_le_mono_nonneg_r; [apply Z.pow_nonneg; lia|lia]).
      rewrite <- Z.pow_add_r in H by lia. pose proof (Z.pow_le_mono_r 2 2098 (52 + (E + 1074)) ltac:(lia) ltac:(lia)). lia.
    + contradiction.
    + destruct HX as (-> & HX & He' & HBd). split; [|assumption]. f_equal. unfold V. rewrite <- HX, <- Z.mul_assoc, <- Z.pow_add_r by lia. f_equal. f_equal. lia.
Qed.

(** ** the operations *)
Lemma zero_result D s : 0 < D -> result 0 D (S754_zero s).
Proof.
  intros HD. exists 0. split; [|reflexivity]. split; [apply repr_0|]. intros w _. replace (0 * D - 0) with 0 by ring. change (Z.abs 0) with 0. apply Z.abs_nonneg.
Qed.
(** binary_round: an integer mantissa of any size *)
Lemma binary_round_near sx m e : -1074 <= e -> result (neg sx (Zpos m * 2 ^ (e + 1074))) 1 (binary_round 53 1024 sx m e).
Proof.
  intros He. unfold binary_round. change (Zpos (digits2_pos m)) with (Zdigits2 (Zpos m)). set (E := fexp 53 1024 (Zdigits2 (Zpos m) + e)).
  assert (-1074 <= E) as HE by (unfold E, fexp, emin; lia).
  destruct (Z_le_gt_dec e E) as [K|K].
  - assert (shl_align m e E = (m, e)) as -> by (unfold shl_align; destruct (E - e) eqn:ED; try reflexivity; lia).
    pose proof (round_near sx (Zpos m) e loc_Exact 1 0 0 ltac:(lia) ltac:(lia) eq_refl ltac:(lia) ltac:(lia) ltac:(lia) K) as H.
    rewrite Z.mul_1_r, !Z.add_0_r in H. exact H.
  - assert (exists m', shl_align m e E = (m', E) /\ Zpos m' = Zpos m * 2 ^ (e - E)) as (m' & -> & Hm').
    { unfold shl_align. destruct (E - e) eqn:ED; try lia. eexists. split; [reflexivity|]. rewrite shift_pos_correct. change (Zpower_pos 2 p) with (2 ^ Zpos p).
      replace (e - E) with (Zpos p) by lia. ring. }
    assert (Zdigits2 (Zpos m') + E = Zdigits2 (Zpos m) + e) as HD.
    { rewrite !digits_log2, Hm', Z.log2_mul_pow2 by lia. lia. }
    pose proof (round_near sx (Zpos m') E loc_Exact 1 0 0 ltac:(lia) ltac:(lia) eq_refl ltac:(lia) ltac:(lia) ltac:(lia)) as H.
    rewrite HD in H. fold E in H. specialize (H ltac:(lia)). rewrite Z.mul_1_r, !Z.add_0_r, Hm', <- Z.mul_assoc, <- Z.pow_add_r in H by lia.
    replace (e - E + (E + 1074)) with (e + 1074) in H by lia. rewrite <- Hm' in H. exact H.
Qed.
Lemma normalize_near z e s : -1074 <= e -> result (z * 2 ^ (e + 1074)) 1 (binary_normalize 53 1024 z e s).
Proof.
  intros He. destruct z as [|p|p]; cbn [binary_normalize].
  - rewrite Z.mul_0_l. now apply zero_result.
  - exact (binary_round_near false p e He).
  - pose proof (binary_round_near true p e He) as H. cbn [neg] in H. rewrite <- Z.mul_opp_l in H. exact H.
Qed.
Lemma of_int_near z : result (z * 2 ^ 1074) 1 (f64_of_int z).
Proof. exact (normalize_near z 0 false ltac:(lia)). Qed.

Lemma align_value m e ez : ez <= e -> -1074 <= ez -> Zpos (fst (shl_align m e ez)) * 2 ^ (ez + 1074) = Zpos m * 2 ^ (e + 1074).
Proof.
  intros H1 H2. unfold shl_align. destruct (ez - e) eqn:ED; try lia; cbn [fst].
  - f_equal. f_equal. lia.
  - rewrite shift_pos_correct. change (Zpower_pos 2 p) with (2 ^ Zpos p). replace (2 ^ (e + 1074)) with (2 ^ Zpos p * 2 ^ (ez + 1074)) by (rewrite <- Z.pow_add_r by lia; f_equal; lia). ring.
Qed.
Lemma fin_result x v : fin x v -> result v 1 x.
Proof.
  intros H. exists v. split; [|intros _; exact H]. apply fin_repr in H as [H _]. split; [assumption|]. intros w _. replace (v * 1 - v) with 0 by ring. change (Z.abs 0) with 0. apply Z.abs_nonneg.
Qed.
Lemma cond_neg s m U : cond_Zopp s (Zpos m) * U = neg s (Zpos m * U).
Proof. destruct s; cbn [cond_Zopp neg]; ring. Qed.
Lemma add_near x y a b : fin x a -> fin y b -> result (a + b) 1 (SFadd 53 1024 x y).
Proof.
  intros Hx Hy. destruct x as [s|s| |s m e], y as [s'|s'| |s' m' e']; try contradiction; cbn [SFadd].
  - cbn [fin] in *. subst. destruct (Bool.eqb s s'); now apply zero_result.
  - cbn [fin] in Hx. subst. now apply fin_result.
  - cbn [fin] in Hy. subst. rewrite Z.add_0_r. now apply fin_result.
  - destruct Hx as [-> Bx], Hy as [-> By]. apply bounded_inv in Bx as (Ex & _). apply bounded_inv in By as (Ey & _). set (ez := Z.min e e').
    pose proof (normalize_near (cond_Zopp s (Zpos (fst (shl_align m e ez))) + cond_Zopp s' (Zpos (fst (shl_align m' e' ez)))) ez false ltac:(lia)) as H.
    rewrite Z.mul_add_distr_r, !cond_neg, !align_value in H by lia. exact H.
Qed.
Lemma fin_opp x a : fin x a -> fin (SFopp x) (- a).
Proof. destruct x as [s|s| |s m e]; cbn [fin SFopp]; try contradiction; [intros ->; reflexivity|]. intros [-> H]. split; [|assumption]. destruct s; cbn [neg negb]; ring. Qed.
Lemma sub_near x y a b : fin x a -> fin y b -> result (a - b) 1 (SFsub 53 1024 x y).
Proof.
  intros Hx Hy. destruct x as [s|s| |s m e], y as [s'|s'| |s' m' e']; try contradiction; cbn [SFsub].
  - cbn [fin] in *. subst. destruct (Bool.eqb s (negb s')); now apply zero_result.
  - cbn [fin] in Hx. subst. apply fin_result. now apply (fin_opp (S754_finite s' m' e')).
  - cbn [fin] in Hy. subst. rewrite Z.sub_0_r. now apply fin_result.
  - destruct Hx as [-> Bx], Hy as [-> By]. apply bounded_inv in Bx as (Ex & _). apply bounded_inv in By as (Ey & _). set (ez := Z.min e e').
    pose proof (normalize_near (cond_Zopp s (Zpos (fst (shl_align m e ez))) - cond_Zopp s' (Zpos (fst (shl_align m' e' ez)))) ez false ltac:(lia)) as H.
    rewrite Z.mul_sub_distr_r, !cond_neg, !align_value in H by lia. exact H.
Qed.
Lemma neg_xorb s s' a b : neg (xorb s s') (a * b) = neg s a * neg s' b.
Proof. destruct s, s'; cbn [xorb neg]; ring. Qed.
Lemma neg_mul s a b : neg s (a * b) = neg s a * b.
Proof. destruct s; cbn [neg]; ring. Qed.
Lemma mul_near x y a b : fin x a -> fin y b -> result (a * b) (2 ^ 1074) (SFmul 53 1024 x y).
Proof.
  intros Hx Hy. destruct x as [s|s| |s m e], y as [s'|s'| |s' m' e']; try contradiction; cbn [SFmul].
  - cbn [fin] in *. subst. now apply zero_result.
  - cbn [fin] in Hx. subst. now apply zero_result.
  - cbn [fin] in Hy. subst. rewrite Z.mul_0_r. now apply zero_result.
  - destruct Hx as [-> Bx], Hy as [-> By]. pose proof (bounded_inv _ _ Bx) as (Ex & Mx & Nx). pose proof (bounded_inv _ _ By) as (Ey & My & Ny).
    destruct (Z_le_gt_dec (e + e') (fexp 53 1024 (Zdigits2 (Zpos (m * m')) + (e + e')))) as [K|K].
    + pose proof (round_near (xorb s s') (Zpos (m * m')) (e + e') loc_Exact 1 0 1074 ltac:(lia) ltac:(lia) eq_refl ltac:(lia) ltac:(lia) ltac:(lia) K) as H.
      rewrite Z.mul_1_r, Z.add_0_r, Z.mul_1_l in H. rewrite Pos2Z.inj_mul in H.
      replace (Zpos m * Zpos m' * 2 ^ (e + e' + 1074 + 1074)) with (Zpos m * 2 ^ (e + 1074) * (Zpos m' * 2 ^ (e' + 1074))) in H.
      2: { replace (e + e' + 1074 + 1074) with ((e + 1074) + (e' + 1074)) by lia. rewrite (Z.pow_add_r 2 (e + 1074) (e' + 1074)) by lia. ring. }
      rewrite neg_xorb in H. exact H.
    + exfalso. unfold fexp, emin in K. rewrite digits_log2, Pos2Z.inj_mul in K.
      pose proof (Z.log2_mul_below (Zpos m) (Zpos m') ltac:(lia) ltac:(lia)). pose proof (Z.log2_nonneg (Zpos m)). pose proof (Z.log2_nonneg (Zpos m')).
      assert (e = -1074 \/ 52 <= Z.log2 (Zpos m)) by (destruct Nx; [now left|right; apply Z.log2_le_pow2; lia]).
      assert (e' = -1074 \/ 52 <= Z.log2 (Zpos m')) by (destruct Ny; [now left|right; apply Z.log2_le_pow2; lia]). lia.
Qed.

(** division, by a divisor that is not zero *)
Lemma div_near' x y a b : fin x a -> fin y b -> b <> 0 -> result (Z.sgn b * a * 2 ^ 1074) (Z.abs b) (SFdiv 53 1024 x y).
Proof.
  intros Hx Hy Hb. assert (0 < Z.abs b) as Hb' by lia. destruct y as [s'|s'| |s' m' e']; try contradiction.
  destruct x as [s|s| |s m e]; try contradiction; cbn [SFdiv].
  - cbn [fin] in Hx. subst a. replace (Z.sgn b * 0 * 2 ^ 1074) with 0 by ring. now apply zero_result.
  - destruct Hx as [-> Bx], Hy as [-> By]. pose proof (bounded_inv _ _ Bx) as (Ex & Mx & Nx). pose proof (bounded_inv _ _ By) as (Ey & My & Ny).
    unfold SFdiv_core_binary. set (e1 := Z.min (fexp 53 1024 (Zdigits2 (Zpos m) + e - (Zdigits2 (Zpos m') + e'))) (e - e')).
    assert (e1 <= e - e') as H1 by (unfold e1; lia).
    assert (match e - e' - e1 with Zpos _ => Z.shiftl (Zpos m) (e - e' - e1) | Z0 => Zpos m | Zneg _ => 0 end = Zpos m * 2 ^ (e - e' - e1)) as ->.
    { destruct (e - e' - e1) eqn:ED; [change (2 ^ 0) with 1; lia| |lia]. rewrite Z.shiftl_mul_pow2 by lia. reflexivity. }
    set (n := Zpos m * 2 ^ (e - e' - e1)).
    assert (0 < 2 ^ (e - e' - e1)) as HP by (apply Z.pow_pos_nonneg; lia). assert (0 < n) as Hn by (apply Z.mul_pos_pos; lia).
    pose proof (Z_div_mod n (Zpos m') ltac:(lia)) as HD. destruct (Z.div_eucl n (Zpos m')) as [q r]. destruct HD as [HD Hr].
    assert (0 <= q) as Hq. { assert (~ q <= -1); [|lia]. intros C. assert (Zpos m' * q <= Zpos m' * (-1)) by (apply Z.mul_le_mono_nonneg_l; lia). lia. }
    assert (e1 <= fexp 53 1024 (Zdigits2 q + e1)) as K.
    { (* q has at least as many digits as needed *)
      assert (2 ^ Z.log2 (Zpos m) <= Zpos m < 2 ^ (Z.log2 (Zpos m) + 1)) as L1 by (apply Z.log2_spec; lia).
      assert (2 ^ Z.log2 (Zpos m') <= Zpos m' < 2 ^ (Z.log2 (Zpos m') + 1)) as L2 by (apply Z.log2_spec; lia).
      pose proof (Z.log2_nonneg (Zpos m)) as N1. pose proof (Z.log2_nonneg (Zpos m')) as N2.
      set (k := Z.log2 (Zpos m) + (e - e' - e1) - Z.log2 (Zpos m') - 1).
      assert (e1 <= fexp 53 1024 (k + 2 + e1) /\ e1 <= -1074 \/ 52 <= k) as HK.
      { unfold k, e1 in *. rewrite !digits_log2 in *. unfold fexp, emin in *. lia. }
      destruct HK as [[HK1 HK2]|HK].
      - unfold fexp, emin. lia.
      - assert (2 ^ k <= q) as HQ.
        { assert (~ q <= 2 ^ k - 1); [|lia]. intros C.
          assert (Zpos m' * q <= Zpos m' * (2 ^ k - 1)) as C1 by (apply Z.mul_le_mono_nonneg_l; lia).
          assert (Zpos m' * 2 ^ k < 2 ^ (Z.log2 (Zpos m') + 1) * 2 ^ k) as C2 by (apply Z.mul_lt_mono_pos_r; [apply Z.pow_pos_nonneg|]; lia).
          assert (2 ^ Z.log2 (Zpos m) * 2 ^ (e - e' - e1) <= n) as C3 by (apply Z.mul_le_mono_nonneg_r; lia).
          rewrite <- Z.pow_add_r in C2, C3 by lia. replace (Z.log2 (Zpos m') + 1 + k) with (Z.log2 (Zpos m) + (e - e' - e1)) in C2 by (unfold k; lia). lia. }
        assert (53 <= Zdigits2 q) as HDq.
        { destruct q as [|p|p]; [pose proof (Z.pow_pos_nonneg 2 k); lia| |lia]. rewrite digits_log2. assert (52 <= Z.log2 (Zpos p)); [|lia].
          apply Z.log2_le_pow2; [lia|]. apply Z.le_trans with (2 ^ k); [apply Z.pow_le_mono_r; lia|lia]. }
        unfold fexp, emin. lia. }
    pose proof (new_location_ok (Zpos m') r ltac:(lia) Hr) as HL.
    (* the exact quotient *)
    set (c := 5000). assert (-5000 <= e1) as He1 by (unfold e1, fexp, emin; lia).
    pose proof (round_near (xorb s s') q e1 (new_location (Zpos m') r) (Zpos m') r c ltac:(lia) Hr HL Hq ltac:(unfold c; lia) ltac:(unfold c; lia) K) as H.
    destruct H as (v & HN & HF). exists v. split; [|exact HF].
    replace (q * Zpos m' + r) with n in HN by (rewrite HD; ring).
    (* rescale both fractions *)
    apply (near_scale _ _ _ (2 ^ c * 2 ^ (e' + 1074))); [apply Z.mul_pos_pos; apply Z.pow_pos_nonneg; unfold c; lia|].
    assert (forall N D, near N D v -> forall u, 0 < u -> near (N * u) (D * u) v) as HU.
    { intros N D [R M] u Hu. split; [assumption|]. intros w Hw. specialize (M w Hw).
      replace (v * (D * u) - N * u) with ((v * D - N) * u) by ring. replace (w * (D * u) - N * u) with ((w * D - N) * u) by ring.
      rewrite !Z.abs_mul. apply Z.mul_le_mono_nonneg_r; lia. }
    pose proof (HU _ _ HN (2 ^ (e' + 1074) * 2 ^ (e' + 1074)) ltac:(apply Z.mul_pos_pos; apply Z.pow_pos_nonneg; lia)) as HN2.
    assert (0 < 2 ^ (e' + 1074)) as HW by (apply Z.pow_pos_nonneg; lia). set (W := 2 ^ (e' + 1074)) in *.
    assert (0 < Zpos m' * W) as HMW by (apply Z.mul_pos_pos; lia).
    assert (Z.abs (neg s' (Zpos m' * W)) = Zpos m' * W) as -> by (destruct s'; cbn [neg]; lia).
    assert (Z.sgn (neg s' (Zpos m' * W)) = neg s' 1) as -> by (destruct s'; cbn [neg]; [apply Z.sgn_neg|apply Z.sgn_pos]; lia).
    replace (Zpos m' * W * (2 ^ c * W)) with (Zpos m' * 2 ^ c * (W * W)) by ring.
    replace (neg s' 1 * neg s (Zpos m * 2 ^ (e + 1074)) * 2 ^ 1074 * (2 ^ c * W)) with (neg (xorb s s') (n * 2 ^ (e1 + 1074 + c)) * (W * W)); [exact HN2|].
    assert (n * 2 ^ (e1 + 1074 + c) * (W * W) = Zpos m * 2 ^ (e + 1074) * 2 ^ 1074 * (2 ^ c * W)) as HE.
    { unfold n, W. rewrite <- !Z.mul_assoc. f_equal. rewrite <- !Z.pow_add_r by (unfold c; lia). f_equal. unfold c. lia. }
    destruct s, s'; cbn [xorb neg]; lia.
Qed.

(** ** comparison *)
Definition val (x : spec_float) : Z := match x with S754_finite s m e => neg s (Zpos m * 2 ^ (e + 1074)) | _ => 0 end.
Lemma fin_val x v : fin x v -> v = val x.
Proof. destruct x; cbn [fin val]; tauto. Qed.
Lemma finite_pos m e : bounded 53 1024 m e = true -> 0 < Zpos m * 2 ^ (e + 1074).
Proof. intros H. apply bounded_inv in H as (H & _). apply Z.mul_pos_pos; [lia|]. apply Z.pow_pos_nonneg; lia. Qed.
Lemma compare_pos m e m' e' : bounded 53 1024 m e = true -> bounded 53 1024 m' e' = true ->
  match Z.compare e e' with Lt => Lt | Gt => Gt | Eq => Pcompare m m' Eq end = (Zpos m * 2 ^ (e + 1074) ?= Zpos m' * 2 ^ (e' + 1074)).
Proof.
  assert (forall m e m' e', bounded 53 1024 m e = true -> bounded 53 1024 m' e' = true -> e < e' -> Zpos m * 2 ^ (e + 1074) < Zpos m' * 2 ^ (e' + 1074)) as K.
  { clear. intros m e m' e' H H' L. apply bounded_inv in H as (E1 & M1 & N1). apply bounded_inv in H' as (E2 & M2 & N2).
    apply Z.lt_le_trans with (2 ^ 53 * 2 ^ (e + 1074)); [apply Z.mul_lt_mono_pos_r; [apply Z.pow_pos_nonneg|]; lia|].
    apply Z.le_trans with (2 ^ 52 * 2 ^ (e' + 1074)); [rewrite <- !Z.pow_add_r by lia; apply Z.pow_le_mono_r; lia|].
    apply Z.mul_le_mono_nonneg_r; [apply Z.pow_nonneg|]; lia. }
  intros H H'. destruct (Z.compare_spec e e') as [->|L|L].
  - rewrite <- Zmult_compare_compat_r by (apply bounded_inv in H as (H & _); apply Z.lt_gt, Z.pow_pos_nonneg; lia). reflexivity.
  - symmetry. apply Z.compare_lt_iff. now apply K.
  - symmetry. apply Z.compare_gt_iff. now apply K.
Qed.
Lemma compare_val x y a b : fin x a -> fin y b -> SFcompare x y = Some (a ?= b).
Proof.
  intros Hx Hy. destruct x as [s|s| |s m e], y as [s'|s'| |s' m' e']; try contradiction; cbn [SFcompare fin] in *; f_equal.
  - subst. reflexivity.
  - destruct Hy as [-> Hy]. apply finite_pos in Hy. subst a. destruct s'; cbn [neg]; symmetry; [apply Z.compare_gt_iff|apply Z.compare_lt_iff]; lia.
  - destruct Hx as [-> Hx]. apply finite_pos in Hx. subst b. destruct s; cbn [neg]; symmetry; [apply Z.compare_lt_iff|apply Z.compare_gt_iff]; lia.
  - destruct Hx as [-> Hx], Hy as [-> Hy]. pose proof (finite_pos _ _ Hx). pose proof (finite_pos _ _ Hy). pose proof (compare_pos _ _ _ _ Hx Hy) as HC.
    destruct s, s'; cbn [neg].
    + transitivity (CompOpp (Zpos m * 2 ^ (e + 1074) ?= Zpos m' * 2 ^ (e' + 1074))).
      * rewrite <- HC. destruct (e ?= e'); reflexivity.
      * rewrite <- Z.compare_antisym, Z.compare_opp. reflexivity.
    + symmetry. apply Z.compare_lt_iff. lia.
    + symmetry. apply Z.compare_gt_iff. lia.
    + exact HC.
Qed.
Lemma ltb_val x y a b : fin x a -> fin y b -> SFltb x y = (a <? b).
Proof. intros Hx Hy. unfold SFltb. rewrite (compare_val x y a b Hx Hy). unfold Z.ltb. now destruct (a ?= b). Qed.

(** ** error of a rounding *)
Lemma half_up n d : 0 < d -> 2 * Z.abs ((2 * n + d) / (2 * d) * d - n) <= d.
Proof.
  intros Hd. pose proof (Z.div_mod (2 * n + d) (2 * d) ltac:(lia)) as H. pose proof (Z.mod_pos_bound (2 * n + d) (2 * d) ltac:(lia)).
  set (q := (2 * n + d) / (2 * d)) in *. replace (2 * d * q) with (2 * (q * d)) in H by ring. generalize dependent (q * d). intros. lia.
Qed.
Lemma near_error_pos N D v : 0 < D -> 0 <= N -> near N D v -> 2 ^ 53 * Z.abs (v * D - N) <= N + 2 ^ 52 * D.
Proof.
  intros HD HN [_ H]. destruct (Z_lt_le_dec N (2 ^ 53 * D)) as [S|B].
  - set (w := (2 * N + D) / (2 * D)). pose proof (half_up N D HD) as HH. fold w in HH.
    assert (repr w) as Hw.
    { assert (0 <= w <= 2 ^ 53) as Hw. { split; [apply Z.div_pos; lia|]. assert (w < 2 ^ 53 + 1); [|lia]. apply Z.div_lt_upper_bound; lia. }
      destruct (Z.eq_dec w (2 ^ 53)) as [->|]; [apply (repr_pow 53); lia|]. exists w, 0. split; [change (2 ^ 0) with 1; ring|]. lia. }
    specialize (H w Hw). generalize dependent (w * D). generalize dependent (v * D). intros. lia.
  - assert (2 ^ 53 <= N / D) as HQ by (apply Z.div_le_lower_bound; lia).
    set (k := Z.log2 (N / D) - 52). pose proof (Z.log2_spec (N / D) ltac:(lia)) as HL.
    assert (53 <= Z.log2 (N / D)) as HL2 by (apply Z.log2_le_pow2; lia).
    assert (0 <= k) as Hk by (unfold k; lia). set (P := 2 ^ k). assert (0 < P) as HP by (apply Z.pow_pos_nonneg; lia).
    assert (2 ^ 52 * P * D <= N) as HL3.
    { unfold P. rewrite <- Z.pow_add_r by lia. replace (52 + k) with (Z.log2 (N / D)) by (unfold k; lia).
      apply Z.le_trans with (N / D * D); [apply Z.mul_le_mono_nonneg_r; lia|]. rewrite Z.mul_comm. apply Z.mul_div_le. lia. }
    assert (N < 2 ^ 53 * P * D) as HU.
    { unfold P. rewrite <- Z.pow_add_r by lia. replace (53 + k) with (Z.succ (Z.log2 (N / D))) by (unfold k; lia).
      pose proof (Z.mul_succ_div_gt N D HD). rewrite Z.mul_comm. eapply Z.lt_le_trans; [exact H0|]. apply Z.mul_le_mono_nonneg_l; lia. }
    set (w := (2 * N + D * P) / (2 * (D * P))). assert (0 < D * P) as HDP by (apply Z.mul_pos_pos; lia).
    pose proof (half_up N (D * P) HDP) as HH. fold w in HH.
    assert (repr (w * P)) as Hw.
    { assert (0 <= w <= 2 ^ 53) as Hw.
      { split; [apply Z.div_pos; lia|]. assert (w < 2 ^ 53 + 1); [|lia]. apply Z.div_lt_upper_bound; [lia|]. lia. }
      destruct (Z.eq_dec w (2 ^ 53)) as [->|].
      - unfold P. rewrite <- Z.pow_add_r by lia. apply repr_pow. lia.
      - exists w, k. split; [reflexivity|]. lia. }
    specialize (H (w * P) Hw). replace (w * P * D) with (w * (D * P)) in H by ring. replace (2 ^ 52 * P * D) with (2 ^ 52 * (D * P)) in HL3 by ring.
    generalize dependent (w * (D * P)). generalize dependent (v * D). intros. lia.
Qed.
Lemma near_error N D v : 0 < D -> near N D v -> 2 ^ 53 * Z.abs (v * D - N) <= Z.abs N + 2 ^ 52 * D.
Proof.
  intros HD H. destruct (Z_le_dec 0 N) as [HN|HN].
  - rewrite (Z.abs_eq N) by lia. now apply near_error_pos.
  - apply near_opp in H. pose proof (near_error_pos (- N) D (- v) HD ltac:(lia) H) as K. replace (- v * D - - N) with (- (v * D - N)) in K by ring. rewrite Z.abs_opp in K. lia.
Qed.

(** ** square root *)
Lemma sqrt_digits n : 0 < n -> Zdigits2 (Z.sqrt n) = (Zdigits2 n + 1) / 2.
Proof.
  intros Hn. pose proof (Z.log2_spec n Hn) as HL. pose proof (Z.log2_nonneg n) as H0. set (k := Z.log2 n) in *.
  assert (Zdigits2 n = k + 1) as -> by (destruct n; try lia; apply digits_log2).
  pose proof (Z.div_mod k 2 ltac:(lia)) as DM. pose proof (Z.mod_pos_bound k 2 ltac:(lia)) as MB. set (h := k / 2) in *.
  replace ((k + 1 + 1) / 2) with (h + 1) by (replace (k + 1 + 1) with (k + 1 * 2) by lia; rewrite Z.div_add by lia; reflexivity).
  assert (0 <= h) by (apply Z.div_pos; lia). apply digits_unique; [lia|]. split.
  - apply Z.sqrt_le_square; [lia|apply Z.pow_nonneg; lia|]. rewrite <- Z.pow_add_r by lia. apply Z.le_trans with (2 ^ k); [apply Z.pow_le_mono_r; lia|lia].
  - apply Z.sqrt_lt_square; [lia|apply Z.pow_nonneg; lia|]. rewrite <- Z.pow_add_r by lia. apply Z.lt_le_trans with (2 ^ Z.succ k); [lia|apply Z.pow_le_mono_r; lia].
Qed.
Lemma sqrt_fin x v : fin x v -> 0 <= v -> exists w, fin (SFsqrt 53 1024 x) w /\ 0 <= w.
Proof.
  intros Hx Hv. destruct x as [s|s| |s m e]; try contradiction; cbn [SFsqrt].
  - exists 0. split; [reflexivity|lia].
  - destruct Hx as [-> HB]. pose proof (finite_pos _ _ HB) as HP. pose proof (bounded_inv _ _ HB) as (He & Hm & _).
    destruct s; cbn [neg] in Hv; [lia|]. cbn [SFsqrt]. unfold SFsqrt_core_binary.
    set (e1 := Z.min (fexp 53 1024 (Z.div2 (Zdigits2 (Zpos m) + e + 1))) (Z.div2 e)).
    assert (2 * e1 <= e) as H1. { unfold e1. rewrite Z.div2_div with (a := e). pose proof (Z.mul_div_le e 2 ltac:(lia)). lia. }
    assert (match e - 2 * e1 with Zpos _ => Z.shiftl (Zpos m) (e - 2 * e1) | Z0 => Zpos m | Zneg _ => 0 end = Zpos m * 2 ^ (e - 2 * e1)) as ->.
    { destruct (e - 2 * e1) eqn:ED; [change (2 ^ 0) with 1; lia| |lia]. rewrite Z.shiftl_mul_pow2 by lia. reflexivity. }
    set (n := Zpos m * 2 ^ (e - 2 * e1)). assert (0 < n) as Hn by (apply Z.mul_pos_pos; [lia|apply Z.pow_pos_nonneg; lia]).
    destruct (Z.sqrtrem n) as [q r] eqn:ES. pose proof (Z.sqrtrem_spec n ltac:(lia)) as HS. rewrite ES in HS. destruct HS as [HS Hr].
    assert (q = Z.sqrt n) as Hq by (rewrite <- Z.sqrtrem_sqrt, ES; reflexivity).
    assert (-1074 <= e1 <= 1000) as He1.
    { unfold e1. rewrite !Z.div2_div. pose proof (Z.div_le_mono (-1074) e 2 ltac:(lia) ltac:(lia)) as A. change (-1074 / 2) with (-537) in A.
      pose proof (Z.div_le_mono e 971 2 ltac:(lia) ltac:(lia)) as A2. change (971 / 2) with 485 in A2. unfold fexp, emin. lia. }
    assert (Zdigits2 q + e1 = Z.div2 (Zdigits2 (Zpos m) + e + 1)) as HD.
    { rewrite Hq, sqrt_digits by assumption. rewrite Z.div2_div. assert (Zdigits2 n = Zdigits2 (Zpos m) + (e - 2 * e1)) as ->.
      { unfold n. rewrite digits_log2. destruct (Zpos m * 2 ^ (e - 2 * e1)) as [|p|p] eqn:EP; [unfold n in Hn; lia| |unfold n in Hn; lia].
        rewrite digits_log2, <- EP, Z.log2_mul_pow2 by lia. lia. }
      replace (Zdigits2 (Zpos m) + (e - 2 * e1) + 1) with (Zdigits2 (Zpos m) + e + 1 + (- e1) * 2) by ring. rewrite Z.div_add by lia. ring. }
    set (l := if Zeq_bool r 0 then loc_Exact else loc_Inexact (if Zle_bool r q then Lt else Gt)).
    assert (exists r4, 0 <= r4 < 4 /\ loc_ok l 4 r4) as (r4 & Hr4 & Hl).
    { unfold l. destruct (Zeq_bool r 0); [exists 0; cbn; lia|]. destruct (Zle_bool r q); [exists 1|exists 3]; cbn; lia. }
    assert (0 <= q) as Hq0 by (rewrite Hq; apply Z.sqrt_nonneg).
    pose proof (round_near false q e1 l 4 r4 0 ltac:(lia) Hr4 Hl Hq0 ltac:(lia) ltac:(lia) ltac:(rewrite HD; unfold e1; lia)) as (w & HN & HF).
    cbn [neg] in HN. change (4 * 2 ^ 0) with 4 in HN.
    assert ((q + 1) * 2 ^ (e1 + 1074) <= 2 ^ 1600) as HU.
    { assert (0 < q) as Hqp. { destruct (Z.eq_dec q 0) as [->|]; [|lia]. lia. }
      destruct q as [|p|p]; try lia. rewrite digits_log2 in HD. pose proof (Z.log2_spec (Zpos p) ltac:(lia)) as HL. pose proof (Z.log2_nonneg (Zpos p)).
      apply Z.le_trans with (2 ^ Z.succ (Z.log2 (Zpos p)) * 2 ^ (e1 + 1074)); [apply Z.mul_le_mono_nonneg_r; [apply Z.pow_nonneg|]; lia|].
      rewrite <- Z.pow_add_r by lia. apply Z.pow_le_mono_r; [lia|]. rewrite Z.div2_div, digits_log2 in HD.
      assert (Z.log2 (Zpos m) < 53) by (apply Z.log2_lt_pow2; lia).
      pose proof (Z.mul_div_le (Z.log2 (Zpos m) + 1 + e + 1) 2 ltac:(lia)). lia. }
    exists w. assert (0 <= w) as Hw. { refine (near_ge _ _ _ _ _ HN repr_0 _); [lia|]. apply Z.mul_nonneg_nonneg; [lia|apply Z.pow_nonneg; lia]. }
    split; [|assumption]. apply HF. rewrite Z.abs_eq by assumption. apply Z.le_lt_trans with (2 ^ 1600); [|reflexivity].
    refine (near_le _ _ _ _ _ HN _ _); [lia|apply repr_pow; lia|]. rewrite Z.add_0_r. apply Z.le_trans with (4 * ((q + 1) * 2 ^ (e1 + 1074))); [|lia].
    rewrite Z.mul_assoc. apply Z.mul_le_mono_nonneg_r; [apply Z.pow_nonneg|]; lia.
Qed.
