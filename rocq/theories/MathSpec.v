(** MathSpec.v -- limb-level statements for MulDiv / MulDivRoundingUp and the combined statements used by
    Prop_Math.v. *)
From Verif Require Import Base U256 U256Facts U256Udivrem U256DivSpec U256Z LibBridge FullMathFacts SwapMath SwapMathFacts SwapStep.
From Coq Require Import ZifyBool.
Ltac Zify.zify_post_hook ::= idtac.

Lemma ceil_div n d : 0 < d -> - ((- n) / d) = if negb (n mod d =? 0) then n / d + 1 else n / d.
Proof.
  intros Hd. pose proof (Z.div_mod n d ltac:(lia)). pose proof (Z.mod_pos_bound n d Hd).
  destruct (n mod d =? 0) eqn:E; cbn [negb].
  - assert (- n / d = - (n / d)) by (symmetry; apply Z.div_unique_pos with (r := 0); lia). lia.
  - assert (- n / d = - (n / d) - 1) by (symmetry; apply Z.div_unique_pos with (r := d - n mod d); lia). lia.
Qed.

Lemma MulDivL_exact a b d z : wf a -> wf b -> wf d -> MulDivL a b d = Ok z ->
  wf z /\ (0 < toZ d -> toZ z = (toZ a * toZ b / toZ d) mod T256) /\ (toZ d = 0 -> toZ a * toZ b = 0 /\ toZ z = 0).
Proof.
  intros Ha Hb Hd E. rewrite MulDivL_spec in E by assumption.
  pose proof (toZ_range a Ha). pose proof (toZ_range b Hb).
  destruct (MulDiv (toZ a) (toZ b) (toZ d)) as [r| |] eqn:Em; cbn in E; try discriminate.
  injection E as <-. pose proof (MulDiv_range _ _ _ _ Em) as R. rewrite toZ_ofZ by lia.
  split; [apply wf_ofZ|]. split.
  - intros Hp. apply MulDiv_ok in Em; lia.
  - intros Hz. rewrite Hz in Em. unfold MulDiv in Em. destruct (_ || _) eqn:C; [|discriminate].
    injection Em as <-. apply orb_true_iff in C as [C|C]; apply Z.eqb_eq in C; rewrite C; lia.
Qed.
Lemma MulDivRoundingUpL_exact a b d z : wf a -> wf b -> wf d -> MulDivRoundingUpL a b d = Ok z ->
  wf z /\ (0 < toZ d -> toZ z = (- ((- (toZ a * toZ b)) / toZ d)) mod T256) /\ (toZ d = 0 -> toZ a * toZ b = 0 /\ toZ z = 0).
Proof.
  intros Ha Hb Hd E. rewrite MulDivRoundingUpL_spec in E by assumption.
  pose proof (toZ_range a Ha). pose proof (toZ_range b Hb).
  destruct (MulDivRoundingUp (toZ a) (toZ b) (toZ d)) as [r| |] eqn:Em; cbn in E; try discriminate.
  injection E as <-. pose proof (MulDivRoundingUp_range _ _ _ _ Em) as R. rewrite toZ_ofZ by lia.
  split; [apply wf_ofZ|]. unfold MulDivRoundingUp in Em. destruct (_ || _) eqn:C.
  - injection Em as <-. assert (Ez : toZ a * toZ b = 0) by (apply orb_true_iff in C as [C|C]; apply Z.eqb_eq in C; rewrite C; lia).
    rewrite Ez. split; [|lia]. intros Hp. rewrite Z.div_0_l by lia. reflexivity.
  - split.
    + intros Hp. destruct (udivrem5_ok _ _); [|discriminate]. injection Em as <-. rewrite ceil_div by assumption.
      destruct (negb _); [|reflexivity]. unfold uadd. rewrite Zplus_mod_idemp_l. reflexivity.
    + intros Hz. rewrite Hz in Em. discriminate.
Qed.

Lemma words_of_words k v : 0 <= v -> words_of k v -> words v = Z.of_nat k.
Proof.
  intros Hv H. unfold words_of in H. destruct (v =? 0) eqn:E.
  - subst k. apply words_0. lia.
  - destruct H as [H1 H2]. assert (words v <= Z.of_nat k) by (apply words_spec; lia).
    assert (~ words v <= Z.of_nat k - 1); [|lia].
    intros C. destruct k as [|k]; [cbn in H2; lia|]. apply words_spec in C; [|lia|lia]. lia.
Qed.

Lemma MulDivL_panics a b d np nd : wf a -> wf b -> wf d -> words_of np (toZ a * toZ b) -> words_of nd (toZ d) ->
  (MulDivL a b d = Panic <-> toZ a * toZ b <> 0 /\ (nd = 0 \/ np + 1 < nd \/ nd + 4 < np)%nat) /\
  (MulDivRoundingUpL a b d = Panic <-> MulDivL a b d = Panic) /\
  MulDivL a b d <> OutOfFuel /\ MulDivRoundingUpL a b d <> OutOfFuel.
Proof.
  intros Ha Hb Hd Hp Hq. pose proof (toZ_range a Ha). pose proof (toZ_range b Hb). pose proof (toZ_range d Hd).
  pose proof (prod_lt8 (toZ a) (toZ b) ltac:(lia) ltac:(lia)) as P8.
  apply words_of_words in Hp; [|lia]. apply words_of_words in Hq; [|lia].
  rewrite MulDivL_spec, MulDivRoundingUpL_spec by assumption. unfold MulDiv, MulDivRoundingUp.
  destruct ((toZ a =? 0) || (toZ b =? 0)) eqn:C.
  - assert (Ez : toZ a * toZ b = 0) by (apply orb_true_iff in C as [C|C]; apply Z.eqb_eq in C; rewrite C; lia).
    cbn [rmap]. split; [split; [discriminate|lia]|]. split; [split; discriminate|split; discriminate].
  - assert (Hab : 0 < toZ a * toZ b) by (apply Z.mul_pos_pos; lia).
    assert (words (toZ a * toZ b) <= 8) by (apply words_spec; lia).
    set (p := toZ a * toZ b) in *. 
    destruct (udivrem5_ok p (toZ d)) eqn:U; cbn [rmap].
    + split; [|split; [split; discriminate|split; discriminate]]. split; [discriminate|].
      unfold udivrem5_ok in U. pose proof (words_0 (toZ d)). clearbody p. lia.
    + split; [|split; [split; reflexivity|split; discriminate]]. split; [intros _|reflexivity].
      unfold udivrem5_ok in U. pose proof (words_0 (toZ d)). clearbody p. lia.
Qed.

(** the panic set does not meet the usual cases *)
Lemma MulDivL_safe a b d : wf a -> wf b -> wf d -> 0 < toZ d -> toZ a * toZ b < T256 * toZ d ->
  toZ d < W2 \/ toZ d <= toZ a * toZ b ->
  exists z z', MulDivL a b d = Ok z /\ MulDivRoundingUpL a b d = Ok z' /\ toZ z = toZ a * toZ b / toZ d.
Proof.
  intros Ha Hb Hd Hp Hq Hc. pose proof (toZ_range a Ha). pose proof (toZ_range b Hb).
  rewrite MulDivL_spec, MulDivRoundingUpL_spec by assumption.
  destruct (MulDiv_returns (toZ a) (toZ b) (toZ d)) as [r Er]; try lia.
  destruct (MulDivRoundingUp_returns (toZ a) (toZ b) (toZ d)) as [r' Er']; try lia.
  rewrite Er, Er'. cbn [rmap]. exists (ofZ r), (ofZ r'). split; [reflexivity|]. split; [reflexivity|].
  pose proof (MulDiv_range _ _ _ _ Er). rewrite toZ_ofZ by lia. apply MulDiv_floor in Er; lia.
Qed.

(** C21 in one statement per token: exact floor and exact ceiling, in either argument order *)
Lemma amount0_bracket a b l : liqR l -> 0 < a <= b -> b < 2 ^ 160 ->
  (forall x, GetAmount0Delta a b l false = Ok x -> x * (a * b) <= l * 2 ^ 96 * (b - a) < (x + 1) * (a * b)) /\
  (forall x, GetAmount0Delta a b l true = Ok x -> (x - 1) * (a * b) < l * 2 ^ 96 * (b - a) <= x * (a * b)) /\
  (forall u, GetAmount0Delta b a l u = GetAmount0Delta a b l u).
Proof.
  intros Hl Ha Hb. change (2 ^ 96) with Q96. split; [|split].
  - intros x E. exact (proj1 (amount0_down a b l x Hl Ha Hb E)).
  - intros x E. apply amount0_up in E as [E _]; try assumption. unfold ceil0 in E. lia.
  - intros u. apply GetAmount0Delta_sym.
Qed.
Lemma amount1_bracket a b l : liqR l -> 0 <= a <= b -> b < 2 ^ 160 ->
  (forall x, GetAmount1Delta a b l false = Ok x -> x * 2 ^ 96 <= l * (b - a) < (x + 1) * 2 ^ 96) /\
  (forall x, GetAmount1Delta a b l true = Ok x -> (x - 1) * 2 ^ 96 < l * (b - a) <= x * 2 ^ 96) /\
  (forall u, GetAmount1Delta b a l u = GetAmount1Delta a b l u).
Proof.
  intros Hl Ha Hb. change (2 ^ 96) with Q96. split; [|split].
  - intros x E. exact (proj1 (amount1_down a b l x Hl Ha Hb E)).
  - intros x E. apply amount1_up in E as [E _]; try assumption. unfold ceil1 in E. lia.
  - intros u. apply GetAmount1Delta_sym.
Qed.
(** the signed versions: a negative liquidity (two's complement) gives the negated floor *)
Lemma amount_signed a b l : 0 < l < T255 ->
  GetAmount0DeltaRounded a b l = GetAmount0Delta a b l true /\
  GetAmount1DeltaRounded a b l = GetAmount1Delta a b l true /\
  GetAmount0DeltaRounded a b (uneg l) = rmap uneg (GetAmount0Delta a b l false) /\
  GetAmount1DeltaRounded a b (uneg l) = rmap uneg (GetAmount1Delta a b l false).
Proof.
  intros Hl. unfold GetAmount0DeltaRounded, GetAmount1DeltaRounded. 
  assert (E1 : usign l = 1) by (unfold usign; destruct (l =? 0) eqn:?; destruct (l <? T255) eqn:?; lia).
  assert (E2 : usign (uneg l) = -1).
  { rewrite uneg_pos by lia. unfold usign. destruct (T256 - l =? 0) eqn:?; destruct (T256 - l <? T255) eqn:?; lia. }
  assert (E3 : uneg (uneg l) = l) by (rewrite (uneg_pos l) by lia; rewrite uneg_pos by lia; lia).
  rewrite E1, E2, E3. cbn [Z.eqb Pos.eqb]. split; [reflexivity|]. split; [reflexivity|].
  split; unfold rmap; [destruct (GetAmount0Delta a b l false)|destruct (GetAmount1Delta a b l false)]; reflexivity.
Qed.

(** C22 *)
Lemma input_up_exact P l x r : priceR P -> 0 < l < 2 ^ 160 -> 0 <= x < 2 ^ 160 -> P + x * 2 ^ 96 / l < T256 ->
  GetNextSqrtPriceFromInput P l x false = Ok r -> r = P + x * 2 ^ 96 / l.
Proof.
  intros HP Hl Hx Hs E. change (2 ^ 96) with Q96 in *. apply input_up in E; [|assumption|unfold liqR; lia|lia].
  destruct E as (q & E & H & Hq & _). rewrite Z.mod_small in H by (unfold Q96; lia).
  assert (x * Q96 / l = q) by (symmetry; apply Z.div_unique_pos with (r := x * Q96 - l * q); lia).
  unfold priceR in HP. rewrite uadd_small in E; lia.
Qed.
Lemma output_down_exact P l x r : priceR P -> 0 < l < 2 ^ 160 -> 0 <= x -> - (- (x * 2 ^ 96) / l) <= P ->
  GetNextSqrtPriceFromOutput P l x true = Ok r -> r = P + (- (x * 2 ^ 96)) / l.
Proof.
  intros HP Hl Hx Hs E. change (2 ^ 96) with Q96 in *. unfold priceR in HP.
  pose proof (Z.div_mod (- (x * Q96)) l ltac:(lia)) as D. pose proof (Z.mod_pos_bound (- (x * Q96)) l ltac:(lia)).
  set (c := - (x * Q96) / l) in *. clearbody c.
  assert (l * - c <= l * P) by (apply Z.mul_le_mono_nonneg_l; lia).
  assert (l * P <= l * (T256 - 1)) by (apply Z.mul_le_mono_nonneg_l; lia).
  apply output_down in E; [|unfold priceR; lia|unfold liqR; lia|lia|lia].
  destruct E as (q & E & H1q & Hq & _).
  assert (q = - c).
  { destruct (Z.lt_trichotomy q (- c)) as [C|[C|C]]; [exfalso|assumption|exfalso].
    - assert (q * l <= (- c - 1) * l) by (apply Z.mul_le_mono_nonneg_r; lia). lia.
    - assert ((- c + 1) * l <= q * l) by (apply Z.mul_le_mono_nonneg_r; lia). lia. }
  subst q. assert (0 <= - c) by lia. rewrite usub_small in E; lia.
Qed.
Lemma output_up_exact P l x r : priceR P -> 0 < l < 2 ^ 160 -> 0 < x -> x * P < l * 2 ^ 96 ->
  l * 2 ^ 96 * P <= (T256 - 1) * (l * 2 ^ 96 - x * P) ->
  GetNextSqrtPriceFromOutput P l x false = Ok r ->
  (r - 1) * (l * 2 ^ 96 - x * P) < l * 2 ^ 96 * P <= r * (l * 2 ^ 96 - x * P).
Proof.
  change (2 ^ 96) with Q96. intros HP Hl Hx H1 H2 E. apply output_up in E; [|assumption|unfold liqR; lia|assumption..].
  lia.
Qed.
