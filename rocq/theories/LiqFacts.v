(** LiqFacts.v -- the liquidity computed from a budget never costs more than the budget. *)
From Verif Require Import Base U256Z FullMathFacts SwapMath SwapMathFacts.
From Coq Require Import ZifyBool.
Ltac Zify.zify_post_hook ::= idtac.

Lemma MulDiv_le a b d r : 0 <= a -> 0 <= b -> 0 <= d -> MulDiv a b d = Ok r -> 0 <= r < T256 /\ r * d <= a * b.
Proof.
  intros Ha Hb Hd E. pose proof (MulDiv_range _ _ _ _ E) as R. split; [assumption|].
  assert (Hp : 0 <= a * b) by (now apply Z.mul_nonneg_nonneg).
  destruct (Z.eq_dec d 0) as [->|Hd0]; [lia|].
  apply MulDiv_ok in E; [|lia..]. set (p := a * b) in *. clearbody p.
  assert (0 <= p / d) by (apply Z.div_pos; lia).
  assert (r <= p / d) by (rewrite E; apply Z.mod_le; lia).
  pose proof (Z.mul_div_le p d ltac:(lia)).
  assert (r * d <= p / d * d) by (apply Z.mul_le_mono_nonneg_r; lia). lia.
Qed.

Lemma liq0_le a b amt l : 0 < a <= b -> b < T256 -> 0 <= amt -> getLiquidityForAmount0 a b amt = Ok l ->
  0 <= l < T256 /\ l * Q96 * (b - a) <= amt * (a * b).
Proof.
  intros Ha Hb Hm. unfold getLiquidityForAmount0. rewrite ordered_le by lia. rewrite usub_small by lia.
  intros E. apply bind_ok in E as (i & Ei & E).
  apply MulDiv_le in Ei as [Ri Hi]; [|unfold Q96; lia..]. apply MulDiv_le in E as [Rl Hl]; [|lia..].
  split; [assumption|].
  assert (l * (b - a) * Q96 <= amt * i * Q96) by (apply Z.mul_le_mono_nonneg_r; [unfold Q96; lia|lia]).
  assert (amt * (i * Q96) <= amt * (a * b)) by (apply Z.mul_le_mono_nonneg_l; lia).
  replace (l * Q96 * (b - a)) with (l * (b - a) * Q96) by ring.
  replace (amt * i * Q96) with (amt * (i * Q96)) in * by ring. lia.
Qed.
Lemma liq1_le a b amt l : 0 <= a <= b -> b < T256 -> 0 <= amt -> getLiquidityForAmount1 a b amt = Ok l ->
  0 <= l < T256 /\ l * (b - a) <= amt * Q96.
Proof.
  intros Ha Hb Hm. unfold getLiquidityForAmount1. rewrite ordered_le by lia. rewrite usub_small by lia.
  intros E. apply MulDiv_le in E; [exact E|unfold Q96; lia..].
Qed.

(** charging: rounded up amounts for at most that liquidity *)
Lemma charge0_le a b l amt x : 0 < a <= b -> b < T256 -> 0 <= l -> 
  l * Q96 * (b - a) <= amt * (a * b) -> GetAmount0Delta a b l true = Ok x -> x <= amt.
Proof.
  intros Ha Hb Hl Hc E. apply GetAmount0Delta_up in E; [|lia|lia]. cbv zeta in E. destruct E as [E _].
  assert (Hn : ulsh l 96 <= l * Q96).
  { unfold ulsh. change (2 ^ 96) with Q96. apply Z.mod_le; [unfold Q96; lia|lia]. }
  assert (ulsh l 96 * (b - a) <= l * Q96 * (b - a)) by (apply Z.mul_le_mono_nonneg_r; lia).
  assert (0 < a * b) by (apply Z.mul_pos_pos; lia).
  apply Z.nlt_ge. intros C. assert (amt * (a * b) <= (x - 1) * (a * b)) by (apply Z.mul_le_mono_nonneg_r; lia). lia.
Qed.
Lemma charge1_le a b l amt x : 0 <= a <= b -> b < T256 -> 0 <= l -> amt < T256 ->
  l * (b - a) <= amt * Q96 -> GetAmount1Delta a b l true = Ok x -> x <= amt.
Proof.
  intros Ha Hb Hl Hm Hc E. apply GetAmount1Delta_up in E; [|lia|lia|lia|unfold Q96 in *; lia].
  unfold Q96 in *. lia.
Qed.
Lemma payout0_le a b l amt x : 0 < a <= b -> b < T256 -> 0 <= l -> 
  l * Q96 * (b - a) <= amt * (a * b) -> GetAmount0Delta a b l false = Ok x -> x <= amt.
Proof.
  intros Ha Hb Hl Hc E. apply GetAmount0Delta_down in E; [|lia|lia]. cbv zeta in E. destruct E as [E _].
  assert (Hn : ulsh l 96 <= l * Q96).
  { unfold ulsh. change (2 ^ 96) with Q96. apply Z.mod_le; [unfold Q96; lia|lia]. }
  assert (ulsh l 96 * (b - a) <= l * Q96 * (b - a)) by (apply Z.mul_le_mono_nonneg_r; lia).
  assert (0 < a * b) by (apply Z.mul_pos_pos; lia).
  apply Z.nlt_ge. intros C. assert ((amt + 1) * (a * b) <= x * (a * b)) by (apply Z.mul_le_mono_nonneg_r; lia). lia.
Qed.
Lemma payout1_le a b l amt x : 0 <= a <= b -> b < T256 -> 0 <= l -> 0 <= amt ->
  l * (b - a) <= amt * Q96 -> GetAmount1Delta a b l false = Ok x -> x <= amt.
Proof.
  intros Ha Hb Hl Hm Hc. unfold GetAmount1Delta. rewrite ordered_le by lia. rewrite usub_small by lia.
  intros E. apply MulDiv_le in E; unfold Q96 in *; lia.
Qed.

(** What modifyPositionStrategy (pool.go:127-147) charges for liquidity [l] on the range [a,b] at [p]:
    the model's own function is in Pool.v; this is the specification in terms of prices. *)
Definition charge (p a b l : Z) : res (Z * Z) :=
  if p <=? a then do x <- GetAmount0DeltaRounded a b l; Ok (x, 0)
  else if p <? b then
    do x <- GetAmount0DeltaRounded p b l; do y <- GetAmount1DeltaRounded a p l; Ok (x, y)
  else do y <- GetAmount1DeltaRounded a b l; Ok (0, y).

Lemma rounded0_pos a b l : 0 <= l < T255 -> GetAmount0DeltaRounded a b l = GetAmount0Delta a b l true.
Proof. intros. unfold GetAmount0DeltaRounded, usign. destruct (l =? 0) eqn:?; [reflexivity|]. replace (l <? T255) with true by lia. reflexivity. Qed.
Lemma rounded1_pos a b l : 0 <= l < T255 -> GetAmount1DeltaRounded a b l = GetAmount1Delta a b l true.
Proof. intros. unfold GetAmount1DeltaRounded, usign. destruct (l =? 0) eqn:?; [reflexivity|]. replace (l <? T255) with true by lia. reflexivity. Qed.

(** the integer inequalities behind the budget claim *)
Lemma budget_ineqs p a b amt0 amt1 l : 0 < p < T256 -> 0 < a <= b -> b < T256 -> 0 <= amt0 < T256 -> 0 <= amt1 < T256 ->
  GetLiquidityForAmount p a b amt0 amt1 = Ok l ->
  0 <= l < T256 /\
  (p <= a -> l * Q96 * (b - a) <= amt0 * (a * b)) /\
  (a < p < b -> l * Q96 * (b - p) <= amt0 * (p * b) /\ l * (p - a) <= amt1 * Q96) /\
  (a < p -> b <= p -> l * (b - a) <= amt1 * Q96).
Proof.
  intros Hp Ha Hb H0 H1 E. unfold GetLiquidityForAmount in E. rewrite ordered_le in E by lia.
  destruct (p <=? a) eqn:C1.
  - apply liq0_le in E as [R H]; [|lia..]. repeat split; intros; try lia.
  - destruct (p <? b) eqn:C2.
    + apply bind_ok in E as (l0 & E0 & E). apply bind_ok in E as (l1 & E1 & E).
      apply liq0_le in E0 as [R0 E0]; [|lia..]. apply liq1_le in E1 as [R1 E1]; [|lia..].
      assert (Hl : 0 <= l <= l0 /\ l <= l1) by (destruct (l0 <? l1) eqn:?; injection E as <-; lia).
      assert (l * Q96 * (b - p) <= l0 * Q96 * (b - p)).
      { apply Z.mul_le_mono_nonneg_r; [lia|]. unfold Q96. lia. }
      assert (l * (p - a) <= l1 * (p - a)) by (apply Z.mul_le_mono_nonneg_r; lia).
      repeat split; intros; lia.
    + apply liq1_le in E as [R H]; [|lia..]. repeat split; intros; lia.
Qed.

Lemma budget_charge p a b amt0 amt1 l x y : 0 < p < T256 -> 0 < a <= b -> b < T256 -> 0 <= amt0 < T256 -> 0 <= amt1 < T256 ->
  GetLiquidityForAmount p a b amt0 amt1 = Ok l -> l < T255 -> charge p a b l = Ok (x, y) -> x <= amt0 /\ y <= amt1.
Proof.
  intros Hp Ha Hb H0 H1 E Hl C. destruct (budget_ineqs p a b amt0 amt1 l Hp Ha Hb H0 H1 E) as (R & B1 & B2 & B3).
  unfold charge in C. rewrite !rounded0_pos, !rounded1_pos in C by lia.
  destruct (p <=? a) eqn:C1; [|destruct (p <? b) eqn:C2].
  - apply bind_ok in C as (x' & Ex & [= <- <-]). split; [|lia]. eapply charge0_le; [| | | |exact Ex]; lia.
  - apply bind_ok in C as (x' & Ex & C). apply bind_ok in C as (y' & Ey & [= <- <-]).
    destruct B2 as [B2 B2']; [lia|]. split.
    + eapply charge0_le; [| | | |exact Ex]; try lia. 
    + eapply charge1_le; [| | | | |exact Ey]; lia.
  - apply bind_ok in C as (y' & Ey & [= <- <-]). split; [lia|]. eapply charge1_le; [| | | | |exact Ey]; lia.
Qed.
Lemma getAmount0_eq a b l : 0 < a -> getAmount0ForLiquidity a b l = GetAmount0Delta a b l false.
Proof. intros. unfold getAmount0ForLiquidity, GetAmount0Delta. now destruct (ordered a b). Qed.
Lemma getAmount1_eq a b l : getAmount1ForLiquidity a b l = GetAmount1Delta a b l false.
Proof. reflexivity. Qed.
Lemma budget_amounts p a b amt0 amt1 l x y : 0 < p < T256 -> 0 < a <= b -> b < T256 -> 0 <= amt0 < T256 -> 0 <= amt1 < T256 ->
  GetLiquidityForAmount p a b amt0 amt1 = Ok l -> GetAmountsForLiquidity p a b l = Ok (x, y) -> x <= amt0 /\ y <= amt1.
Proof.
  intros Hp Ha Hb H0 H1 E C. destruct (budget_ineqs p a b amt0 amt1 l Hp Ha Hb H0 H1 E) as (R & B1 & B2 & B3).
  unfold GetAmountsForLiquidity in C. rewrite ordered_le in C by lia. 
  rewrite !getAmount0_eq, !getAmount1_eq in C by lia.
  destruct (p <=? a) eqn:C1; [|destruct (p <? b) eqn:C2].
  - apply bind_ok in C as (x' & Ex & [= <- <-]). split; [|lia]. eapply payout0_le; [| | | |exact Ex]; lia.
  - apply bind_ok in C as (x' & Ex & C). apply bind_ok in C as (y' & Ey & [= <- <-]).
    destruct B2 as [B2 B2']; [lia|]. split.
    + eapply payout0_le; [| | | |exact Ex]; try lia. 
    + eapply payout1_le; [| | | | |exact Ey]; lia.
  - apply bind_ok in C as (y' & Ey & [= <- <-]). split; [lia|]. eapply payout1_le; [| | | | |exact Ey]; lia.
Qed.
