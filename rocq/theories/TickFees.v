(** TickFees.v -- fee growth inside a range as a difference of "growth below" values. *)
From Coq Require Import Sorting.Sorted ZifyBool.
From Verif Require Import Base U256Z TickData TickDataFacts TickSearch.
Ltac Zify.zify_post_hook ::= idtac.

(** growth on the side below tick i, as recorded by its outside counter *)
Definition growthBelow (i cur out global : Z) : Z := if i <=? cur then out else global - out.

Definition out0 (t : TickData) (i : Z) : Z := match lookup (ticks t) i with Some x => tkOut0 x | None => 0 end.
Definition out1 (t : TickData) (i : Z) : Z := match lookup (ticks t) i with Some x => tkOut1 x | None => 0 end.
Definition gb0 (t : TickData) (cur g0 i : Z) : Z := growthBelow i cur (out0 t i) g0.
Definition gb1 (t : TickData) (cur g1 i : Z) : Z := growthBelow i cur (out1 t i) g1.

(** arithmetic modulo 2^256 *)
Lemma usub_l a b : usub (a mod T256) b = (a - b) mod T256.
Proof. unfold usub. apply Zminus_mod_idemp_l. Qed.
Lemma usub_r a b : usub a (b mod T256) = (a - b) mod T256.
Proof. unfold usub. apply Zminus_mod_idemp_r. Qed.
Lemma uadd_lr a b : uadd (a mod T256) (b mod T256) = (a + b) mod T256.
Proof. unfold uadd. symmetry. apply Zplus_mod. Qed.

Lemma inside_value (bl ab : bool) ol ou g :
  usub (usub g (if bl then ol else usub g ol)) (if ab then ou else usub g ou) =
  ((if ab then g - ou else ou) - (if bl then ol else g - ol)) mod T256.
Proof.
  unfold usub. destruct bl, ab; repeat rewrite Zminus_mod_idemp_r; rewrite Zminus_mod_idemp_l; f_equal; ring.
Qed.

Lemma GetFeeGrowthInside_spec t a b cur g0 g1 : sortedT t -> present t a -> present t b ->
  GetFeeGrowthInside t a b cur g0 g1 =
    Ok ((gb0 t cur g0 b - gb0 t cur g0 a) mod T256, (gb1 t cur g1 b - gb1 t cur g1 a) mod T256).
Proof.
  intros Hs Ha Hb. unfold GetFeeGrowthInside. rewrite !GetTick_spec by assumption. unfold gb0, gb1, growthBelow, out0, out1, present in *.
  destruct (lookup (ticks t) a) as [x|]; [|congruence]. destruct (lookup (ticks t) b) as [y|]; [|congruence]. cbn [bind].
  pose proof (inside_value (a <=? cur) (cur <? b) (tkOut0 x) (tkOut0 y) g0) as E0.
  pose proof (inside_value (a <=? cur) (cur <? b) (tkOut1 x) (tkOut1 y) g1) as E1.
  replace (b <=? cur) with (negb (cur <? b)) by lia.
  destruct (a <=? cur), (cur <? b); cbn [negb]; congruence.
Qed.

Lemma GetFeeGrowthInside_panics t a b cur g0 g1 : sortedT t -> ~ (present t a /\ present t b) ->
  GetFeeGrowthInside t a b cur g0 g1 = Panic.
Proof.
  intros Hs H. unfold GetFeeGrowthInside. rewrite !GetTick_spec by assumption. unfold present in H.
  destruct (lookup (ticks t) a); [|reflexivity]. destruct (lookup (ticks t) b); [|reflexivity]. exfalso. apply H. split; discriminate.
Qed.

Lemma inside_additive t a b c cur g0 g1 x0 x1 y0 y1 : sortedT t ->
  GetFeeGrowthInside t a b cur g0 g1 = Ok (x0, x1) -> GetFeeGrowthInside t b c cur g0 g1 = Ok (y0, y1) ->
  GetFeeGrowthInside t a c cur g0 g1 = Ok ((x0 + y0) mod T256, (x1 + y1) mod T256).
Proof.
  intros Hs E1 E2.
  assert (forall a b x, GetFeeGrowthInside t a b cur g0 g1 = Ok x -> present t a /\ present t b) as P.
  { intros a' b' x E. unfold GetFeeGrowthInside in E. rewrite !GetTick_spec in E by assumption. unfold present.
    destruct (lookup (ticks t) a'); [|discriminate]. destruct (lookup (ticks t) b'); [|discriminate]. split; discriminate. }
  destruct (P _ _ _ E1) as [Pa Pb]. destruct (P _ _ _ E2) as [_ Pc].
  rewrite GetFeeGrowthInside_spec in * by assumption. injection E1 as <- <-. injection E2 as <- <-.
  rewrite <- !Zplus_mod. f_equal. f_equal; f_equal; ring.
Qed.

Lemma cross_inside t k g0 g1 t' net cur cur' : sortedT t -> Cross t k g0 g1 = Ok (t', net) ->
  (k <= cur <-> cur' < k) -> (forall j, present t j -> j <> k -> (j <= cur <-> j <= cur')) ->
  forall a b, GetFeeGrowthInside t' a b cur' g0 g1 = GetFeeGrowthInside t a b cur g0 g1.
Proof.
  intros Hs E Hk Hj a b. pose proof (Cross_spec t k g0 g1 Hs) as C. destruct (lookup (ticks t) k) as [x|] eqn:Ek; [|congruence].
  destruct C as (t2 & E2 & Hs' & _ & HL). rewrite E2 in E. injection E as -> _.
  assert (forall i, present t' i <-> present t i) as P.
  { intros i. unfold present. rewrite HL. destruct (i =? k) eqn:C; [|tauto]. assert (i = k) as -> by lia. rewrite Ek. split; discriminate. }
  assert (forall i, present t i -> gb0 t' cur' g0 i mod T256 = gb0 t cur g0 i mod T256 /\ gb1 t' cur' g1 i mod T256 = gb1 t cur g1 i mod T256) as G.
  { intros i Pi. unfold gb0, gb1, growthBelow, out0, out1. rewrite HL. destruct (i =? k) eqn:C.
    - assert (i = k) as -> by lia. rewrite Ek. cbn [tkOut0 tkOut1].
      destruct (k <=? cur) eqn:C1.
      + replace (k <=? cur') with false by lia. unfold usub. rewrite !Zminus_mod_idemp_r. split; f_equal; ring.
      + replace (k <=? cur') with true by lia. unfold usub. rewrite !Z.mod_mod by lia. auto.
    - specialize (Hj i Pi ltac:(lia)). replace (i <=? cur') with (i <=? cur) by lia. auto. }
  assert ({present t a} + {~ present t a}) as [Pa|Na] by (unfold present; destruct (lookup (ticks t) a); [left; discriminate|right; congruence]).
  2:{ rewrite !GetFeeGrowthInside_panics by (try assumption; rewrite ?P; tauto). reflexivity. }
  assert ({present t b} + {~ present t b}) as [Pb|Nb] by (unfold present; destruct (lookup (ticks t) b); [left; discriminate|right; congruence]).
  2:{ rewrite !GetFeeGrowthInside_panics by (try assumption; rewrite ?P; tauto). reflexivity. }
  rewrite !GetFeeGrowthInside_spec by (try assumption; now apply P).
  destruct (G a Pa) as [A0 A1]. destruct (G b Pb) as [B0 B1].
  rewrite (Zminus_mod (gb0 t' cur' g0 b)), (Zminus_mod (gb1 t' cur' g1 b)), A0, A1, B0, B1, <- !Zminus_mod. reflexivity.
Qed.

Lemma cross_twice t k g0 g1 t' net t'' net' : sortedT t ->
  (forall x, lookup (ticks t) k = Some x -> is_u256 (tkOut0 x) /\ is_u256 (tkOut1 x)) ->
  Cross t k g0 g1 = Ok (t', net) -> Cross t' k g0 g1 = Ok (t'', net') -> t'' = t /\ net' = net.
Proof.
  intros Hs HR E1 E2. pose proof (Cross_spec t k g0 g1 Hs) as C. destruct (lookup (ticks t) k) as [x|] eqn:Ek; [|congruence].
  destruct C as (t2 & E & Hs' & Hsp & HL). rewrite E in E1. injection E1 as -> <-.
  pose proof (Cross_spec t' k g0 g1 Hs') as C. rewrite HL, Z.eqb_refl in C. cbn [tkNet tkGross tkOut0 tkOut1] in C.
  destruct C as (t3 & E3 & Hs'' & Hsp' & HL'). rewrite E3 in E2. injection E2 as -> <-. split; [|reflexivity].
  assert (ticks t'' = ticks t) as EL.
  { apply lookup_ext; [assumption..|]. intros i. rewrite HL', HL. destruct (i =? k) eqn:C; [|reflexivity]. assert (i = k) as -> by lia.
    rewrite Ek. destruct (HR x eq_refl) as [R0 R1]. unfold is_u256 in *. unfold usub. rewrite !Zminus_mod_idemp_r.
    replace (g0 - (g0 - tkOut0 x)) with (tkOut0 x) by ring. replace (g1 - (g1 - tkOut1 x)) with (tkOut1 x) by ring. rewrite !Z.mod_small by lia.
    pose proof (lookup_index _ _ _ Ek). destruct x. cbn in *. congruence. }
  destruct t'', t. cbn in *. congruence.
Qed.
