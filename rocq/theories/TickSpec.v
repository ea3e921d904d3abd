(** TickSpec.v -- the tick search described with floor division. *)
From Coq Require Import Sorting.Sorted ZifyBool.
From Verif Require Import Base U256Z TickData TickDataFacts TickSearch TickFees.
Ltac Zify.zify_post_hook ::= idtac.

(** the table has a tick with this index *)
Definition hasTick (t : TickData) (j : Z) : Prop := exists x, In x (ticks t) /\ tkIndex x = j.

Lemma hasTick_present t j : hasTick t j <-> present t j.
Proof.
  unfold hasTick, present. split.
  - intros (x & H & <-) E. apply (proj1 (lookup_none _ _) E x H). reflexivity.
  - intros H. destruct (lookup (ticks t) j) as [x|] eqn:E; [|congruence]. exists x. split; [eapply lookup_in, E|eapply lookup_index, E].
Qed.

(** the first tick of the word of 256 spacings a tick lies in *)
Definition wordStart (tick s : Z) : Z := tick / (256 * s) * (256 * s).

Lemma quot_floor tick s : 0 < s -> tick ÷ s = if (tick <? 0) && negb (tick mod s =? 0) then tick / s + 1 else tick / s.
Proof.
  intros Hs. destruct (quot_bounds tick s Hs) as [Hp Hn]. pose proof (Z.div_mod tick s ltac:(lia)) as D. pose proof (Z.mod_pos_bound tick s Hs) as M.
  set (f := tick / s) in *. set (q := tick ÷ s) in *. set (r := tick mod s) in *. clearbody f q r.
  assert (forall x y, s * x < s * y + s -> x <= y) as K.
  { intros x y H. destruct (Z_le_gt_dec x y); [assumption|]. assert (s * (y + 1) <= s * x) by (apply Z.mul_le_mono_nonneg_l; lia). lia. }
  destruct (tick <? 0) eqn:C; cbn [andb].
  - specialize (Hn ltac:(lia)). destruct (r =? 0) eqn:C0; cbn [negb].
    + apply Z.le_antisymm; apply K; lia.
    + apply Z.le_antisymm; [apply K; lia|]. assert (f < q); [|lia]. destruct (Z_lt_le_dec f q); [assumption|]. assert (s * q <= s * f) by (apply Z.mul_le_mono_nonneg_l; lia). lia.
  - specialize (Hp ltac:(lia)). apply Z.le_antisymm; apply K; lia.
Qed.

Lemma wordStart_div tick s : 0 < s -> wordStart tick s = tick / s / 256 * 256 * s.
Proof. intros Hs. unfold wordStart. replace (256 * s) with (s * 256) by ring. rewrite Z.div_div by lia. ring. Qed.

Lemma wordStart_bounds tick s : 0 < s -> wordStart tick s <= tick < wordStart tick s + 256 * s.
Proof.
  intros Hs. unfold wordStart. pose proof (Z.div_mod tick (256 * s) ltac:(lia)). pose proof (Z.mod_pos_bound tick (256 * s) ltac:(lia)). lia.
Qed.

Lemma misplaced_iff tick s : 0 < s -> misplaced tick s <-> tick < 0 /\ wordStart tick s + 255 * s < tick.
Proof.
  intros Hs. unfold misplaced. rewrite wordStart_div, quot_floor by assumption. pose proof (Z.div_mod tick s ltac:(lia)) as D. pose proof (Z.mod_pos_bound tick s Hs) as M.
  set (f := tick / s) in *. set (r := tick mod s) in *. clearbody f r. pose proof (Z.div_mod f 256 ltac:(lia)) as Df. pose proof (Z.mod_pos_bound f 256 ltac:(lia)) as Mf.
  set (e := f / 256) in *. set (c := f mod 256) in *. clearbody e c.
  destruct (tick <? 0) eqn:C; cbn [andb]; [|lia]. destruct (r =? 0) eqn:C0; cbn [negb].
  - split; [lia|]. intros [_ H]. exfalso. replace tick with ((e * 256 + c) * s) in H by (rewrite D, Df; lia). replace (e * 256 * s + 255 * s) with ((e * 256 + 255) * s) in H by ring.
    assert ((e * 256 + c) * s <= (e * 256 + 255) * s) by (apply Z.mul_le_mono_nonneg_r; lia). lia.
  - assert ((f + 1) mod 256 = 0 <-> c = 255) as ->.
    { rewrite Df. destruct (Z.eq_dec c 255) as [E|E].
      - split; [auto|intros _]. replace (256 * e + c + 1) with (0 + (e + 1) * 256) by lia. now rewrite Z_mod_plus_full.
      - split; [|lia]. replace (256 * e + c + 1) with (c + 1 + e * 256) by lia. rewrite Z_mod_plus_full, Z.mod_small by lia. lia. }
    assert (tick = e * 256 * s + c * s + r) as -> by (rewrite D, Df; ring).
    split.
    + intros (H & _ & ->). lia.
    + intros [H1 H2]. split; [assumption|]. split; [lia|]. destruct (Z.eq_dec c 255); [assumption|]. assert (c * s <= 254 * s) by (apply Z.mul_le_mono_nonneg_r; lia). lia.
Qed.

Lemma wordMin_start tick s : 0 < s -> wordMin tick s = if (tick <? 0) && (wordStart tick s + 255 * s <? tick) then wordStart tick s + 256 * s else wordStart tick s.
Proof.
  intros Hs. pose proof (misplaced_iff tick s Hs) as HM. unfold misplaced in HM. unfold wordMin. rewrite wordStart_div, quot_floor in * by assumption.
  set (f := tick / s) in *. clearbody f. destruct (tick <? 0) eqn:C; cbn [andb] in *; [|reflexivity].
  destruct (tick mod s =? 0) eqn:C0; cbn [negb] in *.
  - replace (f / 256 * 256 * s + 255 * s <? tick) with false by lia. reflexivity.
  - pose proof (Z.div_mod f 256 ltac:(lia)) as Df. pose proof (Z.mod_pos_bound f 256 ltac:(lia)) as Mf.
    pose proof (Z.div_mod (f + 1) 256 ltac:(lia)) as Dg. pose proof (Z.mod_pos_bound (f + 1) 256 ltac:(lia)) as Mg.
    destruct (Z.eq_dec ((f + 1) mod 256) 0) as [E|E].
    + replace (f / 256 * 256 * s + 255 * s <? tick) with true by lia. replace ((f + 1) / 256) with (f / 256 + 1) by lia. ring.
    + replace (f / 256 * 256 * s + 255 * s <? tick) with false by lia. replace ((f + 1) / 256) with (f / 256) by lia. reflexivity.
Qed.

Lemma down_spec t tick n b : sortedT t -> 0 < tickSpacing t -> NextInitializedTickWithinOneWord t tick true = Ok (n, b) ->
  let s := tickSpacing t in let w := wordStart tick s in
  if (tick <? 0) && (w + 255 * s <? tick) then n = w + 256 * s /\ b = false /\ tick < n
  else w <= n <= tick /\ (forall j, n < j <= tick -> ~ hasTick t j) /\ (b = true <-> hasTick t n) /\ (b = false -> n = w).
Proof.
  intros Hs Hsp E. cbv zeta. pose proof (search_down t tick Hs n b E) as (H1 & H2 & H3 & H4). pose proof (wordMin_start tick (tickSpacing t) Hsp) as W.
  pose proof (wordStart_bounds tick (tickSpacing t) Hsp) as WB.
  destruct ((tick <? 0) && (wordStart tick (tickSpacing t) + 255 * tickSpacing t <? tick)) eqn:C.
  - destruct b; [destruct (H3 eq_refl); lia|]. destruct (H4 eq_refl). split; [lia|]. split; [reflexivity|lia].
  - rewrite W in *. assert (n <= tick) as Hn by (destruct b; [destruct (H3 eq_refl); lia|destruct (H4 eq_refl); lia]).
    split; [lia|]. split; [intros j Hj; rewrite hasTick_present; auto|]. rewrite hasTick_present. split; [|intros ->; now apply H4].
    split; [intros ->; now apply H3|]. destruct b; [reflexivity|]. intros P. destruct (H4 eq_refl) as [_ N]. destruct (N Hn P).
Qed.

Lemma up_spec t tick n b : sortedT t -> 0 < tickSpacing t -> NextInitializedTickWithinOneWord t tick false = Ok (n, b) ->
  tick < n /\ (forall j, tick < j < n -> ~ hasTick t j) /\ (b = true <-> hasTick t n) /\
  n <= (((tick ÷ tickSpacing t + 1) / 256 + 1) * 256 - 1) * tickSpacing t /\
  (b = false -> n = (((tick ÷ tickSpacing t + 1) / 256 + 1) * 256 - 1) * tickSpacing t).
Proof.
  intros Hs Hsp E. pose proof (search_up t tick Hs n b E Hsp) as (H1 & H2 & H3 & H4). split; [lia|]. split; [intros j Hj; rewrite hasTick_present; auto|].
  rewrite hasTick_present. split; [exact H3|]. split; [exact (proj2 H1)|exact H4].
Qed.

Lemma word_panics t tick lte : sortedT t -> 0 <= tickSpacing t ->
  NextInitializedTickWithinOneWord t tick lte = Panic <-> tickSpacing t = 0 \/ ticks t = [].
Proof.
  intros Hs Hsp. split; [|apply search_empty]. intros E. destruct (Z.eq_dec (tickSpacing t) 0); [auto|]. destruct (ticks t) eqn:Et; [auto|].
  destruct (TickSearch.search_ok t tick Hs lte ltac:(lia) ltac:(congruence)) as (n' & b & E'). congruence.
Qed.

Lemma inside_panics t a b cur g0 g1 : sortedT t ->
  GetFeeGrowthInside t a b cur g0 g1 = Panic <-> ~ (hasTick t a /\ hasTick t b).
Proof.
  intros Hs. rewrite !hasTick_present. split; [|now apply GetFeeGrowthInside_panics]. intros E [Ha Hb]. rewrite GetFeeGrowthInside_spec in E by assumption. discriminate.
Qed.

(** growth inside, from the two tick counters *)
Lemma inside_formula t a b cur g0 g1 x y : sortedT t -> In x (ticks t) -> In y (ticks t) -> tkIndex x = a -> tkIndex y = b ->
  GetFeeGrowthInside t a b cur g0 g1 =
    Ok (((if b <=? cur then tkOut0 y else g0 - tkOut0 y) - (if a <=? cur then tkOut0 x else g0 - tkOut0 x)) mod T256,
        ((if b <=? cur then tkOut1 y else g1 - tkOut1 y) - (if a <=? cur then tkOut1 x else g1 - tkOut1 x)) mod T256).
Proof.
  intros Hs Hx Hy <- <-. pose proof (proj1 (lookup_in_iff _ x Hs) Hx) as Ex. pose proof (proj1 (lookup_in_iff _ y Hs) Hy) as Ey.
  rewrite GetFeeGrowthInside_spec by (try assumption; unfold present; congruence).
  unfold gb0, gb1, growthBelow, out0, out1. rewrite Ex, Ey. reflexivity.
Qed.

Lemma cross_flips t k g0 g1 t' net cur cur' : sortedT t -> Cross t k g0 g1 = Ok (t', net) ->
  (k <= cur <-> cur' < k) -> (forall j, hasTick t j -> j <> k -> (j <= cur <-> j <= cur')) ->
  forall a b, GetFeeGrowthInside t' a b cur' g0 g1 = GetFeeGrowthInside t a b cur g0 g1.
Proof. intros Hs E Hk Hj. apply (cross_inside t k g0 g1 t' net cur cur' Hs E Hk). intros j. rewrite <- hasTick_present. apply Hj. Qed.

Lemma cross_back t k g0 g1 t' net t'' net' : sortedT t ->
  (forall x, In x (ticks t) -> is_u256 (tkOut0 x) /\ is_u256 (tkOut1 x)) ->
  Cross t k g0 g1 = Ok (t', net) -> Cross t' k g0 g1 = Ok (t'', net') -> t'' = t /\ net' = net.
Proof. intros Hs HR. apply cross_twice; [assumption|]. intros x E. apply HR. eapply lookup_in, E. Qed.

(** what crossing does to the table *)
Lemma cross_effect t k g0 g1 t' net : sortedT t -> Cross t k g0 g1 = Ok (t', net) ->
  exists x, In x (ticks t) /\ tkIndex x = k /\ net = tkNet x /\ tickSpacing t' = tickSpacing t /\ sortedT t' /\
    (forall y, In y (ticks t') <-> (In y (ticks t) /\ tkIndex y <> k) \/
       y = mkTick k (tkNet x) (tkGross x) ((g0 - tkOut0 x) mod T256) ((g1 - tkOut1 x) mod T256)).
Proof.
  intros Hs E. pose proof (Cross_spec t k g0 g1 Hs) as C. destruct (lookup (ticks t) k) as [x|] eqn:Ek; [|congruence].
  destruct C as (t2 & E2 & Hs' & Hsp & HL). rewrite E2 in E. injection E as -> <-. exists x. pose proof (lookup_index _ _ _ Ek) as Ex.
  split; [eapply lookup_in, Ek|]. split; [assumption|]. split; [reflexivity|]. split; [assumption|]. split; [assumption|].
  intros y. rewrite !lookup_in_iff by assumption. rewrite HL. unfold usub. destruct (tkIndex y =? k) eqn:C.
  - split.
    + intros H. injection H as <-. now right.
    + intros [[_ H]|H]; [lia|]. rewrite H. reflexivity.
  - split; [intros H; left; split; [assumption|lia]|]. intros [[H _]|H]; [assumption|]. rewrite H in C. cbn in C. lia.
Qed.

(** ** the table operations as operations on a finite map *)
Lemma get_iff t j x : sortedT t -> GetTick t j = Ok x <-> In x (ticks t) /\ tkIndex x = j.
Proof.
  intros Hs. rewrite GetTick_spec by assumption. split.
  - destruct (lookup (ticks t) j) as [y|] eqn:E; [|discriminate]. intros [= <-]. split; [eapply lookup_in, E|eapply lookup_index, E].
  - intros [H <-]. now rewrite (proj1 (lookup_in_iff _ x Hs) H).
Qed.
Lemma get_total t j : sortedT t -> GetTick t j = Panic <-> ~ hasTick t j.
Proof.
  intros Hs. rewrite GetTick_spec, hasTick_present by assumption. unfold present. destruct (lookup (ticks t) j); split; intros H; try congruence. exfalso. apply H. discriminate.
Qed.

Lemma clear_effect t j : sortedT t -> exists t', ClearTick t j = Ok t' /\ sortedT t' /\ tickSpacing t' = tickSpacing t /\
  forall y, In y (ticks t') <-> In y (ticks t) /\ tkIndex y <> j.
Proof.
  intros Hs. destruct (ClearTick_spec t j Hs) as (t' & E & Hs' & Hp & HL). exists t'. split; [assumption|]. split; [assumption|]. split; [assumption|].
  intros y. rewrite !lookup_in_iff by assumption. rewrite HL. destruct (tkIndex y =? j) eqn:C; split; intros H.
  - discriminate.
  - lia.
  - split; [assumption|lia].
  - tauto.
Qed.

Lemma update_effect t j cur delta g0 g1 upper : sortedT t -> exists t' f x,
  UpdateTick t j cur delta g0 g1 upper = Ok (t', f) /\ (f = true <-> hasTick t j /\ tkGross x = 0) /\ sortedT t' /\ tickSpacing t' = tickSpacing t /\
  (forall y, In y (ticks t') <-> (In y (ticks t) /\ tkIndex y <> j) \/ y = x) /\ tkIndex x = j /\
  (forall o, In o (ticks t) -> tkIndex o = j ->
     x = mkTick j ((tkNet o + (if upper then - delta else delta)) mod T256) ((tkGross o + delta) mod T256) (tkOut0 o) (tkOut1 o)) /\
  (is_u256 delta -> ~ hasTick t j -> x = mkTick j ((if upper then - delta else delta) mod T256) delta (if j <=? cur then g0 else 0) (if j <=? cur then g1 else 0)).
Proof.
  intros Hs. destruct (UpdateTick_spec t j cur delta g0 g1 upper Hs) as (t' & E & Hs' & Hp & HL).
  eexists t', _, (updated (lookup (ticks t) j) j cur delta g0 g1 upper). split; [exact E|]. split.
  { rewrite hasTick_present. unfold present. destruct (lookup (ticks t) j); cbn [updated tkGross]; [|split; [discriminate|tauto]].
    rewrite Z.eqb_eq. split; [|tauto]. intros H. split; [discriminate|exact H]. }
  split; [assumption|]. split; [assumption|].
  assert (tkIndex (updated (lookup (ticks t) j) j cur delta g0 g1 upper) = j) as Ei by (destruct (lookup (ticks t) j); reflexivity).
  split.
  { intros y. rewrite !lookup_in_iff by assumption. rewrite HL. destruct (tkIndex y =? j) eqn:C.
    - split; [intros H; injection H as <-; now right|]. intros [[_ H]|H]; [lia|]. now rewrite H.
    - split; [intros H; left; split; [assumption|lia]|]. intros [[H _]|H]; [assumption|]. rewrite H, Ei in C. lia. }
  split; [assumption|]. split.
  - intros o Ho <-. rewrite (proj1 (lookup_in_iff _ o Hs) Ho). cbn [updated]. unfold uadd, usub. destruct upper; reflexivity.
  - intros Hd H. rewrite hasTick_present in H. unfold present in H. destruct (lookup (ticks t) j); [exfalso; apply H; discriminate|]. cbn [updated].
    unfold uneg. unfold is_u256 in Hd. destruct upper; [reflexivity|]. now rewrite (Z.mod_small delta).
Qed.
