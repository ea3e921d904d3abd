(** TickSearch.v -- what NextInitializedTickWithinOneWord returns. *)
From Coq Require Import Sorting.Sorted ZifyBool.
From Verif Require Import Base U256Z TickData TickDataFacts.
Ltac Zify.zify_post_hook ::= idtac.

(** The two word boundaries (tickdata.go:168-171 and 180-181) *)
Definition wordMin (tick s : Z) : Z := (tick ÷ s / 256 * 256) * s.
Definition wordMax (tick s : Z) : Z := (((tick ÷ s + 1) / 256 + 1) * 256 - 1) * s.

Lemma word_shift c : Z.shiftl (Z.shiftr c 8) 8 = c / 256 * 256.
Proof. rewrite Z.shiftl_mul_pow2, Z.shiftr_div_pow2 by lia. reflexivity. Qed.
Lemma word_shift1 c : Z.shiftl (Z.shiftr c 8 + 1) 8 - 1 = (c / 256 + 1) * 256 - 1.
Proof. rewrite Z.shiftl_mul_pow2, Z.shiftr_div_pow2 by lia. reflexivity. Qed.

Lemma quot_bounds tick s : 0 < s -> (0 <= tick -> s * (tick ÷ s) <= tick < s * (tick ÷ s) + s) /\
  (tick <= 0 -> s * (tick ÷ s) - s < tick <= s * (tick ÷ s)).
Proof.
  intros Hs. pose proof (Z.quot_rem' tick s) as E. split; intros H.
  - pose proof (Z.rem_bound_pos tick s H Hs). lia.
  - pose proof (Z.rem_bound_pos_neg tick s Hs H). lia.
Qed.

(** the ticks for which the lower word boundary lies above the tick *)
Definition misplaced (tick s : Z) : Prop := tick < 0 /\ tick mod s <> 0 /\ (tick ÷ s) mod 256 = 0.

Lemma misplaced_dec tick s : {misplaced tick s} + {~ misplaced tick s}.
Proof.
  unfold misplaced. destruct (Z_lt_dec tick 0) as [C1|C1]; [|right; tauto].
  destruct (Z.eq_dec (tick mod s) 0) as [C2|C2]; [right; tauto|].
  destruct (Z.eq_dec ((tick ÷ s) mod 256) 0) as [C3|C3]; [left; tauto|right; tauto].
Qed.

Lemma wordMin_le tick s : 0 < s -> wordMin tick s <= tick <-> ~ misplaced tick s.
Proof.
  intros Hs. unfold wordMin, misplaced. destruct (quot_bounds tick s Hs) as [Hp Hn].
  assert (tick mod s = 0 <-> s * (tick ÷ s) = tick) as Hmod.
  { split; intros H.
    - apply Z.mod_divide in H; [|lia]. destruct H as [k ->]. rewrite Z.quot_mul by lia. ring.
    - rewrite <- H. rewrite Z.mul_comm. apply Z.mod_mul. lia. }
  set (c := tick ÷ s) in *. pose proof (Z.div_mod c 256 ltac:(lia)) as Ec. pose proof (Z.mod_pos_bound c 256 ltac:(lia)) as Hc.
  set (r := c mod 256) in *. set (q := c / 256) in *. clearbody q r c.
  replace (q * 256 * s) with (s * c - r * s) by (rewrite Ec; ring).
  destruct (Z.eq_dec r 0) as [->|Hr].
  - split; [intros H (H1 & H2 & _); apply H2, Hmod; lia|]. intros H. destruct (Z_lt_le_dec tick 0) as [C|C]; [|lia].
    destruct (Z.eq_dec (tick mod s) 0) as [E|E]; [apply Hmod in E; lia|]. exfalso. apply H. repeat split; assumption.
  - split; [intros _ (_ & _ & H); lia|]. intros _. assert (1 * s <= r * s) by (apply Z.mul_le_mono_nonneg_r; lia). lia.
Qed.

Lemma wordMax_gt tick s : 0 < s -> tick < wordMax tick s.
Proof.
  intros Hs. unfold wordMax. destruct (quot_bounds tick s Hs) as [Hp Hn]. set (c := tick ÷ s) in *. clearbody c.
  pose proof (Z.div_mod (c + 1) 256 ltac:(lia)) as Ec. pose proof (Z.mod_pos_bound (c + 1) 256 ltac:(lia)) as Hc.
  set (r := (c + 1) mod 256) in *. set (q := (c + 1) / 256) in *. clearbody q r.
  replace ((q + 1) * 256 - 1) with (c + 1 + (255 - r)) by lia.
  rewrite !Z.mul_add_distr_r. assert (0 <= (255 - r) * s) by (apply Z.mul_nonneg_nonneg; lia). lia.
Qed.

Definition present (t : TickData) (i : Z) : Prop := lookup (ticks t) i <> None.

Section Search.
Variables (t : TickData) (tick : Z).
Hypothesis Hs : sortedT t.
Local Notation l := (ticks t).

Lemma below_ok : 0 < lenT t -> isBelowSmallest t tick = Ok (cnt (upto tick) l =? 0).
Proof.
  intros H. unfold isBelowSmallest. replace (0 <? lenT t) with true by lia. cbn [invariant bind]. rewrite tickAt_ok by lia. cbn [bind].
  fold (idx (ticks t) 0). pose proof (idx_le (ticks t) tick 0 Hs) as E. change (len (ticks t)) with (lenT t) in E.
  pose proof (cnt_bound (upto tick) l). f_equal. lia.
Qed.
Lemma above_ok : 0 < lenT t -> isAtOrAboveLargest t tick = Ok (cnt (upto tick) l =? lenT t).
Proof.
  intros H. unfold isAtOrAboveLargest. replace (0 <? lenT t) with true by lia. cbn [invariant bind]. rewrite tickAt_ok by lia. cbn [bind].
  fold (idx (ticks t) (lenT t - 1)). pose proof (idx_le (ticks t) tick (lenT t - 1) Hs) as E. change (len (ticks t)) with (lenT t) in E.
  pose proof (cnt_bound (upto tick) l). change (len l) with (lenT t) in *. f_equal. lia.
Qed.

Lemma idx_present i : 0 <= i < lenT t -> present t (idx l i).
Proof.
  intros H E. rewrite lookup_none in E. apply (E (nth (Z.to_nat i) l noTick)); [apply nth_In; unfold lenT in H; lia|reflexivity].
Qed.

(** an initialised tick is the k-th for some k, and whether it is at or below [tick] depends on k *)
Lemma present_idx j : present t j -> exists k, 0 <= k < lenT t /\ idx l k = j /\ (j <=? tick) = (k <? cnt (upto tick) l).
Proof.
  intros H. unfold present in H. destruct (lookup (ticks t) j) as [x|] eqn:E; [|congruence].
  pose proof (lookup_index _ _ _ E) as Ex. apply lookup_in in E. apply (In_nth _ _ noTick) in E as (n & Hn & En).
  exists (Z.of_nat n). assert (idx l (Z.of_nat n) = j) as Ei by (unfold idx; rewrite Nat2Z.id; congruence).
  assert (0 <= Z.of_nat n < lenT t) as Hk by (unfold lenT; lia). refine (conj Hk (conj Ei _)).
  rewrite <- Ei. apply idx_le; [exact Hs|assumption].
Qed.

Lemma next_lte_ok : 0 < cnt (upto tick) l ->
  exists x, nextInitializedTick t tick true = Ok x /\ tkIndex x = idx l (cnt (upto tick) l - 1).
Proof.
  intros Hc. pose proof (cnt_bound (upto tick) l) as HB. change (len l) with (lenT t) in HB.
  unfold nextInitializedTick. rewrite below_ok, above_ok by lia. replace (cnt (upto tick) l =? 0) with false by lia. cbn [bind negb invariant].
  destruct (cnt (upto tick) l =? lenT t) eqn:C.
  - rewrite tickAt_ok by lia. eexists. split; [reflexivity|]. replace (lenT t) with (cnt (upto tick) l) by lia. reflexivity.
  - rewrite binarySearch_spec by exact Hs. replace (0 <? cnt (upto tick) l) with true by lia. cbn [bind]. rewrite tickAt_ok by lia. eexists. split; reflexivity.
Qed.
Lemma next_gt_ok : cnt (upto tick) l < lenT t ->
  exists x, nextInitializedTick t tick false = Ok x /\ tkIndex x = idx l (cnt (upto tick) l).
Proof.
  intros Hc. pose proof (cnt_bound (upto tick) l) as HB. change (len l) with (lenT t) in HB.
  unfold nextInitializedTick. rewrite below_ok, above_ok by lia. replace (cnt (upto tick) l =? lenT t) with false by lia. cbn [bind negb invariant].
  destruct (cnt (upto tick) l =? 0) eqn:C.
  - rewrite tickAt_ok by lia. eexists. split; [reflexivity|]. replace (cnt (upto tick) l) with 0 by lia. reflexivity.
  - rewrite binarySearch_spec by exact Hs. replace (0 <? cnt (upto tick) l) with true by lia. cbn [bind]. rewrite tickAt_ok by lia. eexists. split; [reflexivity|].
    unfold idx. f_equal. f_equal. lia.
Qed.

Lemma search_down n b : NextInitializedTickWithinOneWord t tick true = Ok (n, b) ->
  let m := wordMin tick (tickSpacing t) in
  m <= n /\ (forall j, n < j <= tick -> ~ present t j) /\
  (b = true -> n <= tick /\ present t n) /\ (b = false -> n = m /\ (n <= tick -> ~ present t n)).
Proof.
  unfold NextInitializedTickWithinOneWord. intros H. apply bind_inv in H as ([] & H0 & H). cbv zeta in H. rewrite word_shift in H.
  fold (wordMin tick (tickSpacing t)) in H. set (m := wordMin tick (tickSpacing t)) in *. clearbody m. cbv zeta.
  destruct (0 <? lenT t) eqn:Cl.
  2:{ unfold isBelowSmallest in H. rewrite Cl in H. discriminate. }
  rewrite below_ok in H by lia. cbn [bind] in H. destruct (cnt (upto tick) l =? 0) eqn:C0.
  - injection H as <- <-. split; [lia|]. assert (forall j, j <= tick -> ~ present t j) as N.
    { intros j Hj P. destruct (present_idx j P) as (k & Hk & _ & E). lia. }
    split; [intros j Hj; apply N; lia|]. split; [discriminate|]. intros _. split; [reflexivity|]. apply N.
  - pose proof (cnt_bound (upto tick) l) as HB. change (len l) with (lenT t) in HB. destruct next_lte_ok as (x & Ex & Ei); [lia|].
    rewrite Ex in H. cbn [bind] in H. injection H as <- <-. rewrite Ei. set (v := idx l (cnt (upto tick) l - 1)).
    assert (v <= tick) as Hv by (pose proof (idx_le l tick (cnt (upto tick) l - 1) Hs) as E; change (len l) with (lenT t) in E; unfold v; lia).
    assert (present t v) as Pv by (apply idx_present; lia).
    assert (forall j, v < j <= tick -> ~ present t j) as N.
    { intros j Hj P. destruct (present_idx j P) as (k & Hk & Ek & E).
      destruct (Z.eq_dec k (cnt (upto tick) l - 1)) as [->|Nk]; [unfold v in Hj; lia|].
      pose proof (idx_mono l k (cnt (upto tick) l - 1) Hs) as M. change (len l) with (lenT t) in M. unfold v in *. lia. }
    unfold maxI. destruct (v <? m) eqn:C1.
    + split; [lia|]. split; [intros j Hj; apply N; lia|]. replace (m =? v) with false by lia. split; [discriminate|]. intros _. split; [reflexivity|].
      intros Hm. apply N. lia.
    + split; [lia|]. split; [exact N|]. rewrite Z.eqb_refl. split; [auto|discriminate].
Qed.

Lemma search_up n b : NextInitializedTickWithinOneWord t tick false = Ok (n, b) -> 0 < tickSpacing t ->
  let m := wordMax tick (tickSpacing t) in
  tick < n <= m /\ (forall j, tick < j < n -> ~ present t j) /\
  (b = true <-> present t n) /\ (b = false -> n = m).
Proof.
  unfold NextInitializedTickWithinOneWord. intros H Hsp. pose proof (wordMax_gt tick (tickSpacing t) Hsp) as Hm.
  apply bind_inv in H as ([] & H0 & H). cbv zeta in H. rewrite word_shift1 in H.
  fold (wordMax tick (tickSpacing t)) in H. set (m := wordMax tick (tickSpacing t)) in *. clearbody m. cbv zeta.
  destruct (0 <? lenT t) eqn:Cl.
  2:{ unfold isAtOrAboveLargest in H. rewrite Cl in H. discriminate. }
  pose proof (cnt_bound (upto tick) l) as HB. change (len l) with (lenT t) in HB.
  rewrite above_ok in H by lia. cbn [bind] in H. destruct (cnt (upto tick) l =? lenT t) eqn:C0.
  - injection H as <- <-. split; [lia|]. assert (forall j, tick < j -> ~ present t j) as N.
    { intros j Hj P. destruct (present_idx j P) as (k & Hk & _ & E). lia. }
    split; [intros j Hj; apply N; lia|]. split; [|reflexivity]. split; [discriminate|]. intros P. exfalso. now apply (N m).
  - destruct next_gt_ok as (x & Ex & Ei); [lia|].
    rewrite Ex in H. cbn [bind] in H. injection H as <- <-. rewrite Ei. set (v := idx l (cnt (upto tick) l)).
    assert (tick < v) as Hv by (pose proof (idx_le l tick (cnt (upto tick) l) Hs) as E; change (len l) with (lenT t) in E; unfold v; lia).
    assert (present t v) as Pv by (apply idx_present; lia).
    assert (forall j, tick < j < v -> ~ present t j) as N.
    { intros j Hj P. destruct (present_idx j P) as (k & Hk & Ek & E).
      destruct (Z.eq_dec k (cnt (upto tick) l)) as [->|Nk]; [unfold v in Hj; lia|].
      pose proof (idx_mono l (cnt (upto tick) l) k Hs) as M. change (len l) with (lenT t) in M. unfold v in *. lia. }
    unfold minI. destruct (m <? v) eqn:C1.
    + split; [lia|]. split; [intros j Hj; apply N; lia|]. replace (m =? v) with false by lia. split; [|reflexivity]. split; [discriminate|].
      intros P. exfalso. apply (N m); [lia|exact P].
    + split; [lia|]. split; [exact N|]. rewrite Z.eqb_refl. split; [tauto|discriminate].
Qed.

Lemma search_ok lte : 0 < tickSpacing t -> ticks t <> [] -> exists n b, NextInitializedTickWithinOneWord t tick lte = Ok (n, b).
Proof.
  intros Hsp Hl. assert (0 < lenT t) as H0 by (unfold lenT; destruct (ticks t); [congruence|cbn [length]; lia]).
  pose proof (cnt_bound (upto tick) l) as HB. change (len l) with (lenT t) in HB.
  unfold NextInitializedTickWithinOneWord. replace (tickSpacing t =? 0) with false by lia. cbn [negb invariant bind]. cbv zeta. destruct lte.
  - rewrite below_ok by assumption. cbn [bind]. destruct (cnt (upto tick) l =? 0) eqn:C; [eauto|]. destruct next_lte_ok as (x & -> & _); [lia|]. cbn [bind]. eauto.
  - rewrite above_ok by assumption. cbn [bind]. destruct (cnt (upto tick) l =? lenT t) eqn:C; [eauto|]. destruct next_gt_ok as (x & -> & _); [lia|]. cbn [bind]. eauto.
Qed.
End Search.

Lemma search_empty t tick lte : tickSpacing t = 0 \/ ticks t = [] -> NextInitializedTickWithinOneWord t tick lte = Panic.
Proof.
  unfold NextInitializedTickWithinOneWord. destruct (tickSpacing t =? 0) eqn:C; [reflexivity|]. intros [H|H]; [lia|]. cbn [negb invariant bind]. cbv zeta.
  destruct lte; unfold isBelowSmallest, isAtOrAboveLargest, lenT; rewrite H; reflexivity.
Qed.
