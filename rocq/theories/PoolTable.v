(** PoolTable.v -- the tick table after position changes, against the ledger. *)
From Coq Require Import ZifyBool.
From Verif Require Import Base U256Z TickMath TickData TickDataFacts TickSearch Ledger Pool.
Ltac Zify.zify_post_hook ::= idtac.

Definition tickOK (h : hist) (j : Z) (o : option Tick) : Prop :=
  match o with
  | None => gross h j = 0
  | Some x => 0 < gross h j /\ tkIndex x = j /\ tkGross x = gross h j /\ tkNet x = net h j mod T256 /\
              is_u256 (tkOut0 x) /\ is_u256 (tkOut1 x)
  end.

(** the table holds exactly the ticks some liquidity refers to, with the ledger's gross and net amounts *)
Definition tableOK (h : hist) (s : Z) (d : TickData) : Prop :=
  sortedT d /\ tickSpacing d = s /\ forall j, tickOK h j (lookup (ticks d) j).

(** a tick the downward search never jumps over: every tick >= 0, every multiple of the spacing, and every other
    tick that is not in the last spacing of a word of 256 spacings *)
Definition placed (s j : Z) : Prop := 0 < s /\ ~ misplaced j s.
Lemma placed_multiple s j : 0 < s -> (s | j) -> placed s j.
Proof. intros H D. split; [assumption|]. intros (_ & N & _). apply Z.mod_divide in D; lia. Qed.
Lemma placed_nonneg s j : 0 < s -> 0 <= j -> placed s j.
Proof. intros H D. split; [assumption|]. intros (N & _). lia. Qed.
Lemma placed_iff s j : placed s j <-> 0 < s /\ (0 <= j \/ (s | j) \/ (j ÷ s) mod 256 <> 0).
Proof.
  split; [intros [H N]|intros [H [C|[C|C]]]; [now apply placed_nonneg|now apply placed_multiple|split; [assumption|intros (_ & _ & E); lia]]].
  split; [assumption|]. destruct (Z.eq_dec (j mod s) 0) as [E|E]; [right; left; now apply Z.mod_divide; [lia|]|].
  destruct (Z_lt_dec j 0); [|lia]. right; right. intros E'. apply N. split; [assumption|]. split; assumption.
Qed.
(** ranges the pool accepts, with both ends placed *)
Definition rangeOK (s l u : Z) : Prop := l < u /\ MinTick <= l /\ u <= MaxTick /\ placed s l /\ placed s u.
(** a history within the ledger's rules *)
Definition histOK (s : Z) (h : hist) : Prop :=
  covered h /\ (forall e, In e h -> rangeOK s (eLower e) (eUpper e)) /\ total h < 2 ^ 128.

Lemma histOK_proper s h : histOK s h -> proper h.
Proof. intros (_ & H & _) e He. apply H in He. unfold rangeOK in He. tauto. Qed.

Lemma gross_range s h j : histOK s h -> 0 < gross h j -> MinTick <= j <= MaxTick /\ placed s j.
Proof.
  intros (Hc & Hr & _) H. destruct (gross_in h j) as (e & He & Ej); [lia|]. apply Hr in He as (H1 & H2 & H3 & H4 & H5).
  destruct Ej as [<-|<-]; split; (lia || assumption).
Qed.

Definition upd2 (d : TickData) (l u cur amt g0 g1 : Z) : res (TickData * bool * bool) :=
  do r <- UpdateTick d l cur amt g0 g1 false;
  let '(d, clearLower) := r in
  do r <- UpdateTick d u cur amt g0 g1 true;
  let '(d, clearUpper) := r in
  Ok (d, clearLower, clearUpper).
Definition clear2 (d : TickData) (l u : Z) (cl cu : bool) : res TickData :=
  do d <- (if cl then ClearTick d l else Ok d);
  (if cu then ClearTick d u else Ok d).

Definition clearFlag (o : option Tick) (amt : Z) : bool :=
  match o with Some x => uadd (tkGross x) amt =? 0 | None => false end.

Lemma upd2_spec d l u cur amt g0 g1 : sortedT d -> l < u ->
  exists d', upd2 d l u cur amt g0 g1 = Ok (d', clearFlag (lookup (ticks d) l) amt, clearFlag (lookup (ticks d) u) amt) /\
    sortedT d' /\ tickSpacing d' = tickSpacing d /\
    (forall j, lookup (ticks d') j =
       if j =? l then Some (updated (lookup (ticks d) l) l cur amt g0 g1 false)
       else if j =? u then Some (updated (lookup (ticks d) u) u cur amt g0 g1 true) else lookup (ticks d) j).
Proof.
  intros Hs Hlu. unfold upd2. destruct (UpdateTick_spec d l cur amt g0 g1 false Hs) as (d1 & E1 & S1 & P1 & L1). rewrite E1. cbn [bind].
  destruct (UpdateTick_spec d1 u cur amt g0 g1 true S1) as (d2 & E2 & S2 & P2 & L2). rewrite E2. cbn [bind].
  pose proof (L1 u) as Lu. replace (u =? l) with false in Lu by lia.
  exists d2. rewrite Lu. split; [reflexivity|]. split; [assumption|]. split; [congruence|]. intros j. rewrite L2, Lu, L1.
  destruct (j =? u) eqn:C; [replace (j =? l) with false by lia; reflexivity|reflexivity].
Qed.

Lemma clear2_spec d l u cl cu : sortedT d -> exists d', clear2 d l u cl cu = Ok d' /\ sortedT d' /\ tickSpacing d' = tickSpacing d /\
    (forall j, lookup (ticks d') j = if ((j =? l) && cl) || ((j =? u) && cu) then None else lookup (ticks d) j).
Proof.
  intros Hs. unfold clear2.
  assert (exists d1, (if cl then ClearTick d l else Ok d) = Ok d1 /\ sortedT d1 /\ tickSpacing d1 = tickSpacing d /\
    (forall j, lookup (ticks d1) j = if (j =? l) && cl then None else lookup (ticks d) j)) as (d1 & E1 & S1 & P1 & L1).
  { destruct cl.
    - destruct (ClearTick_spec d l Hs) as (d1 & E1 & S1 & P1 & L1). exists d1. repeat split; try assumption. intros j. rewrite L1, andb_true_r. reflexivity.
    - exists d. repeat split; try assumption. intros j. rewrite andb_false_r. reflexivity. }
  rewrite E1. cbn [bind]. destruct cu.
  - destruct (ClearTick_spec d1 u S1) as (d2 & E2 & S2 & P2 & L2). exists d2. split; [assumption|]. split; [assumption|]. split; [congruence|].
    intros j. rewrite L2, L1, andb_true_r. destruct (j =? u); [rewrite orb_true_r|rewrite orb_false_r]; reflexivity.
  - exists d1. repeat split; try assumption. intros j. rewrite L1, andb_false_r, orb_false_r. reflexivity.
Qed.

(** the amount argument of a position change by [dlt] *)
Lemma uadd_delta a dlt : 0 <= a + dlt < T256 -> uadd a (dlt mod T256) = a + dlt.
Proof. intros H. unfold uadd. rewrite Zplus_mod_idemp_r. apply Z.mod_small. lia. Qed.

Section Change.
Variables (s : Z) (h : hist) (d : TickData) (l u cur dlt g0 g1 : Z).
Hypothesis HT : tableOK h s d.
Hypothesis HH : histOK s h.
Let h' := mkE l u dlt :: h.
Hypothesis HH' : histOK s h'.
Hypothesis Hlu : l < u.
Hypothesis Hz : dlt <> 0 \/ 0 < minted h l u.
Hypothesis Hg0 : is_u256 g0.
Hypothesis Hg1 : is_u256 g1.
Let amt := dlt mod T256.

Lemma bounds j : 0 <= gross h j < 2 ^ 128 /\ 0 <= gross h' j < 2 ^ 128.
Proof.
  destruct HH as (C & _ & T). destruct HH' as (C' & _ & T').
  pose proof (gross_nonneg h j C). pose proof (gross_total h j C). pose proof (gross_nonneg h' j C'). pose proof (gross_total h' j C'). lia.
Qed.

Lemma touched_pos j : j = l \/ j = u -> gross h j = 0 -> 0 < dlt.
Proof.
  intros Hj H. destruct (bounds j) as [_ B]. unfold h' in B. rewrite gross_cons in B by assumption.
  assert (0 <= dlt) by (destruct Hj as [->| ->]; rewrite Z.eqb_refl in B; destruct (u =? l); lia).
  destruct Hz as [N|N]; [lia|]. exfalso. destruct HH as (C & _).
  pose proof (minted_gross_l h l u C). pose proof (minted_gross_u h l u C). destruct Hj as [->| ->]; lia.
Qed.

Lemma updated_ok j upper : (j = l /\ upper = false) \/ (j = u /\ upper = true) ->
  let o := lookup (ticks d) j in
  clearFlag o amt = (gross h' j =? 0) /\
  (0 < gross h' j -> tickOK h' j (Some (updated o j cur amt g0 g1 upper))).
Proof.
  intros Hj o. destruct HT as (Hs & Hsp & HL). specialize (HL j). fold o in HL. destruct (bounds j) as [B B'].
  assert (gross h' j = gross h j + dlt) as EG.
  { unfold h'. rewrite gross_cons by assumption. destruct Hj as [[-> _]|[-> _]]; rewrite Z.eqb_refl; [reflexivity|]. destruct (u =? l); reflexivity. }
  assert (net h' j = net h j + (if upper then - dlt else dlt)) as EN.
  { unfold h'. rewrite net_cons by assumption. destruct Hj as [[-> ->]|[-> ->]]; rewrite Z.eqb_refl; [reflexivity|]. replace (u =? l) with false by lia. reflexivity. }
  destruct o as [x|] eqn:Eo; cbn [clearFlag updated tickOK] in *.
  - destruct HL as (L1 & L2 & L3 & L4 & L5 & L6). unfold amt. rewrite L3, uadd_delta by lia. split; [f_equal; lia|]. intros HP.
    cbn [tkIndex tkGross tkNet tkOut0 tkOut1]. repeat split; try (unfold is_u256 in *; lia).
    rewrite L4, EN. destruct upper; unfold uadd, usub; [rewrite Zminus_mod_idemp_l, Zminus_mod_idemp_r; f_equal; lia|].
    rewrite Zplus_mod_idemp_l, Zplus_mod_idemp_r. reflexivity.
  - assert (0 < dlt) as Hd by (apply (touched_pos j); [tauto|assumption]).
    split; [lia|]. intros HP. cbn [tkIndex tkGross tkNet tkOut0 tkOut1].
    assert (net h j = 0) as N0 by (destruct HH as (C & _); pose proof (net_gross h j C); lia).
    assert (amt = dlt) as Ea by (unfold amt; apply Z.mod_small; lia). rewrite Ea.
    repeat split; try (destruct (j <=? cur); unfold is_u256 in *; lia).
    rewrite EN, N0. destruct upper; [reflexivity|]. cbn. rewrite Z.mod_small; lia.
Qed.

Lemma change_table : exists d2 cl cu, upd2 d l u cur amt g0 g1 = Ok (d2, cl, cu) /\ sortedT d2 /\
  (cl = true \/ cu = true -> dlt < 0) /\
  (lookup (ticks d2) l <> None /\ lookup (ticks d2) u <> None) /\
  exists d3, clear2 d2 l u cl cu = Ok d3 /\ tableOK h' s d3.
Proof.
  destruct HT as (Hs & Hsp & HL). destruct (upd2_spec d l u cur amt g0 g1 Hs Hlu) as (d2 & E2 & S2 & P2 & L2).
  destruct (updated_ok l false (or_introl (conj eq_refl eq_refl))) as [Fl Ul]. destruct (updated_ok u true (or_intror (conj eq_refl eq_refl))) as [Fu Uu].
  cbv zeta in *. rewrite Fl, Fu in E2. do 3 eexists. split; [exact E2|]. split; [assumption|].
  assert (gross h' l = gross h l + dlt /\ gross h' u = gross h u + dlt) as [EGl EGu].
  { unfold h'. rewrite !gross_cons by assumption. rewrite !Z.eqb_refl. destruct (u =? l); auto. }
  assert (forall j, j = l \/ j = u -> gross h' j = 0 -> dlt < 0) as Neg.
  { intros j Hj Hg. destruct (bounds j) as [B _]. destruct (Z.eq_dec (gross h j) 0) as [E|E].
    - pose proof (touched_pos j Hj E). destruct Hj as [->| ->]; lia.
    - destruct Hj as [->| ->]; lia. }
  split. { intros [C|C]; apply Z.eqb_eq in C; [apply (Neg l)|apply (Neg u)]; auto. }
  split. { rewrite !L2, !Z.eqb_refl. split; [discriminate|]. destruct (u =? l); discriminate. }
  destruct (clear2_spec d2 l u (gross h' l =? 0) (gross h' u =? 0) S2) as (d3 & E3 & S3 & P3 & L3). exists d3. split; [exact E3|].
  split; [assumption|]. split; [congruence|]. intros j. rewrite L3, L2. destruct (bounds j) as [B B'].
  destruct (j =? l) eqn:Cl.
  - assert (j = l) as -> by lia. replace (l =? u) with false by lia. cbn [andb orb]. rewrite orb_false_r.
    destruct (gross h' l =? 0) eqn:G; [cbn [tickOK]; lia|]. apply Ul. lia.
  - cbn [andb orb]. destruct (j =? u) eqn:Cu; cbn [andb].
    + assert (j = u) as -> by lia. destruct (gross h' u =? 0) eqn:G; [cbn [tickOK]; lia|]. apply Uu. lia.
    + specialize (HL j). unfold tickOK in *. unfold h'. rewrite gross_cons, net_cons by assumption. rewrite Cl, Cu, !Z.add_0_r. exact HL.
Qed.
End Change.
