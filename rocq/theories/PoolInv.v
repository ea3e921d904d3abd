(** PoolInv.v -- the pool invariant, and that position changes and flashes keep it. *)
From Coq Require Import ZifyBool String.
From Verif Require Import Base U256Z TickMath TickMathFacts TickData TickDataFacts TickSearch TickFees Ledger Pool PoolTable.
Ltac Zify.zify_post_hook ::= idtac.
Open Scope Z_scope.

(** the current tick is the one the price is in (the price may sit on the upper end) *)
Definition priceOK (tick price : Z) : Prop :=
  MinTick <= tick < MaxTick /\ rat tick <= price <= rat (tick + 1) /\ price < MaxSqrtRatio.

Definition poolOK (h : hist) (p : Pool) : Prop :=
  histOK (TickSpacing p) h /\ tableOK h (TickSpacing p) (Data p) /\
  TickSpacing p = TickSpaces (Fee p) /\ 0 <= Fee p <= 1000000 /\
  Liquidity p = active h (TickCurrent p) /\ priceOK (TickCurrent p) (SqrtRatio p) /\
  is_u256 (FeeGrowth0 p) /\ is_u256 (FeeGrowth1 p).

(** everything but the tick table, the liquidity and the positions *)
Definition sameSlot (p q : Pool) : Prop :=
  Token0 q = Token0 p /\ Token1 q = Token1 p /\ Fee q = Fee p /\ SqrtRatio q = SqrtRatio p /\
  FeeGrowth0 q = FeeGrowth0 p /\ FeeGrowth1 q = FeeGrowth1 p /\ TickSpacing q = TickSpacing p /\ TickCurrent q = TickCurrent p.

Lemma TickSpaces_nonneg f : 0 <= TickSpaces f.
Proof. unfold TickSpaces. destruct (f =? 500), (f =? 3000), (f =? 10000); lia. Qed.

Lemma new_pool_ok t0 t1 fee price p : NewPool t0 t1 fee price = Ok p -> poolOK [] p /\ SqrtRatio p = price /\
  Fee p = fee /\ price < rat (TickCurrent p + 1) /\ Pos p = [] /\ Token0 p = t0 /\ Token1 p = t1.
Proof.
  unfold NewPool. intros H. apply bind_inv in H as ([] & H1 & H). apply bind_inv in H as (t & H2 & H). injection H as <-.
  unfold invariant in H1. destruct ((0 <=? fee) && (fee <=? 1000000)) eqn:Cf; [|discriminate].
  assert (MinSqrtRatio <= price < MaxSqrtRatio) as Hp.
  { destruct (Z_lt_le_dec price MinSqrtRatio); [|destruct (Z_lt_le_dec price MaxSqrtRatio); [lia|]];
    unfold GetTickAtSqrtRatio in H2; rewrite tick_panics in H2 by lia; discriminate. }
  destruct (tick_ok tickFuel price (le_n _) Hp) as (t' & E & Ht & Hr). unfold GetTickAtSqrtRatio in H2. rewrite E in H2. injection H2 as ->.
  split; [|cbn; repeat split; lia]. unfold poolOK. cbn [TickSpacing Data Fee Liquidity TickCurrent SqrtRatio FeeGrowth0 FeeGrowth1].
  assert (histOK (TickSpaces fee) []) as HH.
  { split; [intros l u; cbn; lia|]. split; [intros e []|cbn; lia]. }
  split; [exact HH|]. split; [split; [constructor|split; [reflexivity|intros j; reflexivity]]|]. split; [reflexivity|]. split; [lia|]. split; [reflexivity|].
  split; [unfold priceOK; lia|]. unfold is_u256. lia.
Qed.

Lemma checkTicks_ok s l u : rangeOK s l u -> checkTicks l u = Ok tt.
Proof. intros (H1 & H2 & H3 & _). unfold checkTicks. replace (l <? u) with true by lia. replace (MinTick <=? l) with true by lia. replace (u <=? MaxTick) with true by lia. reflexivity. Qed.
Lemma checkTicks_inv l u : checkTicks l u = Ok tt -> l < u /\ MinTick <= l /\ u <= MaxTick.
Proof. unfold checkTicks. destruct (l <? u) eqn:A; [|discriminate]. destruct (MinTick <=? l) eqn:B; [|discriminate]. destruct (u <=? MaxTick) eqn:C; [|discriminate]. lia. Qed.

Lemma active_range s h t : histOK s h -> 0 <= active h t < 2 ^ 128.
Proof. intros (C & _ & T). pose proof (active_nonneg h t C). pose proof (active_total h t C). lia. Qed.

Section Change.
Variables (h : hist) (p : Pool) (l u dlt : Z).
Let h' := mkE l u dlt :: h.
Let amt := dlt mod T256.
Hypothesis HP : poolOK h p.
Hypothesis HH' : histOK (TickSpacing p) h'.
Hypothesis Hz : dlt <> 0 \/ 0 < minted h l u.

Lemma change_range : rangeOK (TickSpacing p) l u.
Proof. destruct HH' as (_ & H & _). apply (H (mkE l u dlt)). now left. Qed.

Lemma liquidity_change : (if (l <=? TickCurrent p) && (TickCurrent p <? u) then uadd (Liquidity p) amt else Liquidity p) = active h' (TickCurrent p).
Proof.
  destruct HP as (HH & _ & _ & _ & EL & _). rewrite EL. pose proof (active_range _ _ (TickCurrent p) HH') as B.
  unfold h', amt in *. rewrite active_cons in *. destruct ((l <=? TickCurrent p) && (TickCurrent p <? u)); [|lia]. apply uadd_delta. lia.
Qed.

Lemma modifyPosition_ok : exists p', modifyPosition p l u amt = Ok p' /\ poolOK h' p' /\ sameSlot p p' /\ Pos p' = Pos p.
Proof.
  pose proof change_range as HR. pose proof liquidity_change as EL'. destruct HP as (HH & HT & Esp & Hf & EL & Hpr & Hg0 & Hg1).
  destruct (change_table (TickSpacing p) h (Data p) l u (TickCurrent p) dlt (FeeGrowth0 p) (FeeGrowth1 p) HT HH HH' (proj1 HR) Hz Hg0 Hg1)
    as (d2 & cl & cu & E2 & S2 & Hneg & _ & d3 & E3 & HT').
  fold amt in E2. unfold modifyPosition. rewrite (checkTicks_ok (TickSpacing p)) by assumption. cbn [bind].
  unfold upd2 in E2. destruct (UpdateTick (Data p) l (TickCurrent p) amt (FeeGrowth0 p) (FeeGrowth1 p) false) as [[d1 cl']| |]; cbn [bind] in *; [|discriminate..].
  destruct (UpdateTick d1 u (TickCurrent p) amt (FeeGrowth0 p) (FeeGrowth1 p) true) as [[d2' cu']| |]; cbn [bind] in *; [|discriminate..].
  injection E2 as -> -> ->. unfold clear2 in E3. destruct (if cl then ClearTick d2 l else Ok d2) as [d2'| |]; cbn [bind] in *; [|discriminate..]. rewrite E3. cbn [bind].
  cbn [with_data TickCurrent Liquidity]. fold h' in HT'.
  assert (forall L, L = active h' (TickCurrent p) -> poolOK h' (with_liq (with_data p d3) L)) as K.
  { intros L E. unfold poolOK. cbn [with_liq with_data TickSpacing Data Fee Liquidity TickCurrent SqrtRatio FeeGrowth0 FeeGrowth1]. repeat (split; [assumption|]). assumption. }
  destruct ((l <=? TickCurrent p) && (TickCurrent p <? u)) eqn:C; (eexists; split; [reflexivity|]).
  - split; [apply K, EL'|]. split; [unfold sameSlot; cbn; tauto|reflexivity].
  - split; [apply (K (Liquidity p)), EL'|]. split; [unfold sameSlot; cbn; tauto|reflexivity].
Qed.
End Change.

Lemma histOK_cons_total s h l u d : histOK s h -> rangeOK s l u -> - minted h l u <= d -> total h + d < 2 ^ 128 -> histOK s (mkE l u d :: h).
Proof.
  intros (C & R & T) HR Hd HT. split; [|split].
  - intros l' u'. rewrite minted_cons. specialize (C l' u'). destruct ((l =? l') && (u =? u')) eqn:E; [|lia].
    apply andb_prop in E as [E1 E2]. apply Z.eqb_eq in E1, E2. subst l' u'. lia.
  - intros e [<-|He]; [exact HR|auto].
  - rewrite total_cons. lia.
Qed.

Lemma minted_range s h l u : histOK s h -> 0 < minted h l u -> rangeOK s l u.
Proof. intros (C & R & T) H. destruct (minted_in h l u) as (e & He & <- & <-); [lia|]. auto. Qed.

(** updatePosition changes the table exactly as modifyPosition does *)
Lemma updatePosition_ok h p l u dlt p' pos : poolOK h p -> histOK (TickSpacing p) (mkE l u dlt :: h) ->
  updatePosition p l u (dlt mod T256) = Ok (p', pos) ->
  let h' := mkE l u dlt :: h in
  tableOK h' (TickSpacing p) (Data p') /\ sameSlot p p' /\ Liquidity p' = Liquidity p.
Proof.
  intros HP HH' E h'. set (amt := dlt mod T256) in *. assert (rangeOK (TickSpacing p) l u) as HR by (apply (change_range h p l u dlt HH')).
  destruct HP as (HH & HT & Esp & Hf & EL & Hpr & Hg0 & Hg1).
  assert (- 2 ^ 128 < dlt < 2 ^ 128) as Hd.
  { destruct HH as (C & _ & T). destruct HH' as (C' & _ & T'). rewrite total_cons in T'.
    pose proof (C' l u) as M'. rewrite minted_cons, !Z.eqb_refl in M'. cbn [andb] in M'. pose proof (minted_total h l u C). 
    pose proof (sumOn_nonneg (fun _ _ => 1) h C ltac:(intros; lia)) as T0. fold (total h) in T0. lia. }
  unfold updatePosition in E. destruct (Z.eq_dec dlt 0) as [Z0|N0].
  - assert (amt = 0) as Ea by (unfold amt; rewrite Z0; reflexivity). rewrite Ea in E. cbn [Z.eqb negb bind] in E.
    apply bind_inv in E as ((in0 & in1) & Ein & E). apply bind_inv in E as (pos' & Epos & E).
    change (usign 0 =? -1) with false in E. cbn [bind] in E. injection E as <- <-. split; [|split; [unfold sameSlot; cbn; tauto|reflexivity]].
    cbn [with_pos with_data Data]. destruct HT as (S & P & L). split; [assumption|]. split; [assumption|]. intros j. specialize (L j).
    unfold tickOK, h' in *. rewrite gross_cons, net_cons by apply HR. rewrite Z0. replace (if j =? l then 0 else if j =? u then 0 else 0) with 0 by (destruct (j =? l), (j =? u); reflexivity).
    replace (if j =? l then 0 else if j =? u then - (0) else 0) with 0 by (destruct (j =? l), (j =? u); reflexivity). rewrite !Z.add_0_r. exact L.
  - assert (amt <> 0) as Na.
    { unfold amt. destruct (Z_lt_le_dec dlt 0); [rewrite <- (Z_mod_plus_full dlt 1), Z.mod_small; lia|rewrite Z.mod_small; lia]. }
    replace (amt =? 0) with false in E by lia. cbn [negb] in E.
    destruct (change_table (TickSpacing p) h (Data p) l u (TickCurrent p) dlt (FeeGrowth0 p) (FeeGrowth1 p) HT HH HH' (proj1 HR) (or_introl N0) Hg0 Hg1)
      as (d2 & cl & cu & E2 & S2 & Hneg & _ & d3 & E3 & HT'). fold amt in E2.
    match type of E with bind ?x ?k = _ => change (bind (upd2 (Data p) l u (TickCurrent p) amt (FeeGrowth0 p) (FeeGrowth1 p)) k = Ok (p', pos)) in E end.
    rewrite E2 in E. cbn [bind] in E. apply bind_inv in E as ((in0 & in1) & Ein & E). cbv zeta in E. apply bind_inv in E as (pos' & Epos & E).
    assert ((if usign amt =? -1 then clear2 d2 l u cl cu else Ok d2) = Ok d3) as Ec.
    { unfold usign. replace (amt =? 0) with false by lia. destruct (Z_lt_le_dec dlt 0) as [Cd|Cd].
      - replace (amt <? T255) with false; [exact E3|]. unfold amt. rewrite <- (Z_mod_plus_full dlt 1), Z.mod_small; lia.
      - replace (amt <? T255) with true by (unfold amt; rewrite Z.mod_small; lia). cbn [Z.eqb]. destruct cl; [specialize (Hneg (or_introl eq_refl)); lia|].
        destruct cu; [specialize (Hneg (or_intror eq_refl)); lia|]. exact E3. }
    unfold clear2 in Ec. rewrite Ec in E. cbn [bind] in E. injection E as <- <-. split; [exact HT'|]. split; [unfold sameSlot; cbn; tauto|reflexivity].
Qed.

Lemma modifyPositionStrategy_ok h p l u dlt p' a0 a1 : poolOK h p -> histOK (TickSpacing p) (mkE l u dlt :: h) ->
  modifyPositionStrategy p l u (dlt mod T256) = Ok (p', a0, a1) ->
  poolOK (mkE l u dlt :: h) p' /\ sameSlot p p'.
Proof.
  intros HP HH' E. unfold modifyPositionStrategy in E. apply bind_inv in E as ([] & _ & E). apply bind_inv in E as ((p1 & pos) & E1 & E).
  pose proof (liquidity_change h p l u dlt HP HH') as EL'.
  destruct (updatePosition_ok h p l u dlt p1 pos HP HH' E1) as (HT' & HS & ELq). cbv zeta in HT'.
  destruct HP as (HH & HT & Esp & Hf & EL & Hpr & Hg0 & Hg1).
  pose proof HS as (_ & _ & S3 & S4 & S5 & S6 & S7 & S8).
  assert (forall L q, q = with_liq p1 L -> L = active (mkE l u dlt :: h) (TickCurrent p) -> poolOK (mkE l u dlt :: h) q /\ sameSlot p q) as K.
  { intros L q -> EQ. split; [|unfold sameSlot in *; cbn; tauto].
    unfold poolOK. cbn [with_liq TickSpacing Data Fee Liquidity TickCurrent SqrtRatio FeeGrowth0 FeeGrowth1]. rewrite S3, S4, S5, S6, S7, S8.
    repeat (split; [assumption|]). assumption. }
  assert (p1 = with_liq p1 (Liquidity p1)) as Ep1 by (destruct p1; reflexivity).
  set (amt := dlt mod T256) in *. destruct (amt =? 0) eqn:C0.
  - injection E as <- _ _. apply (K _ _ Ep1). rewrite ELq, <- EL'. destruct (_ && _); [|reflexivity]. replace amt with 0 by lia.
    unfold uadd. rewrite Z.add_0_r, Z.mod_small; [reflexivity|]. rewrite EL. pose proof (active_range _ _ (TickCurrent p) HH). lia.
  - rewrite S8 in E. destruct (TickCurrent p <? l) eqn:C1.
    + apply bind_inv in E as (? & _ & E). apply bind_inv in E as (? & _ & E). apply bind_inv in E as (? & _ & E). injection E as <- _ _.
      apply (K _ _ Ep1). rewrite ELq, <- EL'. replace (l <=? TickCurrent p) with false by lia. reflexivity.
    + destruct (TickCurrent p <? u) eqn:C2.
      * apply bind_inv in E as (? & _ & E). apply bind_inv in E as (? & _ & E). apply bind_inv in E as (? & _ & E). apply bind_inv in E as (? & _ & E). injection E as <- _ _.
        apply (K _ _ eq_refl). rewrite ELq, <- EL'. replace (l <=? TickCurrent p) with true by lia. reflexivity.
      * apply bind_inv in E as (? & _ & E). apply bind_inv in E as (? & _ & E). apply bind_inv in E as (? & _ & E). injection E as <- _ _.
        apply (K _ _ Ep1). rewrite ELq, <- EL'. replace (l <=? TickCurrent p) with true by lia. reflexivity.
Qed.

Lemma poolOK_with_pos h p m : poolOK h p -> poolOK h (with_pos p m).
Proof. unfold poolOK. cbn. tauto. Qed.

Lemma usign_1 a : usign a =? 1 = true -> 0 <= a < T256 -> 0 < a < T255.
Proof. unfold usign. destruct (a =? 0) eqn:C1; [discriminate|]. destruct (a <? T255) eqn:C2; [lia|discriminate]. Qed.

Lemma uneg_delta a : uneg a = (- a) mod T256.
Proof. reflexivity. Qed.

Lemma flash_ok h p a0 a1 p' : poolOK h p -> Flash p a0 a1 = Ok p' -> poolOK h p'.
Proof.
  intros (HH & HT & Esp & Hf & EL & Hpr & Hg0 & Hg1) E. unfold Flash in E. do 5 (apply bind_inv in E as (? & _ & E)). injection E as <-.
  unfold poolOK. cbn [TickSpacing Data Fee Liquidity TickCurrent SqrtRatio FeeGrowth0 FeeGrowth1]. repeat (split; [assumption|]).
  unfold is_u256, uadd. split; apply Z.mod_pos_bound; lia.
Qed.
