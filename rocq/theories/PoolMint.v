(** PoolMint.v -- minting and then burning the same liquidity. *)
From Coq Require Import ZifyBool String.
From Verif Require Import Base U256Z FullMathFacts SwapMath SwapMathFacts LiqFacts TickMath TickMathFacts TickData TickDataFacts TickSearch TickFees Ledger Pool PoolTable PoolInv PoolOps.
Ltac Zify.zify_post_hook ::= idtac.
Open Scope Z_scope.

Lemma uneg_small a : 0 < a < T256 -> uneg a = T256 - a.
Proof. intros H. unfold uneg. rewrite <- (Z_mod_plus_full (- a) 1), Z.mod_small; lia. Qed.
Lemma uneg_uneg a : 0 <= a < T256 -> uneg (uneg a) = a.
Proof. intros H. unfold uneg. destruct (Z.eq_dec a 0) as [->|]; [reflexivity|]. rewrite <- (Z_mod_plus_full (- a) 1), (Z.mod_small (- a + 1 * T256)) by lia. rewrite <- (Z_mod_plus_full _ 1), Z.mod_small; lia. Qed.
Lemma add_neg x a : is_u256 x -> uadd (uadd x a) (uneg a) = x.
Proof. intros H. unfold uadd, uneg. rewrite Zplus_mod_idemp_l, Zplus_mod_idemp_r. replace (x + a + - a) with x by ring. now apply Z.mod_small. Qed.
Lemma sub_neg x a : is_u256 x -> usub (usub x a) (uneg a) = x.
Proof. intros H. unfold usub, uneg. rewrite Zminus_mod_idemp_l, Zminus_mod_idemp_r. replace (x - a - - a) with x by ring. now apply Z.mod_small. Qed.

(** ** the tick table *)
Section Table.
Variables (h : hist) (s : Z) (d : TickData) (l u cur a g0 g1 : Z).
Hypothesis HT : tableOK h s d.
Hypothesis HH : histOK s h.
Hypothesis Hlu : l < u.
Hypothesis Ha : 0 < a < T255.

Lemma gross_u j x : lookup (ticks d) j = Some x -> 0 < tkGross x < 2 ^ 128 /\ is_u256 (tkNet x) /\ tkIndex x = j.
Proof.
  intros E. destruct HT as (_ & _ & L). specialize (L j). rewrite E in L. destruct L as (L1 & L2 & L3 & L4 & _).
  destruct HH as (C & _ & T). pose proof (gross_total h j C). split; [lia|]. split; [|assumption]. rewrite L4. unfold is_u256. apply Z.mod_pos_bound. lia.
Qed.

Lemma mint_no_clear j : clearFlag (lookup (ticks d) j) a = false.
Proof.
  unfold clearFlag. destruct (lookup (ticks d) j) as [x|] eqn:E; [|reflexivity]. destruct (gross_u j x E) as [G _]. unfold uadd. rewrite Z.mod_small by lia. lia.
Qed.

(** minting: both ticks updated, none cleared *)
Lemma mint_table : exists d1, upd2 d l u cur a g0 g1 = Ok (d1, false, false) /\ sortedT d1 /\ tickSpacing d1 = tickSpacing d /\
  (forall j, lookup (ticks d1) j =
     if j =? l then Some (updated (lookup (ticks d) l) l cur a g0 g1 false)
     else if j =? u then Some (updated (lookup (ticks d) u) u cur a g0 g1 true) else lookup (ticks d) j).
Proof.
  destruct HT as (S & _ & _). destruct (upd2_spec d l u cur a g0 g1 S Hlu) as (d1 & E & R). rewrite !mint_no_clear in E. eauto.
Qed.

(** burning the same amount: the table is back *)
Lemma burn_table d1 cur' h0 h1 : sortedT d1 -> tickSpacing d1 = tickSpacing d ->
  (forall j, lookup (ticks d1) j =
     if j =? l then Some (updated (lookup (ticks d) l) l cur a g0 g1 false)
     else if j =? u then Some (updated (lookup (ticks d) u) u cur a g0 g1 true) else lookup (ticks d) j) ->
  exists d2 cl cu, upd2 d1 l u cur' (uneg a) h0 h1 = Ok (d2, cl, cu) /\ sortedT d2 /\ clear2 d2 l u cl cu = Ok d /\
    (forall j, out0 d2 j = out0 d1 j /\ out1 d2 j = out1 d1 j) /\ present d2 l /\ present d2 u.
Proof.
  intros S1 P1 L1. destruct (upd2_spec d1 l u cur' (uneg a) h0 h1 S1 Hlu) as (d2 & E2 & S2 & P2 & L2). do 3 eexists. split; [exact E2|]. split; [assumption|].
  split; [|split; [|unfold present; rewrite !L2, !Z.eqb_refl; split; [discriminate|destruct (u =? l); discriminate]]].
  - match goal with |- clear2 d2 l u ?x ?y = _ => destruct (clear2_spec d2 l u x y S2) as (d3 & E3 & S3 & P3 & L3) end. rewrite E3. f_equal.
    assert (ticks d3 = ticks d) as EL.
    { destruct HT as (S & _). apply lookup_ext; [assumption..|]. intros j. rewrite L3, L2, !L1, !Z.eqb_refl. replace (u =? l) with false by lia.
      assert (forall k up x, lookup (ticks d) k = Some x -> updated (Some (updated (Some x) k cur a g0 g1 up)) k cur' (uneg a) h0 h1 up = x) as Kback.
      { intros k up x Ex. destruct (gross_u k x Ex) as (G & N & I). cbn [updated tkNet tkGross tkOut0 tkOut1].
        rewrite add_neg by (unfold is_u256; lia). destruct up; rewrite ?sub_neg, ?add_neg by assumption; destruct x; cbn in *; congruence. }
      assert (forall k up, clearFlag (Some (updated (lookup (ticks d) k) k cur a g0 g1 up)) (uneg a) = match lookup (ticks d) k with Some _ => false | None => true end) as Kflag.
      { intros k up. cbn [clearFlag]. destruct (lookup (ticks d) k) as [x|] eqn:Ex; cbn [updated tkGross].
        - destruct (gross_u k x Ex) as (G & _). rewrite add_neg by (unfold is_u256; lia). lia.
        - unfold uadd, uneg. rewrite Zplus_mod_idemp_r. replace (a + - a) with 0 by ring. reflexivity. }
      rewrite !Kflag. destruct (j =? l) eqn:Cl.
      - assert (j = l) as -> by lia. replace (l =? u) with false by lia. cbn [andb orb]. rewrite orb_false_r.
        destruct (lookup (ticks d) l) as [x|] eqn:Ex; [|reflexivity]. now rewrite Kback.
      - cbn [andb orb]. destruct (j =? u) eqn:Cu; [|reflexivity]. assert (j = u) as -> by lia. cbn [andb].
        destruct (lookup (ticks d) u) as [x|] eqn:Ex; [|reflexivity]. now rewrite Kback. }
    destruct d3, d. cbn in *. congruence.
  - intros j. unfold out0, out1. rewrite L2. destruct (j =? l) eqn:Cl; [assert (j = l) as -> by lia|destruct (j =? u) eqn:Cu; [assert (j = u) as -> by lia|auto]];
      rewrite L1, ?Z.eqb_refl; [|rewrite Cl]; cbn [updated tkOut0 tkOut1]; auto.
Qed.
End Table.

Lemma mint_then_burn h p l u a p1 : poolOK h p -> is_u256 a -> Mint p l u a = Ok p1 -> Burn p1 l u a = Ok p.
Proof.
  intros HP Ha E. unfold Mint in E. apply bind_inv in E as ([] & E0 & E). apply invariant_inv in E0. apply usign_1 in E0; [|assumption].
  unfold modifyPosition in E. apply bind_inv in E as ([] & Ec & E). pose proof (checkTicks_inv _ _ Ec) as (Hlu & _).
  pose proof HP as (HH & HT & _ & _ & EL & _).
  destruct (mint_table h (TickSpacing p) (Data p) l u (TickCurrent p) a (FeeGrowth0 p) (FeeGrowth1 p) HT HH Hlu E0) as (d1 & U1 & S1 & P1 & L1).
  unfold upd2 in U1. destruct (UpdateTick (Data p) l (TickCurrent p) a (FeeGrowth0 p) (FeeGrowth1 p) false) as [[x cl]| |]; cbn [bind] in *; [|discriminate..].
  destruct (UpdateTick x u (TickCurrent p) a (FeeGrowth0 p) (FeeGrowth1 p) true) as [[y cu]| |]; cbn [bind] in *; [|discriminate..].
  injection U1 as -> -> ->. cbn [bind] in E.
  destruct (burn_table h (TickSpacing p) (Data p) l u (TickCurrent p) a (FeeGrowth0 p) (FeeGrowth1 p) HT HH Hlu d1 (TickCurrent p) (FeeGrowth0 p) (FeeGrowth1 p) S1 P1 L1)
    as (d2 & cl & cu & U2 & S2 & C2 & _).
  unfold Burn, modifyPosition. rewrite Ec. cbn [bind].
  assert (Data p1 = d1 /\ TickCurrent p1 = TickCurrent p /\ FeeGrowth0 p1 = FeeGrowth0 p /\ FeeGrowth1 p1 = FeeGrowth1 p) as (Q1 & Q2 & Q3 & Q4).
  { destruct (_ && _) in E; injection E as <-; cbn; auto. }
  rewrite Q1, Q2, Q3, Q4.
  unfold upd2 in U2. destruct (UpdateTick d1 l (TickCurrent p) (uneg a) (FeeGrowth0 p) (FeeGrowth1 p) false) as [[x' cl']| |]; cbn [bind] in *; [|discriminate..].
  destruct (UpdateTick x' u (TickCurrent p) (uneg a) (FeeGrowth0 p) (FeeGrowth1 p) true) as [[y' cu']| |]; cbn [bind] in *; [|discriminate..].
  injection U2 as -> -> ->. unfold clear2 in C2. destruct (if cl then ClearTick d2 l else Ok d2) as [d2'| |]; cbn [bind] in *; [|discriminate..]. rewrite C2. cbn [bind].
  cbn [with_data TickCurrent Liquidity] in *. pose proof (active_range _ _ (TickCurrent p) HH) as Hact. rewrite <- EL in Hact. rewrite Q2.
  destruct ((l <=? TickCurrent p) && (TickCurrent p <? u)) eqn:C; injection E as <-; cbn [with_liq with_data Liquidity].
  - rewrite add_neg by (unfold is_u256; lia). destruct p; reflexivity.
  - destruct p; reflexivity.
Qed.

(** ** the amounts *)
Definition rangeAmounts (tick price l u amt : Z) : res (Z * Z) :=
  if tick <? l then
    do a <- GetSqrtRatioAtTick l; do b <- GetSqrtRatioAtTick u; do x <- GetAmount0DeltaRounded a b amt; Ok (x, 0)
  else if tick <? u then
    do b <- GetSqrtRatioAtTick u; do x <- GetAmount0DeltaRounded price b amt;
    do a <- GetSqrtRatioAtTick l; do y <- GetAmount1DeltaRounded price a amt; Ok (x, y)
  else
    do a <- GetSqrtRatioAtTick l; do b <- GetSqrtRatioAtTick u; do y <- GetAmount1DeltaRounded a b amt; Ok (0, y).

Lemma updatePosition_slot p l u amt p1 pos : updatePosition p l u amt = Ok (p1, pos) -> sameSlot p p1 /\ Liquidity p1 = Liquidity p.
Proof.
  intros E. unfold updatePosition in E. apply bind_inv in E as (((d & cl) & cu) & _ & E). apply bind_inv in E as ((in0 & in1) & _ & E). cbv zeta in E.
  apply bind_inv in E as (pos' & _ & E). apply bind_inv in E as (d' & _ & E). injection E as <- <-. unfold sameSlot. cbn. tauto.
Qed.

Lemma modifyPositionStrategy_eq p l u amt : amt <> 0 ->
  modifyPositionStrategy p l u amt =
  bind (checkTicks l u) (fun _ => bind (updatePosition p l u amt) (fun r => bind (rangeAmounts (TickCurrent p) (SqrtRatio p) l u amt) (fun xy =>
    Ok (if (l <=? TickCurrent p) && (TickCurrent p <? u) then with_liq (fst r) (uadd (Liquidity p) amt) else fst r, fst xy, snd xy)))).
Proof.
  intros Ha. unfold modifyPositionStrategy. destruct (checkTicks l u) as [[]| |]; cbn [bind]; try reflexivity.
  destruct (updatePosition p l u amt) as [[p1 pos]| |] eqn:E; cbn [bind]; try reflexivity. replace (amt =? 0) with false by lia.
  destruct (updatePosition_slot _ _ _ _ _ _ E) as ((_ & _ & _ & E1 & _ & _ & _ & E2) & E3). rewrite E1, E2, E3. unfold rangeAmounts. cbn [fst snd].
  destruct (TickCurrent p <? l) eqn:C1; [|destruct (TickCurrent p <? u) eqn:C2].
  - replace (l <=? TickCurrent p) with false by lia. cbn [andb]. destruct (GetSqrtRatioAtTick l); cbn [bind]; try reflexivity.
    destruct (GetSqrtRatioAtTick u); cbn [bind]; try reflexivity. destruct (GetAmount0DeltaRounded _ _ _); reflexivity.
  - replace (l <=? TickCurrent p) with true by lia. cbn [andb]. destruct (GetSqrtRatioAtTick u); cbn [bind]; try reflexivity.
    destruct (GetAmount0DeltaRounded _ _ _); cbn [bind]; try reflexivity. destruct (GetSqrtRatioAtTick l); cbn [bind]; try reflexivity. destruct (GetAmount1DeltaRounded _ _ _); reflexivity.
  - rewrite andb_false_r. destruct (GetSqrtRatioAtTick l); cbn [bind]; try reflexivity.
    destruct (GetSqrtRatioAtTick u); cbn [bind]; try reflexivity. destruct (GetAmount1DeltaRounded _ _ _); reflexivity.
Qed.

(** rounding down returns whenever rounding up does, and not more *)
Lemma MulDiv_of_up a b d x : MulDivRoundingUp a b d = Ok x -> exists y, MulDiv a b d = Ok y.
Proof. unfold MulDivRoundingUp, MulDiv. destruct (_ || _); [eauto|]. destruct (udivrem5_ok _ _); [eauto|discriminate]. Qed.

Lemma rounded_neg0 a b l : 0 < l < T255 -> GetAmount0DeltaRounded a b (uneg l) = do x <- GetAmount0Delta a b l false; Ok (uneg x).
Proof.
  intros H. unfold GetAmount0DeltaRounded. replace (usign (uneg l)) with (-1). cbn [Z.eqb Pos.eqb]. now rewrite uneg_uneg by lia.
  rewrite uneg_small by lia. unfold usign. replace (T256 - l =? 0) with false by lia. replace (T256 - l <? T255) with false by lia. reflexivity.
Qed.
Lemma rounded_neg1 a b l : 0 < l < T255 -> GetAmount1DeltaRounded a b (uneg l) = do x <- GetAmount1Delta a b l false; Ok (uneg x).
Proof.
  intros H. unfold GetAmount1DeltaRounded. replace (usign (uneg l)) with (-1). cbn [Z.eqb Pos.eqb]. now rewrite uneg_uneg by lia.
  rewrite uneg_small by lia. unfold usign. replace (T256 - l =? 0) with false by lia. replace (T256 - l <? T255) with false by lia. reflexivity.
Qed.

Lemma amount0_updown a b l x : liqR l -> 0 < l -> 0 < a <= b -> b < 2 ^ 160 -> GetAmount0DeltaRounded a b l = Ok x ->
  exists y, GetAmount0DeltaRounded a b (uneg l) = Ok (uneg y) /\ 0 <= y <= x /\ x < T256.
Proof.
  intros Hl H0 Ha Hb E. unfold liqR in Hl. rewrite rounded0_pos in E by lia. rewrite rounded_neg0 by lia.
  assert (exists y, GetAmount0Delta a b l false = Ok y) as (y & Ey).
  { unfold GetAmount0Delta in *. destruct (ordered a b) as [a' b']. cbv zeta in *. apply bind_inv in E as (x1 & E1 & E).
    destruct (MulDiv_of_up _ _ _ _ E1) as (y1 & ->). cbn [bind]. eauto. }
  rewrite Ey. cbn [bind]. exists y. split; [reflexivity|].
  apply amount0_up in E as [Hx Rx]; [|exact Hl|assumption..]. apply amount0_down in Ey as [Hy Ry]; [|exact Hl|assumption..].
  split; [|lia]. split; [lia|]. apply Z.nlt_ge. intros C. unfold ceil0, floor0 in *.
  assert (0 < a * b) by (apply Z.mul_pos_pos; lia). assert ((x + 1) * (a * b) <= y * (a * b)) by (apply Z.mul_le_mono_nonneg_r; lia). lia.
Qed.
Lemma amount1_updown a b l x : liqR l -> 0 < l -> 0 <= a <= b -> b < 2 ^ 160 -> GetAmount1DeltaRounded a b l = Ok x ->
  exists y, GetAmount1DeltaRounded a b (uneg l) = Ok (uneg y) /\ 0 <= y <= x /\ x < T256.
Proof.
  intros Hl H0 Ha Hb E. unfold liqR in Hl. rewrite rounded1_pos in E by lia. rewrite rounded_neg1 by lia.
  assert (exists y, GetAmount1Delta a b l false = Ok y) as (y & Ey).
  { unfold GetAmount1Delta in *. destruct (ordered a b) as [a' b']. eapply MulDiv_of_up. exact E. }
  rewrite Ey. cbn [bind]. exists y. split; [reflexivity|].
  apply amount1_up in E as [Hx Rx]; [|exact Hl|assumption..]. apply amount1_down in Ey as [Hy Ry]; [|exact Hl|assumption..].
  split; [|lia]. split; [lia|]. apply Z.nlt_ge. intros C. unfold ceil1, floor1, Q96 in *. lia.
Qed.
Lemma rounded1_comm a b l : GetAmount1DeltaRounded a b l = GetAmount1DeltaRounded b a l.
Proof.
  unfold GetAmount1DeltaRounded, GetAmount1Delta, ordered. destruct (Z_lt_le_dec a b) as [C|C].
  - replace (b <? a) with false by lia. replace (a <? b) with true by lia. reflexivity.
  - destruct (Z.eq_dec a b) as [->|]; [reflexivity|]. replace (b <? a) with true by lia. replace (a <? b) with false by lia. reflexivity.
Qed.

Lemma amounts_updown tick price l u a x0 x1 : priceOK tick price -> l < u -> MinTick <= l -> u <= MaxTick -> liqR a -> 0 < a ->
  rangeAmounts tick price l u a = Ok (x0, x1) ->
  exists y0 y1, rangeAmounts tick price l u (uneg a) = Ok (uneg y0, uneg y1) /\ 0 <= y0 <= x0 /\ 0 <= y1 <= x1 /\ x0 < T256 /\ x1 < T256.
Proof.
  intros (Ht & Hp & Hm) Hlu Hl Hu Ha H0 E. unfold rangeAmounts in *. rewrite !rat_ok in * by lia. cbn [bind] in *.
  pose proof (rat_range l ltac:(lia)) as Rl. pose proof (rat_range u ltac:(lia)) as Ru. pose proof (rat_lt l u Hl Hlu Hu) as Rlu.
  assert (rat u < 2 ^ 160 /\ 0 < rat l) as [B1 B2] by (unfold MinSqrtRatio, MaxSqrtRatio in *; lia).
  destruct (tick <? l) eqn:C1; [|destruct (tick <? u) eqn:C2].
  - apply bind_inv in E as (x & Ex & E). injection E as <- <-. destruct (amount0_updown (rat l) (rat u) a x Ha H0 ltac:(lia) B1 Ex) as (y & -> & Hy & Bx).
    exists y, 0. cbn [bind]. split; [reflexivity|]. lia.
  - pose proof (rat_le (tick + 1) u ltac:(lia) ltac:(lia) ltac:(lia)) as Q1. pose proof (rat_le l tick ltac:(lia) ltac:(lia) ltac:(lia)) as Q2.
    apply bind_inv in E as (x & Ex & E). cbn [bind] in E. apply bind_inv in E as (y & Ey & E). injection E as <- <-.
    destruct (amount0_updown price (rat u) a x Ha H0 ltac:(lia) B1 Ex) as (y0 & -> & Hy0 & Bx). cbn [bind].
    rewrite rounded1_comm in Ey. rewrite rounded1_comm.
    destruct (amount1_updown (rat l) price a y Ha H0 ltac:(lia) ltac:(lia) Ey) as (y1 & -> & Hy1 & By). cbn [bind]. exists y0, y1. split; [reflexivity|]. lia.
  - apply bind_inv in E as (x & Ex & E). injection E as <- <-. destruct (amount1_updown (rat l) (rat u) a x Ha H0 ltac:(lia) B1 Ex) as (y & -> & Hy & Bx).
    exists 0, y. cbn [bind]. split; [reflexivity|]. lia.
Qed.

(** ** the position table *)
Lemma keyEq_true a : forall b, keyEq a b = true <-> a = b.
Proof.
  induction a as [|x a IH]; intros [|y b]; cbn; split; intros H; try discriminate; try reflexivity; try congruence.
  - apply andb_prop in H as [H1 H2]. apply Z.eqb_eq in H1. apply IH in H2. congruence.
  - injection H as -> ->. rewrite Z.eqb_refl. now apply IH.
Qed.
Lemma posGet_put m k v k' : posGet (posPut m k v) k' = if keyEq k k' then Some v else posGet m k'.
Proof.
  induction m as [|[k0 v0] m IH]; cbn [posPut posGet]; [reflexivity|]. destruct (keyEq k0 k) eqn:C; cbn [posGet].
  - apply keyEq_true in C as ->. destruct (keyEq k k'); reflexivity.
  - rewrite IH. destruct (keyEq k0 k') eqn:C'; [|reflexivity]. apply keyEq_true in C' as ->. destruct (keyEq k k') eqn:C2; [|reflexivity].
    apply keyEq_true in C2 as ->. rewrite (proj2 (keyEq_true k' k') eq_refl) in C. discriminate.
Qed.
Lemma keyEq_refl k : keyEq k k = true.
Proof. now apply keyEq_true. Qed.

Lemma usub_diag x : usub x x = 0.
Proof. unfold usub. now rewrite Z.sub_diag. Qed.

(** ** MintStrategy followed by BurnStrategy *)
Lemma mintS_then_burnS h p l u a p1 a0 a1 : poolOK h p -> is_u256 a -> a < 2 ^ 160 ->
  MintStrategy p l u a = Ok (p1, a0, a1) ->
  exists p2 b0 b1, BurnStrategy p1 l u a = Ok (p2, b0, b1) /\ 0 <= b0 <= a0 /\ 0 <= b1 <= a1 /\
    with_pos p2 (Pos p) = p /\
    exists i, posGet (Pos p1) (posKey l u) = Some i /\
      posGet (Pos p2) (posKey l u) = Some (mkInfo (uadd (pLiquidity i) (uneg a)) (pLast0 i) (pLast1 i) (uadd (uadd (pOwed0 i) 0) b0) (uadd (uadd (pOwed1 i) 0) b1)).
Proof.
  intros HP Ha Hb E. unfold MintStrategy in E. apply bind_inv in E as ([] & E0 & E). apply invariant_inv in E0. apply usign_1 in E0; [|assumption].
  rewrite modifyPositionStrategy_eq in E by lia. apply bind_inv in E as ([] & Ec & E). pose proof (checkTicks_inv _ _ Ec) as (Hlu & Hl & Hu).
  apply bind_inv in E as ((q & pos) & EU & E). apply bind_inv in E as ((x0 & x1) & ER & E). cbn [fst snd] in E. injection E as E <- <-.
  pose proof HP as (HH & HT & _ & _ & EL & HPr & _).
  destruct (updatePosition_slot _ _ _ _ _ _ EU) as (HS & ELq). pose proof HS as (T0 & T1 & T2 & S4 & S5 & S6 & S7 & S8).
  destruct (amounts_updown (TickCurrent p) (SqrtRatio p) l u a x0 x1 HPr Hlu Hl Hu ltac:(unfold liqR; lia) ltac:(lia) ER) as (y0 & y1 & EB & Hy0 & Hy1 & Bx0 & Bx1).
  unfold updatePosition in EU. replace (a =? 0) with false in EU by lia. cbn [negb] in EU.
  destruct (mint_table h (TickSpacing p) (Data p) l u (TickCurrent p) a (FeeGrowth0 p) (FeeGrowth1 p) HT HH Hlu E0) as (d1 & U1 & S1 & P1 & L1).
  match type of EU with bind ?x ?k = _ => change (bind (upd2 (Data p) l u (TickCurrent p) a (FeeGrowth0 p) (FeeGrowth1 p)) k = Ok (q, pos)) in EU end.
  rewrite U1 in EU. cbn [bind] in EU. apply bind_inv in EU as ((in0 & in1) & Ein & EU). cbv zeta in EU. apply bind_inv in EU as (pos' & Epos & EU).
  assert (usign a =? -1 = false) as Es by (unfold usign; replace (a =? 0) with false by lia; replace (a <? T255) with true by lia; reflexivity).
  rewrite Es in EU. cbn [bind] in EU. injection EU as <- <-.
  destruct (burn_table h (TickSpacing p) (Data p) l u (TickCurrent p) a (FeeGrowth0 p) (FeeGrowth1 p) HT HH Hlu d1 (TickCurrent p) (FeeGrowth0 p) (FeeGrowth1 p) S1 P1 L1)
    as (d2 & cl & cu & U2 & S2 & C2 & O2 & Pl & Pu).
  assert (Data p1 = d1 /\ TickCurrent p1 = TickCurrent p /\ FeeGrowth0 p1 = FeeGrowth0 p /\ FeeGrowth1 p1 = FeeGrowth1 p /\ SqrtRatio p1 = SqrtRatio p /\
          Liquidity p1 = (if (l <=? TickCurrent p) && (TickCurrent p <? u) then uadd (Liquidity p) a else Liquidity p) /\
          Pos p1 = posPut (Pos p) (posKey l u) pos' /\ TickSpacing p1 = TickSpacing p /\ Token0 p1 = Token0 p /\ Token1 p1 = Token1 p /\ Fee p1 = Fee p) as (Q1 & Q2 & Q3 & Q4 & Q5 & Q6 & Q7 & Q8 & Q9 & Q10 & Q11).
  { destruct (_ && _) in E |- *; subst p1; cbn; tauto. }
  assert (GetFeeGrowthInside d2 l u (TickCurrent p) (FeeGrowth0 p) (FeeGrowth1 p) = Ok (in0, in1)) as Ein2.
  { rewrite <- Ein. rewrite !GetFeeGrowthInside_spec; try assumption; try (unfold present; rewrite L1, !Z.eqb_refl; try discriminate; destruct (u =? l); discriminate).
    unfold gb0, gb1. destruct (O2 l) as [-> ->]. destruct (O2 u) as [-> ->]. reflexivity. }
  assert (pLast0 pos' = in0 /\ pLast1 pos' = in1) as [PL0 PL1].
  { unfold InfoUpdate in Epos. cbv zeta in Epos. apply bind_inv in Epos as (o0 & _ & Epos). apply bind_inv in Epos as (o1 & _ & Epos). injection Epos as <-. auto. }
  set (pos2 := mkInfo (uadd (pLiquidity pos') (uneg a)) in0 in1 (uadd (pOwed0 pos') 0) (uadd (pOwed1 pos') 0)).
  assert (updatePosition p1 l u (uneg a) = Ok (with_pos (with_data p1 (Data p)) (posPut (Pos p1) (posKey l u) pos2), pos2)) as EU2.
  { unfold updatePosition. replace (uneg a =? 0) with false by (rewrite uneg_small by lia; lia). cbn [negb]. rewrite Q1, Q2, Q3, Q4.
    match goal with |- bind ?x ?k = _ => change (bind (upd2 d1 l u (TickCurrent p) (uneg a) (FeeGrowth0 p) (FeeGrowth1 p)) k = Ok (with_pos (with_data p1 (Data p)) (posPut (Pos p1) (posKey l u) pos2), pos2)) end.
    rewrite U2. cbn [bind]. rewrite Ein2. cbn [bind]. cbv zeta. rewrite Q7, posGet_put, keyEq_refl. unfold InfoUpdate. rewrite PL0, PL1, !usub_diag.
    unfold MulDiv at 1 2. cbn [Z.eqb orb bind].
    replace (usign (uneg a) =? -1) with true.
    2:{ rewrite uneg_small by lia. unfold usign. replace (T256 - a =? 0) with false by lia. replace (T256 - a <? T255) with false by lia. reflexivity. }
    fold (clear2 d2 l u cl cu). rewrite C2. cbn [bind]. reflexivity. }
  assert (modifyPositionStrategy p1 l u (uneg a) = Ok (with_liq (with_pos (with_data p1 (Data p)) (posPut (Pos p1) (posKey l u) pos2)) (Liquidity p), uneg y0, uneg y1)) as EM.
  { rewrite modifyPositionStrategy_eq by (rewrite uneg_small by lia; lia). rewrite Ec. cbn [bind]. rewrite EU2. cbn [bind]. rewrite Q2, Q5, EB. cbn [bind fst snd]. rewrite Q6.
    pose proof (active_range _ _ (TickCurrent p) HH) as Hact. rewrite <- EL in Hact.
    destruct ((l <=? TickCurrent p) && (TickCurrent p <? u)) eqn:C; f_equal; f_equal; f_equal.
    - rewrite add_neg by (unfold is_u256; lia). reflexivity.
    - unfold with_liq, with_pos, with_data. cbn. now rewrite Q6. }
  unfold BurnStrategy. rewrite EM. cbn [bind]. rewrite !uneg_uneg by lia. cbn [with_liq with_pos with_data Pos]. rewrite posGet_put, keyEq_refl.
  do 3 eexists. split; [reflexivity|]. split; [lia|]. split; [lia|]. split.
  - unfold with_pos, with_liq, with_data. cbn. rewrite Q2, Q3, Q4, Q5, Q8, Q9, Q10, Q11. destruct p; reflexivity.
  - exists pos'. rewrite Q7, posGet_put, keyEq_refl. split; [reflexivity|]. cbn [with_pos Pos]. rewrite posGet_put, keyEq_refl. unfold pos2. cbn [pLiquidity pLast0 pLast1 pOwed0 pOwed1]. rewrite PL0, PL1. reflexivity.
Qed.
