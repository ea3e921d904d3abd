(** Cash.v -- a pool never owes more than was paid in. *)
From Coq Require Import ZifyBool String QArith Lqa.
From Verif Require Import Base U256Z FullMathFacts SwapMath SwapMathFacts LiqFacts SwapStep TickMath TickMathFacts TickAccuracy TickSpec TickData TickDataFacts TickSearch TickFees Ledger Pool PoolTable PoolInv PoolSwap PoolLoop PoolStuck PoolHist PoolOps PoolMint PoolFees PoolPos PoolSpec Solvency.
From Verif Require U256Facts.
Ltac Zify.zify_post_hook ::= idtac.
Open Scope Z_scope.

(** ** the amounts of a mint and a burn against the exact worth *)
Definition tok (tk : bool) (x0 x1 : Z) : Z := if tk then x0 else x1.

Lemma injZ_lt a b : ([a]q < [b]q)%Q <-> a < b.
Proof. rewrite Zlt_Qlt. reflexivity. Qed.
Lemma curve0_lt a b l x : 0 < a -> 0 < b -> x * (a * b) < l * 2 ^ 96 * (b - a) + a * b -> ([x]q < [l]q * (curve true a - curve true b) + 1)%Q.
Proof.
  intros Ha Hb H. apply injZ_lt in H. rewrite injZ_add, !injZ_mul, injZ_sub in H. unfold curve. pose proof (injZ_pos a Ha). pose proof (injZ_pos b Hb).
  assert ([l]q * ([2 ^ 96]q / [a]q - [2 ^ 96]q / [b]q) + 1 == ([l]q * [2 ^ 96]q * ([b]q - [a]q) + [a]q * [b]q) / ([a]q * [b]q))%Q as -> by (field; split; lra).
  apply Qlt_shift_div_l; [|exact H]. apply Qmult_lt_0_compat; assumption.
Qed.
Lemma curve0_lt' a b l x : 0 < a -> 0 < b -> l * 2 ^ 96 * (b - a) < (x + 1) * (a * b) -> ([l]q * (curve true a - curve true b) < [x]q + 1)%Q.
Proof.
  intros Ha Hb H. apply injZ_lt in H. rewrite !injZ_mul, injZ_sub, injZ_add in H. unfold curve. pose proof (injZ_pos a Ha). pose proof (injZ_pos b Hb).
  assert ([l]q * ([2 ^ 96]q / [a]q - [2 ^ 96]q / [b]q) == [l]q * [2 ^ 96]q * ([b]q - [a]q) / ([a]q * [b]q))%Q as -> by (field; split; lra).
  apply Qlt_shift_div_r; [|exact H]. apply Qmult_lt_0_compat; assumption.
Qed.
Lemma curve1_lt a b l x : x * 2 ^ 96 < l * (b - a) + 2 ^ 96 -> ([x]q < [l]q * (curve false b - curve false a) + 1)%Q.
Proof.
  intros H. apply injZ_lt in H. rewrite injZ_add, !injZ_mul, injZ_sub in H. unfold curve. pose proof q96_pos.
  assert ([l]q * ([b]q / [2 ^ 96]q - [a]q / [2 ^ 96]q) + 1 == ([l]q * ([b]q - [a]q) + [2 ^ 96]q) / [2 ^ 96]q)%Q as -> by (field; lra).
  apply Qlt_shift_div_l; assumption.
Qed.
Lemma curve1_lt' a b l x : l * (b - a) < (x + 1) * 2 ^ 96 -> ([l]q * (curve false b - curve false a) < [x]q + 1)%Q.
Proof.
  intros H. apply injZ_lt in H. rewrite !injZ_mul, injZ_sub, injZ_add in H. unfold curve. pose proof q96_pos.
  assert ([l]q * ([b]q / [2 ^ 96]q - [a]q / [2 ^ 96]q) == [l]q * ([b]q - [a]q) / [2 ^ 96]q)%Q as -> by (field; lra).
  apply Qlt_shift_div_r; assumption.
Qed.

Lemma amounts_worth_up tick price l u a x0 x1 : priceOK tick price -> l < u -> MinTick <= l -> u <= MaxTick -> liqR a -> 0 < a ->
  rangeAmounts tick price l u a = Ok (x0, x1) ->
  forall tk, ([a]q * worth tk price l u <= [tok tk x0 x1]q < [a]q * worth tk price l u + 1)%Q.
Proof.
  intros (Ht & Hp & Hm) Hlu Hl Hu Ha H0 E tk. unfold rangeAmounts in *. rewrite !rat_ok in * by lia. cbn [bind] in *.
  pose proof (rat_range l ltac:(lia)) as Rl. pose proof (rat_range u ltac:(lia)) as Ru. pose proof (rat_lt l u Hl Hlu Hu) as Rlu.
  assert (rat u < 2 ^ 160 /\ 0 < rat l) as [B1 B2] by (unfold MinSqrtRatio, MaxSqrtRatio in *; lia).
  assert (a < T255) as Ha' by (unfold liqR in Ha; lia). assert (forall x y : Q, (x == y -> 0 == x - y)%Q) as K0 by (intros; lra).
  destruct (tick <? l) eqn:C1; [|destruct (tick <? u) eqn:C2].
  - apply bind_inv in E as (x & Ex & E). injection E as <- <-. rewrite rounded0_pos in Ex by lia. apply amount0_up in Ex as [Hx _]; [|assumption|lia|lia].
    pose proof (rat_le (tick + 1) l ltac:(lia) ltac:(lia) ltac:(lia)). unfold worth. replace (clampP l u price) with (rat l) by (unfold clampP; lia). unfold tok. destruct tk.
    + unfold ceil0, Q96 in Hx. split; [apply curve0_diff|apply curve0_lt]; lia.
    + rewrite <- (K0 (curve false (rat l))) by reflexivity. change [0]q with 0%Q. split; lra.
  - pose proof (rat_le (tick + 1) u ltac:(lia) ltac:(lia) ltac:(lia)) as Q1. pose proof (rat_le l tick ltac:(lia) ltac:(lia) ltac:(lia)) as Q2.
    apply bind_inv in E as (x & Ex & E). cbn [bind] in E. apply bind_inv in E as (y & Ey & E). injection E as <- <-.
    rewrite rounded0_pos in Ex by lia. apply amount0_up in Ex as [Hx _]; [|assumption|lia|lia].
    rewrite rounded1_comm, rounded1_pos in Ey by lia. apply amount1_up in Ey as [Hy _]; [|assumption|lia|lia].
    unfold worth. replace (clampP l u price) with price by (unfold clampP; lia). unfold ceil0, ceil1, Q96, tok in *. destruct tk.
    + split; [apply curve0_diff|apply curve0_lt]; lia.
    + split; [apply curve1_diff|apply curve1_lt]; lia.
  - apply bind_inv in E as (x & Ex & E). injection E as <- <-. rewrite rounded1_pos in Ex by lia. apply amount1_up in Ex as [Hx _]; [|assumption|lia|lia].
    pose proof (rat_le u tick ltac:(lia) ltac:(lia) ltac:(lia)). unfold worth. replace (clampP l u price) with (rat u) by (unfold clampP; lia). unfold tok. destruct tk.
    + rewrite <- (K0 (curve true (rat u))) by reflexivity. change [0]q with 0%Q. split; lra.
    + unfold ceil1, Q96 in Hx. split; [apply curve1_diff|apply curve1_lt]; lia.
Qed.

Lemma amounts_worth_down tick price l u a v0 v1 : priceOK tick price -> l < u -> MinTick <= l -> u <= MaxTick -> liqR a -> 0 < a ->
  rangeAmounts tick price l u (uneg a) = Ok (v0, v1) ->
  exists y0 y1, v0 = uneg y0 /\ v1 = uneg y1 /\ 0 <= y0 < T256 /\ 0 <= y1 < T256 /\
    forall tk, ([tok tk y0 y1]q <= [a]q * worth tk price l u < [tok tk y0 y1]q + 1)%Q.
Proof.
  intros (Ht & Hp & Hm) Hlu Hl Hu Ha H0 E. unfold rangeAmounts in *. rewrite !rat_ok in * by lia. cbn [bind] in *.
  pose proof (rat_range l ltac:(lia)) as Rl. pose proof (rat_range u ltac:(lia)) as Ru. pose proof (rat_lt l u Hl Hlu Hu) as Rlu.
  assert (rat u < 2 ^ 160 /\ 0 < rat l) as [B1 B2] by (unfold MinSqrtRatio, MaxSqrtRatio in *; lia).
  assert (a < T255) as Ha' by (unfold liqR in Ha; lia). assert (forall x y : Q, (x == y -> 0 == x - y)%Q) as K0 by (intros; lra).
  destruct (tick <? l) eqn:C1; [|destruct (tick <? u) eqn:C2].
  - apply bind_inv in E as (x & Ex & E). injection E as <- <-. rewrite rounded_neg0 in Ex by lia. apply bind_inv in Ex as (y & Ey & Q). injection Q as <-.
    apply amount0_down in Ey as [Hy Ry]; [|assumption|lia|lia]. exists y, 0. split; [reflexivity|]. split; [reflexivity|]. split; [assumption|]. split; [lia|]. intros tk.
    pose proof (rat_le (tick + 1) l ltac:(lia) ltac:(lia) ltac:(lia)). unfold worth. replace (clampP l u price) with (rat l) by (unfold clampP; lia). unfold tok. destruct tk.
    + unfold floor0, Q96 in Hy. split; [apply curve0_diff'|apply curve0_lt']; lia.
    + rewrite <- (K0 (curve false (rat l))) by reflexivity. change [0]q with 0%Q. split; lra.
  - pose proof (rat_le (tick + 1) u ltac:(lia) ltac:(lia) ltac:(lia)) as Q1. pose proof (rat_le l tick ltac:(lia) ltac:(lia) ltac:(lia)) as Q2.
    apply bind_inv in E as (x & Ex & E). cbn [bind] in E. apply bind_inv in E as (y & Ey & E). injection E as <- <-.
    rewrite rounded_neg0 in Ex by lia. apply bind_inv in Ex as (x' & Ex & Q). injection Q as <-. apply amount0_down in Ex as [Hx Rx]; [|assumption|lia|lia].
    rewrite rounded1_comm, rounded_neg1 in Ey by lia. apply bind_inv in Ey as (y' & Ey & Q). injection Q as <-. apply amount1_down in Ey as [Hy Ry]; [|assumption|lia|lia].
    exists x', y'. split; [reflexivity|]. split; [reflexivity|]. split; [assumption|]. split; [assumption|]. intros tk.
    unfold worth. replace (clampP l u price) with price by (unfold clampP; lia). unfold floor0, floor1, Q96, tok in *. destruct tk.
    + split; [apply curve0_diff'|apply curve0_lt']; lia.
    + split; [apply curve1_diff'|apply curve1_lt']; lia.
  - apply bind_inv in E as (x & Ex & E). injection E as <- <-. rewrite rounded_neg1 in Ex by lia. apply bind_inv in Ex as (y & Ey & Q). injection Q as <-.
    apply amount1_down in Ey as [Hy Ry]; [|assumption|lia|lia]. exists 0, y. split; [reflexivity|]. split; [reflexivity|]. split; [lia|]. split; [assumption|]. intros tk.
    pose proof (rat_le u tick ltac:(lia) ltac:(lia) ltac:(lia)). unfold worth. replace (clampP l u price) with (rat u) by (unfold clampP; lia). unfold tok. destruct tk.
    + rewrite <- (K0 (curve true (rat u))) by reflexivity. change [0]q with 0%Q. split; lra.
    + unfold floor1, Q96 in Hy. split; [apply curve1_diff'|apply curve1_lt']; lia.
Qed.

(** ** growth inside a range when liquidity changes *)
Lemma minted_present h p l u : poolOK h p -> 0 < minted h l u -> present (Data p) l /\ present (Data p) u.
Proof.
  intros (HH & (_ & _ & L) & _) H. destruct HH as (Cov & _). unfold present. pose proof (minted_gross_l h l u Cov). pose proof (minted_gross_u h l u Cov).
  pose proof (L l) as Ll. pose proof (L u) as Lu. unfold tickOK in *.
  split; [destruct (lookup (ticks (Data p)) l); [discriminate|lia]|destruct (lookup (ticks (Data p)) u); [discriminate|lia]].
Qed.

Definition sameOut (d d' : TickData) (j : Z) : Prop := present d j /\ present d' j /\ out0 d j = out0 d' j /\ out1 d j = out1 d' j.

Lemma inside_same d d' a b cur g0 g1 : sortedT d -> sortedT d' -> sameOut d d' a -> sameOut d d' b ->
  GetFeeGrowthInside d' a b cur g0 g1 = GetFeeGrowthInside d a b cur g0 g1.
Proof.
  intros S S' (A1 & A2 & A3 & A4) (B1 & B2 & B3 & B4). rewrite !GetFeeGrowthInside_spec by assumption. unfold gb0, gb1. now rewrite A3, A4, B3, B4.
Qed.

Lemma upd2_out d l u cur amt g0 g1 d2 cl cu j : sortedT d -> l < u -> upd2 d l u cur amt g0 g1 = Ok (d2, cl, cu) ->
  sortedT d2 /\ present d2 l /\ present d2 u /\ (present d j -> sameOut d d2 j).
Proof.
  intros S Hlu E. destruct (upd2_spec d l u cur amt g0 g1 S Hlu) as (d' & E' & S' & _ & L). rewrite E' in E. injection E as -> _ _.
  split; [assumption|]. unfold present. rewrite !L, !Z.eqb_refl. split; [discriminate|]. split; [destruct (u =? l); discriminate|]. intros P.
  unfold sameOut, present, out0, out1. rewrite L. destruct (j =? l) eqn:C1; [|destruct (j =? u) eqn:C2].
  - assert (j = l) as -> by lia. destruct (lookup (ticks d) l); [|congruence]. repeat split; discriminate.
  - assert (j = u) as -> by lia. destruct (lookup (ticks d) u); [|congruence]. repeat split; discriminate.
  - repeat split; assumption.
Qed.
Lemma clear2_out d l u cl cu d3 j : sortedT d -> clear2 d l u cl cu = Ok d3 -> sortedT d3 /\ (present d3 j -> sameOut d d3 j).
Proof.
  intros S E. destruct (clear2_spec d l u cl cu S) as (d' & E' & S' & _ & L). rewrite E' in E. injection E as ->. split; [assumption|].
  unfold sameOut, present, out0, out1. rewrite L. destruct (_ || _); [congruence|]. auto.
Qed.
Lemma sameOut_trans a b c j : sameOut a b j -> sameOut b c j -> sameOut a c j.
Proof. unfold sameOut. intuition congruence. Qed.

(** ranges that hold liquidity before and after keep their growth *)
Definition keeps (h h' : hist) (p p' : Pool) : Prop :=
  forall tk l u, 0 < minted h l u -> 0 < minted h' l u -> insideGrowth tk p' l u = insideGrowth tk p l u.

Lemma keeps_table h h' p p' : poolOK h p -> poolOK h' p' -> TickCurrent p' = TickCurrent p -> FeeGrowth0 p' = FeeGrowth0 p -> FeeGrowth1 p' = FeeGrowth1 p ->
  (forall j, present (Data p) j -> present (Data p') j -> sameOut (Data p) (Data p') j) -> keeps h h' p p'.
Proof.
  intros HP HP' E1 E2 E3 K tk l u H H'. destruct (minted_present h p l u HP H) as [P1 P2]. destruct (minted_present h' p' l u HP' H') as [P1' P2'].
  unfold insideGrowth. rewrite E1, E2, E3. rewrite (inside_same (Data p) (Data p')); auto; [apply HP|apply HP'].
Qed.

Lemma modifyPosition_keeps h p l u dlt p' : poolOK h p -> poolOK (mkE l u dlt :: h) p' -> modifyPosition p l u (dlt mod T256) = Ok p' ->
  keeps h (mkE l u dlt :: h) p p'.
Proof.
  intros HP HP' E. unfold modifyPosition in E. apply bind_inv in E as ([] & Ec & E). apply checkTicks_inv in Ec as (Hlu & _).
  assert (exists d2 cl cu, upd2 (Data p) l u (TickCurrent p) (dlt mod T256) (FeeGrowth0 p) (FeeGrowth1 p) = Ok (d2, cl, cu) /\ clear2 d2 l u cl cu = Ok (Data p') /\
    TickCurrent p' = TickCurrent p /\ FeeGrowth0 p' = FeeGrowth0 p /\ FeeGrowth1 p' = FeeGrowth1 p) as (d2 & cl & cu & U & C & E1 & E2 & E3).
  { apply bind_inv in E as ((d1 & cl) & U1 & E). apply bind_inv in E as ((d2 & cu) & U2 & E). apply bind_inv in E as (d3 & C1 & E). apply bind_inv in E as (d4 & C2 & E). cbv zeta in E.
    exists d2, cl, cu. unfold upd2, clear2. rewrite U1. cbn [bind]. rewrite U2. cbn [bind]. rewrite C1. cbn [bind]. rewrite C2.
    split; [reflexivity|]. destruct (_ && _) in E; injection E as <-; cbn; auto. }
  pose proof (proj1 (proj1 (proj2 HP))) as S.
  apply keeps_table; try assumption. intros j P P'. destruct (upd2_out _ _ _ _ _ _ _ _ _ _ j S Hlu U) as (S2 & _ & _ & K1). destruct (clear2_out _ _ _ _ _ _ j S2 C) as [_ K2].
  exact (sameOut_trans _ _ _ _ (K1 P) (K2 P')).
Qed.

Definition infoAt (p : Pool) (l u : Z) : Info := match posGet (Pos p) (posKey l u) with Some i => i | None => NewPosition end.

Lemma updatePosition_facts h p l u dlt p' pos : poolOK h p -> histOK (TickSpacing p) (mkE l u dlt :: h) -> is_u256 (pLiquidity (infoAt p l u)) ->
  updatePosition p l u (dlt mod T256) = Ok (p', pos) ->
  let h' := mkE l u dlt :: h in
  exists in0 in1, 
    pos = mkInfo ((pLiquidity (infoAt p l u) + dlt) mod T256) in0 in1
            ((pOwed0 (infoAt p l u) + creditOf (pLiquidity (infoAt p l u)) in0 (pLast0 (infoAt p l u))) mod T256)
            ((pOwed1 (infoAt p l u) + creditOf (pLiquidity (infoAt p l u)) in1 (pLast1 (infoAt p l u))) mod T256) /\
    Pos p' = posPut (Pos p) (posKey l u) pos /\
    (0 < minted h l u -> forall tk, tok tk in0 in1 = insideGrowth tk p l u) /\
    (0 < minted h' l u -> forall tk, tok tk in0 in1 = insideGrowth tk p' l u) /\
    keeps h h' p p' /\ is_u256 in0 /\ is_u256 in1.
Proof.
  intros HP HH' HI E. cbv zeta. destruct (updatePosition_ok h p l u dlt p' pos HP HH' E) as (HT' & HS & HL'). cbv zeta in HT'.
  pose proof HS as (_ & _ & _ & _ & E2 & E3 & E0 & E1). pose proof (change_range h p l u dlt HH') as (Hlu & _).
  pose proof (proj1 (proj1 (proj2 HP))) as S. pose proof (proj1 HT') as S'.
  assert (exists d2, sortedT d2 /\ present d2 l /\ present d2 u /\ (forall j, present (Data p) j -> sameOut (Data p) d2 j) /\ (forall j, present (Data p') j -> sameOut d2 (Data p') j) /\
    exists in0 in1, GetFeeGrowthInside d2 l u (TickCurrent p) (FeeGrowth0 p) (FeeGrowth1 p) = Ok (in0, in1) /\ InfoUpdate (infoAt p l u) (dlt mod T256) in0 in1 = Ok pos /\ Pos p' = posPut (Pos p) (posKey l u) pos)
    as (d2 & S2 & Pl & Pu & K1 & K2 & in0 & in1 & G & EI & EP).
  { unfold updatePosition in E. destruct (dlt mod T256 =? 0) eqn:C0; cbn [negb] in E.
    - cbn [bind] in E. apply bind_inv in E as ((in0 & in1) & Ein & E). cbv zeta in E. apply bind_inv in E as (pos' & Epos & E).
      destruct (inside_present _ _ _ _ _ _ _ S Ein) as [Pl Pu].
      assert (Data p' = Data p /\ pos = pos' /\ Pos p' = posPut (Pos p) (posKey l u) pos') as (Q1 & -> & Q2).
      { destruct (usign (dlt mod T256) =? -1); cbn [bind] in E; injection E as <- <-; auto. }
      exists (Data p). rewrite Q1. split; [assumption|]. split; [assumption|]. split; [assumption|].
      split; [intros j Pj; unfold sameOut; auto|]. split; [intros j Pj; unfold sameOut; auto|]. exists in0, in1. auto.
    - match type of E with bind ?x ?k = _ => change (bind (upd2 (Data p) l u (TickCurrent p) (dlt mod T256) (FeeGrowth0 p) (FeeGrowth1 p)) k = Ok (p', pos)) in E end.
      apply bind_inv in E as (((d2 & cl) & cu) & U & E). apply bind_inv in E as ((in0 & in1) & Ein & E). cbv zeta in E. apply bind_inv in E as (pos' & Epos & E). apply bind_inv in E as (d3 & C & E). injection E as <- <-.
      destruct (upd2_out _ _ _ _ _ _ _ _ _ _ 0 S Hlu U) as (S2 & Pl & Pu & _). exists d2. split; [assumption|]. split; [assumption|]. split; [assumption|].
      split; [intros j Pj; now apply (upd2_out _ _ _ _ _ _ _ _ _ _ j S Hlu U)|]. split.
      + cbn [with_pos with_data Data]. intros j Pj. destruct (usign (dlt mod T256) =? -1).
        * now apply (clear2_out d2 l u cl cu d3 j S2 C).
        * injection C as <-. unfold sameOut. auto.
      + exists in0, in1. auto. }
  assert (forall tk q d, insideGrowth tk q l u = match GetFeeGrowthInside d l u (TickCurrent p) (FeeGrowth0 p) (FeeGrowth1 p) with Ok (x, y) => if tk then x else y | _ => 0 end -> 
    GetFeeGrowthInside d l u (TickCurrent p) (FeeGrowth0 p) (FeeGrowth1 p) = Ok (in0, in1) -> tok tk in0 in1 = insideGrowth tk q l u) as KI.
  { intros tk q d Q1 Q2. rewrite Q1, Q2. reflexivity. }
  assert (poolOK h p /\ True) as _ by auto.
  exists in0, in1. split.
  { apply update_value in EI; [|assumption]. rewrite EI. f_equal. apply Zplus_mod_idemp_r. }
  split; [assumption|]. split.
  { intros H tk. destruct (minted_present h p l u HP H) as [P1 P2]. apply (KI tk p (Data p)); [reflexivity|]. rewrite <- G. symmetry. apply inside_same; auto. }
  assert (forall j, 0 < gross (mkE l u dlt :: h) j -> present (Data p') j) as PR.
  { intros j Hj. destruct HT' as (_ & _ & L). specialize (L j). unfold tickOK, present in *. destruct (lookup (ticks (Data p')) j); [discriminate|lia]. }
  pose proof (proj1 HH') as Cov'. split.
  { intros H tk. pose proof (minted_gross_l _ l u Cov'). pose proof (minted_gross_u _ l u Cov').
    apply (KI tk p' (Data p')); [unfold insideGrowth; now rewrite E1, E2, E3|]. rewrite <- G. apply inside_same; auto; [apply K2, PR; lia|apply K2, PR; lia]. }
  split.
  { intros tk l2 u2 H H'. destruct (minted_present h p l2 u2 HP H) as [P1 P2]. pose proof (minted_gross_l _ l2 u2 Cov'). pose proof (minted_gross_u _ l2 u2 Cov').
    unfold insideGrowth. rewrite E1, E2, E3. rewrite (inside_same (Data p) (Data p')); auto.
    - eapply sameOut_trans; [now apply K1|]. apply K2, PR. lia.
    - eapply sameOut_trans; [now apply K1|]. apply K2, PR. lia. }
  rewrite GetFeeGrowthInside_spec in G by assumption. injection G as <- <-. unfold is_u256. split; apply Z.mod_pos_bound; lia.
Qed.

(** ** the position table *)
Definition owedIn (tk : bool) (i : Info) : Z := if tk then pOwed0 i else pOwed1 i.
Definition lastIn (tk : bool) (i : Info) : Z := if tk then pLast0 i else pLast1 i.
(** everything the table owes *)
Fixpoint owedSum (tk : bool) (m : Positions) : Z :=
  match m with [] => 0 | (_, i) :: m => owedIn tk i + owedSum tk m end.
Definition infoOK (i : Info) : Prop := is_u256 (pLiquidity i) /\ is_u256 (pOwed0 i) /\ is_u256 (pOwed1 i).
Definition posOK (m : Positions) : Prop := Forall (fun kv => infoOK (snd kv)) m.

Lemma owedSum_put tk k v m : owedSum tk (posPut m k v) = owedSum tk m - match posGet m k with Some i => owedIn tk i | None => 0 end + owedIn tk v.
Proof.
  induction m as [|[k' i] m IH]; cbn [posPut posGet owedSum]; [lia|]. destruct (keyEq k' k); cbn [owedSum]; [lia|]. rewrite IH. lia.
Qed.
Lemma owedSum_nonneg tk m : posOK m -> 0 <= owedSum tk m.
Proof.
  induction 1 as [|[k i] m (_ & H0 & H1) _ IH]; cbn [owedSum]; [lia|]. unfold is_u256 in *. cbn [snd] in *. destruct tk; cbn [owedIn]; lia.
Qed.
Lemma posOK_get m k i : posOK m -> posGet m k = Some i -> infoOK i.
Proof.
  induction 1 as [|[k' i'] m H _ IH]; cbn [posGet]; [discriminate|]. destruct (keyEq k' k); [intros E; injection E as <-; exact H|exact IH].
Qed.
Lemma posOK_put m k v : posOK m -> infoOK v -> posOK (posPut m k v).
Proof.
  intros H Hv. induction H as [|[k' i'] m H HF IH]; cbn [posPut]; [constructor; [exact Hv|constructor]|]. destruct (keyEq k' k); constructor; assumption.
Qed.
Lemma infoAt_ok p l u : posOK (Pos p) -> infoOK (infoAt p l u).
Proof.
  intros H. unfold infoAt. destruct (posGet (Pos p) (posKey l u)) eqn:E; [eapply posOK_get; eassumption|]. unfold infoOK, is_u256. cbn. lia.
Qed.
Lemma owedSum_infoAt tk p l u v : owedSum tk (posPut (Pos p) (posKey l u) v) = owedSum tk (Pos p) - owedIn tk (infoAt p l u) + owedIn tk v.
Proof. rewrite owedSum_put. unfold infoAt. destruct (posGet (Pos p) (posKey l u)); [reflexivity|]. destruct tk; reflexivity. Qed.

(** ** sums over ranges *)
Definition eqRange (l u : Z) (r : Z * Z) : bool := (fst r =? l) && (snd r =? u).

Lemma sumRanges_drop w l u rs : w l u = 0 -> sumRanges w rs = sumRanges w (filter (fun r => negb (eqRange l u r)) rs).
Proof.
  intros H. induction rs as [|[a b] rs IH]; [reflexivity|]. cbn [sumRanges filter]. destruct (eqRange l u (a, b)) eqn:C; cbn [negb sumRanges]; rewrite IH.
  - unfold eqRange in C. cbn [fst snd] in C. replace a with l by lia. replace b with u by lia. rewrite H. reflexivity.
  - reflexivity.
Qed.
Lemma NoDup_drop l u rs : NoDup rs -> NoDup ((l, u) :: filter (fun r => negb (eqRange l u r)) rs).
Proof.
  intros H. constructor; [|now apply NoDup_filter]. intros K. apply filter_In in K as [_ K]. unfold eqRange in K. cbn [fst snd] in K. lia.
Qed.
Lemma sumRanges_nonneg w rs : (forall l u, 0 <= w l u) -> 0 <= sumRanges w rs.
Proof. intros H. induction rs as [|[a b] rs IH]; cbn [sumRanges]; [lia|]. specialize (H a b). lia. Qed.
Lemma sumRanges_add w w' rs : sumRanges (fun l u => w l u + w' l u) rs = sumRanges w rs + sumRanges w' rs.
Proof. induction rs as [|[a b] rs IH]; cbn [sumRanges]; [lia|]. rewrite IH. lia. Qed.

(** ** what the pool owes: the worth of the ledger, the recorded debts, the fees not yet recorded *)
Definition pending (tk : bool) (hs : hist) (p : Pool) (l u : Z) : Z :=
  minted hs l u * ((insideGrowth tk p l u - lastIn tk (infoAt p l u)) mod T256).
(** no other range that still holds strategy liquidity has the same table key *)
Definition ownKey (hs : hist) (l u : Z) : Prop :=
  forall l' u', 0 < minted hs l' u' -> posKey l' u' = posKey l u -> l' = l /\ u' = u.

Record cashOK (h hs : hist) (p : Pool) (r0 r1 : Z) : Prop := {
  ck_pool : poolOK h p;
  ck_cov : covered hs;
  ck_sub : forall l u, minted hs l u <= minted h l u;
  ck_liq : forall l u, 0 < minted hs l u -> pLiquidity (infoAt p l u) = minted hs l u;
  ck_key : forall l u, 0 < minted hs l u -> ownKey hs l u;
  ck_own : forall k i, posGet (Pos p) k = Some i -> pLiquidity i <> 0 -> exists l u, posKey l u = k /\ 0 < minted hs l u;
  ck_info : posOK (Pos p);
  ck_cash : forall tk rs, NoDup rs ->
    ((worthAll tk h (SqrtRatio p) + [owedSum tk (Pos p)]q) * [2 ^ 128]q + [sumRanges (pending tk hs p) rs]q <= [tok tk r0 r1]q * [2 ^ 128]q)%Q
}.

Lemma pending_nonneg tk hs p l u : covered hs -> 0 <= pending tk hs p l u.
Proof. intros H. apply Z.mul_nonneg_nonneg; [apply H|]. apply Z.mod_pos_bound. lia. Qed.
Lemma q128_pos : (0 < [2 ^ 128]q)%Q.
Proof. apply injZ_pos. lia. Qed.

Lemma own_liq h hs p r0 r1 l u : cashOK h hs p r0 r1 -> ownKey hs l u -> pLiquidity (infoAt p l u) = minted hs l u.
Proof.
  intros C F. pose proof (ck_cov _ _ _ _ _ C l u) as M. destruct (Z.eq_dec (minted hs l u) 0) as [Z0|N]; [|apply (ck_liq _ _ _ _ _ C); lia].
  unfold infoAt. destruct (posGet (Pos p) (posKey l u)) as [i|] eqn:E; [|cbn; lia]. destruct (Z.eq_dec (pLiquidity i) 0) as [Zi|Ni]; [lia|].
  destruct (ck_own _ _ _ _ _ C _ _ E Ni) as (l' & u' & K & M'). destruct (F l' u' M' K) as [-> ->]. lia.
Qed.

(** the price moved and fees were credited, positions untouched *)
Lemma grow_cash h hs p r0 r1 p' r0' r1' (c : bool -> Z -> Z -> Z) : cashOK h hs p r0 r1 -> poolOK h p' -> Pos p' = Pos p ->
  (forall tk l u, 0 <= c tk l u) ->
  (forall tk l u, 0 < minted h l u -> insideGrowth tk p' l u = (insideGrowth tk p l u + c tk l u) mod T256) ->
  (forall tk, exists fee, sumOn (c tk) h <= fee * 2 ^ 128 /\ (worthAll tk h (SqrtRatio p') + [fee]q + [tok tk r0 r1]q <= worthAll tk h (SqrtRatio p) + [tok tk r0' r1']q)%Q) ->
  cashOK h hs p' r0' r1'.
Proof.
  intros C HP' EP Hc HG HW. destruct C as [C1 C2 C3 C4 C5 C6 C7 C8]. assert (forall l u, infoAt p' l u = infoAt p l u) as EI by (intros; unfold infoAt; now rewrite EP).
  constructor; try assumption.
  - intros l u H. rewrite EI. auto.
  - now rewrite EP.
  - now rewrite EP.
  - intros tk rs ND. specialize (C8 tk rs ND). destruct (HW tk) as (fee & F1 & F2). rewrite EP.
    assert (sumRanges (pending tk hs p') rs <= sumRanges (pending tk hs p) rs + fee * 2 ^ 128) as K.
    { eapply Z.le_trans; [|apply Z.add_le_mono_l, F1]. pose proof (sumRanges_hist (c tk) rs (Hc tk) ND h (proj1 (proj1 C1))) as SH.
      eapply Z.le_trans; [|apply Z.add_le_mono_l, SH]. rewrite <- sumRanges_add. apply sumRanges_le. intros l u _. unfold pending. rewrite EI.
      pose proof (C2 l u) as M0. pose proof (C3 l u) as M1. specialize (Hc tk l u). destruct (Z.eq_dec (minted hs l u) 0) as [Z0|N].
      - rewrite Z0. assert (0 <= minted h l u * c tk l u) by (apply Z.mul_nonneg_nonneg; lia). lia.
      - rewrite HG by lia. rewrite Zminus_mod_idemp_l.
        assert (forall x c, 0 <= c -> (x + c) mod T256 <= x mod T256 + c) as KM.
        { intros x c' Hc'. rewrite <- Zplus_mod_idemp_l. apply Z.mod_le; [|lia]. pose proof (Z.mod_pos_bound x T256 ltac:(lia)). lia. }
        replace (insideGrowth tk p l u + c tk l u - lastIn tk (infoAt p l u)) with (insideGrowth tk p l u - lastIn tk (infoAt p l u) + c tk l u) by ring.
        pose proof (KM (insideGrowth tk p l u - lastIn tk (infoAt p l u)) (c tk l u) Hc) as KK.
        apply Z.le_trans with (minted hs l u * ((insideGrowth tk p l u - lastIn tk (infoAt p l u)) mod T256 + c tk l u)).
        + apply Z.mul_le_mono_nonneg_l; lia.
        + rewrite Z.mul_add_distr_l. apply Z.add_le_mono_l. apply Z.mul_le_mono_nonneg_r; lia. }
    apply injZ_le in K. rewrite injZ_add, injZ_mul in K. pose proof q128_pos as QP.
    assert ((worthAll tk h (SqrtRatio p') + [fee]q + [tok tk r0 r1]q) * [2 ^ 128]q <= (worthAll tk h (SqrtRatio p) + [tok tk r0' r1']q) * [2 ^ 128]q)%Q as F3 by (apply Qmult_le_compat_r; lra).
    lra.
Qed.

(** liquidity was added or removed outside the position table *)
Lemma hist_cash h hs p r0 r1 p' r0' r1' l u dlt : cashOK h hs p r0 r1 -> poolOK (mkE l u dlt :: h) p' -> Pos p' = Pos p -> SqrtRatio p' = SqrtRatio p ->
  keeps h (mkE l u dlt :: h) p p' -> minted hs l u <= minted h l u + dlt ->
  (forall tk, [dlt]q * worth tk (SqrtRatio p) l u + [tok tk r0 r1]q <= [tok tk r0' r1']q)%Q ->
  cashOK (mkE l u dlt :: h) hs p' r0' r1'.
Proof.
  intros C HP' EP ES HK HM HW. destruct C as [C1 C2 C3 C4 C5 C6 C7 C8]. assert (forall l u, infoAt p' l u = infoAt p l u) as EI by (intros; unfold infoAt; now rewrite EP).
  assert (forall l' u', minted hs l' u' <= minted (mkE l u dlt :: h) l' u') as HM'.
  { intros l' u'. rewrite minted_cons. specialize (C3 l' u'). destruct ((l =? l') && (u =? u')) eqn:E; [|lia]. replace l' with l by lia. replace u' with u by lia. lia. }
  constructor; try assumption.
  - intros l' u' H. rewrite EI. auto.
  - now rewrite EP.
  - now rewrite EP.
  - intros tk rs ND. specialize (C8 tk rs ND). rewrite EP, ES.
    assert (sumRanges (pending tk hs p') rs <= sumRanges (pending tk hs p) rs) as K.
    { apply sumRanges_le. intros l' u' _. unfold pending. rewrite EI. pose proof (C2 l' u') as M0. destruct (Z.eq_dec (minted hs l' u') 0) as [->|N]; [lia|].
      rewrite (HK tk l' u'); [lia|specialize (C3 l' u'); lia|specialize (HM' l' u'); lia]. }
    apply injZ_le in K. pose proof q128_pos as QP. specialize (HW tk). unfold worthAll in *. cbn [sumQ eLower eUpper eDelta].
    assert (([dlt]q * worth tk (SqrtRatio p) l u + [tok tk r0 r1]q) * [2 ^ 128]q <= [tok tk r0' r1']q * [2 ^ 128]q)%Q as F3 by (apply Qmult_le_compat_r; lra).
    lra.
Qed.

(** liquidity was added or removed through the position table *)
Lemma change_cash h hs p r0 r1 p' r0' r1' l u dlt v Y0 Y1 : cashOK h hs p r0 r1 -> ownKey hs l u -> poolOK (mkE l u dlt :: h) p' -> SqrtRatio p' = SqrtRatio p ->
  (forall k, posGet (Pos p') k = if keyEq (posKey l u) k then Some v else posGet (Pos p) k) ->
  (forall tk, owedSum tk (Pos p') = owedSum tk (Pos p) - owedIn tk (infoAt p l u) + owedIn tk v) -> posOK (Pos p') ->
  0 <= minted hs l u + dlt -> pLiquidity v = minted hs l u + dlt ->
  keeps h (mkE l u dlt :: h) p p' ->
  (0 < minted h l u -> forall tk, lastIn tk v = insideGrowth tk p l u) ->
  (0 < minted (mkE l u dlt :: h) l u -> forall tk, lastIn tk v = insideGrowth tk p' l u) ->
  (forall tk, owedIn tk v <= owedIn tk (infoAt p l u) + creditOf (minted hs l u) (lastIn tk v) (lastIn tk (infoAt p l u)) + tok tk Y0 Y1) ->
  (forall tk, [dlt]q * worth tk (SqrtRatio p) l u + [tok tk Y0 Y1]q + [tok tk r0 r1]q <= [tok tk r0' r1']q)%Q ->
  cashOK (mkE l u dlt :: h) (mkE l u dlt :: hs) p' r0' r1'.
Proof.
  intros C F HP' ES HG HO HI HM HL HK In1 In2 HV HW. pose proof (own_liq _ _ _ _ _ l u C F) as OL. destruct C as [C1 C2 C3 C4 C5 C6 C7 C8].
  assert (infoAt p' l u = v) as Ev by (unfold infoAt; now rewrite HG, keyEq_refl).
  assert (forall l' u', posKey l' u' <> posKey l u -> infoAt p' l' u' = infoAt p l' u') as Eo.
  { intros l' u' N. unfold infoAt. rewrite HG. destruct (keyEq (posKey l u) (posKey l' u')) eqn:K; [apply keyEq_true in K; congruence|reflexivity]. }
  assert (forall l' u', minted (mkE l u dlt :: hs) l' u' = if (l =? l') && (u =? u') then minted hs l u + dlt else minted hs l' u') as EM.
  { intros l' u'. rewrite minted_cons. destruct ((l =? l') && (u =? u')) eqn:E; [|lia]. replace l' with l by lia. replace u' with u by lia. reflexivity. }
  assert (forall l' u', 0 < minted (mkE l u dlt :: hs) l' u' -> (l' = l /\ u' = u) \/ (0 < minted hs l' u' /\ posKey l' u' <> posKey l u)) as Cases.
  { intros l' u' H. rewrite EM in H. destruct ((l =? l') && (u =? u')) eqn:E; [left; lia|]. right. split; [assumption|]. intros K. destruct (F l' u' H K) as [-> ->]. lia. }
  constructor; try assumption.
  - intros l' u'. rewrite EM. destruct (_ && _); [assumption|apply C2].
  - intros l' u'. rewrite EM, minted_cons. specialize (C3 l' u'). destruct ((l =? l') && (u =? u')) eqn:E; [|lia]. replace l' with l in * by lia. replace u' with u in * by lia. lia.
  - intros l' u' H. destruct (Cases l' u' H) as [[-> ->]|[H1 H2]].
    + rewrite Ev, EM, !Z.eqb_refl. exact HL.
    + rewrite Eo by assumption. rewrite EM in H |- *. destruct ((l =? l') && (u =? u')) eqn:E; [|auto]. exfalso. apply H2. f_equal; lia.
  - intros l' u' H l2 u2 H2 K. destruct (Cases l' u' H) as [[-> ->]|[H3 H4]]; destruct (Cases l2 u2 H2) as [[-> ->]|[H5 H6]].
    + auto.
    + congruence.
    + congruence.
    + apply (C5 l' u' H3 l2 u2 H5 K).
  - intros k i E N. rewrite HG in E. destruct (keyEq (posKey l u) k) eqn:K.
    + injection E as <-. apply keyEq_true in K. exists l, u. split; [assumption|]. rewrite EM, !Z.eqb_refl. cbn [andb]. lia.
    + destruct (C6 k i E N) as (l' & u' & K' & M'). exists l', u'. split; [assumption|]. rewrite EM. destruct ((l =? l') && (u =? u')) eqn:Q; [|assumption].
      exfalso. replace l' with l in K' by lia. replace u' with u in K' by lia. rewrite K', keyEq_refl in K. discriminate.
  - intros tk rs ND. set (rs1 := filter (fun r => negb (eqRange l u r)) rs). specialize (C8 tk ((l, u) :: rs1) (NoDup_drop l u rs ND)). rewrite ES, HO. cbn [sumRanges] in C8.
    assert (pending tk (mkE l u dlt :: hs) p' l u = 0) as P0.
    { unfold pending. rewrite EM, !Z.eqb_refl. cbn [andb]. destruct (Z.eq_dec (minted hs l u + dlt) 0) as [->|N]; [reflexivity|].
      rewrite Ev, <- (In2 ltac:(rewrite minted_cons, !Z.eqb_refl; cbn [andb]; specialize (C3 l u); lia) tk), Z.sub_diag. cbn. lia. }
    assert (sumRanges (pending tk (mkE l u dlt :: hs) p') rs <= sumRanges (pending tk hs p) rs1) as K1.
    { rewrite (sumRanges_drop _ l u rs P0). fold rs1. apply sumRanges_le. intros l' u' Hin. unfold rs1 in Hin. apply filter_In in Hin as [_ Hin]. unfold eqRange in Hin. cbn [fst snd] in Hin.
      unfold pending. rewrite EM. replace ((l =? l') && (u =? u')) with false by lia. pose proof (C2 l' u') as M0. destruct (Z.eq_dec (minted hs l' u') 0) as [->|N]; [lia|].
      assert (posKey l' u' <> posKey l u) as NK by (intros K; destruct (F l' u' ltac:(lia) K); lia). rewrite Eo by assumption.
      rewrite (HK tk l' u'); [lia|specialize (C3 l' u'); lia|]. rewrite minted_cons. replace ((l =? l') && (u =? u')) with false by lia. specialize (C3 l' u'). lia. }
    assert (creditOf (minted hs l u) (lastIn tk v) (lastIn tk (infoAt p l u)) * 2 ^ 128 <= pending tk hs p l u) as K2.
    { unfold creditOf, pending. pose proof (C2 l u) as M0. destruct (Z.eq_dec (minted hs l u) 0) as [->|N]; [cbn; lia|]. rewrite (In1 ltac:(specialize (C3 l u); lia) tk).
      rewrite Z.mul_comm. apply Z.mul_div_le. lia. }
    specialize (HV tk). apply injZ_le in HV, K1, K2. rewrite !injZ_add in HV. rewrite injZ_mul in K2. rewrite injZ_add in C8. rewrite injZ_add, injZ_sub.
    set (cr := creditOf (minted hs l u) (lastIn tk v) (lastIn tk (infoAt p l u))) in *. clearbody cr. pose proof q128_pos as QP. specialize (HW tk). unfold worthAll in *. cbn [sumQ eLower eUpper eDelta].
    assert (([dlt]q * worth tk (SqrtRatio p) l u + [tok tk Y0 Y1]q + [tok tk r0 r1]q) * [2 ^ 128]q <= [tok tk r0' r1']q * [2 ^ 128]q)%Q as F3 by (apply Qmult_le_compat_r; lra).
    assert ([owedIn tk v]q * [2 ^ 128]q <= ([owedIn tk (infoAt p l u)]q + [cr]q + [tok tk Y0 Y1]q) * [2 ^ 128]q)%Q as F4 by (apply Qmult_le_compat_r; lra).
    lra.
Qed.

(** ** the operations *)
Lemma credit_nonneg l a b : 0 <= l -> 0 <= creditOf l a b.
Proof. intros H. unfold creditOf. apply Z.div_pos; [|lia]. apply Z.mul_nonneg_nonneg; [assumption|]. apply Z.mod_pos_bound. lia. Qed.

Lemma modS_facts h p l u dlt q x0 x1 : poolOK h p -> histOK (TickSpacing p) (mkE l u dlt :: h) -> is_u256 (pLiquidity (infoAt p l u)) ->
  modifyPositionStrategy p l u (dlt mod T256) = Ok (q, x0, x1) ->
  let h' := mkE l u dlt :: h in
  exists in0 in1,
    Pos q = posPut (Pos p) (posKey l u) (mkInfo ((pLiquidity (infoAt p l u) + dlt) mod T256) in0 in1
            ((pOwed0 (infoAt p l u) + creditOf (pLiquidity (infoAt p l u)) in0 (pLast0 (infoAt p l u))) mod T256)
            ((pOwed1 (infoAt p l u) + creditOf (pLiquidity (infoAt p l u)) in1 (pLast1 (infoAt p l u))) mod T256)) /\
    (0 < minted h l u -> forall tk, tok tk in0 in1 = insideGrowth tk p l u) /\
    (0 < minted h' l u -> forall tk, tok tk in0 in1 = insideGrowth tk q l u) /\
    keeps h h' p q /\
    (if dlt mod T256 =? 0 then x0 = 0 /\ x1 = 0 else rangeAmounts (TickCurrent p) (SqrtRatio p) l u (dlt mod T256) = Ok (x0, x1)).
Proof.
  intros HP HH HI E. cbv zeta. destruct (dlt mod T256 =? 0) eqn:C0.
  - unfold modifyPositionStrategy in E. apply bind_inv in E as ([] & _ & E). apply bind_inv in E as ((q' & pos) & EU & E). rewrite C0 in E. injection E as -> <- <-.
    destruct (updatePosition_facts h p l u dlt q pos HP HH HI EU) as (in0 & in1 & F1 & F2 & F3 & F4 & F5 & _). subst pos. exists in0, in1. auto 10.
  - rewrite modifyPositionStrategy_eq in E by lia. apply bind_inv in E as ([] & _ & E). apply bind_inv in E as ((q' & pos) & EU & E). apply bind_inv in E as ((y0 & y1) & ER & E). cbn [fst snd] in E. injection E as E <- <-.
    destruct (updatePosition_facts h p l u dlt q' pos HP HH HI EU) as (in0 & in1 & F1 & F2 & F3 & F4 & F5 & _). subst pos. exists in0, in1.
    assert (Pos q = Pos q' /\ forall tk a b, insideGrowth tk q a b = insideGrowth tk q' a b) as [E1 E2] by (rewrite <- E; destruct (_ && _); split; reflexivity).
    rewrite E1. split; [assumption|]. split; [assumption|]. split; [intros H tk; rewrite E2; auto|]. split; [|assumption]. intros tk a b H H'. rewrite E2. auto.
Qed.

Lemma mod_le_self a : 0 <= a -> a mod T256 <= a.
Proof. intros H. apply Z.mod_le; lia. Qed.
Lemma u256_mod a : is_u256 (a mod T256).
Proof. apply Z.mod_pos_bound. lia. Qed.

Lemma mintS_cash h hs p r0 r1 l u a p' x0 x1 : cashOK h hs p r0 r1 -> allowed h p (OMintStrategy l u a) -> ownKey hs l u ->
  MintStrategy p l u a = Ok (p', x0, x1) -> cashOK (mkE l u a :: h) (mkE l u a :: hs) p' (r0 + x0) (r1 + x1).
Proof.
  intros C HA F E. pose proof (ck_pool _ _ _ _ _ C) as HP. destruct (mintS_ok h p l u a p' x0 x1 HP HA E) as [HP' HS].
  destruct HA as (Ha & Hl & Hu & Ht). unfold MintStrategy in E. apply bind_inv in E as ([] & E0 & E). apply invariant_inv in E0.
  assert (checkTicks l u = Ok tt) as Hc by (unfold modifyPositionStrategy in E; apply bind_inv in E as ([] & E1 & _); assumption).
  destruct (mint_hist h p l u a HP Ha Hl Hu Ht E0 Hc) as (HH & Em & Hpos). apply checkTicks_inv in Hc as (Hlu & Hl' & Hu'). rewrite <- Em in E.
  pose proof (own_liq _ _ _ _ _ l u C F) as OL. pose proof (infoAt_ok p l u (ck_info _ _ _ _ _ C)) as (I1 & I2 & I3).
  destruct (modS_facts h p l u a p' x0 x1 HP HH I1 E) as (in0 & in1 & F1 & F2 & F3 & F4 & F5). rewrite Em in F5. replace (a =? 0) with false in F5 by lia. rewrite OL in F1.
  pose proof (ck_cov _ _ _ _ _ C l u) as M0. pose proof (ck_sub _ _ _ _ _ C l u) as M1. pose proof HH as (Cov' & _ & T').
  pose proof (minted_total _ l u Cov') as M2. rewrite minted_cons, !Z.eqb_refl in M2. cbn [andb] in M2.
  pose proof (credit_nonneg (minted hs l u) in0 (pLast0 (infoAt p l u)) M0) as CN0. pose proof (credit_nonneg (minted hs l u) in1 (pLast1 (infoAt p l u)) M0) as CN1. unfold is_u256 in I2, I3.
  assert (a < 2 ^ 128) as Ha2 by lia.
  pose proof HP as (_ & _ & _ & _ & _ & HPr & _).
  pose proof (amounts_worth_up _ _ l u a x0 x1 HPr Hlu Hl' Hu' ltac:(unfold liqR; lia) Hpos F5) as HW.
  assert (forall tk, ([a]q * worth tk (SqrtRatio p) l u <= [tok tk x0 x1]q)%Q) as HW1 by (intros tk; apply HW).
  eapply (change_cash h hs p r0 r1 p' (r0 + x0) (r1 + x1) l u a _ 0 0 C F HP').
  - apply HS.
  - intros k. rewrite F1, posGet_put. reflexivity.
  - intros tk. rewrite F1. apply owedSum_infoAt.
  - rewrite F1. apply posOK_put; [apply (ck_info _ _ _ _ _ C)|]. unfold infoOK. cbn. repeat split; try apply Z.mod_pos_bound; lia.
  - lia.
  - cbn [pLiquidity]. apply Z.mod_small. lia.
  - assumption.
  - intros H tk. rewrite <- (F2 H tk). destruct tk; reflexivity.
  - intros H tk. rewrite <- (F3 H tk). destruct tk; reflexivity.
  - intros tk. destruct tk; cbn [owedIn lastIn tok pOwed0 pOwed1 pLast0 pLast1]; rewrite Z.add_0_r; apply mod_le_self; lia.
  - intros tk. specialize (HW1 tk). destruct tk; unfold tok in *; rewrite injZ_add; change [0]q with 0%Q; lra.
Qed.

Lemma burnS_cash h hs p r0 r1 l u a p' x0 x1 : cashOK h hs p r0 r1 -> 0 <= a <= minted hs l u -> 0 < minted hs l u ->
  BurnStrategy p l u a = Ok (p', x0, x1) -> cashOK (mkE l u (- a) :: h) (mkE l u (- a) :: hs) p' r0 r1.
Proof.
  intros C Ha Hm E. pose proof (ck_pool _ _ _ _ _ C) as HP. pose proof (ck_sub _ _ _ _ _ C l u) as M1. pose proof (ck_key _ _ _ _ _ C l u Hm) as F.
  destruct (burnS_ok h p l u a p' x0 x1 HP ltac:(split; lia) E) as [HP' HS]. pose proof (burn_hist h p l u a HP ltac:(lia) ltac:(lia)) as HH.
  pose proof (change_range h p l u (- a) HH) as (Hlu & Hl' & Hu' & _).
  unfold BurnStrategy in E. rewrite uneg_delta in E. apply bind_inv in E as (((q & b0) & b1) & E0 & E). cbv zeta in E.
  pose proof (own_liq _ _ _ _ _ l u C F) as OL. pose proof (infoAt_ok p l u (ck_info _ _ _ _ _ C)) as (I1 & I2 & I3).
  destruct (modS_facts h p l u (- a) q b0 b1 HP HH I1 E0) as (in0 & in1 & F1 & F2 & F3 & F4 & F5). rewrite OL in F1.
  pose proof HP as (HHp & _ & _ & _ & _ & HPr & _). pose proof (minted_total _ l u (proj1 HHp)) as M2. pose proof HHp as (_ & _ & T2).
  assert (exists y0 y1, b0 = uneg y0 /\ b1 = uneg y1 /\ 0 <= y0 < T256 /\ 0 <= y1 < T256 /\ forall tk, ([tok tk y0 y1]q <= [a]q * worth tk (SqrtRatio p) l u)%Q) as (y0 & y1 & -> & -> & Y0 & Y1 & HW).
  { destruct (Z.eq_dec a 0) as [->|N].
    - change ((- 0) mod T256 =? 0) with true in F5. destruct F5 as [-> ->]. exists 0, 0. split; [reflexivity|]. split; [reflexivity|]. split; [lia|]. split; [lia|]. intros tk.
      pose proof (worth_nonneg tk (SqrtRatio p) l u Hl' Hlu Hu'). destruct tk; unfold tok; change [0]q with 0%Q; lra.
    - replace ((- a) mod T256 =? 0) with false in F5 by (rewrite <- uneg_delta, uneg_small by lia; lia). rewrite <- uneg_delta in F5.
      destruct (amounts_worth_down _ _ l u a b0 b1 HPr Hlu Hl' Hu' ltac:(unfold liqR; lia) ltac:(lia) F5) as (y0 & y1 & Q1 & Q2 & Q3 & Q4 & Q5).
      exists y0, y1. split; [assumption|]. split; [assumption|]. split; [assumption|]. split; [assumption|]. intros tk. apply Q5. }
  rewrite F1, posGet_put, keyEq_refl in E. cbn [pLiquidity pLast0 pLast1 pOwed0 pOwed1] in E. rewrite !uneg_uneg in E by lia. injection E as <- <- <-.
  set (A0 := pOwed0 (infoAt p l u) + creditOf (minted hs l u) in0 (pLast0 (infoAt p l u))) in *. set (A1 := pOwed1 (infoAt p l u) + creditOf (minted hs l u) in1 (pLast1 (infoAt p l u))) in *.
  pose proof (credit_nonneg (minted hs l u) in0 (pLast0 (infoAt p l u)) ltac:(lia)) as CN0. pose proof (credit_nonneg (minted hs l u) in1 (pLast1 (infoAt p l u)) ltac:(lia)) as CN1. unfold is_u256 in I2, I3.
  eapply (change_cash h hs p r0 r1 _ r0 r1 l u (- a) _ y0 y1 C F HP').
  - apply HS.
  - intros k. cbn [with_pos Pos]. rewrite !posGet_put. destruct (keyEq (posKey l u) k) eqn:K; reflexivity.
  - intros tk. cbn [with_pos Pos]. rewrite (owedSum_put _ _ _ (posPut _ _ _)), posGet_put, keyEq_refl, owedSum_infoAt. ring.
  - cbn [with_pos Pos]. apply posOK_put; [apply posOK_put; [apply (ck_info _ _ _ _ _ C)|]|].
    + unfold infoOK. cbn. repeat split; try apply Z.mod_pos_bound; lia.
    + unfold infoOK, uadd. cbn. repeat split; try apply Z.mod_pos_bound; lia.
  - lia.
  - cbn [pLiquidity]. apply Z.mod_small. lia.
  - exact F4.
  - intros H tk. rewrite <- (F2 H tk). destruct tk; reflexivity.
  - intros H tk. change (insideGrowth tk (with_pos q _) l u) with (insideGrowth tk q l u). rewrite <- (F3 H tk). destruct tk; reflexivity.
  - intros tk. destruct tk; cbn [owedIn lastIn tok pOwed0 pOwed1 pLast0 pLast1]; unfold uadd.
    + fold A0. pose proof (mod_le_self A0 ltac:(lia)). pose proof (Z.mod_pos_bound A0 T256 ltac:(lia)). pose proof (mod_le_self (A0 mod T256 + y0) ltac:(lia)). lia.
    + fold A1. pose proof (mod_le_self A1 ltac:(lia)). pose proof (Z.mod_pos_bound A1 T256 ltac:(lia)). pose proof (mod_le_self (A1 mod T256 + y1) ltac:(lia)). lia.
  - intros tk. specialize (HW tk). rewrite injZ_opp. lra.
Qed.

Lemma collect_cash h hs p r0 r1 l u p' x0 x1 : cashOK h hs p r0 r1 -> CollectStrategy p l u = Ok (p', x0, x1) -> cashOK h hs p' (r0 - x0) (r1 - x1).
Proof.
  intros C E. unfold CollectStrategy in E. destruct (posGet (Pos p) (posKey l u)) as [i|] eqn:EI; [|discriminate]. injection E as <- <- <-.
  destruct C as [C1 C2 C3 C4 C5 C6 C7 C8]. set (v := mkInfo (pLiquidity i) (pLast0 i) (pLast1 i) 0 0).
  assert (forall l' u', pLiquidity (infoAt (with_pos p (posPut (Pos p) (posKey l u) v)) l' u') = pLiquidity (infoAt p l' u') /\
    forall tk, lastIn tk (infoAt (with_pos p (posPut (Pos p) (posKey l u) v)) l' u') = lastIn tk (infoAt p l' u')) as KI.
  { intros l' u'. unfold infoAt. cbn [with_pos Pos]. rewrite posGet_put. destruct (keyEq (posKey l u) (posKey l' u')) eqn:K; [|auto]. apply keyEq_true in K. rewrite <- K, EI.
    split; [reflexivity|]. intros tk. destruct tk; reflexivity. }
  constructor; try assumption.
  - intros l' u' H. rewrite (proj1 (KI l' u')). auto.
  - cbn [with_pos Pos]. intros k j. rewrite posGet_put. destruct (keyEq (posKey l u) k) eqn:K; [|apply C6]. apply keyEq_true in K. subst k. intros Q N. injection Q as <-. cbn in N. now apply (C6 _ i).
  - cbn [with_pos Pos]. apply posOK_put; [assumption|]. pose proof (posOK_get _ _ _ C7 EI) as (A & _). unfold infoOK, is_u256 in *. cbn. lia.
  - intros tk rs ND. specialize (C8 tk rs ND).
    assert (sumRanges (pending tk hs (with_pos p (posPut (Pos p) (posKey l u) v))) rs <= sumRanges (pending tk hs p) rs) as K.
    { apply sumRanges_le. intros l' u' _. unfold pending. rewrite (proj2 (KI l' u')). change (insideGrowth tk (with_pos p _) l' u') with (insideGrowth tk p l' u'). lia. }
    apply injZ_le in K. cbn [with_pos Pos SqrtRatio]. rewrite owedSum_put, EI, injZ_add, injZ_sub. pose proof q128_pos as QP.
    assert ([owedIn tk v]q == 0)%Q as EV by (destruct tk; reflexivity). rewrite EV.
    assert ([tok tk (r0 - pOwed0 i) (r1 - pOwed1 i)]q == [tok tk r0 r1]q - [owedIn tk i]q)%Q as ER by (destruct tk; unfold tok, owedIn; rewrite injZ_sub; reflexivity). rewrite ER. lra.
Qed.

Lemma inside_ok h p l u : poolOK h p -> 0 < minted h l u -> exists x0 x1, GetFeeGrowthInside (Data p) l u (TickCurrent p) (FeeGrowth0 p) (FeeGrowth1 p) = Ok (x0, x1).
Proof.
  intros HP H. destruct (minted_present h p l u HP H) as [P1 P2]. pose proof (proj1 (proj1 (proj2 HP))) as S. rewrite GetFeeGrowthInside_spec by assumption. eauto.
Qed.
Lemma inside_u256 h p l u x0 x1 : poolOK h p -> 0 < minted h l u -> GetFeeGrowthInside (Data p) l u (TickCurrent p) (FeeGrowth0 p) (FeeGrowth1 p) = Ok (x0, x1) -> is_u256 x0 /\ is_u256 x1.
Proof.
  intros HP H E. destruct (minted_present h p l u HP H) as [P1 P2]. pose proof (proj1 (proj1 (proj2 HP))) as S. rewrite GetFeeGrowthInside_spec in E by assumption. injection E as <- <-. split; apply u256_mod.
Qed.

Definition flashFee (fee a : Z) : Z := (a * fee + 999999) / 1000000.

Lemma flash_cash h hs p r0 r1 a0 a1 p' : cashOK h hs p r0 r1 -> is_u256 a0 -> is_u256 a1 -> Flash p a0 a1 = Ok p' ->
  cashOK h hs p' (r0 + flashFee (Fee p) a0) (r1 + flashFee (Fee p) a1).
Proof.
  intros C H0 H1 E. pose proof (ck_pool _ _ _ _ _ C) as HP. pose proof (flash_ok h p a0 a1 p' HP E) as HP'.
  pose proof HP as (HH & _ & Esp & Hf & EL & _). pose proof (active_range _ _ (TickCurrent p) HH) as AR.
  assert (0 <= Fee p < 1000000) as HF.
  { destruct h as [|e h].
    - exfalso. unfold Flash in E. apply bind_inv in E as ([] & E0 & _). apply invariant_inv in E0. rewrite EL in E0. discriminate.
    - pose proof (proj1 (proj2 HH) e (or_introl eq_refl)) as (Q1 & _ & _ & [Q2 _] & _). pose proof (TickSpaces_nonneg (Fee p)).
      destruct (Z.eq_dec (TickSpacing p) 0) as [E0|N]; [lia|]. pose proof (TickSpaces_fee (Fee p) ltac:(lia)) as TF. unfold MaxFee in TF. lia. }
  destruct (flash_spec p a0 a1 p' H0 H1 ltac:(unfold is_u256; lia) HF E) as (HL & f0 & f1 & E0 & E1 & ->).
  set (c := fun (tk : bool) (l u : Z) => ind ((l <=? TickCurrent p) && (TickCurrent p <? u)) * (tok tk f0 f1 * 2 ^ 128 / Liquidity p)).
  assert (forall tk, 0 <= tok tk f0 f1) as FN.
  { unfold is_u256 in *. assert (0 <= a0 * Fee p /\ 0 <= a1 * Fee p) as [? ?] by (split; apply Z.mul_nonneg_nonneg; lia). intros tk. destruct tk; unfold tok; subst; apply Z.div_pos; lia. }
  assert (forall tk, 0 <= tok tk f0 f1 * 2 ^ 128 / Liquidity p) as FD by (intros tk; apply Z.div_pos; [specialize (FN tk); lia|assumption]).
  apply (grow_cash h hs p r0 r1 _ _ _ c C HP' eq_refl).
  - intros tk l u. unfold c, ind. specialize (FD tk). destruct (_ && _); lia.
  - intros tk l u H. destruct (inside_ok h p l u HP H) as (x0 & x1 & G). destruct (inside_u256 h p l u x0 x1 HP H G) as [U0 U1]. pose proof (proj1 (proj1 (proj2 HP))) as S. pose proof (minted_range _ h l u HH H) as (Hlu & _).
    unfold insideGrowth. cbn [Data TickCurrent FeeGrowth0 FeeGrowth1]. rewrite G.
    pose proof (inside_grow0 (Data p) l u (TickCurrent p) (FeeGrowth0 p) (FeeGrowth1 p) (f0 * 2 ^ 128 / Liquidity p) x0 x1 S Hlu G) as G0.
    pose proof (inside_grow1 (Data p) l u (TickCurrent p) _ (FeeGrowth1 p) (f1 * 2 ^ 128 / Liquidity p) _ x1 S Hlu G0) as G1. unfold uadd in G1. rewrite G1. unfold c. destruct tk; reflexivity.
  - intros tk. exists (tok tk f0 f1). split.
    + assert (sumOn (c tk) h = tok tk f0 f1 * 2 ^ 128 / Liquidity p * active h (TickCurrent p)) as ->.
      { unfold c, active. generalize (tok tk f0 f1 * 2 ^ 128 / Liquidity p). intros k. induction h as [|e h' IH]; cbn [sumOn]; [ring|]. clear - h'. 
        assert (forall g : hist, sumOn (fun l u => ind ((l <=? TickCurrent p) && (TickCurrent p <? u)) * k) g = k * sumOn (fun l u => ind ((l <=? TickCurrent p) && (TickCurrent p <? u))) g) as K.
        { induction g as [|x g IH]; cbn [sumOn]; [ring|]. rewrite IH. ring. }
        rewrite K. ring. }
      rewrite <- EL, Z.mul_comm. apply Z.mul_div_le. assumption.
    + cbn [SqrtRatio]. unfold flashFee. rewrite <- E0, <- E1. destruct tk; unfold tok; rewrite injZ_add; lra.
Qed.

(** A downward swap keeps clear of the misplaced ticks: it does what it would do under a price limit that none of them is beyond. *)
Definition keepsClear (n : nat) (p : Pool) (amt : Z) (r : Pool * Z * Z) : Prop :=
  exists b, clearWay p (if b =? 0 then 4295128740 else b) /\ swap n p true amt b = Ok r.
Lemma keepsClear_limit (P : Prop) n p z amt lim r : (z = true -> keepsClear n p amt r) -> swap n p z amt lim = Ok r ->
  (forall b, (z = true -> clearWay p (effectiveLimit z b)) -> swap n p z amt b = Ok r -> P) -> P.
Proof.
  intros K E H. destruct z.
  - destruct (K eq_refl) as (b & C & E'). apply (H b); [|assumption]. intros _. exact C.
  - apply (H lim); [discriminate|assumption].
Qed.

Lemma swap_step' h hs p r0 r1 n z amt lim p' a0 a1 : cashOK h hs p r0 r1 -> is_u256 amt -> (z = true -> clearWay p (effectiveLimit z lim)) ->
  swap n p z amt lim = Ok (p', a0, a1) -> cashOK h hs p' (r0 + sgn256 a0) (r1 + sgn256 a1).
Proof.
  intros C Ha CW E. pose proof (ck_pool _ _ _ _ _ C) as HP. destruct (swap_ok h p z amt lim HP Ha n p' a0 a1 E) as (HP' & _ & _ & _ & _ & EP & _).
  destruct (swap_cash h p n z amt lim p' a0 a1 HP Ha CW E) as (rs & fees & S1 & S2 & S3 & S4 & S5).
  apply (grow_cash h hs p r0 r1 p' _ _ (fun tk l u => if Bool.eqb tk z then credited rs l u else 0) C HP' EP).
  - intros tk l u. destruct (Bool.eqb tk z); [now apply credited_nonneg|lia].
  - intros tk l u H. destruct (inside_ok h p l u HP H) as (x0 & x1 & G). destruct (inside_u256 h p l u x0 x1 HP H G) as [U0 U1]. pose proof (minted_range _ h l u (proj1 HP) H) as (Hlu & _).
    unfold insideGrowth. rewrite G, (S3 l u x0 x1 Hlu G). destruct tk, z; cbn [Bool.eqb]; rewrite ?Z.add_0_r; try reflexivity; symmetry; apply Z.mod_small; assumption.
  - intros tk. destruct (Bool.bool_dec tk z) as [->|N].
    + exists fees. rewrite Bool.eqb_reflx. split; [assumption|]. destruct z; unfold tok; rewrite injZ_add; lra.
    + assert (tk = negb z) as -> by (destruct tk, z; reflexivity || congruence). exists 0. replace (Bool.eqb (negb z) z) with false by (destruct z; reflexivity). split.
      * assert (forall g, sumOn (fun _ _ => 0) g = 0) as K by (induction g as [|x g IH]; cbn [sumOn]; [reflexivity|rewrite IH; ring]). rewrite K. lia.
      * change [0]q with 0%Q. destruct z; unfold tok; cbn [negb] in *; rewrite injZ_add; lra.
Qed.

Lemma swap_step h hs p r0 r1 n z amt lim p' a0 a1 : cashOK h hs p r0 r1 -> is_u256 amt -> (z = true -> keepsClear n p amt (p', a0, a1)) ->
  swap n p z amt lim = Ok (p', a0, a1) -> cashOK h hs p' (r0 + sgn256 a0) (r1 + sgn256 a1).
Proof. intros C Ha K E. apply (keepsClear_limit _ n p z amt lim _ K E). intros b CW E'. exact (swap_step' h hs p r0 r1 n z amt b p' a0 a1 C Ha CW E'). Qed.

Lemma mint_cash h hs p r0 r1 l u a p' x0 x1 : cashOK h hs p r0 r1 -> allowed h p (OMint l u a) -> Mint p l u a = Ok p' ->
  (forall tk, [a]q * worth tk (SqrtRatio p) l u <= [tok tk x0 x1]q)%Q -> cashOK (mkE l u a :: h) hs p' (r0 + x0) (r1 + x1).
Proof.
  intros C HA E HW. pose proof (ck_pool _ _ _ _ _ C) as HP. destruct (mint_ok h p l u a p' HP HA E) as (HP' & HS & EP).
  destruct HA as (Ha & Hl & Hu & Ht). unfold Mint in E. apply bind_inv in E as ([] & E0 & E). apply invariant_inv in E0.
  assert (checkTicks l u = Ok tt) as Hc by (unfold modifyPosition in E; apply bind_inv in E as ([] & E1 & _); assumption).
  destruct (mint_hist h p l u a HP Ha Hl Hu Ht E0 Hc) as (HH & Em & Hpos). rewrite <- Em in E. pose proof (modifyPosition_keeps h p l u a p' HP HP' E) as K.
  apply (hist_cash h hs p r0 r1 p' _ _ l u a C HP' EP); [apply HS|assumption|pose proof (ck_sub _ _ _ _ _ C l u); lia|].
  intros tk. specialize (HW tk). destruct tk; unfold tok in *; rewrite injZ_add; lra.
Qed.
Lemma burn_cash h hs p r0 r1 l u a p' y0 y1 : cashOK h hs p r0 r1 -> 0 <= a -> minted hs l u + a <= minted h l u -> 0 < minted h l u -> Burn p l u a = Ok p' ->
  (forall tk, [tok tk y0 y1]q <= [a]q * worth tk (SqrtRatio p) l u)%Q -> cashOK (mkE l u (- a) :: h) hs p' (r0 - y0) (r1 - y1).
Proof.
  intros C Ha Hm Hm0 E HW. pose proof (ck_pool _ _ _ _ _ C) as HP. pose proof (ck_cov _ _ _ _ _ C l u).
  destruct (burn_ok h p l u a HP ltac:(split; lia)) as (q & E' & HP' & HS & EP). rewrite E' in E. injection E as ->. unfold Burn in E'. rewrite uneg_delta in E'.
  pose proof (modifyPosition_keeps h p l u (- a) p' HP HP' E') as K.
  apply (hist_cash h hs p r0 r1 p' _ _ l u (- a) C HP' EP); [apply HS|assumption|lia|].
  intros tk. specialize (HW tk). rewrite injZ_opp. destruct tk; unfold tok in *; rewrite injZ_sub; lra.
Qed.

Lemma new_cash t0 t1 fee price p : NewPool t0 t1 fee price = Ok p -> cashOK [] [] p 0 0.
Proof.
  intros E. destruct (new_pool_ok t0 t1 fee price p E) as (HP & _ & _ & _ & EP & _). constructor; try assumption; try (intros; cbn in *; lia).
  - intros l u. cbn. lia.
  - rewrite EP. discriminate.
  - rewrite EP. constructor.
  - intros tk rs _. rewrite EP. cbn [owedSum worthAll sumQ]. assert (sumRanges (pending tk [] p) rs = 0) as ->.
    { induction rs as [|[a b] rs IH]; cbn [sumRanges]; [reflexivity|]. rewrite IH. unfold pending. cbn. lia. }
    destruct tk; vm_compute; discriminate.
Qed.

(** ** histories of a pool together with the tokens it holds *)
(** [h] is the ledger of all liquidity and [hs] the part of it in the position table; [r0], [r1] are the tokens paid in less those paid out.
    A historical mint pays at least the exact worth of its liquidity and a historical burn is paid at most that: the code records no amounts for them (pool.go:183-192).
    [way]: downward swaps keep clear of the misplaced ticks; [keys]: a range is minted only while no other range holding liquidity has its key. *)
Inductive cash (way keys : bool) : hist -> hist -> Pool -> Z -> Z -> Prop :=
| cash_new t0 t1 fee price p : NewPool t0 t1 fee price = Ok p -> cash way keys [] [] p 0 0
| cash_mint h hs p r0 r1 l u a p' x0 x1 : cash way keys h hs p r0 r1 -> allowed h p (OMint l u a) -> Mint p l u a = Ok p' ->
    (forall tk, [a]q * worth tk (SqrtRatio p) l u <= [tok tk x0 x1]q)%Q ->
    cash way keys (mkE l u a :: h) hs p' (r0 + x0) (r1 + x1)
| cash_burn h hs p r0 r1 l u a p' y0 y1 : cash way keys h hs p r0 r1 -> 0 <= a -> minted hs l u + a <= minted h l u -> 0 < minted h l u -> Burn p l u a = Ok p' ->
    (forall tk, [tok tk y0 y1]q <= [a]q * worth tk (SqrtRatio p) l u)%Q ->
    cash way keys (mkE l u (- a) :: h) hs p' (r0 - y0) (r1 - y1)
| cash_mintS h hs p r0 r1 l u a p' x0 x1 : cash way keys h hs p r0 r1 -> allowed h p (OMintStrategy l u a) -> (keys = true -> ownKey hs l u) ->
    MintStrategy p l u a = Ok (p', x0, x1) ->
    cash way keys (mkE l u a :: h) (mkE l u a :: hs) p' (r0 + x0) (r1 + x1)
| cash_burnS h hs p r0 r1 l u a p' x0 x1 : cash way keys h hs p r0 r1 -> 0 <= a <= minted hs l u -> 0 < minted hs l u ->
    BurnStrategy p l u a = Ok (p', x0, x1) ->
    cash way keys (mkE l u (- a) :: h) (mkE l u (- a) :: hs) p' r0 r1
| cash_collect h hs p r0 r1 l u p' x0 x1 : cash way keys h hs p r0 r1 -> CollectStrategy p l u = Ok (p', x0, x1) ->
    cash way keys h hs p' (r0 - x0) (r1 - x1)
| cash_flash h hs p r0 r1 a0 a1 p' : cash way keys h hs p r0 r1 -> is_u256 a0 -> is_u256 a1 -> Flash p a0 a1 = Ok p' ->
    cash way keys h hs p' (r0 + flashFee (Fee p) a0) (r1 + flashFee (Fee p) a1)
| cash_swap h hs p r0 r1 n z amt lim p' a0 a1 : cash way keys h hs p r0 r1 -> is_u256 amt ->
    (way = true -> z = true -> keepsClear n p amt (p', a0, a1)) ->
    swap n p z amt lim = Ok (p', a0, a1) ->
    cash way keys h hs p' (r0 + sgn256 a0) (r1 + sgn256 a1).

Lemma cash_ok h hs p r0 r1 : cash true true h hs p r0 r1 -> cashOK h hs p r0 r1.
Proof.
  induction 1.
  - eapply new_cash; eassumption.
  - eapply mint_cash; eassumption.
  - eapply burn_cash; eassumption.
  - eapply mintS_cash; try eassumption. auto.
  - eapply burnS_cash; eassumption.
  - eapply collect_cash; eassumption.
  - eapply flash_cash; eassumption.
  - eapply swap_step; try eassumption. auto.
Qed.

Lemma worthAll_nonneg tk h p : poolOK h p -> (0 <= worthAll tk h (SqrtRatio p))%Q.
Proof.
  intros (HH & _). apply sumQ_nonneg; [apply HH|]. intros e He. destruct HH as (_ & R & _). destruct (R e He) as (A & B & C & _). apply worth_nonneg; assumption.
Qed.

Lemma cash_solvent h hs p r0 r1 : cash true true h hs p r0 r1 ->
  0 <= r0 /\ 0 <= r1 /\ forall tk, (worthAll tk h (SqrtRatio p) + [owedSum tk (Pos p)]q <= [tok tk r0 r1]q)%Q /\
    forall rs, NoDup rs -> ((worthAll tk h (SqrtRatio p) + [owedSum tk (Pos p)]q) * [2 ^ 128]q + [sumRanges (pending tk hs p) rs]q <= [tok tk r0 r1]q * [2 ^ 128]q)%Q.
Proof.
  intros H. apply cash_ok in H.
  assert (forall tk, (worthAll tk h (SqrtRatio p) + [owedSum tk (Pos p)]q <= [tok tk r0 r1]q)%Q) as K.
  { intros tk. pose proof (ck_cash _ _ _ _ _ H tk [] (NoDup_nil _)) as Q. cbn [sumRanges] in Q. change [0]q with 0%Q in Q. pose proof q128_pos as QP.
    apply (Qmult_le_r _ _ [2 ^ 128]q QP). lra. }
  assert (forall tk, 0 <= tok tk r0 r1) as N.
  { intros tk. specialize (K tk). pose proof (worthAll_nonneg tk h p (ck_pool _ _ _ _ _ H)). pose proof (owedSum_nonneg tk _ (ck_info _ _ _ _ _ H)) as O. apply injZ_le in O. change [0]q with 0%Q in O.
    apply injZ_le. change [0]q with 0%Q. lra. }
  split; [apply (N true)|]. split; [apply (N false)|]. intros tk. split; [apply K|]. intros rs ND. apply (ck_cash _ _ _ _ _ H tk rs ND).
Qed.

(** ** one swap *)
Lemma swap_worth h p n z amt lim p' a0 a1 : reach h p -> is_u256 amt -> (z = true -> keepsClear n p amt (p', a0, a1)) ->
  swap n p z amt lim = Ok (p', a0, a1) ->
  exists fees, 0 <= fees /\
    (worthAll z h (SqrtRatio p') + [fees]q <= worthAll z h (SqrtRatio p) + [sgn256 (if z then a0 else a1)]q)%Q /\
    (worthAll (negb z) h (SqrtRatio p') <= worthAll (negb z) h (SqrtRatio p) + [sgn256 (if z then a1 else a0)]q)%Q /\
    forall rs, NoDup rs -> sumRanges (fun l u => minted h l u * ((insideGrowth z p' l u - insideGrowth z p l u) mod T256)) rs <= fees * 2 ^ 128.
Proof.
  intros R Ha K E0. apply reach_ok in R as HP. apply (keepsClear_limit _ n p z amt lim _ K E0). clear lim K E0. intros lim CW E.
  destruct (swap_cash h p n z amt lim p' a0 a1 HP Ha CW E) as (rs & fees & S1 & S2 & S3 & S4 & S5).
  assert (forall l u, 0 <= credited rs l u) as CN by (intros; now apply credited_nonneg). pose proof (proj1 (proj1 HP)) as Cov.
  assert (0 <= sumOn (credited rs) h) as SN by (apply sumOn_nonneg; auto).
  exists fees. split; [lia|]. split; [assumption|]. split; [assumption|]. intros ranges ND. eapply Z.le_trans; [|exact S1]. eapply Z.le_trans; [|exact (sumRanges_hist (credited rs) ranges CN ND h Cov)].
  apply sumRanges_le. intros l u _. pose proof (Cov l u) as M0. destruct (Z.eq_dec (minted h l u) 0) as [->|N]; [lia|]. apply Z.mul_le_mono_nonneg_l; [lia|].
  destruct (inside_ok h p l u HP ltac:(lia)) as (x0 & x1 & G). pose proof (minted_range _ h l u (proj1 HP) ltac:(lia)) as (Hlu & _).
  unfold insideGrowth. rewrite G, (S3 l u x0 x1 Hlu G). specialize (CN l u). destruct z; rewrite Zminus_mod_idemp_l.
  - replace (x0 + credited rs l u - x0) with (credited rs l u) by ring. now apply mod_le_self.
  - replace (x1 + credited rs l u - x1) with (credited rs l u) by ring. now apply mod_le_self.
Qed.

(** ** the amounts of the position calls *)
Lemma worth_at l u a b P : GetSqrtRatioAtTick l = Ok a -> GetSqrtRatioAtTick u = Ok b -> l < u ->
  let c := Z.max a (Z.min b P) in
  (worth true P l u == [2 ^ 96]q / [c]q - [2 ^ 96]q / [b]q)%Q /\ (worth false P l u == [c]q / [2 ^ 96]q - [a]q / [2 ^ 96]q)%Q.
Proof.
  intros E1 E2 H. assert (forall t x, GetSqrtRatioAtTick t = Ok x -> x = rat t) as K.
  { intros t x E. assert (MinTick <= t <= MaxTick) as Ht. { destruct ((MinTick <=? t) && (t <=? MaxTick)) eqn:C; [lia|]. rewrite rat_panics in E by lia. discriminate. } rewrite (rat_ok t Ht) in E. congruence. }
  apply K in E1, E2. subst. split; reflexivity.
Qed.
Lemma mint_worth h p l u a p' x0 x1 : reach h p -> allowed h p (OMintStrategy l u a) -> MintStrategy p l u a = Ok (p', x0, x1) ->
  forall tk, ([a]q * worth tk (SqrtRatio p) l u <= [if tk then x0 else x1]q < [a]q * worth tk (SqrtRatio p) l u + 1)%Q.
Proof.
  intros R (Ha & Hl & Hu & Ht) E. apply reach_ok in R as HP. unfold MintStrategy in E. apply bind_inv in E as ([] & E0 & E). apply invariant_inv in E0.
  assert (checkTicks l u = Ok tt) as Hc by (unfold modifyPositionStrategy in E; apply bind_inv in E as ([] & E1 & _); assumption).
  destruct (mint_hist h p l u a HP Ha Hl Hu Ht E0 Hc) as (HH & Em & Hpos). apply checkTicks_inv in Hc as (Hlu & Hl' & Hu').
  rewrite modifyPositionStrategy_eq in E by lia. apply bind_inv in E as ([] & _ & E). apply bind_inv in E as (q & _ & E). apply bind_inv in E as ((y0 & y1) & ER & E). cbn [fst snd] in E. injection E as _ <- <-.
  pose proof HP as ((Cov & _) & _ & _ & _ & _ & HPr & _). assert (0 <= total h) as T0 by (apply sumOn_nonneg; [assumption|intros; lia]).
  exact (amounts_worth_up _ _ l u a y0 y1 HPr Hlu Hl' Hu' ltac:(unfold liqR; lia) Hpos ER).
Qed.
Lemma burn_worth h p l u a p' x0 x1 : reach h p -> allowed h p (OBurnStrategy l u a) -> BurnStrategy p l u a = Ok (p', x0, x1) ->
  forall tk : bool, ([if tk then x0 else x1]q <= [a]q * worth tk (SqrtRatio p) l u < [if tk then x0 else x1]q + 1)%Q.
Proof.
  intros R (Ha & Hm) E. apply reach_ok in R as HP. pose proof (burn_hist h p l u a HP Ha Hm) as HH. pose proof (change_range h p l u (- a) HH) as (Hlu & Hl' & Hu' & _).
  pose proof HP as (HHp & _ & _ & _ & _ & HPr & _). pose proof (minted_total _ l u (proj1 HHp)) as M2. pose proof HHp as (_ & _ & T2).
  unfold BurnStrategy in E. apply bind_inv in E as (((q & b0) & b1) & E0 & E). cbv zeta in E. destruct (posGet (Pos q) (posKey l u)); [|discriminate]. injection E as _ <- <-.
  destruct (Z.eq_dec a 0) as [->|N].
  - change (uneg 0) with 0 in E0. unfold modifyPositionStrategy in E0. apply bind_inv in E0 as ([] & _ & E0). apply bind_inv in E0 as ((q' & pos) & _ & E0). rewrite Z.eqb_refl in E0. injection E0 as _ <- <-.
    intros tk. change (uneg 0) with 0. destruct tk; change [0]q with 0%Q; split; lra.
  - rewrite modifyPositionStrategy_eq in E0 by (rewrite uneg_small by lia; lia). apply bind_inv in E0 as ([] & _ & E0). apply bind_inv in E0 as (q' & _ & E0). apply bind_inv in E0 as ((y0 & y1) & ER & E0). cbn [fst snd] in E0. injection E0 as _ <- <-.
    destruct (amounts_worth_down _ _ l u a y0 y1 HPr Hlu Hl' Hu' ltac:(unfold liqR; lia) ltac:(lia) ER) as (z0 & z1 & -> & -> & Z0 & Z1 & HW).
    intros tk. specialize (HW tk). rewrite !uneg_uneg by lia. destruct tk; exact HW.
Qed.

(** ** witnesses *)
Definition pairOf (r : res (Pool * Z * Z)) : Pool := match r with Ok x => fst (fst x) | _ => startPool end.

(** the pools of PoolSpec.v: everything is withdrawn in the end *)
Definition good5 : Pool := Eval vm_compute in pairOf (BurnStrategy good4 0 600 (10 ^ 18)).
Definition good6 : Pool := Eval vm_compute in pairOf (CollectStrategy good5 0 600).
Definition good7 : Pool := Eval vm_compute in okOr (Burn good6 60 180 (10 ^ 18)) startPool.

Lemma good4_clear : clearWay good3 (2 ^ 96).
Proof.
  intros t r Ht Hn _ E. destruct (Z.eq_dec t (-1)) as [->|N]; [vm_compute in E; injection E as <-; discriminate|].
  assert (t + 1 < 0) as Hlt by lia. apply Z.lt_le_incl. eapply ratio_monotone; [exact Hlt|exact E|vm_compute; reflexivity].
Qed.
Lemma allowed_mint h p l u a : is_u256 a -> l mod TickSpacing p = 0 -> u mod TickSpacing p = 0 -> 0 < TickSpacing p -> total h + a < 2 ^ 128 -> allowed h p (OMint l u a).
Proof. intros H1 H2 H3 H4 H5. split; [assumption|]. split; [apply placed_multiple; [|apply Z.mod_divide]; lia|]. split; [apply placed_multiple; [|apply Z.mod_divide]; lia|assumption]. Qed.
Ltac okAllowed := apply allowed_mint; vm_compute; try reflexivity; intuition discriminate.

Definition good7Hist : hist := [mkE 60 180 (- 10 ^ 18); mkE 0 600 (- 10 ^ 18); mkE 0 600 (10 ^ 18); mkE 60 180 (10 ^ 18)].
Lemma good7_cash way keys : exists r0 r1, cash way keys good7Hist [mkE 0 600 (- 10 ^ 18); mkE 0 600 (10 ^ 18)] good7 r0 r1 /\
  r0 = 12714752355179 /\ r1 = 12194400071832.
Proof.
  do 2 eexists. split.
  - eapply cash_burn with (p := good6) (l := 60) (u := 180) (a := 10 ^ 18) (y0 := 4225536032702929) (y1 := 1751799106478446); [|lia|vm_compute; discriminate|vm_compute; reflexivity|vm_compute; reflexivity|intros []; vm_compute; discriminate].
    eapply cash_collect with (p := good5) (l := 0) (u := 600); [|vm_compute; reflexivity].
    eapply cash_burnS with (p := good4) (l := 0) (u := 600) (a := 10 ^ 18); [|vm_compute; intuition discriminate|vm_compute; reflexivity|vm_compute; reflexivity].
    eapply cash_swap with (p := good3) (z := true) (n := 20%nat) (amt := 2 * 10 ^ 16) (lim := 0); [|vm_compute; intuition discriminate|intros _ _; exists (2 ^ 96); split; [exact good4_clear|vm_compute; reflexivity]|vm_compute; reflexivity].
    eapply cash_swap with (p := good2) (z := false) (n := 20%nat) (amt := 2 * 10 ^ 16) (lim := 0); [|vm_compute; intuition discriminate|discriminate|vm_compute; reflexivity].
    eapply cash_mintS with (p := good1) (l := 0) (u := 600) (a := 10 ^ 18); [|okAllowed|intros _ l' u' H; cbn in H; lia|vm_compute; reflexivity].
    eapply cash_mint with (p := good0) (l := 60) (u := 180) (a := 10 ^ 18) (x0 := 3996365498563678) (x1 := 1983208049347102); [|okAllowed|vm_compute; reflexivity|intros []; vm_compute; discriminate].
    apply cash_new with (t0 := "A"%string) (t1 := "B"%string) (fee := 3000) (price := 79623317895830914510639640423). vm_compute. reflexivity.
  - split; vm_compute; reflexivity.
Qed.

Definition badNext : Pool := Eval vm_compute in pairOf (swap 10 badPool true (10 ^ 15) 0).
Definition badEnd : Pool := Eval vm_compute in okOr (Burn badNext (-120) 120 (10 ^ 18)) startPool.
(** a downward swap past a misplaced tick: the pool cannot pay the only position back *)
Lemma way_needed : exists h hs p r0 r1, cash false true h hs p r0 r1 /\ r1 < 0.
Proof.
  exists [mkE (-120) 120 (- 10 ^ 18); mkE (-120) 120 (10 ^ 18)], [], badEnd. do 2 eexists. split.
  - eapply cash_burn with (l := -120) (u := 120) (a := 10 ^ 18) (y0 := 6483790370544728) (y1 := 5479937080815554).
    + eapply cash_swap with (p := badPool) (p' := badNext) (z := true) (n := 10%nat) (amt := 10 ^ 15) (lim := 0); [|vm_compute; intuition discriminate|discriminate|vm_compute; reflexivity].
      eapply cash_mint with (p := startPool) (l := -120) (u := 120) (a := 10 ^ 18) (x0 := 7482788215646185) (x1 := 4482937080815555); [|okAllowed|vm_compute; reflexivity|intros []; vm_compute; discriminate].
      apply cash_new with (t0 := "A"%string) (t1 := "B"%string) (fee := 3000) (price := badPrice). vm_compute. reflexivity.
    + lia.
    + vm_compute. discriminate.
    + vm_compute. reflexivity.
    + vm_compute. reflexivity.
    + intros []; vm_compute; discriminate.
  - vm_compute. reflexivity.
Qed.

(** two ranges with one key: the second collects fees of the first that were never paid *)
Definition key0 : Pool := Eval vm_compute in okOr (NewPool "A" "B" 3000 79266000000000000000000000000) startPool.
Definition key1 : Pool := Eval vm_compute in pairOf (MintStrategy key0 (-120) 60 (10 ^ 18)).
Definition key2 : Pool := Eval vm_compute in pairOf (swap 20 key1 false (10 ^ 15) 0).
Definition key3 : Pool := Eval vm_compute in pairOf (MintStrategy key2 (-60) 60 (10 ^ 18)).
Definition key4 : Pool := Eval vm_compute in pairOf (BurnStrategy key3 (-120) 60 (10 ^ 18)).
Definition key5 : Pool := Eval vm_compute in pairOf (BurnStrategy key4 (-60) 60 (10 ^ 18)).

Lemma keys_needed : exists h hs p r0 r1, cash true false h hs p r0 r1 /\ r1 < 0.
Proof.
  exists [mkE (-60) 60 (- 10 ^ 18); mkE (-120) 60 (- 10 ^ 18); mkE (-60) 60 (10 ^ 18); mkE (-120) 60 (10 ^ 18)],
    [mkE (-60) 60 (- 10 ^ 18); mkE (-120) 60 (- 10 ^ 18); mkE (-60) 60 (10 ^ 18); mkE (-120) 60 (10 ^ 18)]. do 3 eexists. split.
  - eapply cash_collect with (p := key5) (l := -60) (u := 60); [|vm_compute; reflexivity].
    eapply cash_burnS with (p := key4) (l := -60) (u := 60) (a := 10 ^ 18); [|vm_compute; intuition discriminate|vm_compute; reflexivity|vm_compute; reflexivity].
    eapply cash_burnS with (p := key3) (l := -120) (u := 60) (a := 10 ^ 18); [|vm_compute; intuition discriminate|vm_compute; reflexivity|vm_compute; reflexivity].
    eapply cash_mintS with (p := key2) (l := -60) (u := 60) (a := 10 ^ 18); [|okAllowed|discriminate|vm_compute; reflexivity].
    eapply cash_swap with (p := key1) (z := false) (n := 20%nat) (amt := 10 ^ 15) (lim := 0); [|vm_compute; intuition discriminate|discriminate|vm_compute; reflexivity].
    eapply cash_mintS with (p := key0) (l := -120) (u := 60) (a := 10 ^ 18); [|okAllowed|discriminate|vm_compute; reflexivity].
    apply cash_new with (t0 := "A"%string) (t1 := "B"%string) (fee := 3000) (price := 79266000000000000000000000000). vm_compute. reflexivity.
  - vm_compute. reflexivity.
Qed.
