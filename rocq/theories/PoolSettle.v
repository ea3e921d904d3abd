(** PoolSettle.v -- the fees due to a position of ordinary size are never too small to be settled. *)
From Coq Require Import ZifyBool String.
From Verif Require Import Base U256Z FullMathFacts SwapMath SwapMathFacts SwapStep TickMath TickMathFacts TickData TickDataFacts TickSearch TickFees Ledger Pool PoolTable PoolInv PoolSwap PoolLoop PoolHist PoolOps PoolMint PoolFees PoolPos PoolSpec PoolReturns Solvency Cash.
Ltac Zify.zify_post_hook ::= idtac.
Open Scope Z_scope.

(** ** the position table holds 256-bit values *)
Lemma modS_posOK h p l u dlt q x0 x1 : poolOK h p -> histOK (TickSpacing p) (mkE l u dlt :: h) -> posOK (Pos p) ->
  modifyPositionStrategy p l u (dlt mod T256) = Ok (q, x0, x1) -> posOK (Pos q).
Proof.
  intros HP HH HI E. pose proof (infoAt_ok p l u HI) as (I1 & _). destruct (modS_facts h p l u dlt q x0 x1 HP HH I1 E) as (in0 & in1 & -> & _).
  apply posOK_put; [assumption|]. unfold infoOK. cbn [pLiquidity pOwed0 pOwed1]. split; [apply u256_mod|]. split; apply u256_mod.
Qed.

Lemma step_posOK h p fuel o p' : poolOK h p -> posOK (Pos p) -> allowed h p o -> step fuel p o = Ok p' -> posOK (Pos p').
Proof.
  intros HP HI HA E. destruct o as [l u a|l u a|l u a|l u a|l u|a0 a1|a t lim|a t lim]; cbn [step] in E.
  - destruct (mint_ok h p l u a p' HP HA E) as (_ & _ & ->). assumption.
  - destruct (burn_ok h p l u a HP HA) as (q & E' & _ & _ & EP). rewrite E in E'. injection E' as <-. now rewrite EP.
  - apply bind_inv in E as (((q & x0) & x1) & E & Q). cbn [fst] in Q. injection Q as ->. destruct HA as (Ha & Hl & Hu & Ht). unfold MintStrategy in E. apply bind_inv in E as ([] & E0 & E). apply invariant_inv in E0.
    assert (checkTicks l u = Ok tt) as Hc by (unfold modifyPositionStrategy in E; apply bind_inv in E as ([] & E1 & _); assumption).
    destruct (mint_hist h p l u a HP Ha Hl Hu Ht E0 Hc) as (HH & Em & Hpos). rewrite <- Em in E. exact (modS_posOK h p l u a p' x0 x1 HP HH HI E).
  - apply bind_inv in E as (((q & x0) & x1) & E & Q). cbn [fst] in Q. injection Q as ->. destruct HA as (Ha & Hm). pose proof (burn_hist h p l u a HP Ha Hm) as HH.
    unfold BurnStrategy in E. rewrite uneg_delta in E. apply bind_inv in E as (((q & b0) & b1) & E0 & E). cbv zeta in E. pose proof (modS_posOK h p l u (- a) q b0 b1 HP HH HI E0) as HQ.
    destruct (posGet (Pos q) (posKey l u)) as [i|] eqn:G; [|discriminate]. injection E as <- _ _. cbn [with_pos Pos]. apply posOK_put; [assumption|]. pose proof (posOK_get _ _ _ HQ G) as (I1 & _).
    unfold infoOK. cbn [pLiquidity pOwed0 pOwed1]. split; [assumption|]. split; apply u256_mod.
  - apply bind_inv in E as (((q & x0) & x1) & E & Q). cbn [fst] in Q. injection Q as ->. unfold CollectStrategy in E. destruct (posGet (Pos p) (posKey l u)) as [i|] eqn:G; [|discriminate].
    injection E as <- _ _. cbn [with_pos Pos]. apply posOK_put; [assumption|]. pose proof (posOK_get _ _ _ HI G) as (I1 & _). unfold infoOK, is_u256 in *. cbn [pLiquidity pOwed0 pOwed1]. lia.
  - unfold Flash in E. do 5 (apply bind_inv in E as (? & _ & E)). injection E as <-. assumption.
  - apply bind_inv in E as (((q & x0) & x1) & E & Q). cbn [fst] in Q. injection Q as ->. unfold ExactInputSwap in E.
    destruct (swap_ok h p _ _ lim HP HA fuel p' x0 x1 E) as (_ & _ & _ & _ & _ & -> & _). assumption.
  - apply bind_inv in E as (((q & x0) & x1) & E & Q). cbn [fst] in Q. injection Q as ->. unfold ExactOutputSwap in E.
    destruct (swap_ok h p _ _ lim HP HA fuel p' x0 x1 E) as (_ & _ & _ & _ & _ & -> & _). assumption.
Qed.
Lemma reach_posOK h p : reach h p -> posOK (Pos p).
Proof.
  induction 1 as [t0 t1 fee price p E|h p fuel o p' R IH HA E].
  - destruct (new_pool_ok t0 t1 fee price p E) as (_ & _ & _ & _ & -> & _). constructor.
  - exact (step_posOK h p fuel o p' (reach_ok h p R) IH HA E).
Qed.

(** ** shares *)
(** what a unit of fee or more is worth to a position of liquidity [m] *)
Lemma share_size m L fee : 0 < m -> 0 < L <= 2 ^ 127 -> L <= 2 ^ 63 * m -> 0 < fee -> 2 ^ 64 <= m * (fee * 2 ^ 128 / L).
Proof.
  intros Hm HL HLm Hf. set (q := fee * 2 ^ 128 / L). pose proof (Z.mul_succ_div_gt (fee * 2 ^ 128) L ltac:(lia)) as D. fold q in D.
  assert (2 ^ 127 <= L * q) as K by (unfold Z.succ in D; rewrite Z.mul_add_distr_l, Z.mul_1_r in D; lia). clear D. clearbody q.
  assert (0 < q) as Hq by (apply Z.nle_gt; intros C; assert (L * q <= 0) by (apply Z.mul_nonneg_nonpos; lia); lia).
  assert (L * q <= 2 ^ 63 * m * q) as K2 by (apply Z.mul_le_mono_nonneg_r; lia). rewrite <- Z.mul_assoc in K2. generalize dependent (m * q). intros. lia.
Qed.

Definition notTiny (m D : Z) : Prop := D = 0 \/ 2 ^ 64 <= m * D.
Lemma notTiny_add m D E : 0 <= m -> 0 <= D -> 0 <= E -> notTiny m D -> notTiny m E -> notTiny m (D + E).
Proof.
  unfold notTiny. intros Hm HD HE K1 K2. assert (0 <= m * D) by (apply Z.mul_nonneg_nonneg; lia). assert (0 <= m * E) by (apply Z.mul_nonneg_nonneg; lia).
  rewrite Z.mul_add_distr_l. lia.
Qed.

Lemma share_bounds h sp m r : histOK sp h -> 0 < m -> total h <= 2 ^ 127 -> total h <= 2 ^ 63 * m -> exactShare h r -> shFee r < 2 ^ 128 ->
  0 <= shGrowth r <= shFee r * 2 ^ 128 /\ notTiny m (shGrowth r).
Proof.
  intros HH Hm T1 T2 (A & B & C) Hf. pose proof (active_range _ _ (shTick r) HH) as AR. pose proof (active_total h (shTick r) (proj1 HH)) as AT. change Q128 with (2 ^ 128) in C.
  destruct (Z.eq_dec (active h (shTick r)) 0) as [E0|N0]; [rewrite (B E0), E0 in C; change ((0 * 2 ^ 128 / 0) mod T256) with 0 in C; rewrite C, (B E0); split; [lia|now left]|].
  assert (0 <= shFee r * 2 ^ 128 / active h (shTick r) <= shFee r * 2 ^ 128) as K.
  { split; [apply Z.div_pos; lia|]. apply Z.div_le_upper_bound; [lia|]. assert (1 * (shFee r * 2 ^ 128) <= active h (shTick r) * (shFee r * 2 ^ 128)) by (apply Z.mul_le_mono_nonneg_r; lia). lia. }
  rewrite Z.mod_small in C by lia. rewrite C. split; [exact K|].
  destruct (Z.eq_dec (shFee r) 0) as [F0|FN]; [left; rewrite F0; reflexivity|right]. apply share_size; lia.
Qed.

Lemma credited_bounds h sp m rs l u : histOK sp h -> 0 < m -> total h <= 2 ^ 127 -> total h <= 2 ^ 63 * m -> (forall r, In r rs -> exactShare h r) -> feesOf rs < 2 ^ 128 ->
  0 <= credited rs l u <= feesOf rs * 2 ^ 128 /\ notTiny m (credited rs l u) /\ 0 <= feesOf rs.
Proof.
  intros HH Hm T1 T2. induction rs as [|r rs IH]; intros H Hf; cbn [credited feesOf] in *; [split; [lia|]; split; [now left|lia]|].
  pose proof (H r (or_introl eq_refl)) as Hr. pose proof Hr as (A & _).
  assert (0 <= feesOf rs) as FN.
  { clear - H. assert (forall r, In r rs -> exactShare h r) as H' by (intros; apply H; now right). clear H. induction rs as [|x rs IH]; cbn [feesOf]; [lia|].
    destruct (H' x (or_introl eq_refl)) as (Q & _). specialize (IH ltac:(intros; apply H'; now right)). lia. }
  destruct (IH ltac:(intros; apply H; now right) ltac:(lia)) as (I1 & I2 & _).
  destruct (share_bounds h sp m r HH Hm T1 T2 Hr ltac:(lia)) as (S1 & S2). unfold ind. destruct (_ && _).
  - split; [lia|]. split; [|lia]. rewrite Z.mul_1_l. apply notTiny_add; try assumption; lia.
  - split; [lia|]. split; [|lia]. rewrite Z.mul_0_l, Z.add_0_l. assumption.
Qed.

(** ** what the others do *)
(** Calls that change no growth and, but for collecting, no other position than their own: made with another table key than [k]. *)
Definition apart (k : list Z) (o : op) : Prop :=
  match o with
  | OMint _ _ _ | OBurn _ _ _ | OCollectStrategy _ _ => True
  | OMintStrategy l u _ | OBurnStrategy l u _ => posKey l u <> k
  | _ => False
  end.
(** From [h0], [p0] to [h], [p] the position of liquidity [m] on [l, u) is left alone: there are swaps, flash loans, and calls of others;
    [v0], [v1] count the tokens paid into swaps and lent.  All the time the liquidity on the range is at least [m] and all liquidity is at most 2^127 and at most 2^63 times [m]. *)
Inductive others (m l u : Z) (h0 : hist) (p0 : Pool) : hist -> Pool -> Z -> Z -> Prop :=
| ot_start : others m l u h0 p0 h0 p0 0 0
| ot_call h p v0 v1 o p' : others m l u h0 p0 h p v0 v1 -> apart (posKey l u) o -> allowed h p o -> step 0 p o = Ok p' ->
    m <= minted (log h o) l u -> total (log h o) <= 2 ^ 127 -> total (log h o) <= 2 ^ 63 * m ->
    others m l u h0 p0 (log h o) p' v0 v1
| ot_flash h p v0 v1 a0 a1 p' : others m l u h0 p0 h p v0 v1 -> is_u256 a0 -> is_u256 a1 -> Flash p a0 a1 = Ok p' ->
    others m l u h0 p0 h p' (v0 + a0) (v1 + a1)
| ot_swap h p v0 v1 n z amt lim p' a0 a1 : others m l u h0 p0 h p v0 v1 -> is_u256 amt -> swap n p z amt lim = Ok (p', a0, a1) ->
    others m l u h0 p0 h p' (if z then v0 + a0 else v0) (if z then v1 else v1 + a1).

Definition samePos (p0 p : Pool) (l u : Z) : Prop :=
  forall i0, posGet (Pos p0) (posKey l u) = Some i0 -> exists i, posGet (Pos p) (posKey l u) = Some i /\ pLiquidity i = pLiquidity i0 /\ pLast0 i = pLast0 i0 /\ pLast1 i = pLast1 i0.
Lemma samePos_refl p l u : samePos p p l u.
Proof. intros i E. exists i. auto. Qed.
Lemma samePos_trans p q r l u : samePos p q l u -> samePos q r l u -> samePos p r l u.
Proof. intros H1 H2 i0 E. destruct (H1 i0 E) as (i1 & E1 & A1 & A2 & A3). destruct (H2 i1 E1) as (i2 & E2 & B1 & B2 & B3). exists i2. split; [assumption|]. split; [congruence|]. split; congruence. Qed.
Lemma samePos_eq p q l u : Pos q = Pos p -> samePos p q l u.
Proof. intros E i0 H. exists i0. rewrite E. auto. Qed.
Lemma samePos_put p q l u k v : Pos q = posPut (Pos p) k v -> k <> posKey l u -> samePos p q l u.
Proof.
  intros E N i0 H. exists i0. split; [|auto]. rewrite E, posGet_put. destruct (keyEq k (posKey l u)) eqn:C; [|assumption]. apply keyEq_true in C. congruence.
Qed.

Lemma modS_same h p l' u' dlt q x0 x1 l u : poolOK h p -> histOK (TickSpacing p) (mkE l' u' dlt :: h) -> posOK (Pos p) -> posKey l' u' <> posKey l u ->
  modifyPositionStrategy p l' u' (dlt mod T256) = Ok (q, x0, x1) -> samePos p q l u /\ keeps h (mkE l' u' dlt :: h) p q.
Proof.
  intros HP HH HI N E. pose proof (infoAt_ok p l' u' HI) as (I1 & _). destruct (modS_facts h p l' u' dlt q x0 x1 HP HH I1 E) as (in0 & in1 & EP & _ & _ & K & _).
  split; [exact (samePos_put p q l u _ _ EP N)|exact K].
Qed.

(** the calls of others leave the position and the growth inside its range *)
Lemma call_same h p fuel o p' l u : poolOK h p -> posOK (Pos p) -> apart (posKey l u) o -> allowed h p o -> step fuel p o = Ok p' ->
  0 < minted h l u -> 0 < minted (log h o) l u -> poolOK (log h o) p' /\ samePos p p' l u /\ forall tk, insideGrowth tk p' l u = insideGrowth tk p l u.
Proof.
  intros HP HI AP HA E M M'. destruct o as [l' u' a|l' u' a|l' u' a|l' u' a|l' u'|a0 a1|a t lim|a t lim]; cbn [step log apart] in *; try contradiction.
  - destruct (mint_ok h p l' u' a p' HP HA E) as (HP' & _ & EP). split; [assumption|]. split; [now apply samePos_eq|]. intros tk.
    destruct HA as (Ha & Hl & Hu & Ht). unfold Mint in E. apply bind_inv in E as ([] & E0 & E). apply invariant_inv in E0.
    assert (checkTicks l' u' = Ok tt) as Hc by (unfold modifyPosition in E; apply bind_inv in E as ([] & E1 & _); assumption).
    destruct (mint_hist h p l' u' a HP Ha Hl Hu Ht E0 Hc) as (HH & Em & Hpos). rewrite <- Em in E. exact (modifyPosition_keeps h p l' u' a p' HP HP' E tk l u M M').
  - destruct (burn_ok h p l' u' a HP HA) as (q & E' & HP' & _ & EP). rewrite E in E'. injection E' as <-. split; [assumption|]. split; [now apply samePos_eq|]. intros tk.
    unfold Burn in E. rewrite uneg_delta in E. exact (modifyPosition_keeps h p l' u' (- a) p' HP HP' E tk l u M M').
  - apply bind_inv in E as (((q & x0) & x1) & E & Q). cbn [fst] in Q. injection Q as ->. destruct (mintS_ok h p l' u' a p' x0 x1 HP HA E) as [HP' _]. split; [assumption|].
    destruct HA as (Ha & Hl & Hu & Ht). unfold MintStrategy in E. apply bind_inv in E as ([] & E0 & E). apply invariant_inv in E0.
    assert (checkTicks l' u' = Ok tt) as Hc by (unfold modifyPositionStrategy in E; apply bind_inv in E as ([] & E1 & _); assumption).
    destruct (mint_hist h p l' u' a HP Ha Hl Hu Ht E0 Hc) as (HH & Em & Hpos). rewrite <- Em in E. destruct (modS_same h p l' u' a p' x0 x1 l u HP HH HI AP E) as [S K].
    split; [assumption|]. intros tk. exact (K tk l u M M').
  - apply bind_inv in E as (((q & x0) & x1) & E & Q). cbn [fst] in Q. injection Q as ->. destruct (burnS_ok h p l' u' a p' x0 x1 HP HA E) as [HP' _]. split; [assumption|].
    destruct HA as (Ha & Hm). pose proof (burn_hist h p l' u' a HP Ha Hm) as HH.
    unfold BurnStrategy in E. rewrite uneg_delta in E. apply bind_inv in E as (((q & b0) & b1) & E0 & E). cbv zeta in E. destruct (modS_same h p l' u' (- a) q b0 b1 l u HP HH HI AP E0) as [S K].
    destruct (posGet (Pos q) (posKey l' u')) as [i|] eqn:G; [|discriminate]. injection E as <- _ _. split.
    + eapply samePos_trans; [exact S|]. eapply samePos_put; [reflexivity|exact AP].
    + intros tk. exact (K tk l u M M').
  - apply bind_inv in E as (((q & x0) & x1) & E & Q). cbn [fst] in Q. injection Q as ->. unfold CollectStrategy in E. destruct (posGet (Pos p) (posKey l' u')) as [i|] eqn:G; [|discriminate].
    injection E as <- _ _. split; [now apply poolOK_with_pos|]. split; [|reflexivity].
    intros i0 H. cbn [with_pos Pos]. rewrite posGet_put. destruct (keyEq (posKey l' u') (posKey l u)) eqn:C; [|eauto]. apply keyEq_true in C. rewrite C, H in G. injection G as <-. eexists. split; [reflexivity|]. auto.
Qed.

Record settleInv (m l u : Z) (p0 : Pool) (h : hist) (p : Pool) (v0 v1 : Z) : Prop := {
  si_pool : poolOK h p;
  si_info : posOK (Pos p);
  si_liq : m <= minted h l u;
  si_total : total h <= 2 ^ 127 /\ total h <= 2 ^ 63 * m;
  si_same : samePos p0 p l u;
  si_paid : 0 <= v0 /\ 0 <= v1;
  si_growth : forall tk, tok tk v0 v1 < 2 ^ 128 -> exists D, 0 <= D <= tok tk v0 v1 * 2 ^ 128 /\ notTiny m D /\ insideGrowth tk p l u = (insideGrowth tk p0 l u + D) mod T256
}.

Lemma inv_grow m l u p0 h p v0 v1 p' w0 w1 (c : bool -> Z) : 0 < m -> settleInv m l u p0 h p v0 v1 -> poolOK h p' -> Pos p' = Pos p -> 0 <= w0 -> 0 <= w1 ->
  (forall tk, insideGrowth tk p' l u = (insideGrowth tk p l u + c tk) mod T256) ->
  (forall tk, tok tk w0 w1 < 2 ^ 128 -> 0 <= c tk <= tok tk w0 w1 * 2 ^ 128 /\ notTiny m (c tk)) ->
  settleInv m l u p0 h p' (v0 + w0) (v1 + w1).
Proof.
  intros Hm [S1 S2 S3 S4 S5 S6 S7] HP' EP W0 W1 HG HC. constructor; try assumption; try lia.
  - now rewrite EP.
  - eapply samePos_trans; [exact S5|]. now apply samePos_eq.
  - intros tk Hv. assert (tok tk (v0 + w0) (v1 + w1) = tok tk v0 v1 + tok tk w0 w1) as Et by (destruct tk; reflexivity). rewrite Et in *.
    assert (0 <= tok tk w0 w1 /\ 0 <= tok tk v0 v1) as [Q1 Q2] by (destruct tk; unfold tok; lia).
    destruct (S7 tk ltac:(lia)) as (D & D1 & D2 & D3). destruct (HC tk ltac:(lia)) as (C1 & C2). exists (D + c tk).
    split; [lia|]. split; [apply notTiny_add; try assumption; lia|]. rewrite HG, D3, Zplus_mod_idemp_l. f_equal. ring.
Qed.

Lemma fee_range h p : poolOK h p -> 0 < Liquidity p -> 0 <= Fee p < 1000000.
Proof.
  intros (HH & _ & Esp & Hf & EL & _) HL. destruct h as [|e h]; [rewrite EL in HL; cbn in HL; lia|].
  pose proof (proj1 (proj2 HH) e (or_introl eq_refl)) as (Q1 & _ & _ & [Q2 _] & _). pose proof (TickSpaces_nonneg (Fee p)).
  destruct (Z.eq_dec (TickSpacing p) 0) as [E0|N]; [lia|]. pose proof (TickSpaces_fee (Fee p) ltac:(lia)) as TF. unfold MaxFee in TF. lia.
Qed.

Lemma others_inv m l u h0 p0 h p v0 v1 : 0 < m -> poolOK h0 p0 -> posOK (Pos p0) -> m <= minted h0 l u -> total h0 <= 2 ^ 127 -> total h0 <= 2 ^ 63 * m ->
  others m l u h0 p0 h p v0 v1 -> settleInv m l u p0 h p v0 v1.
Proof.
  intros Hm HP0 HI0 M0 T1 T2. induction 1 as [|h p v0 v1 o p' H IH AP HA E M' T1' T2'|h p v0 v1 a0 a1 p' H IH H0 H1 E|h p v0 v1 n z amt lim p' a0 a1 H IH Ha E].
  - constructor; try assumption; try lia; [apply samePos_refl|]. intros tk _. exists 0. split; [destruct tk; unfold tok; lia|]. split; [now left|].
    rewrite Z.add_0_r. symmetry. apply Z.mod_small. destruct (inside_ok h0 p0 l u HP0 ltac:(lia)) as (x0 & x1 & G). destruct (inside_u256 h0 p0 l u x0 x1 HP0 ltac:(lia) G) as [U0 U1].
    unfold insideGrowth. rewrite G. destruct tk; assumption.
  - destruct IH as [S1 S2 S3 S4 S5 S6 S7]. destruct (call_same h p 0 o p' l u S1 S2 AP HA E ltac:(lia) ltac:(lia)) as (HP' & K1 & K2). constructor; try assumption; try lia.
    + exact (step_posOK h p 0 o p' S1 S2 HA E).
    + eapply samePos_trans; eassumption.
    + intros tk Hv. rewrite K2. auto.
  - pose proof IH as [S1 S2 S3 S4 S5 S6 S7]. pose proof S1 as (HH & _ & _ & _ & EL & _). pose proof (active_range _ _ (TickCurrent p) HH) as AR.
    assert (0 < Liquidity p) as HL.
    { unfold Flash in E. apply bind_inv in E as ([] & E0 & _). apply invariant_inv in E0. apply usign_1 in E0; lia. }
    pose proof (fee_range h p S1 HL) as HF. pose proof (flash_ok h p a0 a1 p' S1 E) as HP'.
    destruct (flash_spec p a0 a1 p' H0 H1 ltac:(unfold is_u256; lia) HF E) as (_ & f0 & f1 & E0 & E1 & ->).
    assert (0 <= f0 <= a0 /\ 0 <= f1 <= a1) as [B0 B1].
    { unfold is_u256 in *. assert (forall a, 0 <= a -> 0 <= (a * Fee p + 999999) / 1000000 <= a) as KF; [|subst; split; apply KF; lia].
      intros a Ha. assert (0 <= a * Fee p <= a * 999999) by (split; [apply Z.mul_nonneg_nonneg; lia|apply Z.mul_le_mono_nonneg_l; lia]). split; [apply Z.div_pos; lia|]. apply Z.lt_succ_r, Z.div_lt_upper_bound; lia. }
    set (c := fun tk : bool => ind ((l <=? TickCurrent p) && (TickCurrent p <? u)) * (tok tk f0 f1 * 2 ^ 128 / Liquidity p)).
    apply (inv_grow m l u p0 h p v0 v1 _ a0 a1 c Hm IH HP' eq_refl); [apply H0|apply H1| |].
    + intros tk. destruct (inside_ok h p l u S1 ltac:(lia)) as (x0 & x1 & G). pose proof (proj1 (proj1 (proj2 S1))) as S. pose proof (minted_range _ h l u HH ltac:(lia)) as (Hlu & _).
      unfold insideGrowth. cbn [Data TickCurrent FeeGrowth0 FeeGrowth1]. rewrite G.
      pose proof (inside_grow0 (Data p) l u (TickCurrent p) (FeeGrowth0 p) (FeeGrowth1 p) (f0 * 2 ^ 128 / Liquidity p) x0 x1 S Hlu G) as G0.
      pose proof (inside_grow1 (Data p) l u (TickCurrent p) _ (FeeGrowth1 p) (f1 * 2 ^ 128 / Liquidity p) _ x1 S Hlu G0) as G1. unfold uadd in G1. rewrite G1. unfold c. destruct tk; reflexivity.
    + intros tk Hv. assert (0 <= tok tk f0 f1 <= tok tk a0 a1) as FB by (destruct tk; unfold tok; assumption).
      assert (exactShare h (mkShare (TickCurrent p) ((tok tk f0 f1 * Q128 / active h (TickCurrent p)) mod T256) (tok tk f0 f1))) as ES by (unfold exactShare; cbn [shTick shFee shGrowth]; split; [lia|]; split; [lia|reflexivity]).
      destruct (share_bounds h _ m _ HH Hm (proj1 S4) (proj2 S4) ES ltac:(cbn [shFee]; lia)) as [B2 B3]. cbn [shFee shGrowth] in B2, B3. rewrite <- EL in B2, B3. change Q128 with (2 ^ 128) in B2, B3.
      rewrite Z.mod_small in B2, B3.
      * unfold c, ind. destruct (_ && _); rewrite ?Z.mul_1_l, ?Z.mul_0_l; [split; [lia|assumption]|split; [lia|now left]].
      * split; [apply Z.div_pos; lia|]. apply Z.div_lt_upper_bound; [lia|]. assert (1 * T256 <= Liquidity p * T256) by (apply Z.mul_le_mono_nonneg_r; lia). lia.
      * split; [apply Z.div_pos; lia|]. apply Z.div_lt_upper_bound; [lia|]. assert (1 * T256 <= Liquidity p * T256) by (apply Z.mul_le_mono_nonneg_r; lia). lia.
  - pose proof IH as [S1 S2 S3 S4 S5 S6 S7]. destruct (swap_ok h p z amt lim S1 Ha n p' a0 a1 E) as (HP' & _ & _ & _ & _ & EP & _).
    destruct (swap_fees h p n z amt lim p' a0 a1 S1 Ha E) as (rs & F1 & F2 & _ & _ & _ & F6). pose proof (proj1 S1) as HH.
    replace (if z then v0 + a0 else v0) with (v0 + (if z then a0 else 0)) by (destruct z; lia). replace (if z then v1 else v1 + a1) with (v1 + (if z then 0 else a1)) by (destruct z; lia).
    apply (inv_grow m l u p0 h p v0 v1 _ _ _ (fun tk => if Bool.eqb tk z then credited rs l u else 0) Hm IH HP' EP); [destruct z; lia|destruct z; lia| |].
    + intros tk. destruct (inside_ok h p l u S1 ltac:(lia)) as (x0 & x1 & G). destruct (inside_u256 h p l u x0 x1 S1 ltac:(lia) G) as [U0 U1]. pose proof (minted_range _ h l u HH ltac:(lia)) as (Hlu & _).
      unfold insideGrowth. rewrite G, (F6 l u x0 x1 Hlu G). destruct tk, z; cbn [Bool.eqb]; rewrite ?Z.add_0_r; try reflexivity; symmetry; apply Z.mod_small; assumption.
    + intros tk Hv. destruct (Bool.bool_dec tk z) as [->|N].
      * rewrite Bool.eqb_reflx. assert (tok z (if z then a0 else 0) (if z then 0 else a1) = if z then a0 else a1) as Et by (destruct z; reflexivity). rewrite Et in *.
        destruct (credited_bounds h _ m rs l u HH Hm (proj1 S4) (proj2 S4) (fun r Hr => proj1 (F1 r Hr)) ltac:(lia)) as (B1 & B2 & _). split; [lia|assumption].
      * assert (Bool.eqb tk z = false) as -> by (destruct tk, z; reflexivity || congruence). split; [|now left]. split; [lia|]. destruct tk, z; unfold tok; try congruence; lia.
Qed.

(** a position that was settled in [p0] and left alone since can be settled again *)
Lemma others_settles m l u h0 p0 i h p v0 v1 : reach h0 p0 -> posGet (Pos p0) (posKey l u) = Some i -> pLiquidity i = m -> 0 < m ->
  GetFeeGrowthInside (Data p0) l u (TickCurrent p0) (FeeGrowth0 p0) (FeeGrowth1 p0) = Ok (pLast0 i, pLast1 i) ->
  m <= minted h0 l u -> total h0 <= 2 ^ 127 -> total h0 <= 2 ^ 63 * m ->
  others m l u h0 p0 h p v0 v1 -> v0 < 2 ^ 128 -> v1 < 2 ^ 128 -> settles p l u.
Proof.
  intros R Gi Em Hm GI M0 T1 T2 H V0 V1 j Gj. pose proof (reach_ok h0 p0 R) as HP0. destruct (others_inv m l u h0 p0 h p v0 v1 Hm HP0 (reach_posOK h0 p0 R) M0 T1 T2 H) as [S1 S2 S3 S4 S5 S6 S7].
  right. destruct (S5 i Gi) as (j' & Gj' & J1 & J2 & J3). rewrite Gj in Gj'. injection Gj' as <-. pose proof (minted_total h l u (proj1 (proj1 S1))) as MT.
  split; [rewrite J1, Em; lia|]. destruct (inside_ok h p l u S1 ltac:(lia)) as (x0 & x1 & G). exists x0, x1. split; [assumption|].
  assert (forall tk, creditable m (tok tk x0 x1) (tok tk (pLast0 i) (pLast1 i))) as K.
  { intros tk. destruct (S7 tk) as (D & D1 & D2 & D3); [destruct tk; unfold tok; assumption|]. unfold creditable. cbv zeta.
    assert (tok tk x0 x1 = (tok tk (pLast0 i) (pLast1 i) + D) mod T256) as ->.
    { unfold insideGrowth in D3. rewrite G, GI in D3. destruct tk; unfold tok; exact D3. }
    rewrite Zminus_mod_idemp_l. replace (tok tk (pLast0 i) (pLast1 i) + D - tok tk (pLast0 i) (pLast1 i)) with D by ring.
    assert (tok tk v0 v1 < 2 ^ 128) by (destruct tk; unfold tok; assumption). rewrite Z.mod_small by lia. destruct D2 as [->|D2]; [left; lia|right; exact D2]. }
  rewrite J1, J2, J3, Em. split; [exact (K true)|exact (K false)].
Qed.

(** after a strategy's call on it the position is settled *)
Lemma mint_settled h p l u a p' x0 x1 : reach h p -> allowed h p (OMintStrategy l u a) -> MintStrategy p l u a = Ok (p', x0, x1) -> exists i,
  posGet (Pos p') (posKey l u) = Some i /\ pLiquidity i = (match posGet (Pos p) (posKey l u) with Some j => pLiquidity j | None => 0 end + a) mod T256 /\
  GetFeeGrowthInside (Data p') l u (TickCurrent p') (FeeGrowth0 p') (FeeGrowth1 p') = Ok (pLast0 i, pLast1 i).
Proof.
  intros R HA E. pose proof (reach_ok h p R) as HP. destruct (mintS_ok h p l u a p' x0 x1 HP HA E) as [HP' _]. destruct HA as (Ha & Hl & Hu & Ht). unfold MintStrategy in E. apply bind_inv in E as ([] & E0 & E). apply invariant_inv in E0.
  assert (checkTicks l u = Ok tt) as Hc by (unfold modifyPositionStrategy in E; apply bind_inv in E as ([] & E1 & _); assumption).
  destruct (mint_hist h p l u a HP Ha Hl Hu Ht E0 Hc) as (HH & Em & Hpos). rewrite <- Em in E. pose proof (infoAt_ok p l u (reach_posOK h p R)) as (I1 & _).
  destruct (modS_facts h p l u a p' x0 x1 HP HH I1 E) as (in0 & in1 & EP & _ & F & _).
  assert (0 < minted (mkE l u a :: h) l u) as M by (rewrite minted_cons, !Z.eqb_refl; cbn [andb]; pose proof (proj1 (proj1 HP) l u); lia). specialize (F M).
  eexists. rewrite EP, posGet_put, keyEq_refl. split; [reflexivity|]. cbn [pLiquidity pLast0 pLast1]. split; [unfold infoAt; destruct (posGet (Pos p) (posKey l u)); reflexivity|].
  destruct (inside_ok _ p' l u HP' M) as (y0 & y1 & G). rewrite G. pose proof (F true) as F0. pose proof (F false) as F1. unfold insideGrowth in F0, F1. rewrite G in F0, F1. cbn [tok] in F0, F1. now rewrite F0, F1.
Qed.
Lemma burn_settled h p l u a p' x0 x1 : reach h p -> allowed h p (OBurnStrategy l u a) -> BurnStrategy p l u a = Ok (p', x0, x1) -> a < minted h l u -> exists i,
  posGet (Pos p') (posKey l u) = Some i /\ pLiquidity i = (match posGet (Pos p) (posKey l u) with Some j => pLiquidity j | None => 0 end - a) mod T256 /\
  GetFeeGrowthInside (Data p') l u (TickCurrent p') (FeeGrowth0 p') (FeeGrowth1 p') = Ok (pLast0 i, pLast1 i).
Proof.
  intros R HA E Hlt. pose proof (reach_ok h p R) as HP. destruct (burnS_ok h p l u a p' x0 x1 HP HA E) as [HP' _]. destruct HA as (Ha & Hm). pose proof (burn_hist h p l u a HP Ha Hm) as HH.
  unfold BurnStrategy in E. rewrite uneg_delta in E. apply bind_inv in E as (((q & b0) & b1) & E0 & E). cbv zeta in E. pose proof (infoAt_ok p l u (reach_posOK h p R)) as (I1 & _).
  destruct (modS_facts h p l u (- a) q b0 b1 HP HH I1 E0) as (in0 & in1 & EP & _ & F & _).
  assert (0 < minted (mkE l u (- a) :: h) l u) as M by (rewrite minted_cons, !Z.eqb_refl; cbn [andb]; lia). specialize (F M).
  rewrite EP, posGet_put, keyEq_refl in E. injection E as <- _ _. eexists. cbn [with_pos Pos Data TickCurrent FeeGrowth0 FeeGrowth1]. rewrite posGet_put, keyEq_refl. split; [reflexivity|]. cbn [pLiquidity pLast0 pLast1].
  split; [unfold infoAt; destruct (posGet (Pos p) (posKey l u)); reflexivity|].
  destruct (inside_ok _ _ l u HP' M) as (y0 & y1 & G). cbn [with_pos Data TickCurrent FeeGrowth0 FeeGrowth1] in G. rewrite G. pose proof (F true) as F0. pose proof (F false) as F1. unfold insideGrowth in F0, F1. rewrite G in F0, F1. cbn [tok] in F0, F1. now rewrite F0, F1.
Qed.

Lemma others_burn m l u h0 p0 i h p v0 v1 a : reach h0 p0 -> posGet (Pos p0) (posKey l u) = Some i -> pLiquidity i = m -> 0 < m ->
  GetFeeGrowthInside (Data p0) l u (TickCurrent p0) (FeeGrowth0 p0) (FeeGrowth1 p0) = Ok (pLast0 i, pLast1 i) ->
  m <= minted h0 l u -> total h0 <= 2 ^ 127 -> total h0 <= 2 ^ 63 * m ->
  others m l u h0 p0 h p v0 v1 -> v0 < 2 ^ 128 -> v1 < 2 ^ 128 ->
  0 <= a <= m -> exists r, BurnStrategy p l u a = Ok r.
Proof.
  intros R Gi Em Hm GI M0 T1 T2 H V0 V1 Ha. pose proof (others_settles m l u h0 p0 i h p v0 v1 R Gi Em Hm GI M0 T1 T2 H V0 V1) as HS.
  destruct (others_inv m l u h0 p0 h p v0 v1 Hm (reach_ok h0 p0 R) (reach_posOK h0 p0 R) M0 T1 T2 H) as [S1 _ S3 _ _ _ _].
  apply (burn_strategy_some h p l u a S1); try assumption; lia.
Qed.
Lemma others_mint m l u h0 p0 i h p v0 v1 a : reach h0 p0 -> posGet (Pos p0) (posKey l u) = Some i -> pLiquidity i = m -> 0 < m ->
  GetFeeGrowthInside (Data p0) l u (TickCurrent p0) (FeeGrowth0 p0) (FeeGrowth1 p0) = Ok (pLast0 i, pLast1 i) ->
  m <= minted h0 l u -> total h0 <= 2 ^ 127 -> total h0 <= 2 ^ 63 * m ->
  others m l u h0 p0 h p v0 v1 -> v0 < 2 ^ 128 -> v1 < 2 ^ 128 ->
  0 < a -> total h + a < 2 ^ 128 -> u <= TickCurrent p \/ TickCurrent p < l \/ SqrtRatio p < 2 ^ 128 -> exists r, MintStrategy p l u a = Ok r.
Proof.
  intros R Gi Em Hm GI M0 T1 T2 H V0 V1 Ha Ht Hu. pose proof (others_settles m l u h0 p0 i h p v0 v1 R Gi Em Hm GI M0 T1 T2 H V0 V1) as HS.
  destruct (others_inv m l u h0 p0 h p v0 v1 Hm (reach_ok h0 p0 R) (reach_posOK h0 p0 R) M0 T1 T2 H) as [S1 _ S3 _ _ _ _].
  pose proof (minted_range _ _ l u (proj1 S1) ltac:(lia)) as (Q1 & Q2 & Q3 & Q4 & Q5).
  apply (mint_strategy_some h p l u a S1); try assumption; lia.
Qed.

(** a pool in which a position of liquidity 1 cannot be withdrawn after one swap: the market holds 2^70 *)
Definition okP (r : res (Pool * Z * Z)) : Pool := match r with Ok x => fst (fst x) | _ => startPool end.
Definition tiny0 : Pool := Eval vm_compute in okOr (NewPool "A" "B" 3000 79623317895830914510639640423) startPool.
Definition tiny1 : Pool := Eval vm_compute in okOr (Mint tiny0 60 180 (2 ^ 70)) startPool.
Definition tiny2 : Pool := Eval vm_compute in okP (MintStrategy tiny1 60 180 1).
Definition tiny3 : Pool := Eval vm_compute in okP (swap 20 tiny2 false 1000 0).
Definition tinyHist : hist := [mkE 60 180 1; mkE 60 180 (2 ^ 70)].
Lemma tiny2_reach : reach tinyHist tiny2.
Proof.
  apply (reach_step [mkE 60 180 (2 ^ 70)] tiny1 20 (OMintStrategy 60 180 1)).
  - apply (reach_step [] tiny0 20 (OMint 60 180 (2 ^ 70))).
    + apply (reach_new "A" "B" 3000 79623317895830914510639640423). vm_compute. reflexivity.
    + split; [vm_compute; intuition discriminate|]. split; [apply placed_multiple; [reflexivity|exists 1; reflexivity]|]. split; [apply placed_multiple; [reflexivity|exists 3; reflexivity]|]. vm_compute. reflexivity.
    + vm_compute. reflexivity.
  - split; [vm_compute; intuition discriminate|]. split; [apply placed_multiple; [reflexivity|exists 1; reflexivity]|]. split; [apply placed_multiple; [reflexivity|exists 3; reflexivity]|]. vm_compute. reflexivity.
  - vm_compute. reflexivity.
Qed.
Lemma tiny_stuck : exists p i a0, reach tinyHist tiny2 /\ posGet (Pos tiny2) (posKey 60 180) = Some i /\ pLiquidity i = 1 /\
  GetFeeGrowthInside (Data tiny2) 60 180 (TickCurrent tiny2) (FeeGrowth0 tiny2) (FeeGrowth1 tiny2) = Ok (pLast0 i, pLast1 i) /\
  swap 20 tiny2 false 1000 0 = Ok (p, a0, 1000) /\ forall a, 0 <= a <= 1 -> BurnStrategy p 60 180 a = Panic.
Proof.
  exists tiny3, (mkInfo 1 0 0 0 0), (2 ^ 256 - 987). split; [exact tiny2_reach|]. split; [vm_compute; reflexivity|]. split; [reflexivity|]. split; [vm_compute; reflexivity|]. split; [vm_compute; reflexivity|].
  intros a Ha. assert (a = 0 \/ a = 1) as [-> | ->] by lia; vm_compute; reflexivity.
Qed.

(** good2 comes from a mint on [0, 600); good3 from a swap *)
Lemma settle_case : exists i, reach goodHist good2 /\ posGet (Pos good2) (posKey 0 600) = Some i /\ pLiquidity i = 10 ^ 18 /\
  GetFeeGrowthInside (Data good2) 0 600 (TickCurrent good2) (FeeGrowth0 good2) (FeeGrowth1 good2) = Ok (pLast0 i, pLast1 i) /\
  minted goodHist 0 600 = 10 ^ 18 /\ total goodHist = 2 * 10 ^ 18 /\
  others (10 ^ 18) 0 600 goodHist good2 (mkE 60 180 (- 10 ^ 18) :: goodHist) (okOr (Burn good3 60 180 (10 ^ 18)) startPool) 0 (2 * 10 ^ 16).
Proof.
  exists (mkInfo (10 ^ 18) 0 0 0 0). split; [exact good2_reach|]. split; [vm_compute; reflexivity|]. split; [reflexivity|]. split; [vm_compute; reflexivity|]. split; [vm_compute; reflexivity|]. split; [vm_compute; reflexivity|].
  apply (ot_call (10 ^ 18) 0 600 goodHist good2 goodHist good3 0 (2 * 10 ^ 16) (OBurn 60 180 (10 ^ 18))).
  - assert (exists a0, swap 20 good2 false (2 * 10 ^ 16) 0 = Ok (good3, a0, 2 * 10 ^ 16)) as (a0 & E) by (eexists; vm_compute; reflexivity).
    exact (ot_swap (10 ^ 18) 0 600 goodHist good2 goodHist good2 0 0 20 false (2 * 10 ^ 16) 0 good3 a0 (2 * 10 ^ 16) (ot_start _ _ _ _ _) ltac:(unfold is_u256; lia) E).
  - exact I.
  - split; [vm_compute; intuition discriminate|vm_compute; reflexivity].
  - vm_compute. reflexivity.
  - vm_compute. discriminate.
  - vm_compute. discriminate.
  - vm_compute. discriminate.
Qed.
