(** PoolReturns.v -- on ordinary values the operations of a pool return: no panic. *)
From Coq Require Import ZifyBool String.
From Verif Require Import Base U256Z FullMathFacts SwapMath SwapMathFacts SwapStep SwapStepReturns LiqFacts TickMath TickMathFacts TickAccuracy TickData TickDataFacts TickSearch TickFees Ledger Pool PoolTable PoolInv PoolSwap PoolLoop PoolHist PoolOps PoolMint PoolFees PoolPos PoolSpec PoolLimit.
Ltac Zify.zify_post_hook ::= idtac.
Open Scope Z_scope.

(** ** swaps *)

(** what is left to swap, as a number below 2^128 to pay or up to 2^128 to receive *)
Definition remSmall (ex : bool) (rem : Z) : Prop := if ex then 0 <= rem < 2 ^ 128 else rem = 0 \/ T256 - 2 ^ 128 <= rem < T256.

(** the fee of a step is at most 2^128 times the liquidity, so the fee growth can be computed *)
Lemma step_fee_small P T l rem f ex st : priceS P -> priceS T -> 0 < l < 2 ^ 128 -> rem <> 0 -> remSmall ex rem -> 0 <= f < MaxFee ->
  ComputeSwapStep P T l rem f = Ok st -> 0 <= stFee st < l * 2 ^ 128.
Proof.
  intros HP HT Hl Hr0 Hr Hf E. assert (liqR l) as HlR by (unfold liqR; lia). unfold remSmall in Hr. destruct ex.
  - destruct (step_exactin P T l rem f st (priceS_R _ HP) (priceS_R _ HT) HlR ltac:(lia) ltac:(unfold MaxFee in *; lia) E) as (_ & _ & _ & A4 & _ & A6 & A7 & _). lia.
  - destruct Hr as [|Hr]; [lia|].
    destruct (step_exactout P T l rem f st (priceS_R _ HP) (priceS_R _ HT) HlR ltac:(lia) Hf E) as (A1 & A2 & _ & A4 & _ & A6 & _). cbv zeta in *.
    assert (stIn st <= l * 2 ^ 64) as Hin.
    { unfold priceS, toward, in_ceil, ceil0, ceil1 in *. set (r := stNext st) in *. clearbody r. destruct (T <=? P).
      - apply Z.nlt_ge. intros C.
        assert (l * 2 ^ 64 * (r * P) <= (stIn st - 1) * (r * P)) by (apply Z.mul_le_mono_nonneg_r; [apply Z.mul_nonneg_nonneg; lia|lia]).
        assert (l * 2 ^ 64 * (2 ^ 32 * P) <= l * 2 ^ 64 * (r * P)) by (apply Z.mul_le_mono_nonneg_l; [lia|apply Z.mul_le_mono_nonneg_r; lia]).
        assert (l * 2 ^ 96 * (P - r) <= l * 2 ^ 96 * P) by (apply Z.mul_le_mono_nonneg_l; lia). unfold Q96 in *. lia.
      - apply Z.nlt_ge. intros C. assert (l * (r - P) <= l * 2 ^ 128) by (apply Z.mul_le_mono_nonneg_l; lia). unfold Q96 in *. lia. }
    assert (stIn st * f <= l * 2 ^ 64 * MaxFee) by (apply Z.mul_le_mono_nonneg; lia).
    assert (0 <= stIn st * f) by (apply Z.mul_nonneg_nonneg; lia).
    assert (0 <= stFee st) as HF0 by (apply Z.nlt_ge; intros C; assert (stFee st * (MaxFee - f) <= -1 * (MaxFee - f)) by (apply Z.mul_le_mono_nonneg_r; lia); lia).
    assert (stFee st * 1 <= stFee st * (MaxFee - f)) by (apply Z.mul_le_mono_nonneg_l; lia). unfold MaxFee in *. lia.
Qed.

(** a step keeps what is left small *)
Lemma step_rem_small P T l rem f ex st : priceR P -> priceR T -> 0 <= l < 2 ^ 128 -> rem <> 0 -> remSmall ex rem -> 0 <= f < MaxFee ->
  ComputeSwapStep P T l rem f = Ok st -> remSmall ex (if ex then usub rem (uadd (stIn st) (stFee st)) else uadd rem (stOut st)).
Proof.
  intros HP HT Hl Hr0 Hr Hf E. assert (remOK ex rem) as HR by (unfold remOK, remSmall in *; destruct ex; lia).
  destruct (step_facts P T l rem f ex st HP HT Hl Hr0 HR Hf E) as (_ & A2 & _ & A4 & A5 & A6 & A7). cbv zeta in *. unfold remSmall, remOK in *. destruct ex; lia.
Qed.

Section Returns.
Variables (h : hist) (sp : Z) (z ex : bool) (limit fee other : Z).
Hypothesis HH : histOK sp h.
Hypothesis Hsp : 0 < sp.
Hypothesis Hfee : 0 <= fee < MaxFee.
Hypothesis Hlim : limitOK z limit.
Hypothesis Hbig : limit < 2 ^ 128.
Notation ok := (loopOK h sp z ex limit).

(** small amounts left, a price below 2^128, at least one initialised tick *)
Definition ordinary (s : State) : Prop := remSmall ex (sRemaining s) /\ sPrice s < 2 ^ 128 /\ exists j, 0 < gross h j.

Lemma ordinary_round s : ok s -> ordinary s -> running limit s = true -> exists s', swapRound z ex limit fee other s = Ok s' /\ ok s' /\ ordinary s'.
Proof.
  intros HL (HR & HPs & j & Hj) R. pose proof HL as (HT & EL & HP & HG & HRo & Hside).
  assert (sRemaining s <> 0 /\ sPrice s <> limit) as [Hr0 Hpl] by (unfold running in R; lia).
  assert (exists s', swapRound z ex limit fee other s = Ok s') as (s' & E).
  { unfold swapRound. pose proof HT as (Hs & Esp & HLk).
    assert (ticks (sData s) <> []) as Hne.
    { intros E0. specialize (HLk j). rewrite E0 in HLk. cbn in HLk. lia. }
    destruct (TickSearch.search_ok (sData s) (sTick s) Hs z ltac:(lia) Hne) as (n & b & En). rewrite En. cbn [bind].
    pose proof (search_facts h sp z (sData s) (sTick s) n b HH HT Hsp (proj1 HP) En) as [HS HC]. cbv zeta in HC. set (k := clampTick n) in *. clearbody k.
    pose proof HS as [Hk Hss]. rewrite rat_ok by assumption. cbn [bind].
    assert ((if z then if rat k <? limit then limit else rat k else if limit <? rat k then limit else rat k) = targetOf z limit (rat k)) as ET.
    { unfold targetOf. destruct z; [destruct (rat k <? limit) eqn:?|destruct (limit <? rat k) eqn:?]; lia. }
    rewrite ET. clear ET. pose proof (price_bounds _ _ HP) as HPb. pose proof (rat_range k Hk) as Hkb.
    assert (MinSqrtRatio <= targetOf z limit (rat k) < 2 ^ 128) as HTb.
    { unfold targetOf, side, limitOK in *. destruct z; [|lia].
      destruct (misplaced_dec (sTick s) sp) as [M|M].
      - destruct (proj1 Hss M) as [_ [H1 H2]]. pose proof (rat_le k 0 ltac:(lia) ltac:(lia) ltac:(unfold MaxTick; lia)) as Q. rewrite rat_0 in Q. lia.
      - pose proof (proj1 HP) as HPt. pose proof (proj2 Hss M) as H1. pose proof (rat_le k (sTick s) ltac:(lia) ltac:(lia) ltac:(lia)) as Q. destruct HP as (_ & HP & _). lia. }
    pose proof (active_range _ _ (sTick s) HH) as Hliq. rewrite <- EL in Hliq. set (T := targetOf z limit (rat k)) in *.
    assert (priceS (sPrice s)) as HPS by (unfold priceS, MinSqrtRatio in *; lia). assert (priceS T) as HTS by (unfold priceS, MinSqrtRatio in *; lia).
    destruct (step_returns (sPrice s) T (sLiquidity s) (sRemaining s) fee HPS HTS Hliq Hfee ltac:(unfold remSmall in HR; destruct ex; lia)) as (st & Est).
    rewrite Est. cbn [bind]. cbv zeta.
    destruct (step_facts (sPrice s) T (sLiquidity s) (sRemaining s) fee ex st (priceS_R _ HPS) (priceS_R _ HTS) Hliq Hr0 HRo Hfee Est) as (A1 & _).
    assert (exists g, (if 0 <? usign (sLiquidity s) then bind (MulDiv (stFee st) Q128 (sLiquidity s)) (fun f => Ok (uadd (sGrowth s) f)) else Ok (sGrowth s)) = Ok g) as (g & Eg).
    { unfold usign. destruct (sLiquidity s =? 0) eqn:C0; [cbn; eauto|]. replace (sLiquidity s <? T255) with true by lia. change (0 <? 1) with true. cbv iota.
      pose proof (step_fee_small (sPrice s) T (sLiquidity s) (sRemaining s) fee ex st HPS HTS ltac:(lia) Hr0 HR Hfee Est) as Hf.
      destruct (MulDiv_returns (stFee st) Q128 (sLiquidity s)) as (x & ->); [lia|unfold Q128; lia|lia|unfold Q128; lia|right; left; lia|]. cbn [bind]. eauto. }
    rewrite Eg. cbn [bind]. destruct (stNext st =? rat k) eqn:Cn.
    - destruct b; cbn [bind]; [|eauto].
      assert (present (sData s) k) as Pk by (destruct z; tauto). unfold present in Pk.
      pose proof (Cross_spec (sData s) k g other Hs) as C1. pose proof (Cross_spec (sData s) k other g Hs) as C2.
      destruct (lookup (ticks (sData s)) k); [|congruence]. destruct C1 as (t1 & C1 & _), C2 as (t2 & C2 & _). destruct z; [rewrite C1|rewrite C2]; cbn [bind]; eauto.
    - destruct (negb (stNext st =? sPrice s)); [|eauto].
      destruct (tick_ok tickFuel (stNext st) (le_n _)) as (t & Et & _).
      { unfold toward, T, MaxSqrtRatio in *. destruct (_ <=? sPrice s); lia. }
      unfold GetTickAtSqrtRatio. rewrite Et. cbn [bind]. eauto. }
  exists s'. split; [exact E|]. destruct (round_ok h sp z ex limit fee other s s' HH Hsp Hfee Hlim HL Hr0 Hpl E) as (k & st & RF).
  pose proof (rf_ok _ _ _ _ _ _ _ _ _ _ _ RF) as HL'. split; [exact HL'|].
  pose proof (rf_search _ _ _ _ _ _ _ _ _ _ _ RF) as [Hk Hss]. pose proof (rf_step _ _ _ _ _ _ _ _ _ _ _ RF) as Est.
  pose proof (price_bounds _ _ HP) as HPb. pose proof (rat_range k Hk) as Hkb.
  pose proof (active_range _ _ (sTick s) HH) as Hliq. rewrite <- EL in Hliq.
  assert (MinSqrtRatio <= targetOf z limit (rat k) < 2 ^ 128) as HTb.
  { unfold targetOf, side, limitOK in *. destruct z; [|lia].
    destruct (misplaced_dec (sTick s) sp) as [M|M].
    - destruct (proj1 Hss M) as [_ [H1 H2]]. pose proof (rat_le k 0 ltac:(lia) ltac:(lia) ltac:(unfold MaxTick; lia)) as Q. rewrite rat_0 in Q. lia.
    - pose proof (proj1 HP) as HPt. pose proof (proj2 Hss M) as H1. pose proof (rat_le k (sTick s) ltac:(lia) ltac:(lia) ltac:(lia)) as Q. destruct HP as (_ & HP & _). lia. }
  set (T := targetOf z limit (rat k)) in *.
  assert (priceR (sPrice s)) as HPR by (apply price_R; lia). assert (priceR T) as HTR by (apply price_R; unfold MaxSqrtRatio; lia).
  destruct (step_facts (sPrice s) T (sLiquidity s) (sRemaining s) fee ex st HPR HTR Hliq Hr0 HRo Hfee Est) as (A1 & _).
  split; [|split; [|eauto]].
  - rewrite (rf_rem _ _ _ _ _ _ _ _ _ _ _ RF). exact (step_rem_small (sPrice s) T (sLiquidity s) (sRemaining s) fee ex st HPR HTR Hliq Hr0 HR Hfee Est).
  - rewrite (rf_price _ _ _ _ _ _ _ _ _ _ _ RF). unfold toward in A1. destruct (T <=? sPrice s); lia.
Qed.

Lemma ordinary_loop n : forall s, ok s -> ordinary s -> swapLoop n z ex limit fee other s <> Panic.
Proof.
  induction n as [|n IH]; intros s HL HO; rewrite loop_eq; destruct (running limit s) eqn:R; try discriminate.
  destruct (ordinary_round s HL HO R) as (s' & -> & HL' & HO'). cbn [bind]. now apply IH.
Qed.
End Returns.

(** an empty table: nothing to swap against *)
Lemma has_tick h p : poolOK h p -> ticks (Data p) <> [] -> exists j, 0 < gross h j.
Proof.
  intros HP N. destruct (ticks (Data p)) as [|x l] eqn:E; [congruence|]. exists (tkIndex x). apply (ok_lookup h p (tkIndex x) HP).
  destruct (ok_sorted h p HP) as [S _]. exists x. rewrite GetTick_spec by assumption. rewrite E. cbn. rewrite Z.eqb_refl. reflexivity.
Qed.
Lemma tick_spacing h p j : poolOK h p -> 0 < gross h j -> 0 < TickSpacing p.
Proof.
  intros HP Hg. destruct HP as (HH & _ & E & _). pose proof (TickSpaces_nonneg (Fee p)). destruct (Z.eq_dec (TickSpacing p) 0) as [Z0|]; [|lia]. exfalso.
  destruct (gross_in h j) as (e & He & _); [lia|]. destruct HH as (_ & R & _). destruct (R e He) as (Q1 & _ & _ & [Q4 _] & _). lia.
Qed.

Lemma swap_no_panic h p fuel z amt lim : reach h p -> ticks (Data p) <> [] ->
  0 < amt < 2 ^ 128 \/ T256 - 2 ^ 128 <= amt < T256 ->
  SqrtRatio p < 2 ^ 128 -> effectiveLimit z lim < 2 ^ 128 ->
  (if z then MinSqrtRatio < effectiveLimit z lim < SqrtRatio p else SqrtRatio p < effectiveLimit z lim) ->
  swap fuel p z amt lim <> Panic.
Proof.
  intros R Hne Ha Hp Hl Hlim. pose proof (reach_ok h p R) as HP. destruct (has_tick h p HP Hne) as (j & Hj). pose proof (tick_spacing h p j HP Hj) as Hsp.
  assert (is_u256 amt) as HU by (unfold is_u256; lia). assert (swapStarts p z amt lim) as HS by (unfold swapStarts; destruct z; unfold MaxSqrtRatio; lia).
  destruct (start_ok h p z amt lim HP HU HS) as (HL & Hl' & _). rewrite swap_eq by assumption.
  assert (0 <= Fee p < MaxFee) as Hfee by (apply TickSpaces_fee; destruct HP as (_ & _ & Es & _); rewrite <- Es; lia).
  pose proof (ordinary_loop h (TickSpacing p) z (amt <? T255) (effectiveLimit z lim) (Fee p) (otherGrowth p z) (proj1 HP) Hsp Hfee Hl' Hl fuel (startState p z amt) HL) as K.
  destruct (swapLoop _ _ _ _ _ _ _); cbn [bind]; [discriminate| |discriminate]. exfalso. apply K; [|reflexivity].
  unfold ordinary, startState, remSmall. cbn [sRemaining sPrice]. split; [destruct (amt <? T255) eqn:C; lia|]. split; [assumption|]. eauto.
Qed.

Lemma swap_empty h p fuel z amt lim : reach h p -> ticks (Data p) = [] -> 0 <= amt < T256 -> swap (S fuel) p z amt lim = Panic.
Proof.
  intros R E0 Ha. pose proof (reach_ok h p R) as HP. destruct (starts_dec p z amt lim) as [HS|N]; [|now apply swap_panics].
  destruct (start_ok h p z amt lim HP Ha HS) as (HL & Hl' & Hr). rewrite swap_eq by assumption. rewrite loop_eq, Hr. unfold swapRound. rewrite search_empty by (right; exact E0). reflexivity.
Qed.

Lemma swap_returns h p z amt lim : reach h p -> ticks (Data p) <> [] ->
  0 < amt < 2 ^ 128 \/ T256 - 2 ^ 128 <= amt < T256 ->
  SqrtRatio p < 2 ^ 128 -> effectiveLimit z lim < 2 ^ 128 ->
  (if z then MinSqrtRatio < effectiveLimit z lim < SqrtRatio p /\ clearWay p (effectiveLimit z lim) else SqrtRatio p < effectiveLimit z lim) ->
  exists r, swap allRounds p z amt lim = Ok r.
Proof.
  intros R Hne Ha Hp Hl Hlim. assert (swap allRounds p z amt lim <> Panic) as N1 by (apply (swap_no_panic h); try assumption; destruct z; tauto).
  assert (swap allRounds p z amt lim <> OutOfFuel) as N2.
  { destruct z; [apply (ends_down h); [assumption|unfold is_u256; lia|tauto]|apply (ends_up h); [assumption|unfold is_u256; lia]]. }
  destruct (swap allRounds p z amt lim); [eauto|congruence|congruence].
Qed.

(** ** positions *)

(** minting without a position fails only on its two checks *)
Lemma mint_some h p l u a : poolOK h p -> 0 <= a -> placed (TickSpacing p) l -> placed (TickSpacing p) u -> total h + a < 2 ^ 128 ->
  (exists p', Mint p l u a = Ok p') <-> 0 < a /\ MinTick <= l < u /\ u <= MaxTick.
Proof.
  intros R Ha Hl Hu Ht. pose proof R as HP.
  assert (0 <= total h) as T0. { destruct HP as ((C & _) & _). pose proof (sumOn_nonneg (fun _ _ => 1) h C ltac:(intros; lia)) as T0. exact T0. }
  split.
  - intros (p' & E). unfold Mint in E. apply bind_inv in E as ([] & E0 & E). apply invariant_inv in E0. apply usign_1 in E0; [|lia].
    unfold modifyPosition in E. apply bind_inv in E as ([] & E1 & _). apply checkTicks_inv in E1. lia.
  - intros (H1 & H2 & H3). unfold Mint. replace (usign a =? 1) with true by (unfold usign; replace (a =? 0) with false by lia; replace (a <? T255) with true by lia; reflexivity).
    cbn [invariant bind]. destruct (modifyPosition_ok h p l u a HP) as (q & E & _); [|lia|].
    + apply histOK_cons_total; [apply HP| |pose proof (proj1 (proj1 HP) l u); lia|assumption]. unfold rangeOK. tauto.
    + rewrite Z.mod_small in E by lia. eauto.
Qed.
Lemma mint_returns h p l u a : reach h p -> 0 <= a -> placed (TickSpacing p) l -> placed (TickSpacing p) u -> total h + a < 2 ^ 128 ->
  (exists p', Mint p l u a = Ok p') <-> 0 < a /\ MinTick <= l < u /\ u <= MaxTick.
Proof. intros R. exact (mint_some h p l u a (reach_ok h p R)). Qed.

Lemma burn_some h p l u a : poolOK h p -> 0 <= a <= minted h l u -> 0 < minted h l u -> exists p', Burn p l u a = Ok p'.
Proof. intros R H1 H2. destruct (burn_ok h p l u a R (conj H1 H2)) as (q & E & _). eauto. Qed.
Lemma burn_returns h p l u a : reach h p -> 0 <= a <= minted h l u -> 0 < minted h l u -> exists p', Burn p l u a = Ok p'.
Proof. intros R. exact (burn_some h p l u a (reach_ok h p R)). Qed.

Lemma flash_returns h p a0 a1 : reach h p -> 0 <= a0 < 2 ^ 128 -> 0 <= a1 < 2 ^ 128 -> (exists p', Flash p a0 a1 = Ok p') <-> 0 < Liquidity p.
Proof.
  intros R H0 H1. destruct (reach_liquidity h p R) as (_ & HL & _). destruct (reach_ok h p R) as (_ & _ & _ & Hf & _). split.
  - intros (p' & E). unfold Flash in E. apply bind_inv in E as ([] & E0 & _). apply invariant_inv in E0. apply usign_1 in E0; lia.
  - intros Hp. unfold Flash. replace (usign (Liquidity p) =? 1) with true by (unfold usign; replace (Liquidity p =? 0) with false by lia; replace (Liquidity p <? T255) with true by lia; reflexivity).
    cbn [invariant bind]. rewrite (Z.mod_small (Fee p)) by lia.
    assert (forall a, 0 <= a < 2 ^ 128 -> exists f, MulDivRoundingUp a (Fee p) 1000000 = Ok f /\ 0 <= f < 2 ^ 128) as K.
    { intros a Ha. assert (a * Fee p <= a * 1000000) as Hm by (apply Z.mul_le_mono_nonneg_l; lia).
      destruct (MulDivRoundingUp_returns a (Fee p) 1000000) as (f & E); [lia..|right; left; lia|]. exists f. split; [exact E|].
      apply MulDivRoundingUp_ceil in E; [|lia..]. lia. }
    destruct (K a0 H0) as (f0 & -> & F0). destruct (K a1 H1) as (f1 & -> & F1). cbn [bind].
    destruct (MulDiv_returns f0 Q128 (Liquidity p)) as (x0 & ->); [lia|unfold Q128; lia|lia|unfold Q128; lia|right; left; lia|]. cbn [bind].
    destruct (MulDiv_returns f1 Q128 (Liquidity p)) as (x1 & ->); [lia|unfold Q128; lia|lia|unfold Q128; lia|right; left; lia|]. cbn [bind]. eauto.
Qed.

(** the fees due to a position can be credited: nothing at all, or at least 2^-64 of a unit *)
Definition creditable (liq growth last : Z) : Prop := let due := liq * ((growth - last) mod T256) in due = 0 \/ 2 ^ 64 <= due.
Definition settles (p : Pool) (l u : Z) : Prop :=
  forall i, posGet (Pos p) (posKey l u) = Some i -> pLiquidity i = 0 \/
    0 <= pLiquidity i < 2 ^ 192 /\ exists x0 x1, GetFeeGrowthInside (Data p) l u (TickCurrent p) (FeeGrowth0 p) (FeeGrowth1 p) = Ok (x0, x1) /\
      creditable (pLiquidity i) x0 (pLast0 i) /\ creditable (pLiquidity i) x1 (pLast1 i).

Lemma info_returns i d x0 x1 : 0 <= pLiquidity i < 2 ^ 192 -> creditable (pLiquidity i) x0 (pLast0 i) -> creditable (pLiquidity i) x1 (pLast1 i) ->
  exists i', InfoUpdate i d x0 x1 = Ok i'.
Proof.
  intros Hl C0 C1. destruct (InfoUpdate i d x0 x1) eqn:E; [eauto| |now apply update_not_fuel in E]. apply update_panics in E; [|assumption]. unfold creditable in *. cbv zeta in *. lia.
Qed.
Lemma creditable_0 x y : creditable 0 x y.
Proof. now left. Qed.

Lemma updatePosition_returns h p l u dlt : poolOK h p -> histOK (TickSpacing p) (mkE l u dlt :: h) -> dlt <> 0 \/ 0 < minted h l u ->
  settles p l u -> exists p' pos, updatePosition p l u (dlt mod T256) = Ok (p', pos).
Proof.
  intros HP HH' Hz HS. pose proof HP as (HH & HT & Esp & Hf & EL & Hpr & Hg0 & Hg1). set (amt := dlt mod T256) in *. assert (rangeOK (TickSpacing p) l u) as HR by (apply (change_range h p l u dlt HH')).
  assert (- 2 ^ 128 < dlt < 2 ^ 128) as Hd.
  { destruct HH as (C & _ & T). destruct HH' as (C' & _ & T'). rewrite total_cons in T'.
    pose proof (C' l u) as M'. rewrite minted_cons, !Z.eqb_refl in M'. cbn [andb] in M'. pose proof (minted_total h l u C).
    pose proof (sumOn_nonneg (fun _ _ => 1) h C ltac:(intros; lia)) as T0. fold (total h) in T0. lia. }
  (* the fee growth inside the range, before and after the ticks are updated *)
  assert (forall d2, sortedT d2 -> present d2 l -> present d2 u ->
    (forall j, present (Data p) j -> out0 d2 j = out0 (Data p) j /\ out1 d2 j = out1 (Data p) j) ->
    exists in0 in1, GetFeeGrowthInside d2 l u (TickCurrent p) (FeeGrowth0 p) (FeeGrowth1 p) = Ok (in0, in1) /\
      exists i', InfoUpdate (match posGet (Pos p) (posKey l u) with Some i => i | None => NewPosition end) amt in0 in1 = Ok i') as K.
  { intros d2 S2 Pl Pu Ho. rewrite GetFeeGrowthInside_spec by assumption. do 2 eexists. split; [reflexivity|]. destruct (posGet (Pos p) (posKey l u)) as [i|] eqn:Ei.
    - destruct (HS i Ei) as [H0|(HL & x0 & x1 & Ex & C0 & C1)]; [apply info_returns; rewrite H0; [lia|apply creditable_0..]|].
      destruct HT as (S & _). destruct (inside_present _ _ _ _ _ _ _ S Ex) as [Pa Pb]. rewrite GetFeeGrowthInside_spec in Ex by assumption. injection Ex as <- <-.
      destruct (Ho l Pa) as [O1 O2]. destruct (Ho u Pb) as [O3 O4]. apply info_returns; [assumption|..]; unfold gb0, gb1 in *; rewrite ?O1, ?O2, ?O3, ?O4; assumption.
    - apply info_returns; cbn; [lia|apply creditable_0..]. }
  unfold updatePosition. destruct (Z.eq_dec dlt 0) as [Z0|N0].
  - assert (amt = 0) as Ea by (unfold amt; rewrite Z0; reflexivity). rewrite Ea in *. cbn [Z.eqb negb bind]. destruct Hz as [|Hm]; [lia|].
    destruct HT as (S & _ & L). assert (present (Data p) l /\ present (Data p) u) as [Pl Pu].
    { pose proof (proj1 HH) as Hc. pose proof (minted_gross_l h l u Hc). pose proof (minted_gross_u h l u Hc). unfold present. pose proof (L l) as Ll. pose proof (L u) as Lu. unfold tickOK in *.
      split; [destruct (lookup (ticks (Data p)) l)|destruct (lookup (ticks (Data p)) u)]; try discriminate; lia. }
    destruct (K (Data p) S Pl Pu ltac:(auto)) as (in0 & in1 & -> & i' & Ei). cbn [bind]. rewrite Ei. cbn [bind]. change (usign 0 =? -1) with false. cbn [bind]. eauto.
  - assert (amt <> 0) as Na.
    { unfold amt. destruct (Z_lt_le_dec dlt 0); [rewrite <- (Z_mod_plus_full dlt 1), Z.mod_small; lia|rewrite Z.mod_small; lia]. }
    replace (amt =? 0) with false by lia. cbn [negb].
    match goal with |- exists p' pos, bind ?x ?k = _ => change (exists p' pos, bind (upd2 (Data p) l u (TickCurrent p) amt (FeeGrowth0 p) (FeeGrowth1 p)) k = Ok (p', pos)) end.
    destruct HT as (S & _ & L). destruct (upd2_spec (Data p) l u (TickCurrent p) amt (FeeGrowth0 p) (FeeGrowth1 p) S (proj1 HR)) as (d2 & E2 & S2 & _ & L2).
    rewrite E2. cbn [bind].
    destruct (K d2 S2) as (in0 & in1 & -> & i' & Ei).
    + unfold present. rewrite L2, Z.eqb_refl. discriminate.
    + unfold present. rewrite L2, Z.eqb_refl. destruct (u =? l); discriminate.
    + intros j Pj. unfold out0, out1, present in *. rewrite L2. destruct (j =? l) eqn:Cl.
      * assert (j = l) as -> by lia. destruct (lookup (ticks (Data p)) l); [|congruence]. now cbn.
      * destruct (j =? u) eqn:Cu; [|auto]. assert (j = u) as -> by lia. destruct (lookup (ticks (Data p)) u); [|congruence]. now cbn.
    + cbn [bind]. rewrite Ei. cbn [bind]. destruct (usign amt =? -1); [|cbn [bind]; eauto].
      match goal with |- context [bind (bind (if ?x then _ else _) (fun d => if ?y then _ else _)) _] => destruct (clear2_spec d2 l u x y S2) as (d3 & E3 & _) end.
      unfold clear2 in E3. rewrite E3. cbn [bind]. eauto.
Qed.

(** the amounts of a range below price 2^128 (tick 443636) can be computed *)
Lemma rat_443636 : rat 443636 < 2 ^ 128 <= rat 443637.
Proof. vm_compute. split; [reflexivity|discriminate]. Qed.

Lemma amount0_any a b l u : 0 < a < 2 ^ 128 -> 0 < b < 2 ^ 128 -> exists x, GetAmount0Delta a b l u = Ok x.
Proof.
  intros Ha Hb. destruct (Z_le_gt_dec a b) as [C|C]; [apply amount0_returns; lia|].
  destruct (amount0_returns b a l u ltac:(lia) ltac:(lia)) as (x & E). exists x. rewrite <- E. unfold GetAmount0Delta. rewrite (ordered_le b a) by lia. unfold ordered. replace (b <? a) with true by lia. reflexivity.
Qed.
Lemma amount1_any a b l u : liqR l -> 0 <= a < 2 ^ 160 -> 0 <= b < 2 ^ 160 -> exists x, GetAmount1Delta a b l u = Ok x.
Proof.
  intros Hl Ha Hb. destruct (Z_le_gt_dec a b) as [C|C]; [apply amount1_returns; [assumption|lia..]|].
  destruct (amount1_returns b a l u Hl ltac:(lia) ltac:(lia)) as (x & E). exists x. rewrite <- E. unfold GetAmount1Delta. rewrite (ordered_le b a) by lia. unfold ordered. replace (b <? a) with true by lia. reflexivity.
Qed.

(** from tick 0 upwards neighbouring prices differ by more than one part in 2^18 *)
Lemma rat_gap t : 0 <= t < MaxTick -> rat (t + 1) <= 2 ^ 18 * (rat (t + 1) - rat t).
Proof.
  unfold MaxTick. intros Ht. assert (forall x, 0 <= x -> rat x = ceil32 (G x)) as K.
  { intros x Hx. unfold rat. destruct (x <=? 0) eqn:C; [|reflexivity]. replace x with 0 by lia. apply ratio_zero. }
  rewrite !K by lia. pose proof (R_gap t ltac:(lia)) as [_ H]. pose proof (R_bounds t ltac:(lia)) as B. pose proof (R_bounds (t + 1) ltac:(lia)) as B1. pose proof (G_bounds t ltac:(lia)) as BG.
  assert (R t * G t <= T256 - 1) as D by (apply Z.mul_div_le; lia).
  assert (T256 - 1 < R (t + 1) * (G (t + 1) + 1)) as D1 by (unfold G; apply Z.mul_succ_div_gt; lia).
  pose proof (ceil32_bounds (G t) ltac:(lia)) as (C0 & _). pose proof (ceil32_bounds (G (t + 1)) ltac:(pose proof (G_bounds (t + 1) ltac:(lia)); lia)) as (C1 & _).
  assert (G t * 100000 <= (G (t + 1) + 1) * 99999) as E.
  { assert (0 < G (t + 1) + 1) as P by (pose proof (G_bounds (t + 1) ltac:(lia)); lia). set (g := G t) in *. set (g' := G (t + 1) + 1) in *. set (r := R t) in *. set (r' := R (t + 1)) in *. clearbody g g' r r'.
    assert (r' * g' * 100000 <= r * g' * 99999) as Q by (rewrite <- !(Z.mul_comm g'), <- !Z.mul_assoc; apply Z.mul_le_mono_nonneg_l; lia).
    assert (g * 100000 * r <= g' * 99999 * r) as Q2 by lia. apply Z.mul_le_mono_pos_r in Q2; lia. }
  lia.
Qed.
Lemma amount0_up_below a b l : liqR l -> 0 < a <= b -> a < 2 ^ 128 -> b < 2 ^ 160 -> exists x, GetAmount0Delta a b l true = Ok x.
Proof.
  intros Hl Ha Ha' Hb. destruct (liq_n1 l Hl) as [En Hn]. unfold GetAmount0Delta. rewrite ordered_le by lia. cbv zeta. rewrite En, usub_small by lia.
  destruct (first_returns a b l true Hl ltac:(lia) Hb) as (x & E). rewrite E. cbn [bind]. pose proof (MulDivRoundingUp_range _ _ _ _ E). apply MulDivRoundingUp_returns; lia.
Qed.
Lemma amount0_up_ticks t u l : 0 < l -> liqR l -> MinTick <= t < u -> u <= MaxTick -> exists x, GetAmount0Delta (rat t) (rat u) l true = Ok x.
Proof.
  intros L0 Hl Ht Hu. pose proof (rat_range t ltac:(lia)) as Rt. pose proof (rat_range u ltac:(lia)) as Ru. pose proof (rat_lt t u ltac:(lia) ltac:(lia) Hu) as Rtu.
  unfold MinSqrtRatio, MaxSqrtRatio in *. destruct (Z_lt_le_dec (rat t) (2 ^ 128)) as [C|C]; [apply amount0_up_below; [assumption|lia..]|].
  assert (0 <= t) as T0. { destruct (Z_le_gt_dec 0 t); [assumption|]. pose proof (rat_le t 0 ltac:(lia) ltac:(lia) ltac:(unfold MaxTick; lia)) as Q. change (rat 0) with (2 ^ 96) in Q. lia. }
  assert (rat u <= 2 ^ 18 * (rat u - rat t)) as HG.
  { pose proof (rat_gap (u - 1) ltac:(lia)) as Q. replace (u - 1 + 1) with u in Q by lia. pose proof (rat_le t (u - 1) ltac:(lia) ltac:(lia) ltac:(lia)). lia. }
  destruct (liq_n1 l Hl) as [En Hn]. unfold GetAmount0Delta. rewrite ordered_le by lia. cbv zeta. rewrite En, usub_small by lia.
  set (a := rat t) in *. set (b := rat u) in *. clearbody a b.
  destruct (first_returns a b l true Hl ltac:(lia) ltac:(lia)) as (x & E). rewrite E. cbn [bind].
  pose proof (mul_lt_bound (l * Q96) a b Hn ltac:(lia)) as HB. pose proof (MulDivRoundingUp_range _ _ _ _ E) as Rx.
  assert (2 ^ 96 * (b - a) <= l * Q96 * (b - a)) as K by (apply Z.mul_le_mono_nonneg_r; unfold Q96; lia).
  apply MulDivRoundingUp_ceil in E as [[Q2 _] _]; [|lia|lia|lia|lia].
  assert (2 ^ 78 <= x) as Hx.
  { set (n := l * Q96 * (b - a)) in *. clearbody n. apply Z.nlt_ge. intros D. assert (x * b <= (2 ^ 78 - 1) * b) by (apply Z.mul_le_mono_nonneg_r; lia). lia. }
  apply MulDivRoundingUp_returns; try lia. left. rewrite Z.mul_1_r.
  assert (words a <= 3) as W3 by (apply words_spec; [lia|lia|]; change (W ^ 3) with (2 ^ 192); lia).
  assert (1 < words x) as W1 by (apply words_ge; [lia|lia|]; change (W ^ 1) with (2 ^ 64); lia). lia.
Qed.
Lemma amount0_down_any a b l : liqR l -> 0 < a < 2 ^ 160 -> 0 < b < 2 ^ 160 -> exists x, GetAmount0Delta a b l false = Ok x.
Proof.
  intros Hl Ha Hb. destruct (Z_le_gt_dec a b) as [C|C]; [apply amount0_down_returns; [assumption|lia..]|].
  destruct (amount0_down_returns b a l Hl ltac:(lia) ltac:(lia)) as (x & E). exists x. rewrite <- E. unfold GetAmount0Delta. rewrite (ordered_le b a) by lia. unfold ordered. replace (b <? a) with true by lia. reflexivity.
Qed.

(** the amounts of a burn can be computed; those of a mint too unless the price is in the range and not below 2^128 *)
Lemma rangeAmounts_returns tick price l u amt m : priceOK tick price -> MinTick <= l < u -> u <= MaxTick ->
  0 < m < 2 ^ 128 -> amt = m /\ (u <= tick \/ tick < l \/ price < 2 ^ 128) \/ amt = uneg m -> exists x, rangeAmounts tick price l u amt = Ok x.
Proof.
  intros (Ht & Hp & Hm) Hl Hu Hm' Ha. assert (liqR m) as HL by (unfold liqR; lia).
  assert (forall a b, 0 < a < 2 ^ 160 -> 0 < b < 2 ^ 160 -> exists x, GetAmount0DeltaRounded a b (uneg m) = Ok x) as K0.
  { intros a b A B. rewrite rounded_neg0 by lia. destruct (amount0_down_any a b m HL A B) as (x & ->). cbn [bind]. eauto. }
  assert (forall a b, 0 < a < 2 ^ 160 -> 0 < b < 2 ^ 160 -> exists x, GetAmount1DeltaRounded a b amt = Ok x) as K1.
  { intros a b A B. destruct Ha as [[-> _] | ->].
    - rewrite rounded1_pos by lia. apply amount1_any; [assumption|lia..].
    - rewrite rounded_neg1 by lia. destruct (amount1_any a b m false HL ltac:(lia) ltac:(lia)) as (x & ->). cbn [bind]. eauto. }
  pose proof (rat_range l ltac:(lia)) as Rl. pose proof (rat_range u ltac:(lia)) as Ru. pose proof (rat_range tick ltac:(lia)) as Rt.
  unfold MinSqrtRatio, MaxSqrtRatio in *. pose proof (rat_le l u ltac:(lia) ltac:(lia) ltac:(lia)) as Rlu.
  assert (tick < u -> price <= rat u) as Rp by (intros C; pose proof (rat_le (tick + 1) u ltac:(lia) ltac:(lia) ltac:(lia)); lia).
  unfold rangeAmounts. rewrite !rat_ok by lia. cbn [bind]. destruct (tick <? l) eqn:C1; [|destruct (tick <? u) eqn:C2].
  - assert (exists x, GetAmount0DeltaRounded (rat l) (rat u) amt = Ok x) as (x & ->); [|cbn [bind]; eauto].
    destruct Ha as [[-> _] | ->]; [|apply K0; lia]. rewrite rounded0_pos by lia. apply amount0_up_ticks; [lia|assumption|lia|lia].
  - assert (exists x, GetAmount0DeltaRounded price (rat u) amt = Ok x) as (x & ->).
    { destruct Ha as [[-> Ha] | ->]; [|apply K0; lia]. rewrite rounded0_pos by lia. apply amount0_up_below; [assumption|lia..]. }
    cbn [bind]. destruct (K1 price (rat l) ltac:(lia) ltac:(lia)) as (y & ->). cbn [bind]. eauto.
  - destruct (K1 (rat l) (rat u) ltac:(lia) ltac:(lia)) as (y & ->). cbn [bind]. eauto.
Qed.

Lemma mint_strategy_some h p l u a : poolOK h p -> 0 < a -> placed (TickSpacing p) l -> placed (TickSpacing p) u -> total h + a < 2 ^ 128 ->
  MinTick <= l < u -> u <= MaxTick -> u <= TickCurrent p \/ TickCurrent p < l \/ SqrtRatio p < 2 ^ 128 -> settles p l u -> exists r, MintStrategy p l u a = Ok r.
Proof.
  intros R Ha Hl Hu Ht Hlu Hm Hb HS. pose proof R as HP.
  assert (0 <= total h) as T0. { destruct HP as ((C & _) & _). pose proof (sumOn_nonneg (fun _ _ => 1) h C ltac:(intros; lia)) as T0. exact T0. }
  assert (rangeOK (TickSpacing p) l u) as HR by (unfold rangeOK; intuition lia).
  unfold MintStrategy. replace (usign a =? 1) with true by (unfold usign; replace (a =? 0) with false by lia; replace (a <? T255) with true by lia; reflexivity). cbn [invariant bind].
  rewrite modifyPositionStrategy_eq by lia. rewrite (checkTicks_ok (TickSpacing p)) by assumption. cbn [bind].
  destruct (updatePosition_returns h p l u a HP) as (q & pos & E); [|left; lia|assumption|].
  { apply histOK_cons_total; [apply HP|assumption|pose proof (proj1 (proj1 HP) l u); lia|assumption]. }
  rewrite Z.mod_small in E by lia. rewrite E. cbn [bind].
  destruct (rangeAmounts_returns (TickCurrent p) (SqrtRatio p) l u a a ltac:(apply HP) Hlu Hm ltac:(lia) (or_introl (conj eq_refl Hb))) as (x & ->). cbn [bind]. eauto.
Qed.
Lemma mint_strategy_returns h p l u a : reach h p -> 0 < a -> placed (TickSpacing p) l -> placed (TickSpacing p) u -> total h + a < 2 ^ 128 ->
  MinTick <= l < u -> u <= MaxTick -> u <= TickCurrent p \/ TickCurrent p < l \/ SqrtRatio p < 2 ^ 128 -> settles p l u -> exists r, MintStrategy p l u a = Ok r.
Proof. intros R. exact (mint_strategy_some h p l u a (reach_ok h p R)). Qed.

Lemma burn_strategy_some h p l u a : poolOK h p -> 0 <= a <= minted h l u -> 0 < minted h l u ->
  settles p l u -> exists r, BurnStrategy p l u a = Ok r.
Proof.
  intros R Ha Hmin HS. pose proof R as HP. pose proof (burn_hist h p l u a HP Ha Hmin) as HH'.
  pose proof (minted_range _ _ l u (proj1 HP) Hmin) as HR. pose proof HR as (R1 & R2 & R3 & _).
  assert (minted h l u < 2 ^ 128) as Hsm. { destruct HP as ((C & _ & T) & _). pose proof (minted_total h l u C). lia. }
  unfold BurnStrategy. rewrite uneg_delta. destruct (updatePosition_returns h p l u (- a) HP HH' (or_intror Hmin) HS) as (q & pos & E).
  assert (posGet (Pos q) (posKey l u) = Some pos) as Eq.
  { unfold updatePosition in E. apply bind_inv in E as (((d & cl) & cu) & _ & E). apply bind_inv in E as ((in0 & in1) & _ & E). cbv zeta in E.
    apply bind_inv in E as (pos' & _ & E). apply bind_inv in E as (d' & _ & E). injection E as <- <-. cbn [with_pos Pos]. rewrite posGet_put.
    now rewrite (proj2 (keyEq_true _ _) eq_refl). }
  destruct (Z.eq_dec a 0) as [Z0|N0].
  - rewrite Z0 in *. change (- 0) with 0 in *. unfold modifyPositionStrategy. rewrite (checkTicks_ok (TickSpacing p)) by assumption. cbn [bind]. rewrite E. cbn [bind].
    change (0 mod T256 =? 0) with true. cbv iota. cbn [bind]. rewrite Eq. eauto.
  - assert ((- a) mod T256 <> 0) as Na by (rewrite <- (Z_mod_plus_full (- a) 1), Z.mod_small; lia).
    rewrite modifyPositionStrategy_eq by assumption. rewrite (checkTicks_ok (TickSpacing p)) by assumption. cbn [bind]. rewrite E. cbn [bind].
    destruct (rangeAmounts_returns (TickCurrent p) (SqrtRatio p) l u ((- a) mod T256) a ltac:(apply HP) ltac:(lia) R3 ltac:(lia) (or_intror eq_refl)) as (x & ->). cbn [bind fst snd].
    destruct ((l <=? TickCurrent p) && (TickCurrent p <? u)); cbn [with_liq Pos]; rewrite Eq; eauto.
Qed.
Lemma burn_strategy_returns h p l u a : reach h p -> 0 <= a <= minted h l u -> 0 < minted h l u ->
  settles p l u -> exists r, BurnStrategy p l u a = Ok r.
Proof. intros R. exact (burn_strategy_some h p l u a (reach_ok h p R)). Qed.

(** upwards without a limit *)
Lemma unlimited_up h p amt : reach h p -> ticks (Data p) <> [] -> 0 < amt < 2 ^ 128 \/ T256 - 2 ^ 128 <= amt < T256 -> SqrtRatio p < 2 ^ 128 - 1 ->
  exists p' a0 a1, swap allRounds p false amt (2 ^ 128 - 1) = Ok (p', a0, a1) /\
    (swap allRounds p false amt 0 = Ok (p', a0, a1) \/ SqrtRatio p' = 2 ^ 128 - 1).
Proof.
  intros R N Ha Hp. assert (effectiveLimit false (2 ^ 128 - 1) = 2 ^ 128 - 1) as EL by reflexivity.
  destruct (swap_returns h p false amt (2 ^ 128 - 1) R N Ha) as (((p' & a0) & a1) & E); [lia|rewrite EL; lia|rewrite EL; exact Hp|].
  exists p', a0, a1. split; [exact E|]. destruct (Z.eq_dec (SqrtRatio p') (2 ^ 128 - 1)) as [C|C]; [now right|left].
  exact (no_limit h p allRounds false amt (2 ^ 128 - 1) p' a0 a1 R ltac:(lia) E C).
Qed.

(** above the price 1 no tick is misplaced *)
Lemma clear_above p lim : 2 ^ 96 <= lim -> clearWay p lim.
Proof.
  intros Hl t r _ Ht _ E. assert (GetSqrtRatioAtTick 0 = Ok (2 ^ 96)) as E0 by (vm_compute; reflexivity).
  destruct (Z.eq_dec (t + 1) 0) as [C|C]; [rewrite C, E0 in E; injection E as <-; assumption|].
  pose proof (ratio_monotone (t + 1) 0 r (2 ^ 96) ltac:(lia) E E0). lia.
Qed.
Lemma returns_down_above h p amt lim : reach h p -> ticks (Data p) <> [] -> 0 < amt < 2 ^ 128 \/ T256 - 2 ^ 128 <= amt < T256 ->
  2 ^ 96 <= lim < SqrtRatio p -> SqrtRatio p < 2 ^ 128 -> exists r, swap allRounds p true amt lim = Ok r.
Proof.
  intros R N Ha Hl Hp. assert (effectiveLimit true lim = lim) as EL by (unfold effectiveLimit; now replace (lim =? 0) with false by lia).
  apply (swap_returns h); try assumption; rewrite EL; [lia|]. split; [unfold MinSqrtRatio; lia|]. now apply clear_above.
Qed.

Lemma returns_case : reach goodHist good3 /\ ticks (Data good3) <> [] /\ SqrtRatio good3 < 2 ^ 128 - 1 /\ clearWay good3 (2 ^ 96) /\ 2 ^ 96 < SqrtRatio good3 /\
  minted goodHist 0 600 = 10 ^ 18 /\ settles good3 0 600 /\
  (exists i, posGet (Pos good3) (posKey 0 600) = Some i /\ pLiquidity i = 10 ^ 18 /\
     GetFeeGrowthInside (Data good3) 0 600 (TickCurrent good3) (FeeGrowth0 good3) (FeeGrowth1 good3) <> Ok (pLast0 i, pLast1 i)).
Proof.
  split; [exact good3_reach|]. split; [vm_compute; discriminate|]. split; [vm_compute; reflexivity|]. split; [apply clear_above; lia|]. split; [vm_compute; reflexivity|].
  split; [vm_compute; reflexivity|]. split.
  - intros i E. right. assert (posGet (Pos good3) (posKey 0 600) = Some (mkInfo (10 ^ 18) 0 0 0 0)) as E0 by (vm_compute; reflexivity).
    rewrite E0 in E. injection E as <-. cbn [pLiquidity pLast0 pLast1]. split; [lia|].
    destruct (GetFeeGrowthInside (Data good3) 0 600 (TickCurrent good3) (FeeGrowth0 good3) (FeeGrowth1 good3)) as [[x0 x1]| |] eqn:G; [|exfalso; vm_compute in G; discriminate..].
    exists x0, x1. split; [reflexivity|]. vm_compute in G. injection G as <- <-. unfold creditable. split; vm_compute; [left; reflexivity|right; discriminate].
  - exists (mkInfo (10 ^ 18) 0 0 0 0). split; [vm_compute; reflexivity|]. split; [reflexivity|]. vm_compute. discriminate.
Qed.
