(** PoolSwap.v -- one round of the swap loop keeps the pool invariant; what a whole swap guarantees. *)
From Coq Require Import ZifyBool String.
From Verif Require Import Base U256Z SwapMath SwapMathFacts SwapStep TickMath TickMathFacts TickData TickDataFacts TickSearch Ledger Pool PoolTable PoolInv.
Ltac Zify.zify_post_hook ::= idtac.
Open Scope Z_scope.

Definition remOK (ex : bool) (rem : Z) : Prop := if ex then 0 <= rem < T255 else rem = 0 \/ T255 <= rem < T256.

Lemma price_bounds tick price : priceOK tick price -> MinSqrtRatio <= price < MaxSqrtRatio.
Proof. intros (H1 & H2 & H3). pose proof (rat_range tick ltac:(lia)). lia. Qed.
Lemma price_R p : MinSqrtRatio <= p <= MaxSqrtRatio -> priceR p.
Proof. unfold priceR, MinSqrtRatio, MaxSqrtRatio. lia. Qed.

(** ** one ComputeSwapStep inside the loop *)
Lemma step_facts P T l rem f ex st : priceR P -> priceR T -> 0 <= l < 2 ^ 128 -> rem <> 0 -> remOK ex rem -> 0 <= f < MaxFee ->
  ComputeSwapStep P T l rem f = Ok st ->
  let rem' := if ex then usub rem (uadd (stIn st) (stFee st)) else uadd rem (stOut st) in
  toward P T (stNext st) /\ remOK ex rem' /\ (stNext st <> T -> rem' = 0) /\
  0 <= stOut st <= 2 ^ 193 /\ 0 <= stIn st /\ 0 <= stFee st /\
  (if ex then stIn st + stFee st <= rem /\ rem' = rem - (stIn st + stFee st)
   else stOut st <= T256 - rem /\ (rem' = rem + stOut st \/ (rem' = 0 /\ rem + stOut st = T256)) /\ stIn st + stFee st <= 2 ^ 216).
Proof.
  intros HP HT Hl Hr0 Hr Hf E rem'. assert (liqR l) as HlR by (unfold liqR; lia).
  assert (forall r, toward P T r -> priceR r) as Hnr by (unfold toward, priceR in *; intros r; destruct (T <=? P); lia).
  assert (forall r out, toward P T r -> 0 <= out -> out_le (T <=? P) l P r out -> out <= 2 ^ 193) as Hout.
  { intros r out Ht Ho H. specialize (Hnr r Ht). unfold out_le, toward, priceR in *. apply Z.nlt_ge. intros C. destruct (T <=? P).
    - assert (l * (P - r) <= 2 ^ 128 * 2 ^ 160) by (apply Z.mul_le_mono_nonneg; lia).
      assert (2 ^ 193 * Q96 <= out * Q96) by (apply Z.mul_le_mono_nonneg_r; [unfold Q96; lia|lia]). unfold Q96 in *. lia.
    - assert (l * Q96 * (r - P) <= l * Q96 * r) as H1 by (apply Z.mul_le_mono_nonneg_l; [unfold Q96; lia|lia]).
      assert (out * (P * r) <= l * Q96 * r) as H2 by lia. rewrite Z.mul_assoc in H2. apply Z.mul_le_mono_pos_r in H2; [|lia].
      assert (2 ^ 193 * 2 ^ 32 <= out * P) by (apply Z.mul_le_mono_nonneg; lia). unfold Q96 in *. lia. }
  assert (forall r inn, toward P T r -> 0 <= inn -> in_ceil (T <=? P) l P r inn -> inn <= 2 ^ 193) as Hin.
  { intros r inn Ht Ho H. specialize (Hnr r Ht). unfold in_ceil, ceil0, ceil1, toward, priceR in *. apply Z.nlt_ge. intros C. destruct (T <=? P).
    - assert (l * Q96 * (P - r) <= l * Q96 * P) as H1 by (apply Z.mul_le_mono_nonneg_l; [unfold Q96; lia|lia]).
      assert ((inn - 1) * (r * P) < l * Q96 * P) as H2 by lia. rewrite Z.mul_assoc in H2. apply Z.mul_lt_mono_pos_r in H2; [|lia].
      assert (2 ^ 193 * 2 ^ 32 <= (inn - 1) * r) by (apply Z.mul_le_mono_nonneg; lia). unfold Q96 in *. lia.
    - assert (l * (r - P) <= 2 ^ 128 * 2 ^ 160) by (apply Z.mul_le_mono_nonneg; lia).
      assert (2 ^ 193 * Q96 <= (inn - 1) * Q96) by (apply Z.mul_le_mono_nonneg_r; [unfold Q96; lia|lia]). unfold Q96 in *. lia. }
  destruct ex; unfold remOK in Hr.
  - destruct (step_exactin P T l rem f st HP HT HlR Hr ltac:(lia) E) as (A1 & A2 & A3 & A4 & A5 & A6 & A7 & A8 & A9 & A10). cbv zeta in *.
    assert (rem' = rem - (stIn st + stFee st)) as Er.
    { unfold rem', uadd. rewrite (Z.mod_small (stIn st + stFee st)) by lia. unfold usub. apply Z.mod_small. lia. }
    split; [assumption|]. split; [unfold remOK; lia|]. split; [intros N; specialize (A10 N); lia|].
    split. { split; [lia|]. apply (Hout (stNext st)); [assumption|lia|]. now apply out_floor_le. }
    split; [lia|]. split; [lia|]. lia.
  - destruct Hr as [|Hr]; [lia|]. destruct (step_exactout P T l rem f st HP HT HlR Hr Hf E) as (A1 & A2 & A3 & A4 & A5 & A6 & A7). cbv zeta in *.
    assert (rem' = if rem + stOut st =? T256 then 0 else rem + stOut st) as Er.
    { unfold rem', uadd. destruct (rem + stOut st =? T256) eqn:C; [replace (rem + stOut st) with T256 by lia; reflexivity|]. apply Z.mod_small. lia. }
    assert (0 <= stFee st) as Hfee.
    { apply Z.nlt_ge. intros C. assert (stFee st * (MaxFee - f) <= -1 * (MaxFee - f)) by (apply Z.mul_le_mono_nonneg_r; lia).
      assert (0 <= stIn st * f) by (apply Z.mul_nonneg_nonneg; lia). lia. }
    assert (stIn st <= 2 ^ 193) as Hi by (apply (Hin (stNext st)); [assumption|lia|assumption]).
    assert (stFee st <= 2 ^ 215) as Hff.
    { assert (stFee st * 1 <= stFee st * (MaxFee - f)) by (apply Z.mul_le_mono_nonneg_l; lia).
      assert (stIn st * f <= 2 ^ 193 * MaxFee) by (apply Z.mul_le_mono_nonneg; lia). unfold MaxFee in *. lia. }
    split; [assumption|]. split; [unfold remOK; rewrite Er; destruct (_ =? T256) eqn:C; lia|]. split; [intros N; specialize (A7 N); rewrite Er; replace (rem + stOut st =? T256) with true by lia; reflexivity|].
    split. { split; [lia|]. apply (Hout (stNext st)); [assumption|lia|assumption]. }
    split; [lia|]. split; [lia|]. split; [lia|]. split; [|lia]. rewrite Er. destruct (_ =? T256) eqn:C; [right|left]; lia.
Qed.

(** ** one round *)
Definition limitOK (z : bool) (limit : Z) : Prop := if z then MinSqrtRatio < limit else limit < MaxSqrtRatio.
Definition side (z : bool) (limit price : Z) : Prop := if z then limit <= price else price <= limit.

Definition loopOK (h : hist) (sp : Z) (z ex : bool) (limit : Z) (s : State) : Prop :=
  tableOK h sp (sData s) /\ sLiquidity s = active h (sTick s) /\ priceOK (sTick s) (sPrice s) /\
  is_u256 (sGrowth s) /\ remOK ex (sRemaining s) /\ side z limit (sPrice s).

(** no initialised tick in (a, b] *)
Definition clear (d : TickData) (a b : Z) : Prop := forall j, a < j <= b -> ~ present d j.

(** how the tick and the table change in a round *)
Inductive moved (z : bool) (growth other : Z) (d : TickData) (t : Z) : TickData -> Z -> Prop :=
| moved_cross k d' net : (if z then k <= t /\ clear d k t else t < k /\ clear d t (k - 1)) -> present d k ->
    (if z then Cross d k growth other else Cross d k other growth) = Ok (d', net) ->
    moved z growth other d t d' (if z then k - 1 else k)
| moved_flat t' : clear d t t' -> clear d t' t -> moved z growth other d t d t'.

Lemma present_gross h sp d j : tableOK h sp d -> present d j <-> gross h j <> 0.
Proof.
  intros (_ & _ & L). specialize (L j). unfold present, tickOK in *. destruct (lookup (ticks d) j) as [x|]; split; intros H; try lia; try congruence; discriminate.
Qed.
Lemma not_present_gross h sp d j : tableOK h sp d -> ~ present d j <-> gross h j = 0.
Proof. intros H. rewrite (present_gross h sp d j H). lia. Qed.

Lemma clear_active h sp d a b : histOK sp h -> tableOK h sp d -> a <= b -> clear d a b -> active h b = active h a.
Proof.
  intros HH HT Hab HC. apply active_flat; [apply HH|eapply histOK_proper, HH|assumption|]. intros j Hj. rewrite <- (not_present_gross h sp d j HT). apply HC, Hj.
Qed.

Lemma cross_table h sp d k a b d' n : tableOK h sp d -> Cross d k a b = Ok (d', n) -> tableOK h sp d' /\ n = net h k mod T256 /\ present d k.
Proof.
  intros (S & P & L) E. pose proof (Cross_spec d k a b S) as C. pose proof (L k) as Lk. unfold present. destruct (lookup (ticks d) k) as [x|] eqn:Ex; [|congruence].
  destruct C as (d2 & E2 & S2 & P2 & L2). rewrite E2 in E. injection E as -> <-. cbn [tickOK] in Lk.
  split; [|split; [tauto|discriminate]]. split; [assumption|]. split; [congruence|]. intros j. rewrite L2. destruct (j =? k) eqn:C; [|apply L].
  assert (j = k) as -> by lia. unfold tickOK. cbn [tkIndex tkGross tkNet tkOut0 tkOut1]. destruct Lk as (L1 & _ & L3 & L4 & _).
  refine (conj L1 (conj eq_refl (conj L3 (conj L4 _)))). unfold is_u256, usub. split; apply Z.mod_pos_bound; lia.
Qed.

Definition searchFacts (z : bool) (sp tick tickNext : Z) : Prop :=
  MinTick <= tickNext <= MaxTick /\
  (if z then (misplaced tick sp -> tickNext = wordMin tick sp /\ tick < tickNext <= 0) /\
             (~ misplaced tick sp -> tickNext <= tick)
   else tick < tickNext).

Lemma clampTick_eq n : clampTick n = Z.max MinTick (Z.min MaxTick n).
Proof. unfold clampTick, MinTick, MaxTick. destruct (n <? -887272) eqn:A; [lia|]. destruct (887272 <? n) eqn:B; lia. Qed.

(** what the search gives after clamping *)
Lemma search_facts h sp z d tick n b : histOK sp h -> tableOK h sp d -> 0 < sp -> MinTick <= tick < MaxTick ->
  NextInitializedTickWithinOneWord d tick z = Ok (n, b) ->
  let k := clampTick n in
  searchFacts z sp tick k /\
  (if z then if b then k <= tick /\ present d k /\ clear d k tick
             else clear d (k - 1) tick /\ clear d tick (k - 1)
   else if b then present d k /\ clear d tick (k - 1) else clear d tick k).
Proof.
  intros HH HT Hsp Ht E k. pose proof HT as (Hs & Esp & _). assert (forall j, present d j -> MinTick <= j <= MaxTick /\ placed sp j) as HPr.
  { intros j Pj. apply (present_gross h sp d j HT) in Pj. apply (gross_range sp h j HH). pose proof (gross_nonneg h j (proj1 HH)). lia. }
  destruct z.
  - apply (search_down d tick Hs) in E. cbv zeta in E. rewrite Esp in E. destruct E as (E1 & E2 & E3 & E4).
    pose proof (wordMin_le tick sp Hsp) as HW.
    destruct (misplaced_dec tick sp) as [M|M].
    + assert (tick < wordMin tick sp) as Hw by (destruct (Z_le_gt_dec (wordMin tick sp) tick) as [C|C]; [apply HW in C; tauto|lia]).
      assert (b = false) as -> by (destruct b; [destruct (E3 eq_refl); lia|reflexivity]). destruct (E4 eq_refl) as [-> _]. clear E1 E2 E3 E4.
      pose proof M as (M1 & M2 & M3). destruct (quot_bounds tick sp Hsp) as [_ Hq]. specialize (Hq ltac:(lia)).
      assert (wordMin tick sp = sp * (tick ÷ sp)) as Ew.
      { unfold wordMin. pose proof (Z.div_mod (tick ÷ sp) 256 ltac:(lia)) as D. rewrite M3 in D. replace (tick ÷ sp / 256 * 256) with (tick ÷ sp) by lia. ring. }
      assert (tick ÷ sp <= 0) as Hc.
      { apply Z.nlt_ge. intros C. assert (sp * 1 <= sp * (tick ÷ sp)) by (apply Z.mul_le_mono_nonneg_l; lia). lia. }
      assert (wordMin tick sp <= 0) as Hw0 by (rewrite Ew; apply Z.mul_nonneg_nonpos; lia).
      assert (k = wordMin tick sp) as Ek by (unfold k; rewrite clampTick_eq; unfold MinTick, MaxTick in *; lia).
      rewrite Ek. split. { unfold searchFacts. split; [unfold MinTick, MaxTick in *; lia|]. split; [intros _; lia|tauto]. }
      split; [intros j Hj; lia|]. intros j Hj Pj. destruct (HPr j Pj) as [_ [_ NM]]. apply NM. rewrite Ew in Hj.
      assert (j ÷ sp = tick ÷ sp) as Eq.
      { symmetry. destruct (quot_bounds j sp Hsp) as [_ Hqj]. specialize (Hqj ltac:(lia)).
        assert (sp * (tick ÷ sp - 1) < sp * (j ÷ sp)) as B1 by lia. apply Z.mul_lt_mono_pos_l in B1; [|assumption].
        assert (sp * (j ÷ sp - 1) < sp * (tick ÷ sp)) as B2 by lia. apply Z.mul_lt_mono_pos_l in B2; [|assumption]. lia. }
      split; [lia|]. split; [|now rewrite Eq].
      intros D. apply Z.mod_divide in D; [|lia]. destruct D as [q ->]. rewrite Z.quot_mul in Eq by lia. rewrite <- Eq in *. lia.
    + assert (wordMin tick sp <= tick) as Hw by (now apply HW).
      assert (n <= tick) as Hn by (destruct b; [now apply E3|]; destruct (E4 eq_refl); lia).
      assert (k = if b then n else Z.max MinTick n) as Ek.
      { unfold k. rewrite clampTick_eq. destruct b; [destruct (E3 eq_refl) as [_ Pn]; apply HPr in Pn|]; unfold MinTick, MaxTick in *; lia. }
      split. { unfold searchFacts. split; [destruct b; [destruct (E3 eq_refl) as [_ Pn]; apply HPr in Pn|]; lia|]. split; [tauto|]. intros _. rewrite Ek. destruct b; lia. }
      destruct b.
      * destruct (E3 eq_refl) as [E5 E6]. rewrite Ek. split; [lia|]. split; [assumption|]. intros j Hj. apply E2. lia.
      * destruct (E4 eq_refl) as [E5 E6]. split; [|intros j Hj; rewrite Ek in Hj; lia]. intros j Hj. rewrite Ek in Hj.
        destruct (Z.eq_dec j n) as [->|]; [apply E6; lia|apply E2; lia].
  - apply (search_up d tick Hs) in E; [|lia]. cbv zeta in E. rewrite Esp in E. destruct E as (E1 & E2 & E3 & E4).
    assert (k = if b then n else Z.min MaxTick n) as Ek.
    { unfold k. rewrite clampTick_eq. destruct b; [destruct E3 as [E3 _]; specialize (E3 eq_refl); apply HPr in E3|]; unfold MinTick, MaxTick in *; lia. }
    split. { unfold searchFacts. rewrite Ek. destruct b; [destruct E3 as [E3 _]; specialize (E3 eq_refl); apply HPr in E3|]; lia. }
    destruct b.
    + rewrite Ek. split; [now apply E3|]. intros j Hj. apply E2. lia.
    + intros j Hj. rewrite Ek in Hj. destruct (Z.eq_dec j n) as [->|]; [intros P; apply E3 in P; discriminate|apply E2; lia].
Qed.

Definition targetOf (z : bool) (limit next : Z) : Z := if z then Z.max limit next else Z.min limit next.

(** everything one round does *)
Record RoundFacts (h : hist) (sp : Z) (z ex : bool) (limit fee other : Z) (s s' : State) (k : Z) (st : StepResult) : Prop := {
  rf_search : searchFacts z sp (sTick s) k;
  rf_step : ComputeSwapStep (sPrice s) (targetOf z limit (rat k)) (sLiquidity s) (sRemaining s) fee = Ok st;
  rf_price : sPrice s' = stNext st;
  rf_rem : sRemaining s' = if ex then usub (sRemaining s) (uadd (stIn st) (stFee st)) else uadd (sRemaining s) (stOut st);
  rf_calc : sCalculated s' = if ex then usub (sCalculated s) (stOut st) else uadd (sCalculated s) (uadd (stIn st) (stFee st));
  rf_growth : if 0 <? sLiquidity s then exists f, MulDiv (stFee st) Q128 (sLiquidity s) = Ok f /\ sGrowth s' = uadd (sGrowth s) f
              else sGrowth s' = sGrowth s;
  rf_moved : moved z (sGrowth s') other (sData s) (sTick s) (sData s') (sTick s');
  rf_ok : loopOK h sp z ex limit s';
  rf_tick : stNext st = rat k -> sTick s' = if z then k - 1 else k;
  rf_progress : sRemaining s' = 0 \/ sPrice s' = limit \/ sPrice s' = rat k;
  rf_down : z = true -> ~ misplaced (sTick s) sp -> sTick s' <= sTick s /\ sPrice s' <= sPrice s;
  rf_up : z = false -> sTick s <= sTick s' /\ sPrice s <= sPrice s';
  rf_strict : z = false -> sPrice s < rat (sTick s + 1) -> sPrice s' < rat (sTick s' + 1)
}.

Lemma tick_of p t : GetTickAtSqrtRatio p = Ok t -> MinTick <= t < MaxTick /\ rat t <= p < rat (t + 1) /\ MinSqrtRatio <= p < MaxSqrtRatio.
Proof.
  intros E. unfold GetTickAtSqrtRatio in E. assert (MinSqrtRatio <= p < MaxSqrtRatio) as Hp.
  { destruct (Z_lt_le_dec p MinSqrtRatio); [|destruct (Z_lt_le_dec p MaxSqrtRatio); [lia|]]; rewrite tick_panics in E by lia; discriminate. }
  destruct (tick_ok tickFuel p (le_n _) Hp) as (t' & E' & Ht & Hr). rewrite E' in E. injection E as ->. auto.
Qed.

Lemma rat_lt_inv t u : MinTick <= t <= MaxTick -> MinTick <= u <= MaxTick -> rat t < rat u -> t < u.
Proof. intros Ht Hu H. destruct (Z_lt_le_dec t u) as [|C]; [assumption|]. pose proof (rat_le u t ltac:(lia) ltac:(lia) ltac:(lia)). lia. Qed.
Lemma rat_le_inv t u : MinTick <= t <= MaxTick -> MinTick <= u <= MaxTick -> rat t <= rat u -> t <= u.
Proof. intros Ht Hu H. destruct (Z_le_gt_dec t u) as [|C]; [assumption|]. pose proof (rat_lt u t ltac:(lia) ltac:(lia) ltac:(lia)). lia. Qed.

Lemma round_ok h sp z ex limit fee other s s' : histOK sp h -> 0 < sp -> 0 <= fee < MaxFee -> limitOK z limit ->
  loopOK h sp z ex limit s -> sRemaining s <> 0 -> sPrice s <> limit ->
  swapRound z ex limit fee other s = Ok s' -> exists k st, RoundFacts h sp z ex limit fee other s s' k st.
Proof.
  intros HH Hsp Hfee Hlim HL Hr0 Hpl E. pose proof HL as (HT & EL & HP & HG & HR & Hside).
  unfold swapRound in E. apply bind_inv in E as ((n & b) & En & E).
  pose proof (search_facts h sp z (sData s) (sTick s) n b HH HT Hsp (proj1 HP) En) as [HS HC]. cbv zeta in HC. set (k := clampTick n) in *. clearbody k.
  pose proof HS as [Hk Hs]. rewrite rat_ok in E by assumption. cbn [bind] in E.
  pose proof (active_range _ _ (sTick s) HH) as Hliq. rewrite <- EL in Hliq.
  assert ((if z then if rat k <? limit then limit else rat k else if limit <? rat k then limit else rat k) = targetOf z limit (rat k)) as ET.
  { unfold targetOf. destruct z; [destruct (rat k <? limit) eqn:?|destruct (limit <? rat k) eqn:?]; lia. }
  rewrite ET in E. clear ET. apply bind_inv in E as (st & Est & E). cbv zeta in E. apply bind_inv in E as (g & Eg & E).
  pose proof (price_bounds _ _ HP) as HPb. pose proof (rat_range k Hk) as Hkb.
  assert (MinSqrtRatio <= targetOf z limit (rat k) <= MaxSqrtRatio) as HTb by (unfold targetOf, side, limitOK in *; destruct z; lia).
  destruct (step_facts (sPrice s) (targetOf z limit (rat k)) (sLiquidity s) (sRemaining s) fee ex st ltac:(apply price_R; lia) ltac:(apply price_R; lia) Hliq Hr0 HR Hfee Est)
    as (A1 & A2 & A3 & A4 & A5 & A6 & A7). cbv zeta in *.
  set (rem' := if ex then usub (sRemaining s) (uadd (stIn st) (stFee st)) else uadd (sRemaining s) (stOut st)) in *.
  set (calc' := if ex then usub (sCalculated s) (stOut st) else uadd (sCalculated s) (uadd (stIn st) (stFee st))) in *.
  assert ((if 0 <? sLiquidity s then exists f, MulDiv (stFee st) Q128 (sLiquidity s) = Ok f /\ g = uadd (sGrowth s) f else g = sGrowth s) /\ is_u256 g) as [EG HG'].
  { unfold usign in Eg. destruct (sLiquidity s =? 0) eqn:C0; [|replace (sLiquidity s <? T255) with true in Eg by lia].
    - change (0 <? 0) with false in Eg. injection Eg as <-. replace (0 <? sLiquidity s) with false by lia. auto.
    - change (0 <? 1) with true in Eg. cbv iota in Eg. apply bind_inv in Eg as (f & Ef & Eg). injection Eg as <-. replace (0 <? sLiquidity s) with true by lia.
      split; [eauto|]. unfold is_u256, uadd. apply Z.mod_pos_bound. lia. }
  destruct HP as (Ht & Hp1 & Hp2).
  (* the new price against the limit and the next tick *)
  assert (side z limit (stNext st)) as Hside'.
  { unfold toward, targetOf, side in *. destruct z; destruct (_ <=? sPrice s); lia. }
  assert (stNext st < MaxSqrtRatio /\ (z = true -> MinSqrtRatio < stNext st)) as [Hmax Hmin].
  { unfold side, limitOK in *. destruct z; [|split; [lia|discriminate]]. split; [|lia].
    unfold toward, targetOf in A1. destruct (misplaced_dec (sTick s) sp) as [M|M].
    - destruct (proj1 Hs M) as [_ [H1 H2]]. pose proof (rat_lt k MaxTick ltac:(lia) ltac:(unfold MaxTick; lia) ltac:(lia)) as Q. rewrite rat_max in Q.
      destruct (_ <=? sPrice s) eqn:C; lia.
    - specialize (proj2 Hs M) as H1. pose proof (rat_lt k MaxTick ltac:(lia) ltac:(lia) ltac:(lia)) as Q. rewrite rat_max in Q.
      destruct (_ <=? sPrice s) eqn:C; lia. }
  assert (stNext st <> rat k -> stNext st <> sPrice s -> forall t, GetTickAtSqrtRatio (stNext st) = Ok t ->
    clear (sData s) (sTick s) t /\ clear (sData s) t (sTick s) /\
    (z = true -> ~ misplaced (sTick s) sp -> t <= sTick s) /\ (z = false -> sTick s <= t)) as HMove.
  { intros N1 N2 t Ett. apply tick_of in Ett as (T1 & T2 & T3). destruct z.
    - unfold toward, targetOf in A1. destruct (misplaced_dec (sTick s) sp) as [M|M].
      + destruct (proj1 Hs M) as [_ [H1 H2]]. pose proof (rat_le (sTick s + 1) k ltac:(lia) ltac:(lia) ltac:(lia)) as Q.
        unfold side in *. destruct (Z.max limit (rat k) <=? sPrice s) eqn:C; [lia|].
        assert (sTick s < t + 1) by (apply rat_lt_inv; lia). assert (t < k) by (apply rat_lt_inv; lia).
        assert (b = false) as -> by (destruct b; [lia|reflexivity]). destruct HC as [_ HC]. split; [intros j Hj; apply HC; lia|]. split; [intros j Hj; lia|]. split; [tauto|discriminate].
      + specialize (proj2 Hs M) as H1. pose proof (rat_le k (sTick s) ltac:(lia) ltac:(lia) ltac:(lia)) as Q.
        assert (rat k <= stNext st <= sPrice s) as HB by (unfold side in *; destruct (Z.max limit (rat k) <=? sPrice s) eqn:C; lia).
        assert (k < t + 1) by (apply rat_lt_inv; lia). assert (t < sTick s + 1) by (apply rat_lt_inv; lia).
        split; [intros j Hj; lia|]. split; [|split; [intros; lia|discriminate]]. intros j Hj. destruct b; [destruct HC as (_ & _ & HC)|destruct HC as [HC _]]; apply HC; lia.
    - unfold toward, targetOf in A1. pose proof (rat_le (sTick s + 1) k ltac:(lia) ltac:(lia) ltac:(lia)) as Q. unfold side in *.
      assert (sPrice s <= stNext st <= rat k) as HB by (destruct (Z.min limit (rat k) <=? sPrice s) eqn:C; lia).
      assert (sTick s < t + 1) by (apply rat_lt_inv; lia). assert (t < k) by (apply rat_lt_inv; lia).
      split; [|split; [intros j Hj; lia|split; [discriminate|intros; lia]]]. intros j Hj. destruct b; [destruct HC as [_ HC]|]; apply HC; lia. }
  assert ((z = true -> ~ misplaced (sTick s) sp -> stNext st <= sPrice s) /\ (z = false -> sPrice s <= stNext st)) as [Hdn Hup].
  { unfold toward, targetOf in A1. split; intros ->.
    - intros M. pose proof (proj2 Hs M) as H1. pose proof (rat_le k (sTick s) ltac:(lia) ltac:(lia) ltac:(lia)). unfold side in *.
      destruct (Z.max limit (rat k) <=? sPrice s) eqn:C; lia.
    - pose proof (rat_le (sTick s + 1) k ltac:(lia) ltac:(lia) ltac:(lia)). unfold side in *. destruct (Z.min limit (rat k) <=? sPrice s) eqn:C; lia. }
  exists k, st.
  assert (rem' = 0 \/ stNext st = limit \/ stNext st = rat k) as Hprog.
  { destruct (Z.eq_dec (stNext st) (targetOf z limit (rat k))) as [Eq|N]; [right; unfold targetOf in Eq; destruct z; lia|left; auto]. }
  destruct (stNext st =? rat k) eqn:Cn.
  - assert (stNext st = rat k) as Enk by lia. apply bind_inv in E as ((d' & liq') & Ec & E). injection E as <-.
    assert (MinTick <= (if z then k - 1 else k) < MaxTick /\ rat (if z then k - 1 else k) <= stNext st <= rat ((if z then k - 1 else k) + 1)) as [HT1 HT2].
    { destruct z.
      - assert (k <> MinTick) as NM by (intros ->; rewrite rat_min in Enk; specialize (Hmin eq_refl); lia).
        split; [lia|]. replace (k - 1 + 1) with k by lia. pose proof (rat_le (k - 1) k ltac:(lia) ltac:(lia) ltac:(lia)). lia.
      - assert (k <> MaxTick) as NM by (intros ->; rewrite rat_max in Enk; lia).
        split; [lia|]. pose proof (rat_le k (k + 1) ltac:(lia) ltac:(lia) ltac:(lia)). lia. }
    assert (moved z g other (sData s) (sTick s) d' (if z then k - 1 else k) /\ tableOK h sp d' /\ liq' = active h (if z then k - 1 else k)) as (HM & HT' & EL').
    { pose proof (active_range _ _ (if z then k - 1 else k) HH) as Hliq'. pose proof (histOK_proper _ _ HH) as Hprop. destruct b.
      - apply bind_inv in Ec as ((dd & nn) & Ecr & Ec). injection Ec as <- <-.
        assert (tableOK h sp dd /\ nn = net h k mod T256 /\ present (sData s) k) as (HT' & En' & Pk) by (destruct z; eapply cross_table; eassumption).
        split; [eapply moved_cross; [|exact Pk|exact Ecr]; destruct z; tauto|]. split; [assumption|].
        rewrite EL, En'. pose proof (active_step h k Hprop) as HA. destruct z.
        + destruct HC as (C1 & _ & C2). rewrite (clear_active h sp (sData s) k (sTick s) HH HT C1 C2). unfold usub. rewrite Zminus_mod_idemp_r, HA.
          replace (active h (k - 1) + net h k - net h k) with (active h (k - 1)) by ring. apply Z.mod_small. lia.
        + destruct HC as (_ & C2). rewrite <- (clear_active h sp (sData s) (sTick s) (k - 1) HH HT ltac:(lia) C2). unfold uadd. rewrite Zplus_mod_idemp_r, <- HA.
          apply Z.mod_small. lia.
      - injection Ec as <- <-. destruct z.
        + destruct HC as [C1 C2]. split; [apply moved_flat; assumption|]. split; [assumption|]. rewrite EL.
          destruct (Z_le_gt_dec (k - 1) (sTick s)) as [D|D]; [apply (clear_active h sp (sData s)); assumption|].
          symmetry. apply (clear_active h sp (sData s)); try assumption. lia.
        + split; [apply moved_flat; [assumption|intros j Hj; lia]|]. split; [assumption|]. rewrite EL. symmetry. apply (clear_active h sp (sData s)); try assumption. lia. }
    constructor; cbn [sRemaining sCalculated sPrice sTick sGrowth sLiquidity sData]; try assumption; try reflexivity.
    + unfold loopOK, priceOK. cbn [sRemaining sCalculated sPrice sTick sGrowth sLiquidity sData]. split; [assumption|]. split; [assumption|]. split; [lia|]. repeat (split; [assumption|]). assumption.
    + intros -> M. pose proof (proj2 Hs M). split; [lia|auto].
    + intros ->. split; [lia|auto].
    + intros -> _. rewrite Enk. apply rat_lt; lia.
  - assert (stNext st <> rat k) as N1 by lia. destruct (stNext st =? sPrice s) eqn:Cs; cbn [negb] in E.
    + injection E as <-. assert (stNext st = sPrice s) as Es by lia.
      constructor; cbn [sRemaining sCalculated sPrice sTick sGrowth sLiquidity sData]; try assumption; try reflexivity; try tauto.
      * apply moved_flat; intros j Hj; lia.
      * unfold loopOK, priceOK. cbn [sRemaining sCalculated sPrice sTick sGrowth sLiquidity sData]. rewrite Es in *. split; [assumption|]. split; [assumption|]. split; [lia|]. repeat (split; [assumption|]). assumption.
      * intros; lia.
      * intros; lia.
      * intros _ H. rewrite Es. exact H.
    + apply bind_inv in E as (t & Ett & E). injection E as <-. destruct (HMove N1 ltac:(lia) t Ett) as (M1 & M2 & M3 & M4).
      apply tick_of in Ett as (T1 & T2 & T3).
      constructor; cbn [sRemaining sCalculated sPrice sTick sGrowth sLiquidity sData]; try assumption; try reflexivity; try tauto.
      * apply moved_flat; assumption.
      * unfold loopOK, priceOK. cbn [sRemaining sCalculated sPrice sTick sGrowth sLiquidity sData]. split; [assumption|]. split.
        { rewrite EL. destruct (Z_le_gt_dec t (sTick s)) as [D|D]; [apply (clear_active h sp (sData s)); assumption|].
          symmetry. apply (clear_active h sp (sData s)); try assumption. lia. }
        split; [lia|]. repeat (split; [assumption|]). assumption.
Qed.
