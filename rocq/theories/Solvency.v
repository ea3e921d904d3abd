(** Solvency.v -- the exact worth of liquidity, and what a swap does to it. *)
From Coq Require Import ZifyBool String QArith Lqa.
From Verif Require Import Base U256Z FullMathFacts SwapMath SwapMathFacts SwapStep TickMath TickMathFacts TickData TickDataFacts TickSearch TickFees Ledger Pool PoolTable PoolInv PoolSwap PoolLoop PoolStuck PoolHist PoolOps PoolMint PoolFees PoolPos PoolSpec.
From Verif Require U256Facts.
Ltac Zify.zify_post_hook ::= idtac.
Open Scope Z_scope.

(** the signed reading of a word *)
Notation sgn256 := U256Facts.sgn256.

Notation "[ x ]q" := (inject_Z x) (format "[ x ]q").

(** ** the worth of one unit of liquidity on a range, as an exact fraction *)
(** [tk] is the token: true for token 0, false for token 1 *)
Definition curve (tk : bool) (P : Z) : Q := if tk then ([2 ^ 96]q / [P]q)%Q else ([P]q / [2 ^ 96]q)%Q.
Definition clampP (l u P : Z) : Z := Z.max (rat l) (Z.min (rat u) P).
Definition worth (tk : bool) (P l u : Z) : Q := (curve tk (clampP l u P) - curve tk (rat (if tk then u else l)))%Q.

(** sum of w(lower, upper) * delta *)
Fixpoint sumQ (w : Z -> Z -> Q) (h : hist) : Q :=
  match h with
  | [] => 0%Q
  | e :: h => (w (eLower e) (eUpper e) * [eDelta e]q + sumQ w h)%Q
  end.

Lemma injZ_add a b : ([a + b]q == [a]q + [b]q)%Q.
Proof. rewrite inject_Z_plus. reflexivity. Qed.
Lemma injZ_mul a b : ([a * b]q == [a]q * [b]q)%Q.
Proof. rewrite inject_Z_mult. reflexivity. Qed.
Lemma injZ_opp a : ([- a]q == - [a]q)%Q.
Proof. rewrite inject_Z_opp. reflexivity. Qed.
Lemma injZ_sub a b : ([a - b]q == [a]q - [b]q)%Q.
Proof. unfold Z.sub. rewrite injZ_add, injZ_opp. reflexivity. Qed.
Lemma injZ_le a b : ([a]q <= [b]q)%Q <-> a <= b.
Proof. rewrite Zle_Qle. reflexivity. Qed.

Lemma sumQ_split w h e : (sumQ w h == w (eLower e) (eUpper e) * [minted h (eLower e) (eUpper e)]q + sumQ w (filter (fun x => negb (same x e)) h))%Q.
Proof.
  unfold minted. induction h as [|x h IH]; [cbn [sumQ sumOn filter]; change [0]q with 0%Q; ring|]. cbn [sumQ sumOn filter]. rewrite IH. unfold same at 2.
  rewrite injZ_add, injZ_mul. destruct ((eLower x =? eLower e) && (eUpper x =? eUpper e)) eqn:C; cbn [negb sumQ ind].
  - apply andb_prop in C as [C1 C2]. apply Z.eqb_eq in C1, C2. rewrite C1, C2. change [1]q with 1%Q. ring.
  - change [0]q with 0%Q. ring.
Qed.

(** a sum that vanishes on every range that still holds liquidity is zero *)
Lemma sumQ_zero w h : (forall l u, minted h l u <> 0 -> (w l u == 0)%Q) -> (sumQ w h == 0)%Q.
Proof.
  remember (length h) as n eqn:En. assert (length h <= n)%nat as Hn by lia. clear En. revert h Hn. induction n as [|n IH]; intros h Hn Hw.
  - destruct h; [reflexivity|cbn in Hn; lia].
  - destruct h as [|e h]; [reflexivity|]. rewrite (sumQ_split w (e :: h) e).
    assert (w (eLower e) (eUpper e) * [minted (e :: h) (eLower e) (eUpper e)]q == 0)%Q as ->.
    { destruct (Z.eq_dec (minted (e :: h) (eLower e) (eUpper e)) 0) as [->|N]; [change [0]q with 0%Q; ring|]. rewrite Hw by assumption. ring. }
    rewrite IH; [ring| |].
    + cbn [filter]. unfold same at 1. rewrite !Z.eqb_refl. cbn [andb negb]. cbn in Hn. pose proof (filter_length_le (fun x => negb (same x e)) h). lia.
    + intros l u. rewrite minted_filter. destruct (_ && _); [lia|apply Hw].
Qed.
Lemma sumQ_nonneg w h : covered h -> (forall e, In e h -> 0 <= w (eLower e) (eUpper e))%Q -> (0 <= sumQ w h)%Q.
Proof.
  remember (length h) as n eqn:En. assert (length h <= n)%nat as Hn by lia. clear En. revert h Hn. induction n as [|n IH]; intros h Hn Hc Hw.
  - destruct h; [cbn; lra|cbn in Hn; lia].
  - destruct h as [|e h]; [cbn; lra|]. rewrite (sumQ_split w (e :: h) e).
    assert (0 <= w (eLower e) (eUpper e) * [minted (e :: h) (eLower e) (eUpper e)]q)%Q.
    { apply Qmult_le_0_compat; [apply Hw; now left|]. apply (injZ_le 0). apply Hc. }
    assert (0 <= sumQ w (filter (fun x => negb (same x e)) (e :: h)))%Q; [|lra].
    apply IH.
    + cbn [filter]. unfold same at 1. rewrite !Z.eqb_refl. cbn [andb negb]. cbn in Hn. pose proof (filter_length_le (fun x => negb (same x e)) h). lia.
    + intros l u. rewrite minted_filter. destruct (_ && _); [lia|apply Hc].
    + intros x Hx. apply filter_In in Hx as [Hx _]. auto.
Qed.
Lemma sumQ_sub w w' h : (sumQ (fun l u => w l u - w' l u) h == sumQ w h - sumQ w' h)%Q.
Proof. induction h as [|e h IH]; [cbn; ring|]. cbn [sumQ]. rewrite IH. ring. Qed.
Lemma sumQ_scale w c h : (sumQ (fun l u => [w l u]q * c) h == [sumOn w h]q * c)%Q.
Proof. induction h as [|e h IH]; [cbn; change [0]q with 0%Q; ring|]. cbn [sumQ sumOn]. rewrite IH, injZ_add, injZ_mul. ring. Qed.

(** ** the curve *)
Lemma injZ_pos P : 0 < P -> (0 < [P]q)%Q.
Proof. intros H. change 0%Q with [0]q. rewrite <- Zlt_Qlt. assumption. Qed.
Lemma q96_pos : (0 < [2 ^ 96]q)%Q.
Proof. apply injZ_pos. lia. Qed.

Lemma curve_mono0 a b : 0 < a <= b -> (curve true b <= curve true a)%Q.
Proof.
  intros H. unfold curve. pose proof q96_pos. pose proof (injZ_pos a ltac:(lia)). pose proof (injZ_pos b ltac:(lia)).
  apply Qle_shift_div_l; [assumption|]. apply Qle_trans with ([2 ^ 96]q / [b]q * [b]q)%Q.
  - apply Qmult_le_l; [|now apply injZ_le]. apply Qlt_shift_div_l; lra.
  - rewrite Qmult_comm, Qmult_div_r; lra.
Qed.
Lemma curve_mono1 a b : a <= b -> (curve false a <= curve false b)%Q.
Proof.
  intros H. unfold curve. pose proof q96_pos as Q. unfold Qdiv. apply Qmult_le_r; [now apply Qinv_lt_0_compat|now apply injZ_le].
Qed.
Lemma rat_pos t : MinTick <= t <= MaxTick -> 0 < rat t.
Proof. intros H. pose proof (rat_range t H). unfold MinSqrtRatio in *. lia. Qed.
Lemma worth_nonneg tk P l u : MinTick <= l -> l < u -> u <= MaxTick -> (0 <= worth tk P l u)%Q.
Proof.
  intros H1 H2 H3. pose proof (rat_lt l u H1 H2 H3) as R. pose proof (rat_pos l ltac:(lia)). unfold worth. destruct tk.
  - pose proof (curve_mono0 (clampP l u P) (rat u) ltac:(unfold clampP; lia)). lra.
  - pose proof (curve_mono1 (rat l) (clampP l u P) ltac:(unfold clampP; lia)). lra.
Qed.

(** the amounts of a step, as fractions of the curve *)
Lemma curve0_diff a b l x : 0 < a -> 0 < b -> l * 2 ^ 96 * (b - a) <= x * (a * b) -> ([l]q * (curve true a - curve true b) <= [x]q)%Q.
Proof.
  intros Ha Hb H. apply injZ_le in H. rewrite !injZ_mul, injZ_sub in H. unfold curve. pose proof (injZ_pos a Ha). pose proof (injZ_pos b Hb).
  assert ([l]q * ([2 ^ 96]q / [a]q - [2 ^ 96]q / [b]q) == [l]q * [2 ^ 96]q * ([b]q - [a]q) / ([a]q * [b]q))%Q as -> by (field; split; lra).
  apply Qle_shift_div_r; [|exact H]. apply Qmult_lt_0_compat; assumption.
Qed.
Lemma curve0_diff' a b l x : 0 < a -> 0 < b -> x * (a * b) <= l * 2 ^ 96 * (b - a) -> ([x]q <= [l]q * (curve true a - curve true b))%Q.
Proof.
  intros Ha Hb H. apply injZ_le in H. rewrite !injZ_mul, injZ_sub in H. unfold curve. pose proof (injZ_pos a Ha). pose proof (injZ_pos b Hb).
  assert ([l]q * ([2 ^ 96]q / [a]q - [2 ^ 96]q / [b]q) == [l]q * [2 ^ 96]q * ([b]q - [a]q) / ([a]q * [b]q))%Q as -> by (field; split; lra).
  apply Qle_shift_div_l; [|exact H]. apply Qmult_lt_0_compat; assumption.
Qed.
Lemma curve1_diff a b l x : l * (b - a) <= x * 2 ^ 96 -> ([l]q * (curve false b - curve false a) <= [x]q)%Q.
Proof.
  intros H. apply injZ_le in H. rewrite !injZ_mul, injZ_sub in H. unfold curve. pose proof q96_pos.
  assert ([l]q * ([b]q / [2 ^ 96]q - [a]q / [2 ^ 96]q) == [l]q * ([b]q - [a]q) / [2 ^ 96]q)%Q as -> by (field; lra).
  apply Qle_shift_div_r; assumption.
Qed.
Lemma curve1_diff' a b l x : x * 2 ^ 96 <= l * (b - a) -> ([x]q <= [l]q * (curve false b - curve false a))%Q.
Proof.
  intros H. apply injZ_le in H. rewrite !injZ_mul, injZ_sub in H. unfold curve. pose proof q96_pos.
  assert ([l]q * ([b]q / [2 ^ 96]q - [a]q / [2 ^ 96]q) == [l]q * ([b]q - [a]q) / [2 ^ 96]q)%Q as -> by (field; lra).
  apply Qle_shift_div_l; assumption.
Qed.

(** ** one round of a swap *)
Section Round.
Variables (h : hist) (sp : Z) (z ex : bool) (limit fee other : Z).
Hypothesis HH : histOK sp h.
Hypothesis Hsp : 0 < sp.
Hypothesis Hfee : 0 <= fee < MaxFee.
Hypothesis Hlim : limitOK z limit.

(** the price stays between the initialised ticks around the current one *)
Lemma round_span s s' : loopOK h sp z ex limit s -> running limit s = true -> (z = true -> ~ misplaced (sTick s) sp) ->
  swapRound z ex limit fee other s = Ok s' ->
  forall j, MinTick <= j <= MaxTick -> gross h j <> 0 ->
    (j <= sTick s -> rat j <= Z.min (sPrice s) (sPrice s')) /\ (sTick s < j -> Z.max (sPrice s) (sPrice s') <= rat j).
Proof.
  intros HL R NM E j Hjr Hj. pose proof HL as (HT & EL & HP & HG & HR & Hside). apply (present_gross h sp (sData s) j HT) in Hj.
  unfold swapRound in E. apply bind_inv in E as ((n & b) & En & E).
  pose proof (search_facts h sp z (sData s) (sTick s) n b HH HT Hsp (proj1 HP) En) as [HS HC]. cbv zeta in HC. set (k := clampTick n) in *. clearbody k.
  pose proof HS as [Hk Hs]. rewrite rat_ok in E by assumption. cbn [bind] in E.
  pose proof (active_range _ _ (sTick s) HH) as Hliq. rewrite <- EL in Hliq.
  assert ((if z then if rat k <? limit then limit else rat k else if limit <? rat k then limit else rat k) = targetOf z limit (rat k)) as ET.
  { unfold targetOf. destruct z; [destruct (rat k <? limit) eqn:?|destruct (limit <? rat k) eqn:?]; lia. }
  rewrite ET in E. clear ET. apply bind_inv in E as (st & Est & E). cbv zeta in E. apply bind_inv in E as (g & Eg & E).
  pose proof (price_bounds _ _ HP) as HPb. pose proof (rat_range k Hk) as Hkb.
  assert (MinSqrtRatio <= targetOf z limit (rat k) <= MaxSqrtRatio) as HTb by (unfold targetOf, side, limitOK in *; destruct z; lia).
  destruct (step_facts (sPrice s) (targetOf z limit (rat k)) (sLiquidity s) (sRemaining s) fee ex st ltac:(apply price_R; lia) ltac:(apply price_R; lia) Hliq ltac:(unfold running in R; lia) HR Hfee Est)
    as (A1 & _).
  assert (sPrice s' = stNext st) as ->.
  { destruct (stNext st =? rat k); [|destruct (negb _)].
    - apply bind_inv in E as ((d' & liq') & _ & E). injection E as <-. reflexivity.
    - apply bind_inv in E as (t & _ & E). injection E as <-. reflexivity.
    - injection E as <-. reflexivity. }
  clear E Eg Est. destruct HP as (Ht & Hp1 & Hp2). unfold toward, targetOf in A1. unfold side in Hside. destruct z.
  - specialize (NM eq_refl). specialize (proj2 Hs NM) as H1. pose proof (rat_le k (sTick s) ltac:(lia) ltac:(lia) ltac:(lia)) as Q.
    assert (rat k <= stNext st <= sPrice s) as HB by (destruct (Z.max limit (rat k) <=? sPrice s) eqn:C; lia).
    split; intros Hjt.
    + assert (j <= k) as Hjk.
      { destruct (Z_le_gt_dec j k); [assumption|]. exfalso. destruct b; [destruct HC as (_ & _ & HC)|destruct HC as [HC _]]; apply (HC j); [lia|assumption|lia|assumption]. }
      pose proof (rat_le j k ltac:(lia) Hjk ltac:(lia)). lia.
    + pose proof (rat_le (sTick s + 1) j ltac:(lia) ltac:(lia) ltac:(lia)). lia.
  - pose proof (rat_le (sTick s + 1) k ltac:(lia) ltac:(lia) ltac:(lia)) as Q.
    assert (sPrice s <= stNext st <= rat k) as HB by (destruct (Z.min limit (rat k) <=? sPrice s) eqn:C; lia).
    split; intros Hjt.
    + pose proof (rat_le j (sTick s) ltac:(lia) ltac:(lia) ltac:(lia)). lia.
    + assert (k <= j) as Hjk.
      { destruct (Z_le_gt_dec k j); [assumption|]. exfalso. destruct b; [destruct HC as [_ HC]|]; apply (HC j); (lia || assumption). }
      pose proof (rat_le k j ltac:(lia) Hjk ltac:(lia)). lia.
Qed.

Lemma round_worth tk s s' : loopOK h sp z ex limit s -> running limit s = true -> (z = true -> ~ misplaced (sTick s) sp) ->
  swapRound z ex limit fee other s = Ok s' ->
  (sumQ (worth tk (sPrice s')) h - sumQ (worth tk (sPrice s)) h == [active h (sTick s)]q * (curve tk (sPrice s') - curve tk (sPrice s)))%Q.
Proof.
  intros HL R NM E. pose proof (round_span s s' HL R NM E) as HS. unfold active.
  rewrite <- (sumQ_scale (fun l u => ind ((l <=? sTick s) && (sTick s <? u)))). rewrite <- sumQ_sub. 
  assert (forall a b : Q, (a - b == 0)%Q -> (a == b)%Q) as K by (intros; lra). apply K. rewrite <- sumQ_sub. apply sumQ_zero.
  intros l u HM. pose proof HH as (Cov & _). pose proof (Cov l u). pose proof (minted_range sp h l u HH ltac:(lia)) as (R1 & R2 & R3 & _).
  pose proof (minted_gross_l h l u Cov). pose proof (minted_gross_u h l u Cov).
  destruct (HS l ltac:(lia) ltac:(lia)) as [Sl1 Sl2]. destruct (HS u ltac:(lia) ltac:(lia)) as [Su1 Su2].
  pose proof (rat_lt l u R2 R1 R3). unfold worth.
  destruct (Z_le_gt_dec l (sTick s)) as [C1|C1]; [destruct (Z_le_gt_dec u (sTick s)) as [C2|C2]|].
  - replace (sTick s <? u) with false by lia. rewrite andb_false_r. specialize (Su1 C2).
    replace (clampP l u (sPrice s')) with (rat u) by (unfold clampP; lia). replace (clampP l u (sPrice s)) with (rat u) by (unfold clampP; lia). cbn [ind]. change [0]q with 0%Q. ring.
  - replace (sTick s <? u) with true by lia. replace (l <=? sTick s) with true by lia. specialize (Su2 ltac:(lia)). specialize (Sl1 C1).
    replace (clampP l u (sPrice s')) with (sPrice s') by (unfold clampP; lia). replace (clampP l u (sPrice s)) with (sPrice s) by (unfold clampP; lia). cbn [ind andb]. change [1]q with 1%Q. ring.
  - replace (l <=? sTick s) with false by lia. specialize (Sl2 ltac:(lia)). cbn [andb].
    replace (clampP l u (sPrice s')) with (rat l) by (unfold clampP; lia). replace (clampP l u (sPrice s)) with (rat l) by (unfold clampP; lia). cbn [ind]. change [0]q with 0%Q. ring.
Qed.

(** what comes in covers what the liquidity gains, what goes out is not more than it loses *)
Lemma round_flow s s' k st : loopOK h sp z ex limit s -> running limit s = true -> (z = true -> ~ misplaced (sTick s) sp) ->
  RoundFacts h sp z ex limit fee other s s' k st ->
  ([active h (sTick s)]q * (curve z (sPrice s') - curve z (sPrice s)) <= [stIn st]q)%Q /\
  ([stOut st]q <= [active h (sTick s)]q * (curve (negb z) (sPrice s) - curve (negb z) (sPrice s')))%Q.
Proof.
  intros HL R NM RF. pose proof HL as (HT & EL & HP & HG & HR & Hside). destruct RF as [R1 R2 R3 R4 R5 R6 R7 R8 R9 R10 R11 R12 R13].
  rewrite <- EL, R3. pose proof (active_range _ _ (sTick s) HH) as Hliq. rewrite <- EL in Hliq. destruct R1 as [Hk Hs].
  pose proof (price_bounds _ _ HP) as HPb. pose proof (rat_range k Hk) as Hkb.
  assert (MinSqrtRatio <= targetOf z limit (rat k) <= MaxSqrtRatio) as HTb by (unfold targetOf, side, limitOK in *; destruct z; lia).
  assert (if z then targetOf z limit (rat k) <= sPrice s else sPrice s <= targetOf z limit (rat k)) as Hdir.
  { destruct HP as (Ht & Hp1 & Hp2). unfold targetOf, side in *. destruct z.
    - specialize (NM eq_refl). specialize (proj2 Hs NM) as H1. pose proof (rat_le k (sTick s) ltac:(lia) ltac:(lia) ltac:(lia)). lia.
    - pose proof (rat_le (sTick s + 1) k ltac:(lia) ltac:(lia) ltac:(lia)) as Q. lia. }
  set (T := targetOf z limit (rat k)) in *. clearbody T. clear R3 R4 R5 R6 R7 R8 R9 R10 R11 R12 R13.
  assert (toward (sPrice s) T (stNext st) /\ in_ceil (T <=? sPrice s) (sLiquidity s) (sPrice s) (stNext st) (stIn st) /\
          out_le (T <=? sPrice s) (sLiquidity s) (sPrice s) (stNext st) (stOut st) /\ 0 <= stIn st) as (A1 & A2 & A3 & A4).
  { assert (sRemaining s <> 0) as Hr0 by (unfold running in R; lia). unfold remOK in HR. destruct ex.
    - destruct (step_exactin (sPrice s) T (sLiquidity s) (sRemaining s) fee st ltac:(apply price_R; lia) ltac:(apply price_R; lia) ltac:(unfold liqR; lia) HR ltac:(lia) R2) as (A1 & A2 & A3 & A4 & _).
      cbv zeta in *. split; [assumption|]. split; [assumption|]. split; [now apply out_floor_le|assumption].
    - destruct HR as [|HR]; [lia|]. destruct (step_exactout (sPrice s) T (sLiquidity s) (sRemaining s) fee st ltac:(apply price_R; lia) ltac:(apply price_R; lia) ltac:(unfold liqR; lia) HR Hfee R2) as (A1 & A2 & A3 & A4 & _).
      cbv zeta in *. split; [assumption|]. split; [assumption|]. split; [assumption|lia]. }
  assert (0 < sPrice s) as HP0 by (unfold MinSqrtRatio in *; lia).
  assert (0 < stNext st) as HN0 by (unfold toward, MinSqrtRatio in *; destruct (T <=? sPrice s); lia).
  unfold toward in A1. destruct z; cbn [negb].
  - replace (T <=? sPrice s) with true in * by lia. unfold in_ceil, out_le, ceil0, Q96 in *. split; [apply curve0_diff; lia|]. apply curve1_diff'. lia.
  - destruct (T <=? sPrice s) eqn:C.
    + assert (stNext st = sPrice s) as Eq by lia. rewrite Eq in *. unfold out_le, Q96 in A3. rewrite Z.sub_diag in A3. apply injZ_le in A4. assert (stOut st <= 0) as A5 by lia. apply injZ_le in A5. change [0]q with 0%Q in *. lra.
    + unfold in_ceil, out_le, ceil1, Q96 in *. split; [apply curve1_diff; lia|]. apply curve0_diff'; lia.
Qed.
End Round.

(** what the whole ledger is worth at a price *)
Definition worthAll (tk : bool) (h : hist) (P : Z) : Q := sumQ (worth tk P) h.

(** ** all the rounds of a swap *)
Section Loop.
Variables (h : hist) (sp : Z) (z ex : bool) (limit fee other : Z).
Hypothesis HH : histOK sp h.
Hypothesis Hsp : 0 < sp.
Hypothesis Hfee : 0 <= fee < MaxFee.
Hypothesis Hlim : limitOK z limit.
Notation inOf := (inOf z other).

Lemma loop_cash t0 n : forall s s', loopOK h sp z ex limit s -> (z = true -> noMisplaced sp limit t0 /\ sTick s <= t0) ->
  swapLoop n z ex limit fee other s = Ok s' ->
  exists rs X Y, (forall r, In r rs -> exactShare h r) /\
    sGrowth s' = (sGrowth s + growthOf rs) mod T256 /\
    (forall a b x y, a < b -> inOf s a b = Ok (x, y) -> inOf s' a b = Ok ((x + credited rs a b) mod T256, y)) /\
    0 <= X /\ 0 <= Y /\
    (worthAll z h (sPrice s') + [feesOf rs]q <= worthAll z h (sPrice s) + [X]q)%Q /\
    (worthAll (negb z) h (sPrice s') + [Y]q <= worthAll (negb z) h (sPrice s))%Q /\
    (if ex then sRemaining s' = sRemaining s - X /\ Y <= Z.of_nat n * 2 ^ 193 /\ sCalculated s' mod T256 = (sCalculated s - Y) mod T256
     else (sRemaining s' = sRemaining s + Y \/ (sRemaining s' = 0 /\ sRemaining s + Y = T256 /\ sRemaining s <> 0)) /\
          X <= Z.of_nat n * 2 ^ 216 /\ sCalculated s' mod T256 = (sCalculated s + X) mod T256).
Proof.
  assert (forall m s s', loopOK h sp z ex limit s -> Ok s = Ok s' -> 0 <= m -> exists rs X Y, (forall r, In r rs -> exactShare h r) /\
    sGrowth s' = (sGrowth s + growthOf rs) mod T256 /\
    (forall a b x y, a < b -> inOf s a b = Ok (x, y) -> inOf s' a b = Ok ((x + credited rs a b) mod T256, y)) /\
    0 <= X /\ 0 <= Y /\
    (worthAll z h (sPrice s') + [feesOf rs]q <= worthAll z h (sPrice s) + [X]q)%Q /\
    (worthAll (negb z) h (sPrice s') + [Y]q <= worthAll (negb z) h (sPrice s))%Q /\
    (if ex then sRemaining s' = sRemaining s - X /\ Y <= m * 2 ^ 193 /\ sCalculated s' mod T256 = (sCalculated s - Y) mod T256
     else (sRemaining s' = sRemaining s + Y \/ (sRemaining s' = 0 /\ sRemaining s + Y = T256 /\ sRemaining s <> 0)) /\
          X <= m * 2 ^ 216 /\ sCalculated s' mod T256 = (sCalculated s + X) mod T256)) as Stop.
  { intros m s s' HL E Hm. injection E as <-. exists [], 0, 0. cbn [In growthOf feesOf credited]. change [0]q with 0%Q. split; [tauto|].
    split; [rewrite Z.add_0_r, Z.mod_small; [reflexivity|apply HL]|]. split.
    { intros a b x y Hab E. rewrite E. f_equal. f_equal. rewrite Z.add_0_r. symmetry. apply Z.mod_small.
      pose proof HL as ((Hs & _) & _). unfold PoolFees.inOf, insideOf in E. destruct z.
      - destruct (inside_present _ _ _ _ _ _ _ Hs E) as [Pa Pb]. rewrite GetFeeGrowthInside_spec in E by assumption. injection E as <- _. apply Z.mod_pos_bound. lia.
      - apply bind_inv in E as (r & E & Q). destruct (inside_present _ _ _ _ _ _ _ Hs E) as [Pa Pb]. rewrite GetFeeGrowthInside_spec in E by assumption. injection E as <-. cbn [snd fst] in Q. injection Q as <- _. apply Z.mod_pos_bound. lia. }
    split; [lia|]. split; [lia|]. split; [lra|]. split; [lra|]. destruct ex; (split; [lia|]); (split; [lia|]); f_equal; lia. }
  induction n as [|n IH]; intros s s' HL NM E; rewrite (loop_eq z ex limit fee other) in E; destruct (running limit s) eqn:R; try discriminate.
  - apply (Stop (Z.of_nat 0)); [assumption|assumption|lia].
  - apply bind_inv in E as (s1 & E1 & E). destruct (running_ok h sp z ex limit fee other HH Hsp Hfee Hlim s s1 HL R E1) as (k & st & RF).
    pose proof (rf_ok _ _ _ _ _ _ _ _ _ _ _ RF) as HL1.
    assert (z = true -> ~ misplaced (sTick s) sp) as NMs.
    { intros Ez. destruct (NM Ez) as [N1 N2]. exact (noMisplaced_run h sp z ex limit t0 s N1 Ez HL R N2). }
    assert (z = true -> noMisplaced sp limit t0 /\ sTick s1 <= t0) as NM1.
    { intros Ez. destruct (NM Ez) as [N1 N2]. split; [assumption|]. destruct (rf_down _ _ _ _ _ _ _ _ _ _ _ RF Ez (NMs Ez)). lia. }
    destruct (round_share h sp z ex limit fee other HH Hfee Hlim s s1 k st HL R RF) as (f & F0 & F1 & F2 & F3 & (F4 & F4' & _) & F5).
    destruct (round_flow h sp z ex limit fee other HH Hfee Hlim s s1 k st HL R NMs RF) as [W1 W2].
    pose proof (round_worth h sp z ex limit fee other HH Hsp Hfee Hlim z s s1 HL R NMs E1) as V1.
    pose proof (round_worth h sp z ex limit fee other HH Hsp Hfee Hlim (negb z) s s1 HL R NMs E1) as V2.
    fold (worthAll z h (sPrice s1)) (worthAll z h (sPrice s)) in V1. fold (worthAll (negb z) h (sPrice s1)) (worthAll (negb z) h (sPrice s)) in V2.
    assert (sRemaining s1 = 0 -> s' = s1) as Hz by (intros Z1; rewrite (loop_eq z ex limit fee other) in E; unfold running in E; rewrite Z1 in E; cbn [Z.eqb negb andb] in E; destruct n; congruence).
    destruct (IH s1 s' HL1 NM1 E) as (rs & X & Y & I1 & I2 & I3 & I4 & I5 & I6 & I7 & I8).
    pose proof HL as (HT & EL & HP & HG & HR & Hside).
    pose proof (active_range _ _ (sTick s) HH) as Hliq. rewrite <- EL in Hliq.
    pose proof (price_bounds _ _ HP) as HPb. pose proof (rf_search _ _ _ _ _ _ _ _ _ _ _ RF) as [Hk _]. pose proof (rat_range k Hk) as Hkb.
    assert (MinSqrtRatio <= targetOf z limit (rat k) <= MaxSqrtRatio) as HTb by (unfold targetOf, side, limitOK in *; destruct z; lia).
    destruct (step_facts (sPrice s) (targetOf z limit (rat k)) (sLiquidity s) (sRemaining s) fee ex st ltac:(apply price_R; lia) ltac:(apply price_R; lia) Hliq ltac:(unfold running in R; lia) HR Hfee (rf_step _ _ _ _ _ _ _ _ _ _ _ RF))
      as (_ & _ & _ & Ho & Hi & _ & A7). cbv zeta in A7. rewrite <- (rf_rem _ _ _ _ _ _ _ _ _ _ _ RF) in A7. pose proof (rf_calc _ _ _ _ _ _ _ _ _ _ _ RF) as R5.
    exists (mkShare (sTick s) f (stFee st) :: rs), (X + (stIn st + stFee st)), (Y + stOut st).
    split. { intros r [<-|Hr]; [unfold exactShare; cbn [shFee shGrowth shTick]; auto|auto]. }
    cbn [growthOf feesOf credited shFee shGrowth shTick]. split. { rewrite I2, F3, Zplus_mod_idemp_l. f_equal. ring. }
    split. { intros a b x y Hab Ei. rewrite (I3 a b _ y Hab (F5 a b x y Hab Ei)). rewrite Zplus_mod_idemp_l. f_equal. f_equal. f_equal. ring. }
    split; [lia|]. split; [lia|]. rewrite !injZ_add. split; [lra|]. split; [lra|].
    destruct ex.
    + destruct I8 as (J1 & J2 & J3). split; [lia|]. split; [lia|]. rewrite J3, R5. unfold usub. rewrite Zminus_mod_idemp_l. f_equal. ring.
    + destruct I8 as (J1 & J2 & J3). destruct A7 as (A7 & A8 & A9). split.
      { assert (sRemaining s <> 0) as R0 by (unfold running in R; lia). destruct A8 as [A8|[A8 A8']]; [lia|]. specialize (Hz A8). subst s'. right. lia. }
      split; [lia|]. rewrite J3, R5. unfold uadd. rewrite Zplus_mod_idemp_l.
      replace (sCalculated s + (stIn st + stFee st) mod T256 + X) with (sCalculated s + X + (stIn st + stFee st) mod T256) by ring. rewrite Zplus_mod_idemp_r. f_equal. ring.
  - apply (Stop (Z.of_nat (S n))); [assumption|assumption|lia].
Qed.
End Loop.

Lemma sgn_small a : 0 <= a < T255 -> sgn256 a = a.
Proof. intros H. unfold U256Facts.sgn256. replace (a <? T255) with true by lia. reflexivity. Qed.
Lemma sgn_neg y : 0 <= y <= T255 -> sgn256 (uneg y) = - y.
Proof.
  intros H. destruct (Z.eq_dec y 0) as [->|N]; [reflexivity|]. rewrite uneg_small by lia. unfold U256Facts.sgn256. replace (T256 - y <? T255) with false by lia. lia.
Qed.

(** a whole swap: the trader's signed amounts cover the change of the ledger's worth and the credited fees *)
Lemma swap_cash h p n z amt lim p' a0 a1 : poolOK h p -> is_u256 amt -> (z = true -> clearWay p (effectiveLimit z lim)) ->
  swap n p z amt lim = Ok (p', a0, a1) ->
  exists rs fees, sumOn (credited rs) h <= fees * 2 ^ 128 /\ (forall r, In r rs -> 0 <= shGrowth r) /\
    (forall a b x0 x1, a < b -> GetFeeGrowthInside (Data p) a b (TickCurrent p) (FeeGrowth0 p) (FeeGrowth1 p) = Ok (x0, x1) ->
      GetFeeGrowthInside (Data p') a b (TickCurrent p') (FeeGrowth0 p') (FeeGrowth1 p') =
        Ok (if z then ((x0 + credited rs a b) mod T256, x1) else (x0, (x1 + credited rs a b) mod T256))) /\
    (worthAll z h (SqrtRatio p') + [fees]q <= worthAll z h (SqrtRatio p) + [sgn256 (if z then a0 else a1)]q)%Q /\
    (worthAll (negb z) h (SqrtRatio p') <= worthAll (negb z) h (SqrtRatio p) + [sgn256 (if z then a1 else a0)]q)%Q.
Proof.
  intros HP Ha CW E. destruct (swap_ok_inv h p z amt lim HP Ha n p' a0 a1 E) as (HS & Hsp & Hfee & s & Es & -> & EA). destruct (start_ok h p z amt lim HP Ha HS) as (HL & Hl & R).
  pose proof HP as (HH & _ & _ & _ & _ & _ & HG0 & HG1). pose proof Ha as Ha'. unfold is_u256 in Ha'.
  destruct (loop_ind h (TickSpacing p) z (amt <? T255) (effectiveLimit z lim) (Fee p) (otherGrowth p z) HH Hsp Hfee Hl (fun x => is_u256 (sCalculated x))) with (n := n) (s := startState p z amt) (s' := s) as (HL' & Hc & R'); auto.
  { intros x x' k st _ _ _ RF. rewrite (rf_calc _ _ _ _ _ _ _ _ _ _ _ RF). unfold is_u256, usub, uadd. destruct (amt <? T255); apply Z.mod_pos_bound; lia. }
  { unfold is_u256. cbn. lia. }
  pose proof (loop_allRounds h (TickSpacing p) z (amt <? T255) (effectiveLimit z lim) (Fee p) (otherGrowth p z) HH Hsp Hfee Hl n (startState p z amt) s HL Es) as EN.
  assert (z = true -> noMisplaced (TickSpacing p) (effectiveLimit z lim) (TickCurrent p) /\ sTick (startState p z amt) <= TickCurrent p) as NM.
  { intros Ez. split; [|cbn; lia]. exact (clearWay_noMisplaced h p _ HP Hsp (CW Ez)). }
  destruct (loop_cash h (TickSpacing p) z (amt <? T255) (effectiveLimit z lim) (Fee p) (otherGrowth p z) HH Hsp Hfee Hl (TickCurrent p) allRounds (startState p z amt) s HL NM EN) as (rs & X & Y & I1 & I2 & I3 & I4 & I5 & I6 & I7 & I8).
  rewrite allRounds_Z in I8. cbn [startState sRemaining sCalculated sGrowth sPrice] in *. pose proof HL' as (_ & _ & _ & _ & HR & _).
  exists rs, (feesOf rs). split; [exact (shares_ledger h _ rs HH I1)|].
  split. { intros r Hr. exact (proj1 (exactShare_le h _ HH r (I1 r Hr))). }
  split.
  { cbn [finish FeeGrowth0 FeeGrowth1 Data TickCurrent]. intros a b x0 x1 Hab Ei. specialize (I3 a b). unfold inOf, insideOf in I3. cbn [startState sData sTick sGrowth] in I3. destruct z; cbn [otherGrowth] in I3.
    - rewrite (I3 x0 x1 Hab Ei). reflexivity.
    - rewrite Ei in I3. cbn [bind snd fst] in I3. specialize (I3 x1 x0 Hab eq_refl). apply bind_inv in I3 as ((u & v) & E4 & Q). cbn [fst snd] in Q. injection Q as -> ->. rewrite E4. reflexivity. }
  assert (sgn256 (if z then a0 else a1) = X /\ sgn256 (if z then a1 else a0) = - Y) as [-> ->].
  { unfold is_u256 in Hc. unfold MaxTick, MinTick in I8. unfold remOK in HR. destruct (amt <? T255) eqn:C.
    - destruct I8 as (J1 & J2 & J3). rewrite (Z.mod_small (sCalculated s)) in J3 by assumption. change ((0 - Y) mod T256) with (uneg Y) in J3.
      assert ((if z then a0 else a1) = usub amt (sRemaining s) /\ (if z then a1 else a0) = sCalculated s) as [-> ->] by (destruct z; cbn [Bool.eqb] in EA; destruct EA; auto).
      rewrite J3, sgn_neg by lia. split; [|reflexivity]. unfold usub. rewrite J1, Z.mod_small by lia. rewrite sgn_small; lia.
    - destruct I8 as (J1 & J2 & J3). rewrite (Z.mod_small (sCalculated s)) in J3 by assumption. rewrite Z.mod_small in J3 by lia.
      assert ((if z then a0 else a1) = sCalculated s /\ (if z then a1 else a0) = usub amt (sRemaining s)) as [-> ->] by (destruct z; cbn [Bool.eqb] in EA; destruct EA; auto).
      split; [rewrite J3, sgn_small; lia|]. rewrite <- (sgn_neg Y) by lia. f_equal. unfold usub, uneg. destruct J1 as [J1|(J1 & J1' & _)].
      + f_equal. lia.
      + rewrite J1. replace (amt - 0) with (- Y + 1 * T256) by lia. apply Z_mod_plus_full. }
  cbn [finish SqrtRatio]. rewrite injZ_opp. split; lra.
Qed.
