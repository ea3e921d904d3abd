(** PoolQuote.v -- exact input and exact output compared: what one quotes, the other honours. *)
From Coq Require Import ZifyBool String.
From Verif Require Import Base U256Z FullMathFacts SwapMath SwapMathFacts SwapStep TickMath TickMathFacts TickData TickDataFacts TickSearch Ledger Pool PoolTable PoolInv PoolSwap PoolLoop PoolHist PoolOps PoolSpec PoolLimit PoolMono.
Ltac Zify.zify_post_hook ::= idtac.
Open Scope Z_scope.

Lemma farther_trans z a b c : farther z a b -> farther z b c -> farther z a c.
Proof. unfold farther. destruct z; lia. Qed.

(** ** the rounds of a loop, with the two amounts added up *)
Section Trail.
Variables (h : hist) (sp : Z) (z : bool) (limit fee : Z).
Hypothesis HH : histOK sp h.
Hypothesis Hsp : 0 < sp.
Hypothesis Hfee : 0 <= fee < MaxFee.
Hypothesis Hlim : limitOK z limit.
Notation ok ex := (loopOK h sp z ex limit).

(** one round from [s] to [s1] towards tick [k] *)
Record walk (ex : bool) (s s1 : State) (k : Z) (st : StepResult) : Prop := {
  w_rem : sRemaining s <> 0;
  w_limit : sPrice s <> limit;
  w_ok : ok ex s;
  w_ok1 : ok ex s1;
  w_next : exists n b, NextInitializedTickWithinOneWord (sData s) (sTick s) z = Ok (n, b) /\ k = clampTick n;
  w_range : MinTick <= k <= MaxTick;
  w_clear : z = true -> ~ misplaced (sTick s) sp;
  w_way : farther z (sPrice s) (targetOf z limit (rat k));
  w_step : ComputeSwapStep (sPrice s) (targetOf z limit (rat k)) (sLiquidity s) (sRemaining s) fee = Ok st;
  w_price : sPrice s1 = stNext st;
  w_left : left ex (sRemaining s1) = left ex (sRemaining s) - spec ex st;
  w_tally : tally ex s s1 (calc ex st);
  w_tick : Ok (sTick s1) = (if stNext st =? rat k then Ok (if z then k - 1 else k) else if stNext st =? sPrice s then Ok (sTick s) else GetTickAtSqrtRatio (stNext st))
}.
Inductive trail (ex : bool) : State -> State -> Z -> Z -> Prop :=
| trail_end s : ok ex s -> running limit s = false -> trail ex s s 0 0
| trail_round s s1 s' k st a c : walk ex s s1 k st -> trail ex s1 s' a c -> trail ex s s' (spec ex st + a) (calc ex st + c).

Lemma walk_bounds ex s s1 k st : walk ex s s1 k st ->
  priceR (sPrice s) /\ priceR (targetOf z limit (rat k)) /\ 0 <= sLiquidity s < 2 ^ 128 /\ remOK ex (sRemaining s) /\ is_u256 (sRemaining s).
Proof.
  intros W. destruct (w_ok _ _ _ _ _ W) as (HT & EL & HP & HG & HR & Hside). pose proof (w_range _ _ _ _ _ W) as Hk.
  pose proof (active_range _ _ (sTick s) HH) as Hliq. rewrite <- EL in Hliq. pose proof (price_bounds _ _ HP) as HPb. pose proof (rat_range k Hk) as Hkb.
  assert (MinSqrtRatio <= targetOf z limit (rat k) <= MaxSqrtRatio) as HTb by (unfold targetOf, side, limitOK in *; destruct z; lia).
  split; [apply price_R; lia|]. split; [apply price_R; lia|]. split; [lia|]. split; [assumption|]. unfold remOK, is_u256 in *. destruct ex; lia.
Qed.
Lemma walk_facts ex s s1 k st : walk ex s s1 k st -> let T := targetOf z limit (rat k) in
  0 <= spec ex st /\ 0 <= calc ex st <= 2 ^ 216 /\ farther z (sPrice s) (stNext st) /\ farther z (stNext st) T /\ (stNext st <> T -> sRemaining s1 = 0).
Proof.
  intros W T. destruct (walk_bounds _ _ _ _ _ W) as (HP & HT & Hl & HR & _).
  destruct (step_facts (sPrice s) T (sLiquidity s) (sRemaining s) fee ex st HP HT Hl (w_rem _ _ _ _ _ W) HR Hfee (w_step _ _ _ _ _ W)) as (A1 & A2 & A3 & A4 & A5 & A6 & A7). cbv zeta in *.
  pose proof (w_way _ _ _ _ _ W) as HD. fold T in HD. pose proof (w_left _ _ _ _ _ W) as HL. destruct (w_ok1 _ _ _ _ _ W) as (_ & _ & _ & _ & HR1 & _).
  split; [unfold spec; destruct ex; lia|]. split; [unfold calc; destruct ex; lia|].
  assert (farther z (sPrice s) (stNext st) /\ farther z (stNext st) T) as [F1 F2] by (unfold farther, toward in *; destruct z, (T <=? sPrice s) eqn:?; lia).
  split; [assumption|]. split; [assumption|]. intros N. specialize (A3 N).
  unfold left, spec, remOK in *. destruct ex.
  - replace (usub (sRemaining s) (uadd (stIn st) (stFee st))) with (sRemaining s1) in A3; [assumption|]. destruct A7 as [_ A7]. rewrite HL, <- A7. reflexivity.
  - replace (sRemaining s =? 0) with false in HL by (pose proof (w_rem _ _ _ _ _ W); lia). destruct A7 as (_ & [A7|[_ A7]] & _); [|destruct (sRemaining s1 =? 0) eqn:?; lia].
    pose proof (w_rem _ _ _ _ _ W). rewrite A3 in A7. destruct HR as [|HR]; lia.
Qed.
Lemma trail_facts ex s s' a c : trail ex s s' a c -> ok ex s /\ ok ex s' /\ running limit s' = false /\
  0 <= a /\ 0 <= c /\ left ex (sRemaining s') = left ex (sRemaining s) - a /\ tally ex s s' c /\ farther z (sPrice s) (sPrice s').
Proof.
  induction 1 as [s HO R|s s1 s' k st a c W TR (I1 & I2 & I3 & I4 & I5 & I6 & I7 & I8)].
  - split; [assumption|]. split; [assumption|]. split; [assumption|]. split; [lia|]. split; [lia|]. split; [lia|]. split; [apply tally_refl|unfold farther; destruct z; lia].
  - destruct (walk_facts _ _ _ _ _ W) as (F1 & F2 & F3 & F4 & F5). pose proof (w_left _ _ _ _ _ W) as HL. rewrite <- (w_price _ _ _ _ _ W) in F3.
    split; [exact (w_ok _ _ _ _ _ W)|]. split; [assumption|]. split; [assumption|]. split; [lia|]. split; [lia|]. split; [lia|].
    split; [eapply tally_trans; [exact (w_tally _ _ _ _ _ W)|assumption]|exact (farther_trans _ _ _ _ F3 I8)].
Qed.
Lemma loop_walk ex t0 other n s s' : (z = true -> noMisplaced sp limit t0 /\ sTick s <= t0) -> ok ex s -> running limit s = true -> swapLoop (S n) z ex limit fee other s = Ok s' ->
  exists s1 k st, walk ex s s1 k st /\ swapLoop n z ex limit fee other s1 = Ok s' /\ ok ex s1 /\ (z = true -> noMisplaced sp limit t0 /\ sTick s1 <= t0) /\ calc ex st <= 2 ^ 216.
Proof.
  intros HM HO R E. rewrite loop_eq in E. rewrite R in E.
  apply bind_inv in E as (s1 & E1 & E). assert (sRemaining s <> 0 /\ sPrice s <> limit) as [R0 RP] by (unfold running in R; lia).
  destruct (running_ok h sp z ex limit fee other HH Hsp Hfee Hlim s s1 HO R E1) as (kk & stt & RF). pose proof (rf_ok _ _ _ _ _ _ _ _ _ _ _ RF) as HO1.
  assert (z = true -> ~ misplaced (sTick s) sp) as NM.
  { intros Ez. destruct (HM Ez) as [M1 M2]. exact (noMisplaced_run h sp z ex limit t0 s M1 Ez HO R M2). }
  assert (z = true -> noMisplaced sp limit t0 /\ sTick s1 <= t0) as HM1.
  { intros Ez. destruct (HM Ez) as [M1 M2]. split; [assumption|]. destruct (rf_down _ _ _ _ _ _ _ _ _ _ _ RF Ez (NM Ez)). lia. }
  clear kk stt RF. destruct (round_desc h sp z ex limit fee HH Hsp Hlim other s s1 HO E1) as (n0 & b & st & En & [Hk HS] & Est & Q1 & Q2 & Q3 & Q4). cbv zeta in *.
  set (k := clampTick n0) in *.
  pose proof HO as (HT & EL & HP & _ & HR & Hside). pose proof (active_range _ _ (sTick s) HH) as Hliq. rewrite <- EL in Hliq.
  pose proof (price_bounds _ _ HP) as HPb. pose proof (rat_range k Hk) as Hkb.
  assert (MinSqrtRatio <= targetOf z limit (rat k) <= MaxSqrtRatio) as HTb by (unfold targetOf, side, limitOK in *; destruct z; lia).
  assert (farther z (sPrice s) (targetOf z limit (rat k))) as HTd.
  { destruct HP as (P1 & P2 & P3). unfold farther, targetOf, side in *. destruct z.
    - specialize (proj2 HS (NM eq_refl)) as H1. pose proof (rat_le k (sTick s) ltac:(lia) ltac:(lia) ltac:(lia)). lia.
    - pose proof (rat_le (sTick s + 1) k ltac:(lia) ltac:(lia) ltac:(lia)). lia. }
  destruct (step_facts (sPrice s) (targetOf z limit (rat k)) (sLiquidity s) (sRemaining s) fee ex st ltac:(apply price_R; lia) ltac:(apply price_R; lia) Hliq R0 HR Hfee Est) as (_ & _ & _ & A4 & A5 & A6 & A7).
  assert (walk ex s s1 k st) as W.
  { constructor; try assumption; [eauto| |apply tally_step; assumption].
    apply left_step; try assumption; unfold spec, left; destruct ex; try lia. replace (sRemaining s =? 0) with false by lia. lia. }
  exists s1, k, st. split; [assumption|]. split; [assumption|]. split; [assumption|]. split; [assumption|]. unfold calc; destruct ex; lia.
Qed.
Lemma loop_trail ex t0 other n : forall s s', (z = true -> noMisplaced sp limit t0 /\ sTick s <= t0) -> ok ex s -> swapLoop n z ex limit fee other s = Ok s' ->
  exists a c, trail ex s s' a c /\ c <= Z.of_nat n * 2 ^ 216.
Proof.
  induction n as [|n IH]; intros s s' HM HO E; pose proof E as E0; rewrite loop_eq in E0; destruct (running limit s) eqn:R; try discriminate.
  - injection E0 as <-. exists 0, 0. split; [now apply trail_end|lia].
  - destruct (loop_walk ex t0 other n s s' HM HO R E) as (s1 & k & st & W & E' & HO1 & HM1 & HB). destruct (IH s1 s' HM1 HO1 E') as (a & c & TR & HC).
    exists (spec ex st + a), (calc ex st + c). split; [eapply trail_round; eassumption|]. lia.
  - injection E0 as <-. exists 0, 0. split; [now apply trail_end|lia].
Qed.

(** two rounds from the same price and tick, of different kinds perhaps, head for the same tick *)
Lemma walk_same e1 e2 s t s1 t1 k k' st st' : alike s t -> walk e1 s s1 k st -> walk e2 t t1 k' st' -> k' = k /\ sLiquidity t = sLiquidity s.
Proof.
  intros [AP AT] W W'. destruct (w_next _ _ _ _ _ W) as (n & b & En & ->). destruct (w_next _ _ _ _ _ W') as (n' & b' & En' & ->).
  pose proof (w_ok _ _ _ _ _ W) as (HT & EL & _). pose proof (w_ok _ _ _ _ _ W') as (HT' & EL' & _).
  rewrite <- AT in En'. destruct (search_same h sp z _ _ _ _ _ _ _ HT HT' Hsp En En') as [<- _]. split; [reflexivity|]. rewrite EL, EL', AT. reflexivity.
Qed.
(** if they go to the same price they arrive at the same tick *)
Lemma walk_alike e1 e2 s t s1 t1 k st st' : alike s t -> walk e1 s s1 k st -> walk e2 t t1 k st' -> stNext st' = stNext st -> alike s1 t1.
Proof.
  intros [AP AT] W W' E. split; [rewrite (w_price _ _ _ _ _ W), (w_price _ _ _ _ _ W'); congruence|].
  pose proof (w_tick _ _ _ _ _ W) as Q. pose proof (w_tick _ _ _ _ _ W') as Q'. rewrite E, <- AP, <- AT, <- Q in Q'. congruence.
Qed.

(** ** the output that an exact input yields costs no more when asked for *)
Lemma ask_less s s' R Y : trail true s s' R Y -> forall t t' w X, trail false t t' w X -> alike s t -> left false (sRemaining t) < Y ->
  X <= R /\ farther z (sPrice t') (sPrice s') /\ sRemaining t' = 0.
Proof.
  induction 1 as [s HO RN|s s1 s' k st a c W TR IH]; intros t t' w X TT AL HY.
  { exfalso. destruct (trail_facts _ _ _ _ _ TT) as ((_ & _ & _ & _ & HR & _) & _). unfold left, remOK in *. destruct (sRemaining t =? 0) eqn:?; lia. }
  pose proof (trail_facts _ _ _ _ _ TR) as (_ & _ & _ & A0 & C0 & _ & _ & FS). destruct (walk_facts _ _ _ _ _ W) as (F1 & F2 & F3 & F4 & F5). rewrite (w_price _ _ _ _ _ W) in FS.
  inversion TT as [t2 HO2 RN2|t2 t1 t2' k' st' a' c' W' TR']; subst.
  { split; [lia|]. pose proof (w_limit _ _ _ _ _ W) as NL. destruct AL as [AP _]. rewrite <- AP. split; [exact (farther_trans _ _ _ _ F3 FS)|]. unfold running in RN2. rewrite <- AP in RN2. lia. }
  destruct (walk_same _ _ _ _ _ _ _ _ _ _ AL W W') as [-> EL]. destruct (walk_bounds _ _ _ _ _ W) as (BP & BT & Bl & BR & _). destruct (walk_bounds _ _ _ _ _ W') as (_ & _ & _ & BR' & _).
  pose proof (w_step _ _ _ _ _ W) as E. pose proof (w_step _ _ _ _ _ W') as E'. rewrite EL in E'. rewrite <- (proj1 AL) in E'.
  pose proof (walk_facts _ _ _ _ _ W') as (F1' & F2' & F3' & F4' & F5').
  assert (liqR (sLiquidity s)) as HlR by (unfold liqR; lia). pose proof (w_rem _ _ _ _ _ W') as R0'. pose proof (w_rem _ _ _ _ _ W) as R0.
  pose proof (w_way _ _ _ _ _ W) as HWay. set (T := targetOf z limit (rat k)) in *.
  unfold remOK in BR, BR'. destruct BR' as [|BR']; [contradiction|].
  destruct (step_exactin (sPrice s) T (sLiquidity s) (sRemaining s) fee st BP BT HlR BR ltac:(lia) E) as (A1 & A2 & A3 & A4 & A5 & A6 & A7 & A8 & A9 & A10).
  destruct (step_out_next (sPrice s) T (sLiquidity s) (sRemaining t) fee st' BP BT HlR BR' Hfee E') as (o & Ho & C2).
  destruct (step_exactout (sPrice s) T (sLiquidity s) (sRemaining t) fee st' BP BT HlR BR' Hfee E') as (B1 & B2 & B3 & B4 & B5 & B6 & B7). cbv zeta in *.
  pose proof (w_left _ _ _ _ _ W') as HL'. unfold spec, calc in *. unfold left in HY, HL' |- *. replace (sRemaining t =? 0) with false in * by lia.
  assert (forall r, toward (sPrice s) T r -> priceR r /\ (if T <=? sPrice s then r <= sPrice s else sPrice s <= r)) as HTo by (unfold toward, priceR in *; intros r; destruct (T <=? sPrice s); lia).
  destruct (HTo _ A1) as [N1 D1]. destruct (HTo _ B1) as [N2 D2]. unfold priceR in *.
  (* if the input's step is at least as far and its fee at least the rounded one, it costs at least as much *)
  assert (farther (T <=? sPrice s) (stNext st') (stNext st) -> stIn st' + stFee st' <= stIn st + stFee st) as Cost.
  { intros HF. assert (stIn st' <= stIn st) as HI by (apply (in_ceil_far (T <=? sPrice s) (sLiquidity s) (sPrice s) (stNext st') (stNext st)); try assumption; lia).
    pose proof (fee_mono (stIn st') (stIn st) fee (stFee st') (stFee st) ltac:(lia) ltac:(lia) ltac:(lia) ltac:(lia)). lia. }
  (* the output's trail ends as soon as it has what it wants *)
  assert (sRemaining t1 = 0 -> c' = 0 /\ t' = t1) as Stop.
  { intros Z1. inversion TR' as [u HU RU|u u1 u' q su au cu WU TU]; subst; [auto|]. pose proof (w_rem _ _ _ _ _ WU). contradiction. }
  assert (farther (T <=? sPrice s) (stNext st') (stNext st) -> sRemaining t1 = 0 -> stIn st' + stFee st' + c' <= stIn st + stFee st + a /\ farther z (sPrice t') (sPrice s') /\ sRemaining t' = 0) as Done.
  { intros HF Z1. destruct (Stop Z1) as [-> ->]. split; [pose proof (Cost HF); lia|]. split; [|assumption]. rewrite (w_price _ _ _ _ _ W'). apply (farther_trans z _ (stNext st)); [|assumption].
    unfold farther, toward in *. destruct z, (T <=? sPrice s) eqn:?; lia. }
  assert (stNext st' <> T -> sRemaining t1 = 0) as Z1 by assumption.
  destruct (Z.eq_dec (stNext st) T) as [e|ne].
  - destruct C2 as [(C2 & Q2 & O2)|(C2 & G2 & O2)].
    + (* both reach the target *)
      assert (stIn st' = stIn st) as EI by (rewrite Q2 in B2; rewrite e in A2; eapply in_ceil_unique; [| |exact B2|exact A2]; lia).
      assert (stFee st' = stFee st) as EF by (specialize (A9 e ltac:(lia)); rewrite EI in B6; apply (fee_unique (stIn st) fee); lia).
      assert (stOut st = o) as EO by (rewrite e in A3; eapply out_floor_unique; [| |exact A3|exact Ho]; lia).
      destruct (IH t1 t' a' c' TR') as (I1 & I2 & I3).
      * apply (walk_alike true false s t s1 t1 k st st' AL W W'). congruence.
      * unfold left. lia.
      * split; [lia|]. split; assumption.
    + apply Done; [rewrite e; unfold farther, toward in *; destruct (T <=? sPrice s); lia|].
      pose proof (w_ok1 _ _ _ _ _ W') as (_ & _ & _ & _ & HR1 & _). unfold remOK in HR1. destruct (sRemaining t1 =? 0) eqn:?; lia.
  - (* the input ends here: the output wants less than the input's step yields *)
    specialize (F5 ne). assert (c = 0) as ->. { inversion TR as [u HU RU|u u1 u' q su au cu WU TU]; subst; [reflexivity|]. pose proof (w_rem _ _ _ _ _ WU). contradiction. }
    assert (stOut st <= o) as HO by (apply (out_floor_far (T <=? sPrice s) (sLiquidity s) (sPrice s) (stNext st) T); try assumption; try lia; unfold farther, toward in *; destruct (T <=? sPrice s); lia).
    destruct C2 as [(C2 & _)|(C2 & G2 & O2)]; [lia|].
    assert (out_le (T <=? sPrice s) (sLiquidity s) (sPrice s) (stNext st) (T256 - sRemaining t + 1)) as HLe.
    { apply (out_le_mono _ _ _ _ (stOut st)); try lia. now apply out_floor_le. }
    apply Done.
    + assert (0 < sLiquidity s) as Hl0 by (apply (output_guard (sPrice s) (sLiquidity s) (T256 - sRemaining t) (T <=? sPrice s) (stNext st')); [lia|exact G2]). clear Done Stop Cost IH E E'. unfold farther, out_le, out_floor in *. destruct (T <=? sPrice s) eqn:CT.
      * apply (output_down_target (sPrice s) T (sLiquidity s) (T256 - sRemaining t) o) in G2; try assumption; try lia; try (unfold priceR; lia).
        apply Z.nlt_ge. intros C. assert ((sPrice s - stNext st + 1) * sLiquidity s <= (sPrice s - stNext st') * sLiquidity s) as K; [|unfold Q96 in *; lia].
        apply Z.mul_le_mono_nonneg_r; lia.
      * apply (output_up_exact_target (sPrice s) T (sLiquidity s) (T256 - sRemaining t) o) in G2; try assumption; try lia; try (unfold priceR; lia).
        destruct G2 as [G0 G2]. unfold Q96 in *. set (n := sLiquidity s * _) in *. set (wt := T256 - sRemaining t) in *. clearbody n wt. set (P := sPrice s) in *. set (q := stNext st') in *. set (r := stNext st) in *. clearbody P q r.
        apply Z.nlt_ge. intros C. assert (r * (n - wt * P) <= (q - 1) * (n - wt * P)) by (apply Z.mul_le_mono_nonneg_r; lia).
        assert (0 <= P * r) by (apply Z.mul_nonneg_nonneg; lia). lia.
    + pose proof (w_ok1 _ _ _ _ _ W') as (_ & _ & _ & _ & HR1 & _). unfold remOK in HR1. destruct (sRemaining t1 =? 0) eqn:?; lia.
Qed.
(** ** paying what an output costs yields at least that output *)
(** amounts for which the next price of an exact input is computed by the exact formula *)
Definition exactly (rem P : Z) : Prop := if z then rem * P + 2 ^ 224 <= T256 else rem < 2 ^ 160.

Lemma out_le_far (b : bool) l P r q x y : 0 <= l -> 0 < P -> 0 < r -> 0 < q -> (if b then r <= P else P <= r) -> farther b r q -> out_le b l P r x -> out_floor b l P q y -> 0 <= x -> x <= y.
Proof.
  intros Hl HP Hr Hq HD HF Hx Hy H0. apply (floor_ge b l P q); try assumption. unfold out_le, farther in *. destruct b.
  - assert (l * (P - r) <= l * (P - q)) by (apply Z.mul_le_mono_nonneg_l; lia). lia.
  - set (n := l * Q96) in *. assert (0 <= n) by (unfold n, Q96; lia). clearbody n. apply Z.mul_le_mono_pos_r with r; [lia|].
    assert (x * (P * r) * q <= n * (r - P) * q) as K1 by (apply Z.mul_le_mono_nonneg_r; lia).
    assert (0 <= n * (P * (q - r))) as K2 by (apply Z.mul_nonneg_nonneg; [lia|]; apply Z.mul_nonneg_nonneg; lia). lia.
Qed.
Lemma free_trail t t' w X : trail false t t' w X -> X = 0 -> w = 0.
Proof.
  induction 1 as [t HO RN|t t1 t' k st a c W TR IH]; intros HX; [reflexivity|].
  pose proof (trail_facts _ _ _ _ _ TR) as (_ & _ & _ & A0 & C0 & _). destruct (walk_bounds _ _ _ _ _ W) as (BP & BT & Bl & BR & _). destruct (walk_facts _ _ _ _ _ W) as (F1 & F2 & _).
  unfold remOK in BR. pose proof (w_rem _ _ _ _ _ W). destruct BR as [|BR]; [contradiction|]. set (T := targetOf z limit (rat k)) in *.
  destruct (step_exactout (sPrice t) T (sLiquidity t) (sRemaining t) fee st BP BT ltac:(unfold liqR; lia) BR Hfee (w_step _ _ _ _ _ W)) as (B1 & B2 & B3 & B4 & B5 & B6 & B7). cbv zeta in *.
  rewrite IH by lia. unfold spec, calc in *.
  assert (0 <= stFee st) as HF.
  { apply Z.nlt_ge. intros C. assert (stFee st * (MaxFee - fee) <= -1 * (MaxFee - fee)) by (apply Z.mul_le_mono_nonneg_r; lia). assert (0 <= stIn st * fee) by (apply Z.mul_nonneg_nonneg; lia). lia. }
  assert (stIn st = 0) as I0 by lia. rewrite I0 in B2. unfold in_ceil, ceil0, ceil1, out_le, toward, priceR in *. destruct (T <=? sPrice t).
  - set (n := sLiquidity t * _) in *. destruct (Z.eq_dec (sLiquidity t) 0) as [e|e]; [rewrite e in B3; unfold Q96 in *; lia|]. assert (0 < n) by (unfold n, Q96; lia). clearbody n.
    destruct (Z.eq_dec (sPrice t) (stNext st)) as [e2|e2]; [rewrite <- e2 in B3; unfold Q96 in *; lia|].
    assert (0 < n * (sPrice t - stNext st)) by (apply Z.mul_pos_pos; lia). lia.
  - assert (sLiquidity t * Q96 * (stNext st - sPrice t) <= 0) as K by (unfold Q96; lia). assert (0 < sPrice t * stNext st) as K2 by (apply Z.mul_pos_pos; lia).
    assert (stOut st < 1); [|lia]. apply Z.mul_lt_mono_pos_r with (sPrice t * stNext st); [assumption|]. lia.
Qed.
Lemma pay_back t t' w X : trail false t t' w X -> forall s s' R Y, trail true s s' R Y -> alike s t -> X <= sRemaining s -> exactly (sRemaining s) (sPrice s) -> w <= Y.
Proof.
  induction 1 as [t HO RN|t t1 t' k st' w1 X1 W' TR' IH]; intros s s' R Y TS AL HX HFit.
  { destruct (trail_facts _ _ _ _ _ TS) as (_ & _ & _ & _ & H & _). exact H. }
  pose proof (trail_facts _ _ _ _ _ TR') as (_ & _ & _ & A0 & C0 & _). destruct (walk_facts _ _ _ _ _ W') as (F1' & F2' & F3' & F4' & F5').
  inversion TS as [s2 HO2 RN2|s2 s1 s2' k' st a c W TR]; subst.
  { assert (sRemaining s' = 0) as Z0. { unfold running in RN2. pose proof (w_limit _ _ _ _ _ W'). destruct AL as [AP _]. rewrite <- AP in *. lia. }
    rewrite (free_trail t t' (spec false st' + w1) (calc false st' + X1) (trail_round _ _ _ _ _ _ _ _ W' TR')); lia. }
  pose proof (trail_facts _ _ _ _ _ TR) as (_ & _ & _ & AA0 & CC0 & _). destruct (walk_facts _ _ _ _ _ W) as (F1 & F2 & F3 & F4 & F5).
  destruct (walk_same _ _ _ _ _ _ _ _ _ _ AL W W') as [<- EL]. destruct (walk_bounds _ _ _ _ _ W) as (BP & BT & Bl & BR & _). destruct (walk_bounds _ _ _ _ _ W') as (_ & _ & _ & BR' & _).
  pose proof (w_step _ _ _ _ _ W) as E. pose proof (w_step _ _ _ _ _ W') as E'. rewrite EL in E'. rewrite <- (proj1 AL) in E'.
  assert (liqR (sLiquidity s)) as HlR by (unfold liqR; lia). pose proof (w_rem _ _ _ _ _ W') as R0'. pose proof (w_rem _ _ _ _ _ W) as R0.
  pose proof (w_way _ _ _ _ _ W) as HWay. set (T := targetOf z limit (rat k)) in *.
  unfold remOK in BR, BR'. destruct BR' as [|BR']; [contradiction|].
  assert (sRemaining s < 2 ^ 236) as H236.
  { unfold exactly in HFit. destruct z; [|lia]. unfold priceR in BP. apply Z.nle_gt. intros C. assert (2 ^ 236 * 2 ^ 32 <= sRemaining s * sPrice s) by (apply Z.mul_le_mono_nonneg; lia). lia. }
  destruct (step_exactin (sPrice s) T (sLiquidity s) (sRemaining s) fee st BP BT HlR BR ltac:(lia) E) as (A1 & A2 & A3 & A4 & A5 & A6 & A7 & A8 & A9 & A10).
  destruct (step_in_next (sPrice s) T (sLiquidity s) (sRemaining s) fee st BP BT HlR BR ltac:(lia) E) as (i & Hi & C1).
  destruct (step_out_next (sPrice s) T (sLiquidity s) (sRemaining t) fee st' BP BT HlR BR' Hfee E') as (o & Ho & C2).
  destruct (step_exactout (sPrice s) T (sLiquidity s) (sRemaining t) fee st' BP BT HlR BR' Hfee E') as (B1 & B2 & B3 & B4 & B5 & B6 & B7). cbv zeta in *.
  rewrite less_fee_eq in C1 by lia. pose proof (w_left _ _ _ _ _ W) as HL. unfold left, spec, calc in *.
  assert (forall r, toward (sPrice s) T r -> priceR r /\ (if T <=? sPrice s then r <= sPrice s else sPrice s <= r)) as HTo by (unfold toward, priceR in *; intros r; destruct (T <=? sPrice s); lia).
  destruct (HTo _ A1) as [N1 D1]. destruct (HTo _ B1) as [N2 D2]. unfold priceR in *.
  set (x := sRemaining s * (MaxFee - fee) / MaxFee) in *.
  assert (stIn st' <= x) as HXI.
  { unfold x. apply Z.div_le_lower_bound; [unfold MaxFee; lia|]. assert ((stIn st' + stFee st') * (MaxFee - fee) <= sRemaining s * (MaxFee - fee)) by (apply Z.mul_le_mono_nonneg_r; lia). lia. }
  assert (x <= sRemaining s) as HXR by (apply Z.div_le_upper_bound; [unfold MaxFee; lia|]; rewrite (Z.mul_comm MaxFee); apply Z.mul_le_mono_nonneg_l; lia).
  clearbody x.
  destruct (Z.eq_dec (stNext st') T) as [e|ne].
  - (* the output reaches the target, and so does the payment *)
    assert (stIn st' = i) as EI' by (rewrite e in B2; eapply in_ceil_unique; [| |exact B2|exact Hi]; lia).
    destruct C1 as [[_ Q]|(C1 & _)]; [|lia].
    assert (stIn st = i) as EI by (rewrite Q in A2; eapply in_ceil_unique; [| |exact A2|exact Hi]; lia).
    assert (stFee st' = stFee st) as EF by (specialize (A9 Q ltac:(lia)); rewrite EI' in B6; rewrite EI in A8, A9; apply (fee_unique i fee); lia).
    assert (stOut st = o) as EO by (rewrite Q in A3; eapply out_floor_unique; [| |exact A3|exact Ho]; lia).
    assert (stOut st' <= o) as HO' by lia.
    assert (w1 <= c) as I1; [|lia]. apply (IH s1 s' a c TR).
    + apply (walk_alike true false s t s1 t1 k st st' AL W W'). congruence.
    + lia.
    + rewrite (w_price _ _ _ _ _ W). clear - HFit HL A4 A6 F3 N1 BR BP. unfold exactly, farther in *. destruct z; [|lia].
      assert (sRemaining s1 * stNext st <= sRemaining s * sPrice s); [|lia].
      destruct (Z_le_dec 0 (sRemaining s1)); [apply Z.mul_le_mono_nonneg; lia|]. assert (sRemaining s1 * stNext st <= 0) by (apply Z.mul_nonpos_nonneg; lia).
      assert (0 <= sRemaining s * sPrice s) by (apply Z.mul_nonneg_nonneg; lia). lia.
  - (* the output ends before the target, and the payment goes at least as far *)
    specialize (F5' ne). assert (w1 = 0) as ->. { inversion TR' as [u HU RU|u u1 u' q su au cu WU TU]; subst; [reflexivity|]. pose proof (w_rem _ _ _ _ _ WU). contradiction. }
    assert (farther (T <=? sPrice s) (stNext st') (stNext st)) as HF.
    { destruct C1 as [[_ Q]|(C1 & G1 & NQ)]; [rewrite Q; unfold farther, toward in *; destruct (T <=? sPrice s); lia|].
      assert (T <> sPrice s) as NP by (unfold toward in *; destruct (T <=? sPrice s) eqn:?; lia).
      assert ((T <=? sPrice s) = z) as EZ by (unfold farther in HWay; destruct z; lia). rewrite EZ in *.
      clear IH TR TR' TS E E' W W' HTo A8 A9 A10 B6 B7 C2 Ho. unfold exactly, farther, in_ceil in *. destruct z.
      - pose proof (input_guard (sPrice s) (sLiquidity s) x true (stNext st) ltac:(lia) G1) as [Hl0 _].
        apply input_down_full in G1 as (_ & _ & _ & G); [|unfold priceR; lia|assumption|lia].
        assert (x * sPrice s <= sRemaining s * sPrice s) as K0 by (apply Z.mul_le_mono_nonneg_r; lia).
        specialize (G ltac:(unfold Q96; lia)). unfold ceil0 in B2. assert (0 < sLiquidity s * Q96) as Hn by (unfold Q96; lia). set (n := sLiquidity s * Q96) in *. clearbody n.
        set (P := sPrice s) in *. set (q := stNext st') in *. set (r := stNext st) in *. clearbody P q r. apply Z.nlt_ge. intros C.
        assert (0 <= x * P) by (apply Z.mul_nonneg_nonneg; lia).
        assert (q * (n + x * P) <= (r - 1) * (n + x * P)) as K1 by (apply Z.mul_le_mono_nonneg_r; lia).
        assert (stIn st' * (q * P) <= x * (q * P)) as K2 by (apply Z.mul_le_mono_nonneg_r; [apply Z.mul_nonneg_nonneg; lia|lia]). lia.
      - pose proof (input_up_target (sPrice s) T (sLiquidity s) x i (stNext st) ltac:(unfold priceR; lia) ltac:(unfold priceR; lia) ltac:(lia) HlR ltac:(lia) Hi C1 G1) as [_ RT].
        apply input_up in G1 as (u & G & Hu & Hu0 & Hl0); [|unfold priceR; lia|assumption|lia]. rewrite Z.mod_small in Hu by (unfold Q96; lia). unfold ceil1 in B2.
        assert (stNext st' - sPrice s <= u) as K.
        { apply Z.lt_succ_r. apply Z.mul_lt_mono_pos_r with (sLiquidity s); [lia|]. unfold Z.succ, Q96 in *. lia. }
        assert (u < T256) as HU. { apply Z.nle_gt. intros C. assert (T256 * 1 <= u * sLiquidity s) by (apply Z.mul_le_mono_nonneg; lia). unfold Q96 in *. lia. }
        rewrite G in *. unfold uadd in *. destruct (Z_lt_le_dec (sPrice s + u) T256) as [D|D]; [rewrite Z.mod_small in * by lia; lia|].
        assert ((sPrice s + u) mod T256 = sPrice s + u - T256) as M by (rewrite <- (Z.mod_small (sPrice s + u - T256) T256) by lia; rewrite <- (Z_mod_plus_full (sPrice s + u - T256) 1); f_equal; lia). lia. }
    assert (stOut st' <= stOut st) as K; [|lia]. apply (out_le_far (T <=? sPrice s) (sLiquidity s) (sPrice s) (stNext st') (stNext st)); try assumption; lia.
Qed.
End Trail.

(** ** swaps *)
Lemma swap_trail h p n z a lim p1 a0 a1 : poolOK h p -> is_u256 a -> (z = true -> noMisplaced (TickSpacing p) (effectiveLimit z lim) (TickCurrent p)) ->
  swap n p z a lim = Ok (p1, a0, a1) -> let ex := a <? T255 in
  exists s x y, trail h (TickSpacing p) z (effectiveLimit z lim) (Fee p) ex (startState p z a) s x y /\ (SqrtRatio p1 = sPrice s /\ TickCurrent p1 = sTick s) /\
    paid z a0 a1 = (if ex then x else y) /\ got z a0 a1 = (if ex then y else x) /\ left ex (sRemaining s) = left ex a - x /\
    0 < TickSpacing p /\ 0 <= Fee p < MaxFee /\ limitOK z (effectiveLimit z lim).
Proof.
  intros HP Ha HM E ex. destruct (swap_ok_inv h p z a lim HP Ha n p1 a0 a1 E) as (HS & Hsp & Hfee & s & Es & -> & EA). destruct (start_ok h p z a lim HP Ha HS) as (HO & Hl & R).
  fold ex in Es, HO. pose proof (proj1 HP) as HH.
  pose proof (loop_allRounds h (TickSpacing p) z ex (effectiveLimit z lim) (Fee p) (otherGrowth p z) HH Hsp Hfee Hl n _ s HO Es) as Es'.
  destruct (loop_trail h (TickSpacing p) z (effectiveLimit z lim) (Fee p) HH Hsp Hfee Hl ex (TickCurrent p) (otherGrowth p z) allRounds (startState p z a) s) as (x & y & TR & Hy); try assumption.
  { intros Ez. split; [now apply HM|]. cbn [startState sTick]. lia. }
  destruct (trail_facts _ _ _ _ _ HH Hfee Hl ex _ _ _ _ TR) as (_ & HOs & _ & X0 & Y0 & HL & HT & _).
  destruct (loop_counts _ _ _ _ _ _ _ _ _ _ HH Hsp Hfee Hl HO ltac:(unfold is_u256; cbn; lia) Es) as [_ Hcs].
  rewrite allRounds_Z in Hy. unfold MaxTick, MinTick in Hy. unfold tally in HT. cbn [startState sCalculated sRemaining] in HT, HL.
  destruct HOs as (_ & _ & _ & _ & HRs & _).
  destruct (amounts_of z ex a s y a0 a1 eq_refl Ha (proj1 HS) HRs Hcs ltac:(lia) ltac:(lia) HT EA) as [A1 A2].
  exists s, x, y. split; [assumption|]. split; [split; reflexivity|]. rewrite A1, A2. split; [destruct ex; lia|]. split; [destruct ex; lia|]. auto.
Qed.

Theorem quote_ask h p n m z a y lim p1 a0 a1 p2 b0 b1 : poolOK h p -> 0 <= a < T255 -> 0 < y < got z a0 a1 -> y <= T255 -> (z = true -> noMisplaced (TickSpacing p) (effectiveLimit z lim) (TickCurrent p)) ->
  swap n p z a lim = Ok (p1, a0, a1) -> swap m p z (T256 - y) lim = Ok (p2, b0, b1) ->
  paid z b0 b1 <= paid z a0 a1 /\ got z b0 b1 = y /\ farther z (SqrtRatio p2) (SqrtRatio p1).
Proof.
  intros HP Ha Hy Hy2 HM E1 E2. pose proof (swap_trail h p n z a lim p1 a0 a1 HP ltac:(unfold is_u256; lia) HM E1) as D1. pose proof (swap_trail h p m z (T256 - y) lim p2 b0 b1 HP ltac:(unfold is_u256; lia) HM E2) as D2.
  cbv zeta in *. replace (a <? T255) with true in D1 by lia. replace (T256 - y <? T255) with false in D2 by lia.
  destruct D1 as (s & x & c & TS & [P1 _] & A1 & A2 & A3 & Hsp & Hfee & Hl). destruct D2 as (t & w & X & TT & [P2 _] & B1 & B2 & B3 & _).
  destruct (ask_less h _ z _ _ (proj1 HP) Hsp Hfee Hl _ _ _ _ TS _ _ _ _ TT) as (I1 & I2 & I3).
  - split; reflexivity.
  - cbn [startState sRemaining]. unfold left. replace (T256 - y =? 0) with false by lia. lia.
  - rewrite P1, P2, A1, B1, B2. split; [assumption|]. split; [|assumption]. unfold left in B3. rewrite I3 in B3. replace (0 =? 0) with true in B3 by reflexivity. replace (T256 - y =? 0) with false in B3 by lia. lia.
Qed.
Theorem quote_pay h p n m (z : bool) y lim p1 a0 a1 p2 b0 b1 : poolOK h p -> 0 < y <= T255 -> (z = true -> noMisplaced (TickSpacing p) (effectiveLimit z lim) (TickCurrent p)) ->
  (if z then paid z a0 a1 * SqrtRatio p + 2 ^ 224 <= T256 else paid z a0 a1 < 2 ^ 160) ->
  swap n p z (T256 - y) lim = Ok (p1, a0, a1) -> swap m p z (paid z a0 a1) lim = Ok (p2, b0, b1) -> got z a0 a1 <= got z b0 b1.
Proof.
  intros HP Hy HM HF E1 E2. pose proof (swap_trail h p n z (T256 - y) lim p1 a0 a1 HP ltac:(unfold is_u256; lia) HM E1) as D1. cbv zeta in D1. replace (T256 - y <? T255) with false in D1 by lia.
  destruct D1 as (s & x & c & TS & [P1 _] & A1 & A2 & A3 & Hsp & Hfee & Hl). pose proof (proj1 HP) as HH.
  destruct (trail_facts _ _ _ _ _ HH Hfee Hl false _ _ _ _ TS) as (HO & _ & _ & X0 & C0 & _). destruct HO as (_ & _ & HPr & _). pose proof (price_bounds _ _ HPr) as HPb. cbn [startState sPrice] in HPb.
  assert (exactly z c (SqrtRatio p)) as HF' by (rewrite A1 in HF; exact HF).
  assert (c < T255) as HC. { unfold exactly in HF'. destruct z; [|lia]. unfold MinSqrtRatio in HPb. assert (c * 4 <= c * SqrtRatio p) by (apply Z.mul_le_mono_nonneg_l; lia). lia. }
  rewrite A1 in E2. pose proof (swap_trail h p m z c lim p2 b0 b1 HP ltac:(unfold is_u256; lia) HM E2) as D2. cbv zeta in D2. replace (c <? T255) with true in D2 by lia.
  destruct D2 as (t & w & X & TT & [P2 _] & B1 & B2 & B3 & _). rewrite A2, B2.
  apply (pay_back h _ z _ _ HH Hsp Hfee Hl _ _ _ _ TS _ _ _ _ TT); [split; reflexivity| |exact HF']. cbn [startState sRemaining]. lia.
Qed.

Lemma ask_quote h p n m (z : bool) a y lim p1 a0 a1 p2 b0 b1 : reach h p -> 0 <= a < 2 ^ 255 -> y <= 2 ^ 255 ->
  (z = true -> clearWay p (effectiveLimit z lim)) -> 0 < y < got z a0 a1 -> swap n p z a lim = Ok (p1, a0, a1) -> swap m p z (2 ^ 256 - y) lim = Ok (p2, b0, b1) ->
  got z b0 b1 = y /\ paid z b0 b1 <= paid z a0 a1 /\ farther z (SqrtRatio p2) (SqrtRatio p1).
Proof.
  intros R Ha Hy CW Hg E1 E2. apply reach_ok in R as HP. destruct (swap_ok_inv h p z a lim HP ltac:(unfold is_u256; lia) n p1 a0 a1 E1) as (_ & Hsp & _).
  destruct (quote_ask h p n m z a y lim p1 a0 a1 p2 b0 b1 HP Ha Hg Hy) as (K1 & K2 & K3); try assumption; [|auto].
  intros Ez. apply (clearWay_noMisplaced h); auto.
Qed.
Lemma pay_quote h p n m (z : bool) y lim p1 a0 a1 p2 b0 b1 : reach h p -> 0 < y <= 2 ^ 255 ->
  (z = true -> clearWay p (effectiveLimit z lim)) -> (if z then paid z a0 a1 * SqrtRatio p + 2 ^ 224 <= 2 ^ 256 else paid z a0 a1 < 2 ^ 160) ->
  swap n p z (2 ^ 256 - y) lim = Ok (p1, a0, a1) -> swap m p z (paid z a0 a1) lim = Ok (p2, b0, b1) -> got z a0 a1 <= got z b0 b1.
Proof.
  intros R Hy CW HF E1 E2. apply reach_ok in R as HP. destruct (swap_ok_inv h p z (2 ^ 256 - y) lim HP ltac:(unfold is_u256; lia) n p1 a0 a1 E1) as (_ & Hsp & _).
  apply (quote_pay h p n m z y lim p1 a0 a1 p2 b0 b1 HP Hy); try assumption.
  intros Ez. apply (clearWay_noMisplaced h); auto.
Qed.

(** a thin range high up: six units of token 0 are had for 2.32e27, and asking for six takes the range's whole end, 2.41e27 *)
Definition thinHist : hist := [mkE 609000 614400 (2 ^ 49)].
Definition thin1 : Pool := Eval vm_compute in okOr (step 20 wide0 (OMint 609000 614400 (2 ^ 49))) startPool.
Lemma thin1_reach : reach thinHist thin1.
Proof.
  apply (reach_step [] wide0 20 (OMint 609000 614400 (2 ^ 49))).
  - apply (reach_new "A" "B" 3000 (2 ^ 140)). vm_compute. reflexivity.
  - vm_compute. intuition discriminate.
  - vm_compute. reflexivity.
Qed.
Lemma thin_asks : exists p1 a0 a1 p2 b0 b1, swap 20 thin1 false (2 ^ 91 - 2 ^ 87) 0 = Ok (p1, a0, a1) /\ swap 20 thin1 false (2 ^ 256 - 6) 0 = Ok (p2, b0, b1) /\ got false a0 a1 = 6 /\ a1 < b1.
Proof. do 6 eexists. split; [vm_compute; reflexivity|]. split; [vm_compute; reflexivity|]. vm_compute. auto. Qed.
