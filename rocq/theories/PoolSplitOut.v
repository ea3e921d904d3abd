(** PoolSplitOut.v -- two exact-output swaps one after the other compared with one of the sum. *)
From Coq Require Import ZifyBool String.
From Verif Require Import Base U256Z FullMathFacts SwapMath SwapMathFacts SwapStep TickMath TickMathFacts TickData TickDataFacts TickSearch Ledger Pool PoolTable PoolInv PoolSwap PoolLoop PoolHist PoolOps PoolSpec PoolLimit PoolMono PoolQuote PoolSplit.
Ltac Zify.zify_post_hook ::= idtac.
Open Scope Z_scope.

Lemma ceil_exists a b : 0 < b -> exists x, a <= x * b < a + b.
Proof.
  intros Hb. exists ((a + b - 1) / b). pose proof (Z.div_mod (a + b - 1) b ltac:(lia)). pose proof (Z.mod_pos_bound (a + b - 1) b Hb). lia.
Qed.
Lemma in_ceil_exists (b : bool) l P r : 0 < P -> 0 < r -> exists x, in_ceil b l P r x.
Proof.
  intros HP Hr. unfold in_ceil, ceil0, ceil1. destruct b; apply ceil_exists; [apply Z.mul_pos_pos; lia|reflexivity].
Qed.

(** ** a step of the sum against a step that ends early and the step after it *)
Lemma step_split_out P T l f rA rB rJ stA stB stJ : priceR P -> priceR T -> 0 <= l < 2 ^ 128 -> 0 <= f < MaxFee -> T255 <= rA < T256 -> T255 <= rB < T256 -> T255 <= rJ < T256 ->
  T256 - rJ <= (T256 - rA) + (T256 - rB) ->
  ComputeSwapStep P T l rA f = Ok stA -> stNext stA <> T -> ComputeSwapStep (stNext stA) T l rB f = Ok stB -> ComputeSwapStep P T l rJ f = Ok stJ ->
  farther (T <=? P) (stNext stJ) (stNext stB) /\ stIn stJ + stFee stJ <= (stIn stA + stFee stA) + (stIn stB + stFee stB) /\
  (stOut stJ = T256 - rJ \/ stNext stB = T /\ stNext stJ = T /\ (T256 - rA) + stOut stB <= stOut stJ).
Proof.
  intros HP HT Hl Hf RA RB RJ HS EA NA EB EJ. assert (liqR l) as HlR by (unfold liqR; lia).
  destruct (step_exactout P T l rA f stA HP HT HlR RA Hf EA) as (A1 & A2 & A3 & A4 & A5 & A6 & A7).
  destruct (step_out_next P T l rA f stA HP HT HlR RA Hf EA) as (oA & HoA & CA).
  assert (forall r, toward P T r -> priceR r) as HTo by (unfold toward, priceR in *; intros r; destruct (T <=? P); lia).
  pose proof (HTo _ A1) as NP1. assert ((T <=? stNext stA) = (T <=? P)) as EZ by (unfold toward in A1; destruct (T <=? P) eqn:?; lia).
  destruct (step_exactout (stNext stA) T l rB f stB NP1 HT HlR RB Hf EB) as (B1 & B2 & B3 & B4 & B5 & B6 & B7).
  destruct (step_out_next (stNext stA) T l rB f stB NP1 HT HlR RB Hf EB) as (oB & HoB & CB).
  destruct (step_exactout P T l rJ f stJ HP HT HlR RJ Hf EJ) as (J1 & J2 & J3 & J4 & J5 & J6 & J7).
  destruct (step_out_next P T l rJ f stJ HP HT HlR RJ Hf EJ) as (oJ & HoJ & CJ). cbv zeta in *. clear EA EB EJ.
  assert (toward P T (stNext stB)) as B1' by (unfold toward in *; rewrite EZ in B1; destruct (T <=? P); lia).
  rewrite EZ in *. pose proof (HTo _ B1') as NP2. pose proof (HTo _ J1) as NPJ. unfold priceR in *.
  assert (oJ = oA) as -> by (eapply out_floor_unique; [| |exact HoJ|exact HoA]; lia). clear HoJ.
  set (yA := T256 - rA) in *. set (yB := T256 - rB) in *. set (yJ := T256 - rJ) in *. assert (0 < yA <= T255 /\ 0 < yB <= T255 /\ 0 < yJ <= T255) as HY by lia. clearbody yA yB yJ. clear RA RB RJ rA rB rJ.
  destruct CA as [(_ & CA & _)|(CA & GA & QA)]; [contradiction|]. rewrite QA in *.
  assert (yA + oB <= oA) as HO.
  { apply (floor_ge (T <=? P) l P T); try lia; [assumption|]. apply (out_le_add _ l P (stNext stA)); try lia; [assumption|]. now apply out_floor_le. }
  assert (farther (T <=? P) (stNext stJ) (stNext stB)) as HF.
  { destruct CB as [(_ & CB & _)|(CB & GB & _)]; [rewrite CB; unfold farther, toward in *; destruct (T <=? P); lia|].
    destruct CJ as [(CJ & _)|(CJ & GJ & _)]; [lia|].
    assert (0 < l) as Hl0 by (apply (output_guard P l yJ (T <=? P) (stNext stJ)); [lia|exact GJ]).
    clear A2 A3 A6 B2 B3 B6 J2 J3 J6. set (p1 := stNext stA) in *. set (p2 := stNext stB) in *. set (pJ := stNext stJ) in *. clearbody p1 p2 pJ.
    unfold farther, out_floor in *. destruct (T <=? P) eqn:CZ.
    - apply (output_down_target P T l yA oA) in GA; try assumption; try lia; try (unfold priceR; lia). apply (output_down_target p1 T l yB oB) in GB; try assumption; try lia; try (unfold priceR; lia).
      apply (output_down_target P T l yJ oA) in GJ; try assumption; try lia; try (unfold priceR; lia).
      apply Z.lt_succ_r. unfold Z.succ. apply Z.mul_lt_mono_pos_r with l; [lia|]. unfold Q96 in *. lia.
    - unfold toward in *. rewrite CZ in *. apply (output_up_exact_target P T l yA oA) in GA; try assumption; try lia; try (unfold priceR; lia). apply (output_up_exact_target p1 T l yB oB) in GB; try assumption; try lia; try (unfold priceR; lia).
      apply (output_up_exact_target P T l yJ oA) in GJ; try assumption; try lia; try (unfold priceR; lia).
      destruct GA as [_ GA], GB as [_ GB], GJ as [GJ0 GJ]. set (n := l * Q96) in *. clearbody n.
      assert ((n * p1) * P <= (p2 * (n - yB * p1)) * P) as K1 by (apply Z.mul_le_mono_nonneg_r; lia).
      assert ((n * P) * p2 <= (p1 * (n - yA * P)) * p2) as K2 by (apply Z.mul_le_mono_nonneg_r; lia).
      assert (n * P <= p2 * (n - (yA + yB) * P)) as K3 by (apply Z.mul_le_mono_pos_r with p1; lia).
      assert (yJ * (P * p2) <= (yA + yB) * (P * p2)) as K4 by (apply Z.mul_le_mono_nonneg_r; [apply Z.mul_nonneg_nonneg; lia|lia]).
      apply Z.nlt_ge. intros D. assert (p2 * (n - yJ * P) <= (pJ - 1) * (n - yJ * P)) as K5 by (apply Z.mul_le_mono_nonneg_r; lia). lia. }
  split; [assumption|]. split.
  - destruct (in_ceil_exists (T <=? P) l P (stNext stB)) as [w Hw]; try lia.
    assert (stIn stJ <= w) as I1 by (apply (in_ceil_far (T <=? P) l P (stNext stJ) (stNext stB)); try assumption; try lia; unfold toward in J1; destruct (T <=? P); lia).
    assert (w <= stIn stA + stIn stB) as I2 by (apply (in_ceil_add (T <=? P) l P (stNext stA) (stNext stB)); try assumption; lia).
    pose proof (fee_mono (stIn stJ) (stIn stA + stIn stB) f (stFee stJ) (stFee stA + stFee stB) ltac:(lia) ltac:(lia) ltac:(lia) ltac:(lia)). lia.
  - destruct CJ as [(CJ & QJ & OJ)|(_ & _ & CJ)]; [|left; assumption]. destruct CB as [(CB & QB & OB)|(CB & _)]; [|lia]. right. split; [assumption|]. split; [assumption|]. lia.
Qed.

(** ** the rounds *)
Section SplitOut.
Variables (h : hist) (sp : Z) (z : bool) (limit fee : Z).
Hypothesis HH : histOK sp h.
Hypothesis Hsp : 0 < sp.
Hypothesis Hfee : 0 <= fee < MaxFee.
Hypothesis Hlim : limitOK z limit.
Notation trail := (trail h sp z limit fee false).
Notation walk := (walk h sp z limit fee false).
Notation trail_done := (rounds_done h sp z limit fee false).
Notation walk_between := (rounds_between h sp z limit fee HH Hsp Hfee Hlim false).
Notation want s := (left false (sRemaining s)).

Lemma want_pos s : remOK false (sRemaining s) -> 0 <= want s.
Proof. unfold remOK, left. destruct (sRemaining s =? 0) eqn:?; lia. Qed.
Lemma want_none s : remOK false (sRemaining s) -> want s = 0 -> sRemaining s = 0.
Proof. unfold remOK, left. destruct (sRemaining s =? 0) eqn:?; lia. Qed.
Lemma none_want s : sRemaining s = 0 -> want s = 0.
Proof. intros e. unfold left. rewrite e. reflexivity. Qed.
Lemma some_want s : remOK false (sRemaining s) -> sRemaining s <> 0 -> want s = T256 - sRemaining s /\ T255 <= sRemaining s < T256.
Proof. unfold remOK, left. destruct (sRemaining s =? 0) eqn:?; lia. Qed.
Lemma out_cases s s' R Y : trail s s' R Y -> sRemaining s <> 0 -> sPrice s <> limit -> exists s1 k st a c, walk s s1 k st /\ trail s1 s' a c /\ R = stOut st + a /\ Y = stIn st + stFee st + c.
Proof.
  intros TR HR HP. inversion TR as [u HU RU|u u1 u' q su au cu WU TU]; subst; [unfold running in RU; lia|]. exists u1, q, su, au, cu. auto.
Qed.

(** more asked for goes at least as far, costs at least as much and leaves at least as much unpaid *)
Lemma mono_out s s' R Y : trail s s' R Y -> forall t t' R' Y', trail t t' R' Y' -> alike s t -> want s <= want t ->
  Y <= Y' /\ want s' <= want t' /\ farther z (sPrice s') (sPrice t').
Proof.
  induction 1 as [s HO RN|s s1 s' k st a c W TR IH]; intros t t' R' Y' TT AL HR.
  - pose proof (trail_facts _ _ _ _ _ HH Hfee Hlim _ _ _ _ _ TT) as (_ & HO' & _ & R0 & Y0 & _ & _ & FT). destruct HO as (_ & _ & _ & _ & HRs & _). destruct HO' as (_ & _ & _ & _ & HRt & _).
    apply want_pos in HRt. rewrite (proj1 AL). split; [assumption|]. split; [|assumption]. destruct (Z.eq_dec (sRemaining s) 0) as [e|e]; [apply none_want in e; lia|].
    destruct (trail_done _ _ _ _ TT) as [-> _]; [right|assumption]. rewrite <- (proj1 AL). unfold running in RN. lia.
  - pose proof (walk_bounds _ _ _ _ _ HH Hlim _ _ _ _ _ W) as (BP & BT & Bl & BR & _). pose proof (w_rem _ _ _ _ _ _ _ _ _ _ W) as R0. pose proof (w_limit _ _ _ _ _ _ _ _ _ _ W) as L0. rewrite (proj1 AL) in L0.
    pose proof (trail_facts _ _ _ _ _ HH Hfee Hlim _ _ _ _ _ TT) as (HOt & _). destruct HOt as (_ & _ & _ & _ & HRt & _). destruct (some_want _ BR R0) as [Ws Ws0].
    assert (sRemaining t <> 0) as Rt0 by (intros C; apply none_want in C; lia).
    destruct (out_cases _ _ _ _ TT Rt0 L0) as (t1 & k' & st' & a' & c' & W' & TR' & -> & ->).
    destruct (walk_same _ _ _ _ _ Hsp false false _ _ _ _ _ _ _ _ AL W W') as [-> EL]. pose proof (walk_bounds _ _ _ _ _ HH Hlim _ _ _ _ _ W') as (_ & _ & _ & BR' & _).
    pose proof (w_step _ _ _ _ _ _ _ _ _ _ W) as E. pose proof (w_step _ _ _ _ _ _ _ _ _ _ W') as E'. rewrite EL in E'. rewrite <- (proj1 AL) in E'.
    pose proof (w_way _ _ _ _ _ _ _ _ _ _ W) as HWay. set (T := targetOf z limit (rat k)) in *.
    assert (fits (T <=? sPrice s) false (sRemaining t)) as HFit by (intros C; discriminate C).
    destruct (step_mono (sPrice s) T (sLiquidity s) fee false (sRemaining s) (sRemaining t) st st' BP BT Bl Hfee R0 BR BR' HR HFit E E') as (M1 & M2 & M3 & M4 & M5 & M6).
    pose proof (w_left _ _ _ _ _ _ _ _ _ _ W) as HL. pose proof (w_left _ _ _ _ _ _ _ _ _ _ W') as HL'. unfold spec, calc in *.
    pose proof (trail_facts _ _ _ _ _ HH Hfee Hlim _ _ _ _ _ TR') as (_ & HO' & _ & A0 & C0 & _ & _ & FT). rewrite (w_price _ _ _ _ _ _ _ _ _ _ W') in FT.
    destruct (w_ok1 _ _ _ _ _ _ _ _ _ _ W) as (_ & _ & _ & _ & HR1 & _).
    destruct (Z.eq_dec (stOut st) (want s)) as [e|e].
    + destruct (M6 e) as (F & _ & O). destruct (trail_done _ _ _ _ TR) as (-> & _ & ->); [left; apply want_none; [assumption|lia]|]. destruct HO' as (_ & _ & _ & _ & HRt' & _). apply want_pos in HRt'.
      rewrite (w_price _ _ _ _ _ _ _ _ _ _ W). split; [lia|]. split; [lia|]. apply (farther_trans z _ (stNext st')); [|assumption].
      destruct (walk_facts _ _ _ _ _ HH Hfee Hlim _ _ _ _ _ W) as (_ & _ & F1 & F2 & _). destruct (walk_facts _ _ _ _ _ HH Hfee Hlim _ _ _ _ _ W') as (_ & _ & F1' & F2' & _). fold T in F2, F2'. rewrite <- (proj1 AL) in F1'.
      unfold farther in *. destruct z, (T <=? sPrice s) eqn:?; lia.
    + rewrite (M5 ltac:(lia)) in *. destruct (IH t1 t' a' c' TR') as (I1 & I2 & I3).
      * exact (walk_alike _ _ _ _ _ false false s t s1 t1 k st st AL W W' eq_refl).
      * lia.
      * split; [lia|]. split; assumption.
Qed.

(** the swap of the sum costs at most as much, goes at most as far and leaves at most as much unpaid *)
Lemma split_out t t1 RA YA : trail t t1 RA YA -> (z = false -> ~ skips (sTick t1) sp) -> forall s s' R Y u u' RB YB, trail s s' R Y -> trail u u' RB YB ->
  alike s t -> alike t1 u -> want s <= want t + want u ->
  Y <= YA + YB /\ want s' <= want t1 + want u' /\ farther z (sPrice s') (sPrice u').
Proof.
  intros TA NS. induction TA as [t HO RN|t t2 t1 k stA a c WA TA IH]; intros s s' R Y u u' RB YB TJ TB AL AU HR.
  - (* nothing of the first swap is left *)
    pose proof (trail_facts _ _ _ _ _ HH Hfee Hlim _ _ _ _ _ TJ) as (HOJ & _). pose proof (trail_facts _ _ _ _ _ HH Hfee Hlim _ _ _ _ _ TB) as (HOB & HOB' & _).
    destruct HO as (_ & _ & _ & _ & HRt & _). destruct HOB' as (_ & _ & _ & _ & HRu & _). apply want_pos in HRt. apply want_pos in HRu.
    assert (alike s u) as AS by (destruct AL, AU; split; congruence).
    destruct (Z.eq_dec (sRemaining t) 0) as [e|e].
    + apply none_want in e. destruct (mono_out _ _ _ _ TJ _ _ _ _ TB AS ltac:(lia)) as (M1 & M2 & M3). split; [lia|]. split; [lia|assumption].
    + assert (sPrice t = limit) as L by (unfold running in RN; lia). destruct (trail_done _ _ _ _ TB) as (-> & _ & ->); [right; destruct AU; congruence|]. destruct (trail_done _ _ _ _ TJ) as (-> & _ & ->); [right; destruct AL; congruence|].
      split; [lia|]. split; [lia|]. destruct AS as [-> _]. unfold farther. destruct z; lia.
  - pose proof (trail_facts _ _ _ _ _ HH Hfee Hlim _ _ _ _ _ (trail_round _ _ _ _ _ _ _ _ _ _ _ _ _ WA TA)) as (_ & HOt1 & _). destruct HOt1 as (_ & _ & _ & _ & HRt1 & _). apply want_pos in HRt1.
    pose proof (trail_facts _ _ _ _ _ HH Hfee Hlim _ _ _ _ _ TB) as (HOB & HOB' & _ & RB0 & YB0 & _ & _ & FB). destruct HOB as (_ & _ & _ & _ & HRu & _). destruct HOB' as (_ & _ & _ & _ & HRu' & _). pose proof (want_pos _ HRu) as Wu. apply want_pos in HRu'.
    destruct (Z_le_gt_dec (want s) (want t)) as [LE|GT].
    { (* all of it is less than the first part *)
      destruct (mono_out _ _ _ _ TJ _ _ _ _ (trail_round _ _ _ _ _ _ _ _ _ _ _ _ _ WA TA) AL LE) as (M1 & M2 & M3). split; [lia|]. split; [lia|]. rewrite (proj1 AU) in M3. exact (farther_trans _ _ _ _ M3 FB). }
    pose proof (walk_bounds _ _ _ _ _ HH Hlim _ _ _ _ _ WA) as (BP & BT & Bl & BR & _). pose proof (w_rem _ _ _ _ _ _ _ _ _ _ WA) as R0. pose proof (w_limit _ _ _ _ _ _ _ _ _ _ WA) as L0. rewrite <- (proj1 AL) in L0.
    pose proof (trail_facts _ _ _ _ _ HH Hfee Hlim _ _ _ _ _ TJ) as (HOJ & _). destruct HOJ as (_ & _ & _ & _ & HRs & _). pose proof (want_pos _ BR) as Wt.
    assert (sRemaining s <> 0) as Rs0 by (intros C; apply none_want in C; lia).
    destruct (out_cases _ _ _ _ TJ Rs0 L0) as (s1 & k' & stJ & a' & c' & WJ & TJ' & -> & ->).
    destruct (walk_same _ _ _ _ _ Hsp false false _ _ _ _ _ _ _ _ AL WJ WA) as [<- EL]. pose proof (walk_bounds _ _ _ _ _ HH Hlim _ _ _ _ _ WJ) as (_ & _ & _ & BRJ & _).
    pose proof (w_step _ _ _ _ _ _ _ _ _ _ WA) as EA. pose proof (w_step _ _ _ _ _ _ _ _ _ _ WJ) as EJ. rewrite EL, <- (proj1 AL) in EA. rewrite <- (proj1 AL) in BP. rewrite EL in Bl.
    pose proof (w_way _ _ _ _ _ _ _ _ _ _ WJ) as HWay. set (T := targetOf z limit (rat k)) in *.
    assert (fits (T <=? sPrice s) false (sRemaining s)) as HFit by (intros C; discriminate C).
    destruct (step_mono (sPrice s) T (sLiquidity s) fee false (sRemaining t) (sRemaining s) stA stJ BP BT Bl Hfee R0 BR BRJ ltac:(lia) HFit EA EJ) as (M1 & M2 & M3 & M4 & M5 & M6).
    pose proof (w_left _ _ _ _ _ _ _ _ _ _ WA) as HLA. pose proof (w_left _ _ _ _ _ _ _ _ _ _ WJ) as HLJ. unfold spec, calc in *.
    destruct (w_ok1 _ _ _ _ _ _ _ _ _ _ WA) as (_ & _ & _ & _ & HRt2 & _). destruct (w_ok1 _ _ _ _ _ _ _ _ _ _ WJ) as (_ & _ & _ & _ & HRs1 & _).
    pose proof (trail_facts _ _ _ _ _ HH Hfee Hlim _ _ _ _ _ TA) as (_ & _ & _ & _ & c0 & _).
    destruct (walk_facts _ _ _ _ _ HH Hfee Hlim _ _ _ _ _ WJ) as (SJ0 & _ & FJ1 & FJ2 & FJ3). fold T in FJ2, FJ3. pose proof (w_price _ _ _ _ _ _ _ _ _ _ WJ) as Ps1.
    destruct (Z.eq_dec (stOut stA) (want t)) as [e|e].
    + (* the first swap ends with this round *)
      destruct (M6 e) as (F & O & _). destruct (trail_done _ _ _ _ TA) as (-> & -> & ->); [left; apply want_none; [assumption|lia]|].
      assert (liqR (sLiquidity s)) as HlR by (unfold liqR; lia).
      destruct (some_want _ BR R0) as [Et Rt]. destruct (some_want _ HRs Rs0) as [Es Rs].
      destruct (Z.eq_dec (stNext stA) T) as [q|q].
      * (* at the target: the rest is the second swap *)
        assert (stNext stJ = T) as QJ by (rewrite q in F; unfold farther in *; destruct z, (T <=? sPrice s) eqn:?; lia).
        assert (alike s1 u) as AS. { pose proof (walk_alike _ _ _ _ _ false false s t s1 t2 k stJ stA AL WJ WA ltac:(congruence)) as [X1 X2]. destruct AU as [X3 X4]. split; congruence. }
        destruct (step_exactout (sPrice s) T (sLiquidity s) (sRemaining t) fee stA BP BT HlR Rt Hfee EA) as (_ & A2 & _ & _ & _ & A6 & _).
        destruct (step_exactout (sPrice s) T (sLiquidity s) (sRemaining s) fee stJ BP BT HlR Rs Hfee EJ) as (_ & B2 & _ & _ & _ & B6 & _). cbv zeta in *.
        rewrite q in A2. rewrite QJ in B2. unfold priceR in BP, BT.
        assert (stIn stJ = stIn stA) as EI by (eapply in_ceil_unique; [| |exact B2|exact A2]; lia). rewrite EI in *.
        assert (stFee stJ = stFee stA) as EF by (apply (fee_unique (stIn stA) fee); lia).
        destruct (mono_out _ _ _ _ TJ' _ _ _ _ TB AS ltac:(lia)) as (I1 & I2 & I3). split; [lia|]. split; [lia|assumption].
      * (* before it: the second swap's first round goes on from there *)
        destruct (walk_facts _ _ _ _ _ HH Hfee Hlim _ _ _ _ _ WA) as (_ & _ & FA1 & FA2 & _). fold T in FA2. rewrite <- (proj1 AL) in FA1.
        assert ((T <=? sPrice s) = z) as EZ by (unfold farther in *; destruct z; lia).
        assert (sPrice u = stNext stA) as Pu by (rewrite <- (proj1 AU); exact (w_price _ _ _ _ _ _ _ _ _ _ WA)).
        assert (sPrice u <> limit) as Lu by (rewrite Pu; intros C; unfold farther, T, targetOf in *; destruct z; lia).
        assert (sRemaining u <> 0) as Ru0 by (intros C; apply none_want in C; lia). destruct (some_want _ HRu Ru0) as [Eu Ru].
        destruct (out_cases _ _ _ _ TB Ru0 Lu) as (u1 & k'' & stB & a2 & c2 & WB & TB' & -> & ->).
        destruct (walk_between s t u s1 t2 u1 k k k'' stJ stA stB AL WJ WA q AU WB NS) as [-> EB].
        pose proof (w_step _ _ _ _ _ _ _ _ _ _ WB) as Eb. rewrite EB, Pu in Eb. fold T in Eb.
        destruct (step_split_out (sPrice s) T (sLiquidity s) fee (sRemaining t) (sRemaining u) (sRemaining s) stA stB stJ BP BT Bl Hfee Rt Ru Rs ltac:(lia) EA q Eb EJ) as (S1 & S2 & S3).
        rewrite EZ in S1. pose proof (w_left _ _ _ _ _ _ _ _ _ _ WB) as HLB. unfold spec in HLB.
        pose proof (trail_facts _ _ _ _ _ HH Hfee Hlim _ _ _ _ _ TB') as (_ & _ & _ & _ & c20 & _ & _ & FB'). pose proof (w_price _ _ _ _ _ _ _ _ _ _ WB) as Pu1.
        destruct S3 as [S3|(qB & qJ & S4)].
        -- destruct (trail_done _ _ _ _ TJ') as (-> & _ & ->); [left; apply want_none; [assumption|lia]|]. split; [lia|]. split; [lia|]. rewrite Ps1. rewrite Pu1 in FB'. exact (farther_trans _ _ _ _ S1 FB').
        -- destruct (Z.eq_dec T (rat k)) as [qk|qk].
           ++ assert (alike s1 u1) as AS.
              { split; [congruence|]. pose proof (w_tick _ _ _ _ _ _ _ _ _ _ WB) as K1. pose proof (w_tick _ _ _ _ _ _ _ _ _ _ WJ) as K2. rewrite qB, qk, Z.eqb_refl in K1. rewrite qJ, qk, Z.eqb_refl in K2. congruence. }
              destruct (mono_out _ _ _ _ TJ' _ _ _ _ TB' AS ltac:(lia)) as (I1 & I2 & I3). split; [lia|]. split; [lia|assumption].
           ++ assert (T = limit) as qL by (unfold T, targetOf in *; destruct z; lia).
              destruct (trail_done _ _ _ _ TB') as (-> & _ & ->); [right; congruence|]. destruct (trail_done _ _ _ _ TJ') as (-> & _ & ->); [right; congruence|].
              split; [lia|]. split; [lia|]. rewrite Pu1, Ps1. exact S1.
    + rewrite (M5 ltac:(lia)) in *. destruct (IH NS s1 s' a' c' u u' RB YB TJ' TB) as (I1 & I2 & I3); try assumption.
      * exact (walk_alike _ _ _ _ _ false false s t s1 t2 k stA stA AL WJ WA eq_refl).
      * lia.
      * split; [lia|]. split; assumption.
Qed.
End SplitOut.

(** ** swaps *)
Theorem split_swap_out h p n m k (z : bool) a b lim p1 a0 a1 p2 b0 b1 p3 c0 c1 : reach h p -> 0 < a -> 0 < b -> a + b <= 2 ^ 255 ->
  (if z then clearWay p (effectiveLimit z lim)
   else ~ (TickCurrent p1 < 0 /\ 254 * TickSpacing p < TickCurrent p1 mod (256 * TickSpacing p) < 255 * TickSpacing p)) ->
  swap n p z (2 ^ 256 - a) lim = Ok (p1, a0, a1) -> swap m p1 z (2 ^ 256 - b) lim = Ok (p2, b0, b1) -> swap k p z (2 ^ 256 - (a + b)) lim = Ok (p3, c0, c1) ->
  paid z c0 c1 <= paid z a0 a1 + paid z b0 b1 /\ got z a0 a1 + got z b0 b1 <= got z c0 c1 /\ farther z (SqrtRatio p3) (SqrtRatio p2).
Proof.
  intros R Ha Hb HAB HC E1 E2 E3. apply reach_ok in R as HP.
  assert (is_u256 (2 ^ 256 - a) /\ is_u256 (2 ^ 256 - b) /\ is_u256 (2 ^ 256 - (a + b))) as (Ua & Ub & Uab) by (unfold is_u256; lia).
  destruct (swap_ok h p z (2 ^ 256 - a) lim HP Ua n p1 a0 a1 E1) as (HP1 & _ & _ & EF & ES & _). pose proof (swap_direction h p n z (2 ^ 256 - a) lim p1 a0 a1 R Ua E1) as SD. cbv zeta in SD.
  destruct (swap_ok_inv h p z (2 ^ 256 - a) lim HP Ua n p1 a0 a1 E1) as (_ & Hsp & _).
  assert (z = true -> noMisplaced (TickSpacing p) (effectiveLimit z lim) (TickCurrent p)) as NM by (intros Ez; apply (clearWay_noMisplaced h); [assumption|assumption|]; rewrite Ez in *; assumption).
  assert (z = true -> noMisplaced (TickSpacing p1) (effectiveLimit z lim) (TickCurrent p1)) as NM1.
  { intros Ez. specialize (NM Ez). rewrite ES. rewrite Ez in *. destruct SD as (_ & _ & SD). destruct (SD HC) as [_ SD']. intros t Ht. apply NM. lia. }
  pose proof (swap_trail h p n z (2 ^ 256 - a) lim p1 a0 a1 HP Ua NM E1) as D1. pose proof (swap_trail h p1 m z (2 ^ 256 - b) lim p2 b0 b1 HP1 Ub NM1 E2) as D2. pose proof (swap_trail h p k z (2 ^ 256 - (a + b)) lim p3 c0 c1 HP Uab NM E3) as D3.
  cbv zeta in *. replace (2 ^ 256 - a <? T255) with false in D1 by lia. replace (2 ^ 256 - b <? T255) with false in D2 by lia. replace (2 ^ 256 - (a + b) <? T255) with false in D3 by lia. rewrite ES, EF in D2.
  destruct D1 as (t1 & xA & yA & TA & [P1 K1] & A1 & A2 & A3 & _ & Hfee & Hl). destruct D2 as (u' & xB & yB & TB & [P2 _] & B1 & B2 & B3 & _). destruct D3 as (s' & xJ & yJ & TJ & [P3 _] & C1 & C2 & C3 & _).
  assert (z = false -> ~ skips (sTick t1) (TickSpacing p)) as NS by (intros Ez; rewrite <- K1, skips_iff by assumption; rewrite Ez in HC; assumption).
  assert (forall y, 0 < y <= 2 ^ 255 -> left false (2 ^ 256 - y) = y) as HL by (intros y Hy; unfold left; replace (2 ^ 256 - y =? 0) with false by lia; lia).
  rewrite HL in A3, B3, C3 by lia.
  destruct (split_out h _ z _ _ (proj1 HP) Hsp Hfee Hl _ _ _ _ TA NS _ _ _ _ _ _ _ _ TJ TB) as (I1 & I2 & I3).
  - split; reflexivity.
  - split; cbn [startState sPrice sTick]; congruence.
  - cbn [startState sRemaining]. rewrite !HL by lia. lia.
  - rewrite A1, A2, B1, B2, C1, C2, P2, P3. split; [assumption|]. split; [lia|assumption].
Qed.

(** ** the condition on the tick in between is needed *)
Definition skip3 : Pool := Eval vm_compute in fst (fst (okOr (swap 20 skip1 false (2 ^ 256 - 203280) 0) (startPool, 0, 0))).
Lemma skip_saves : exists a0 a1 p2 b0 b1 p3 c0 c1, swap 20 skip1 false (2 ^ 256 - 203280) 0 = Ok (skip3, a0, a1) /\
  swap 20 skip3 false (2 ^ 256 - 50000) 0 = Ok (p2, b0, b1) /\ swap 20 skip1 false (2 ^ 256 - 253280) 0 = Ok (p3, c0, c1) /\
  got false c0 c1 = 253280 /\ got false a0 a1 + got false b0 b1 = 253280 /\ a1 + b1 = c1 - 2.
Proof. do 8 eexists. split; [vm_compute; reflexivity|]. split; [vm_compute; reflexivity|]. split; [vm_compute; reflexivity|]. vm_compute. auto. Qed.
