(** PoolSplit.v -- two swaps one after the other compared with one swap of the sum. *)
From Coq Require Import ZifyBool String.
From Verif Require Import Base U256Z FullMathFacts SwapMath SwapMathFacts SwapStep TickMath TickMathFacts TickData TickDataFacts TickSearch Ledger Pool PoolTable PoolInv PoolSwap PoolLoop PoolHist PoolOps PoolSpec PoolLimit PoolMono PoolQuote.
Ltac Zify.zify_post_hook ::= idtac.
Open Scope Z_scope.

(** ** amounts over two adjoining price ranges *)
Lemma in_ceil_add (b : bool) l P r q x y w : 0 <= l -> 0 < P -> 0 < r -> 0 < q -> in_ceil b l P r x -> in_ceil b l r q y -> in_ceil b l P q w -> w <= x + y.
Proof.
  intros Hl HP Hr Hq Hx Hy Hw. unfold in_ceil, ceil0, ceil1 in *. destruct b.
  - set (n := l * Q96) in *. clearbody n. apply Z.lt_pred_le, Z.nle_gt. intros C.
    assert (n * (P - r) * q <= x * (r * P) * q) as K1 by (apply Z.mul_le_mono_nonneg_r; lia).
    assert (n * (r - q) * P <= y * (q * r) * P) as K2 by (apply Z.mul_le_mono_nonneg_r; lia).
    assert (w * (q * P) * r < (n * (P - q) + q * P) * r) as K3 by (apply Z.mul_lt_mono_pos_r; lia).
    assert (0 < q * P * r) as Hpos by (apply Z.mul_pos_pos; [apply Z.mul_pos_pos; lia|lia]).
    assert ((x + y) * (q * P * r) <= Z.pred w * (q * P * r)) as K4 by (apply Z.mul_le_mono_nonneg_r; lia). unfold Z.pred in *. lia.
  - unfold Q96 in *. lia.
Qed.
Lemma out_le_add (b : bool) l P r q x y : 0 <= l -> 0 < P -> 0 < r -> 0 < q -> out_le b l P r x -> out_le b l r q y -> out_le b l P q (x + y).
Proof.
  intros Hl HP Hr Hq Hx Hy. unfold out_le in *. destruct b; [lia|].
  set (n := l * Q96) in *. clearbody n. apply Z.mul_le_mono_pos_r with r; [lia|].
  assert (x * (P * r) * q <= n * (r - P) * q) as K1 by (apply Z.mul_le_mono_nonneg_r; lia).
  assert (y * (r * q) * P <= n * (q - r) * P) as K2 by (apply Z.mul_le_mono_nonneg_r; lia). lia.
Qed.
Lemma less_fee_add a b c f : 0 <= a -> 0 <= b -> a + b <= c -> 0 <= f <= MaxFee -> a * (MaxFee - f) / MaxFee + b * (MaxFee - f) / MaxFee <= c * (MaxFee - f) / MaxFee.
Proof.
  intros Ha Hb Hc Hf. apply Z.div_le_lower_bound; [unfold MaxFee; lia|].
  pose proof (Z.mul_div_le (a * (MaxFee - f)) MaxFee ltac:(unfold MaxFee; lia)). pose proof (Z.mul_div_le (b * (MaxFee - f)) MaxFee ltac:(unfold MaxFee; lia)).
  assert ((a + b) * (MaxFee - f) <= c * (MaxFee - f)) by (apply Z.mul_le_mono_nonneg_r; lia). lia.
Qed.

(** ** a step of the sum against a step that ends early and the step after it *)
Lemma step_split P T l f rA rB rJ stA stB stJ : priceR P -> priceR T -> 0 <= l < 2 ^ 128 -> 0 <= f < MaxFee -> 0 < rA -> 0 < rB -> rA + rB <= rJ ->
  (if T <=? P then rJ * P + 2 ^ 224 <= T256 else rJ < 2 ^ 160) ->
  ComputeSwapStep P T l rA f = Ok stA -> stNext stA <> T -> ComputeSwapStep (stNext stA) T l rB f = Ok stB -> ComputeSwapStep P T l rJ f = Ok stJ ->
  farther (T <=? P) (stNext stB) (stNext stJ) /\ stOut stA + stOut stB <= stOut stJ /\
  (stNext stB = T -> stNext stJ = T /\ stIn stJ + stFee stJ <= rA + (stIn stB + stFee stB)).
Proof.
  intros HP HT Hl Hf RA RB RJ HFit EA NA EB EJ. assert (liqR l) as HlR by (unfold liqR; lia).
  assert (rJ < 2 ^ 236) as H236.
  { destruct (T <=? P); [|lia]. unfold priceR in HP. apply Z.nle_gt. intros C. assert (2 ^ 236 * 2 ^ 32 <= rJ * P) by (apply Z.mul_le_mono_nonneg; lia). lia. }
  destruct (step_exactin P T l rA f stA HP HT HlR ltac:(lia) ltac:(lia) EA) as (A1 & A2 & A3 & A4 & A5 & A6 & A7 & A8 & A9 & A10).
  destruct (step_in_next P T l rA f stA HP HT HlR ltac:(lia) ltac:(lia) EA) as (iA & HiA & CA).
  assert (forall r, toward P T r -> priceR r) as HTo by (unfold toward, priceR in *; intros r; destruct (T <=? P); lia).
  pose proof (HTo _ A1) as NP1. assert ((T <=? stNext stA) = (T <=? P)) as EZ by (unfold toward in A1; destruct (T <=? P) eqn:?; lia).
  destruct (step_exactin (stNext stA) T l rB f stB NP1 HT HlR ltac:(lia) ltac:(lia) EB) as (B1 & B2 & B3 & B4 & B5 & B6 & B7 & B8 & B9 & B10).
  destruct (step_in_next (stNext stA) T l rB f stB NP1 HT HlR ltac:(lia) ltac:(lia) EB) as (iB & HiB & CB).
  destruct (step_exactin P T l rJ f stJ HP HT HlR ltac:(lia) ltac:(lia) EJ) as (J1 & J2 & J3 & J4 & J5 & J6 & J7 & J8 & J9 & J10).
  destruct (step_in_next P T l rJ f stJ HP HT HlR ltac:(lia) ltac:(lia) EJ) as (iJ & HiJ & CJ). cbv zeta in *. clear EA EB EJ.
  assert (toward P T (stNext stB)) as B1' by (unfold toward in *; rewrite EZ in B1; destruct (T <=? P); lia).
  rewrite EZ in *. rewrite less_fee_eq in CA, CB, CJ by lia. pose proof (less_fee_add rA rB rJ f ltac:(lia) ltac:(lia) RJ ltac:(lia)) as HX.
  assert (stIn stA <= rA * (MaxFee - f) / MaxFee) as IA.
  { apply Z.div_le_lower_bound; [unfold MaxFee; lia|]. assert ((stIn stA + stFee stA) * (MaxFee - f) <= rA * (MaxFee - f)) by (apply Z.mul_le_mono_nonneg_r; lia). lia. }
  assert (rJ * (MaxFee - f) / MaxFee <= rJ) as XJ by (apply Z.div_le_upper_bound; [unfold MaxFee; lia|]; rewrite (Z.mul_comm MaxFee); apply Z.mul_le_mono_nonneg_l; lia).
  assert (0 <= rB * (MaxFee - f) / MaxFee) as XB0 by (apply Z.div_pos; [apply Z.mul_nonneg_nonneg; lia|unfold MaxFee; lia]).
  set (xA := rA * _ / _) in *. set (xB := rB * _ / _) in *. set (xJ := rJ * _ / _) in *. clearbody xA xB xJ.
  pose proof (HTo _ B1') as NP2. pose proof (HTo _ J1) as NPJ. unfold priceR in *.
  assert (stNext stB = T -> stNext stJ = T) as Reach.
  { intros Q. destruct CJ as [[_ C]|(C & _)]; [assumption|]. exfalso. destruct CB as [[CB _]|(_ & _ & CB)]; [|contradiction].
    pose proof (in_ceil_add (T <=? P) l P (stNext stA) T (stIn stA) iB iJ ltac:(lia) ltac:(lia) ltac:(lia) ltac:(lia) A2 HiB HiJ). lia. }
  assert (farther (T <=? P) (stNext stB) (stNext stJ)) as HF.
  { destruct CJ as [[_ C]|(C & GJ & NJ)]; [rewrite C; unfold farther, toward in *; destruct (T <=? P); lia|].
    destruct CB as [[_ CB]|(CB & GB & NB)]; [exfalso; apply NJ, Reach, CB|]. destruct CA as [[_ CA]|(CA & GA & _)]; [contradiction|].
    assert (0 < l) as Hl0 by (apply (input_guard P l xJ (T <=? P) (stNext stJ)); [lia|exact GJ]).
    clear A2 A3 A8 A9 A10 B2 B3 B8 B9 B10 J2 J3 J8 J9 J10. set (p1 := stNext stA) in *. set (p2 := stNext stB) in *. set (pJ := stNext stJ) in *. clearbody p1 p2 pJ.
    unfold farther, in_ceil in *. destruct (T <=? P) eqn:CZ.
    - apply input_down_full in GA as (GA & _ & _ & _); [|unfold priceR; lia|assumption|lia]. apply input_down_full in GB as (GB & _ & _ & _); [|unfold priceR; lia|assumption|lia].
      assert (xJ * P <= rJ * P) as K0 by (apply Z.mul_le_mono_nonneg_r; lia).
      apply input_down_full in GJ as (_ & _ & _ & GJ); [|unfold priceR; lia|assumption|lia]. specialize (GJ ltac:(unfold Q96; lia)).
      assert (0 < l * Q96) as Hn by (unfold Q96; lia). set (n := l * Q96) in *. clearbody n. apply Z.nlt_ge. intros D.
      assert (n * (P - p1) * p2 <= xA * (P * p1) * p2) as K1 by (apply Z.mul_le_mono_nonneg_r; lia).
      assert (n * (p1 - p2) * P <= xB * (p1 * p2) * P) as K2 by (apply Z.mul_le_mono_nonneg_r; lia).
      assert (n * (P - p2) <= (xA + xB) * (P * p2)) as K3 by (apply Z.mul_le_mono_pos_r with p1; lia).
      assert ((xA + xB) * (P * p2) <= xJ * (P * p2)) as K4 by (apply Z.mul_le_mono_nonneg_r; [apply Z.mul_nonneg_nonneg; lia|lia]).
      assert (0 <= xJ * P) by (apply Z.mul_nonneg_nonneg; lia).
      assert (p2 * (n + xJ * P) <= (pJ - 1) * (n + xJ * P)) as K5 by (apply Z.mul_le_mono_nonneg_r; lia). lia.
    - pose proof (input_up_target P T l xA iA p1 ltac:(unfold priceR; lia) ltac:(unfold priceR; lia) ltac:(lia) HlR ltac:(lia) HiA CA GA) as [GA' _].
      pose proof (input_up_target p1 T l xB iB p2 ltac:(unfold priceR; lia) ltac:(unfold priceR; lia) ltac:(lia) HlR ltac:(lia) HiB CB GB) as [GB' _].
      pose proof (input_up_target P T l xJ iJ pJ ltac:(unfold priceR; lia) ltac:(unfold priceR; lia) ltac:(lia) HlR ltac:(lia) HiJ C GJ) as [_ RT].
      apply input_up in GJ as (u & G & Hu & Hu0 & _); [|unfold priceR; lia|assumption|lia]. rewrite Z.mod_small in Hu by (unfold Q96; lia).
      assert (p2 - P <= u) as K.
      { apply Z.lt_succ_r. apply Z.mul_lt_mono_pos_r with l; [lia|]. assert ((xA + xB) * Q96 <= xJ * Q96) by (apply Z.mul_le_mono_nonneg_r; [discriminate|lia]). unfold Z.succ. lia. }
      assert (u < T256) as HU. { apply Z.nle_gt. intros D. assert (T256 * 1 <= u * l) by (apply Z.mul_le_mono_nonneg; lia). unfold Q96 in *. lia. }
      rewrite G in *. unfold uadd in *. destruct (Z_lt_le_dec (P + u) T256) as [D|D]; [rewrite Z.mod_small in * by lia; lia|].
      assert ((P + u) mod T256 = P + u - T256) as M by (rewrite <- (Z.mod_small (P + u - T256) T256) by lia; rewrite <- (Z_mod_plus_full (P + u - T256) 1); f_equal; lia). lia. }
  split; [assumption|]. split.
  - apply (out_le_far (T <=? P) l P (stNext stB) (stNext stJ)); try assumption; try lia.
    + unfold toward in B1'. destruct (T <=? P); lia.
    + apply (out_le_add _ l P (stNext stA)); try lia; now apply out_floor_le.
  - intros Q. split; [now apply Reach|]. specialize (J9 (Reach Q) ltac:(lia)).
    assert (stIn stJ <= stIn stA + stIn stB) as HI.
    { rewrite Q in B2. rewrite (Reach Q) in J2. apply (in_ceil_add (T <=? P) l P (stNext stA) T); try assumption; lia. }
    assert (stFee stJ <= stFee stA + stFee stB) as HFee.
    { apply (fee_mono (stIn stJ) (stIn stA + stIn stB) f); try lia. }
    lia.
Qed.

(** ** where the search goes from a tick on the way *)
(** ticks from which the search upwards skips the end of their word *)
Definition skips (tick s : Z) : Prop := tick < 0 /\ tick mod s <> 0 /\ (tick ÷ s) mod 256 = 255.

Lemma quot_mult k s : 0 < s -> (k * s) ÷ s = k.
Proof. intros H. apply Z.quot_mul. lia. Qed.
Lemma wordMin_between t t1 s : 0 < s -> wordMin t s <= t1 <= t -> wordMin t1 s = wordMin t s.
Proof.
  intros Hs H. unfold wordMin in *. assert (t1 ÷ s <= t ÷ s) as Q1 by (apply Z.quot_le_mono; lia).
  set (c := t ÷ s) in *. assert (c / 256 * 256 <= t1 ÷ s) as Q2 by (rewrite <- (quot_mult (c / 256 * 256) s Hs); apply Z.quot_le_mono; lia).
  pose proof (Z.div_mod c 256 ltac:(lia)). pose proof (Z.mod_pos_bound c 256 ltac:(lia)). f_equal. f_equal. symmetry. apply Z.div_unique_pos with (r := t1 ÷ s - 256 * (c / 256)); lia.
Qed.
Lemma wordMax_between t t1 s : 0 < s -> t <= t1 < wordMax t s -> ~ skips t1 s -> wordMax t1 s = wordMax t s.
Proof.
  intros Hs H NS. unfold wordMax in *. assert (t ÷ s <= t1 ÷ s) as Q1 by (apply Z.quot_le_mono; lia). destruct (quot_bounds t1 s Hs) as [B1 B2].
  set (c := t ÷ s) in *. set (w := (c + 1) / 256) in *. assert (t1 ÷ s <= (w + 1) * 256 - 1) as Q2 by (rewrite <- (quot_mult ((w + 1) * 256 - 1) s Hs); apply Z.quot_le_mono; lia).
  pose proof (Z.div_mod (c + 1) 256 ltac:(lia)) as D. pose proof (Z.mod_pos_bound (c + 1) 256 ltac:(lia)) as DB. fold w in D.
  set (d := t1 ÷ s) in *. assert (d <> (w + 1) * 256 - 1) as ND.
  { intros e. destruct (Z_le_dec 0 t1) as [C|C]; [specialize (B1 C); rewrite e in B1; lia|]. apply NS. split; [lia|]. split; [|fold d; rewrite e; replace ((w + 1) * 256 - 1) with (255 + w * 256) by ring; rewrite Z_mod_plus_full; reflexivity].
    intros M. apply Z.mod_divide in M as [q M]; [|lia]. unfold d in e. rewrite M, quot_mult in e by lia. rewrite M, e in H. lia. }
  f_equal. f_equal. f_equal. f_equal. symmetry. apply Z.div_unique_pos with (r := d + 1 - 256 * w); lia.
Qed.
Lemma search_between h sp (z : bool) d d' t t1 n b n' b' : tableOK h sp d -> tableOK h sp d' -> 0 < sp -> (if z then n <= t1 <= t else t <= t1 < n /\ ~ skips t1 sp) ->
  NextInitializedTickWithinOneWord d t z = Ok (n, b) -> NextInitializedTickWithinOneWord d' t1 z = Ok (n', b') -> n' = n.
Proof.
  intros HT HT' Hsp HB E E'. pose proof HT as (Hs & Es & _). pose proof HT' as (Hs' & Es' & _).
  assert (forall j, present d j <-> present d' j) as HPr by (intros j; rewrite (present_gross h sp d j HT), (present_gross h sp d' j HT'); reflexivity).
  destruct z.
  - apply (search_down d t Hs) in E. apply (search_down d' t1 Hs') in E'. cbv zeta in *. rewrite Es in E. rewrite Es' in E'.
    rewrite (wordMin_between t t1 sp Hsp) in E' by lia. set (m := wordMin t sp) in *. clearbody m.
    destruct E as (A1 & A2 & A3 & A4), E' as (B1 & B2 & B3 & B4). destruct (Z.lt_trichotomy n n') as [C|[C|C]]; [|auto|]; exfalso.
    + destruct b'; [|destruct (B4 eq_refl); lia]. destruct (B3 eq_refl) as [B5 B6]. apply (A2 n'); [lia|]. now apply HPr.
    + destruct b; [|destruct (A4 eq_refl); lia]. destruct (A3 eq_refl) as [A5 A6]. apply (B2 n); [lia|]. now apply HPr.
  - destruct HB as [HB NS]. apply (search_up d t Hs) in E; [|lia]. apply (search_up d' t1 Hs') in E'; [|lia]. cbv zeta in *. rewrite Es in E. rewrite Es' in E'.
    destruct E as (A1 & A2 & A3 & A4). rewrite (wordMax_between t t1 sp Hsp ltac:(lia) NS) in E'. set (m := wordMax t sp) in *. clearbody m.
    destruct E' as (B1 & B2 & B3 & B4). destruct (Z.lt_trichotomy n n') as [C|[C|C]]; [|auto|]; exfalso.
    + destruct b; [|specialize (A4 eq_refl); lia]. apply (B2 n); [lia|]. apply HPr, A3. reflexivity.
    + destruct b'; [|specialize (B4 eq_refl); lia]. apply (A2 n'); [lia|]. apply HPr, B3. reflexivity.
Qed.

(** ** the rounds *)
Section Rounds.
Variables (h : hist) (sp : Z) (z : bool) (limit fee : Z).
Hypothesis HH : histOK sp h.
Hypothesis Hsp : 0 < sp.
Hypothesis Hfee : 0 <= fee < MaxFee.
Hypothesis Hlim : limitOK z limit.
Variable ex : bool.
Notation trail := (trail h sp z limit fee ex).
Notation walk := (walk h sp z limit fee ex).

Lemma rounds_done s s' R Y : trail s s' R Y -> sRemaining s = 0 \/ sPrice s = limit -> s' = s /\ R = 0 /\ Y = 0.
Proof.
  intros TR H. inversion TR as [u HU RU|u u1 u' q su au cu WU TU]; subst; [auto|]. exfalso. pose proof (w_rem _ _ _ _ _ _ _ _ _ _ WU). pose proof (w_limit _ _ _ _ _ _ _ _ _ _ WU). clear - H H0 H1. tauto.
Qed.
(** a round that ends early leaves off at a tick from which the search finds the same next tick *)
Lemma rounds_between s t u s1 t1 u1 k k' k'' stJ stA stB : alike s t -> walk s s1 k stJ -> walk t t1 k' stA -> stNext stA <> targetOf z limit (rat k) ->
  alike t1 u -> walk u u1 k'' stB -> (z = false -> ~ skips (sTick t1) sp) -> k'' = k /\ sLiquidity u = sLiquidity s.
Proof.
  intros AL WJ WA NT AU WB NS. pose proof (w_clear _ _ _ _ _ _ _ _ _ _ WJ) as NM. destruct (walk_same _ _ _ _ _ Hsp ex ex _ _ _ _ _ _ _ _ AL WJ WA) as [-> EL].
  destruct (walk_facts _ _ _ _ _ HH Hfee Hlim _ _ _ _ _ WA) as (_ & _ & F1 & F2 & _). rewrite <- (proj1 AL) in F1.
  pose proof (w_ok _ _ _ _ _ _ _ _ _ _ WJ) as (HTs & ELs & (PJ1 & PJ2 & _) & _). pose proof (w_ok _ _ _ _ _ _ _ _ _ _ WB) as (HTu & ELu & _).
  pose proof (w_ok1 _ _ _ _ _ _ _ _ _ _ WA) as (_ & ELt & (PT1 & PT2 & _) & _).
  pose proof (w_tick _ _ _ _ _ _ _ _ _ _ WA) as HTk. rewrite <- (proj1 AL), <- (proj2 AL) in HTk. rewrite (w_price _ _ _ _ _ _ _ _ _ _ WA) in PT2.
  destruct (w_next _ _ _ _ _ _ _ _ _ _ WJ) as (n & b & En & Ek). destruct (w_next _ _ _ _ _ _ _ _ _ _ WB) as (n' & b' & En' & Ek'). pose proof (w_range _ _ _ _ _ _ _ _ _ _ WJ) as Hk.
  rewrite <- (proj2 AU) in En'. set (P := sPrice s) in *. set (p1 := stNext stA) in *. set (tau := sTick s) in *. set (t1k := sTick t1) in *.
  assert (p1 <> rat k /\ (if z then rat k < p1 else p1 < rat k)) as [Nk Dk] by (unfold farther, targetOf in *; destruct z; lia).
  replace (p1 =? rat k) with false in HTk by lia.
  assert (if z then k <= t1k <= tau else tau <= t1k < k) as Bt.
  { destruct (p1 =? P) eqn:C.
    - injection HTk as HTk. rewrite HTk. destruct z.
      + split; [|lia]. pose proof HTs as (Hs & Es & _). pose proof (search_down _ _ Hs _ _ En) as SD. cbv zeta in SD. rewrite Es in SD. destruct SD as (_ & _ & SD1 & SD2).
        assert (n <= tau) by (destruct b; [apply SD1; reflexivity|]; rewrite (proj1 (SD2 eq_refl)); apply wordMin_le; [lia|]; now apply NM). subst k. unfold clampTick in *. destruct (n <? MinTick) eqn:?; [lia|]. destruct (MaxTick <? n) eqn:?; lia.
      + split; [lia|]. apply Z.nle_gt. intros D. pose proof (rat_le k tau ltac:(lia) D ltac:(lia)). lia.
    - symmetry in HTk. apply tick_of in HTk as (T1 & T2 & _). unfold farther in F1. destruct z.
      + split; [apply Z.lt_succ_r; apply Z.nle_gt; intros D; pose proof (rat_le (t1k + 1) k ltac:(lia) ltac:(lia) ltac:(lia)); lia|].
        apply Z.lt_succ_r. apply Z.nle_gt. intros D. pose proof (rat_le (tau + 1) t1k ltac:(lia) ltac:(lia) ltac:(lia)). lia.
      + split; [apply Z.lt_succ_r; apply Z.nle_gt; intros D; pose proof (rat_le (t1k + 1) tau ltac:(lia) ltac:(lia) ltac:(lia)); lia|].
        apply Z.nle_gt. intros D. pose proof (rat_le k t1k ltac:(lia) ltac:(lia) ltac:(lia)). lia. }
  assert (n' = n) as ->.
  { apply (search_between h sp z (sData s) (sData u) tau t1k n b n' b' HTs HTu Hsp); try assumption.
    clearbody tau t1k. subst k. unfold clampTick in *. destruct z; [|split; [|now apply NS]]; destruct (n <? MinTick) eqn:?, (MaxTick <? n) eqn:?; lia. }
  split; [congruence|]. rewrite ELu, <- (proj2 AU). fold t1k. rewrite ELs. fold tau. pose proof HTs as (Hs & Es & _).
  assert (if z then n <= t1k <= tau else tau <= t1k < n) as Bn by (clearbody tau t1k; subst k; unfold clampTick in *; destruct z, (n <? MinTick) eqn:?, (MaxTick <? n) eqn:?; lia).
  destruct z.
  - symmetry. apply (clear_active h sp (sData s)); try assumption; [lia|]. intros j Hj. pose proof (search_down _ _ Hs _ _ En) as (_ & SD & _). apply SD. fold tau. lia.
  - apply (clear_active h sp (sData s)); try assumption; [lia|]. intros j Hj. pose proof (search_up _ _ Hs _ _ En ltac:(lia)) as (_ & SD & _). apply SD. fold tau. lia.
Qed.
End Rounds.

(** ** exact inputs *)
Section Split.
Variables (h : hist) (sp : Z) (z : bool) (limit fee : Z).
Hypothesis HH : histOK sp h.
Hypothesis Hsp : 0 < sp.
Hypothesis Hfee : 0 <= fee < MaxFee.
Hypothesis Hlim : limitOK z limit.
Notation trail := (trail h sp z limit fee true).
Notation walk := (walk h sp z limit fee true).
Notation trail_done := (rounds_done h sp z limit fee true).
Notation walk_between := (rounds_between h sp z limit fee HH Hsp Hfee Hlim true).

Lemma trail_cases s s' R Y : trail s s' R Y -> 0 < sRemaining s -> sPrice s <> limit -> exists s1 k st a c, walk s s1 k st /\ trail s1 s' a c /\ R = stIn st + stFee st + a /\ Y = stOut st + c.
Proof.
  intros TR HR HP. inversion TR as [u HU RU|u u1 u' q su au cu WU TU]; subst; [unfold running in RU; lia|]. exists u1, q, su, au, cu. auto.
Qed.
Lemma fits_T T rem P : (if z then rem < 2 ^ 236 else rem < 2 ^ 160) -> farther z P T -> fits (T <=? P) true rem.
Proof. unfold fits, farther. intros H1 H2 _. destruct z, (T <=? P) eqn:?; lia. Qed.
Lemma exactly_fits rem P : priceR P -> 0 <= rem -> exactly z rem P -> if z then rem < 2 ^ 236 else rem < 2 ^ 160.
Proof.
  unfold exactly, priceR. intros HP H0 H. destruct z; [|assumption]. apply Z.nle_gt. intros C. assert (2 ^ 236 * 2 ^ 32 <= rem * P) by (apply Z.mul_le_mono_nonneg; lia). lia.
Qed.

(** more left goes at least as far, yields at least as much and leaves at least as much *)
Lemma mono_trail s s' R Y : trail s s' R Y -> forall t t' R' Y', trail t t' R' Y' -> alike s t -> sRemaining s <= sRemaining t -> (if z then sRemaining t < 2 ^ 236 else sRemaining t < 2 ^ 160) ->
  Y <= Y' /\ sRemaining s' <= sRemaining t' /\ farther z (sPrice s') (sPrice t').
Proof.
  induction 1 as [s HO RN|s s1 s' k st a c W TR IH]; intros t t' R' Y' TT AL HR HFit.
  - pose proof (trail_facts _ _ _ _ _ HH Hfee Hlim _ _ _ _ _ TT) as (_ & HO' & _ & R0 & Y0 & _ & _ & FT). destruct HO as (_ & _ & _ & _ & HRs & _). destruct HO' as (_ & _ & _ & _ & HRt & _).
    unfold remOK in *. rewrite (proj1 AL). split; [assumption|]. split; [|assumption]. destruct (Z.eq_dec (sRemaining s) 0) as [e|e]; [lia|].
    destruct (trail_done _ _ _ _ TT) as [-> _]; [right|assumption]. rewrite <- (proj1 AL). unfold running in RN. lia.
  - pose proof (walk_bounds _ _ _ _ _ HH Hlim _ _ _ _ _ W) as (BP & BT & Bl & BR & _). pose proof (w_rem _ _ _ _ _ _ _ _ _ _ W) as R0. pose proof (w_limit _ _ _ _ _ _ _ _ _ _ W) as L0. unfold remOK in BR. rewrite (proj1 AL) in L0.
    destruct (trail_cases _ _ _ _ TT ltac:(lia) L0) as (t1 & k' & st' & a' & c' & W' & TR' & -> & ->).
    destruct (walk_same _ _ _ _ _ Hsp true true _ _ _ _ _ _ _ _ AL W W') as [-> EL]. pose proof (walk_bounds _ _ _ _ _ HH Hlim _ _ _ _ _ W') as (_ & _ & _ & BR' & _).
    pose proof (w_step _ _ _ _ _ _ _ _ _ _ W) as E. pose proof (w_step _ _ _ _ _ _ _ _ _ _ W') as E'. rewrite EL in E'. rewrite <- (proj1 AL) in E'.
    pose proof (w_way _ _ _ _ _ _ _ _ _ _ W) as HWay. set (T := targetOf z limit (rat k)) in *.
    destruct (step_mono (sPrice s) T (sLiquidity s) fee true (sRemaining s) (sRemaining t) st st' BP BT Bl Hfee R0 BR BR' HR (fits_T T _ _ HFit HWay) E E') as (M1 & M2 & M3 & M4 & M5 & M6).
    pose proof (w_left _ _ _ _ _ _ _ _ _ _ W) as HL. pose proof (w_left _ _ _ _ _ _ _ _ _ _ W') as HL'. unfold left, spec, calc in *.
    pose proof (trail_facts _ _ _ _ _ HH Hfee Hlim _ _ _ _ _ TR') as (_ & HO' & _ & A0 & C0 & _ & _ & FT). rewrite (w_price _ _ _ _ _ _ _ _ _ _ W') in FT.
    destruct (Z.eq_dec (stIn st + stFee st) (sRemaining s)) as [e|e].
    + destruct (M6 e) as (F & _ & O). destruct (trail_done _ _ _ _ TR) as (-> & _ & ->); [lia|]. destruct HO' as (_ & _ & _ & _ & HRt & _). unfold remOK in HRt.
      rewrite (w_price _ _ _ _ _ _ _ _ _ _ W). split; [lia|]. split; [lia|]. apply (farther_trans z _ (stNext st')); [|assumption].
      destruct (walk_facts _ _ _ _ _ HH Hfee Hlim _ _ _ _ _ W) as (_ & _ & F1 & F2 & _). destruct (walk_facts _ _ _ _ _ HH Hfee Hlim _ _ _ _ _ W') as (_ & _ & F1' & F2' & _). fold T in F2, F2'. rewrite <- (proj1 AL) in F1'.
      unfold farther in *. destruct z, (T <=? sPrice s) eqn:?; lia.
    + rewrite (M5 ltac:(lia)) in *. destruct (IH t1 t' a' c' TR') as (I1 & I2 & I3).
      * exact (walk_alike _ _ _ _ _ true true s t s1 t1 k st st AL W W' eq_refl).
      * lia.
      * assert (sRemaining t1 <= sRemaining t) by lia. destruct z; lia.
      * split; [lia|]. split; assumption.
Qed.
(** the swap of the sum goes at least as far, yields at least as much and leaves at least as much *)
Lemma split_trail t t1 RA YA : trail t t1 RA YA -> (z = false -> ~ skips (sTick t1) sp) -> forall s s' R Y u u' RB YB, trail s s' R Y -> trail u u' RB YB ->
  alike s t -> alike t1 u -> sRemaining t + sRemaining u <= sRemaining s -> exactly z (sRemaining s) (sPrice s) ->
  YA + YB <= Y /\ sRemaining t1 + sRemaining u' <= sRemaining s' /\ farther z (sPrice u') (sPrice s').
Proof.
  intros TA NS. induction TA as [t HO RN|t t2 t1 k stA a c WA TA IH]; intros s s' R Y u u' RB YB TJ TB AL AU HR HE.
  - (* nothing of the first swap is left *)
    pose proof (trail_facts _ _ _ _ _ HH Hfee Hlim _ _ _ _ _ TJ) as (HOJ & _). pose proof (trail_facts _ _ _ _ _ HH Hfee Hlim _ _ _ _ _ TB) as (HOB & _).
    destruct HO as (_ & _ & _ & _ & HRt & _). destruct HOB as (_ & _ & _ & _ & HRu & _). destruct HOJ as (_ & _ & HPs & _ & HRs & _). apply price_bounds in HPs. unfold remOK in *.
    assert (alike s u) as AS by (destruct AL, AU; split; congruence).
    destruct (Z.eq_dec (sRemaining t) 0) as [e|e].
    + assert (alike u s) as AS' by (destruct AS; split; congruence).
      assert (sRemaining u <= sRemaining s) as LE by lia. pose proof (exactly_fits _ _ (price_R (sPrice s) ltac:(lia)) (proj1 HRs) HE) as HFit.
      destruct (mono_trail _ _ _ _ TB _ _ _ _ TJ AS' LE HFit) as (M1 & M2 & M3). split; [lia|]. split; [lia|assumption].
    + assert (sPrice t = limit) as L by (unfold running in RN; lia). destruct (trail_done _ _ _ _ TB) as (-> & _ & ->); [right; destruct AU; congruence|]. destruct (trail_done _ _ _ _ TJ) as (-> & _ & ->); [right; destruct AL; congruence|].
      split; [lia|]. split; [lia|]. destruct AS as [-> _]. unfold farther. destruct z; lia.
  - pose proof (walk_bounds _ _ _ _ _ HH Hlim _ _ _ _ _ WA) as (BP & BT & Bl & BR & _). pose proof (w_rem _ _ _ _ _ _ _ _ _ _ WA) as R0. pose proof (w_limit _ _ _ _ _ _ _ _ _ _ WA) as L0. unfold remOK in BR. rewrite <- (proj1 AL) in L0.
    pose proof (trail_facts _ _ _ _ _ HH Hfee Hlim _ _ _ _ _ TB) as (HOB & HOB' & _ & RB0 & YB0 & _ & _ & FB). destruct HOB as (_ & _ & _ & _ & HRu & _). unfold remOK in HRu.
    destruct (trail_cases _ _ _ _ TJ ltac:(lia) L0) as (s1 & k' & stJ & a' & c' & WJ & TJ' & -> & ->).
    destruct (walk_same _ _ _ _ _ Hsp true true _ _ _ _ _ _ _ _ AL WJ WA) as [<- EL]. pose proof (walk_bounds _ _ _ _ _ HH Hlim _ _ _ _ _ WJ) as (_ & _ & _ & BRJ & _).
    pose proof (w_step _ _ _ _ _ _ _ _ _ _ WA) as EA. pose proof (w_step _ _ _ _ _ _ _ _ _ _ WJ) as EJ. rewrite EL, <- (proj1 AL) in EA. rewrite <- (proj1 AL) in BP. rewrite EL in Bl.
    pose proof (w_way _ _ _ _ _ _ _ _ _ _ WJ) as HWay. set (T := targetOf z limit (rat k)) in *. pose proof (exactly_fits _ _ BP (proj1 BRJ) HE) as HFit.
    destruct (step_mono (sPrice s) T (sLiquidity s) fee true (sRemaining t) (sRemaining s) stA stJ BP BT Bl Hfee R0 BR BRJ ltac:(unfold left; lia) (fits_T T _ _ HFit HWay) EA EJ) as (M1 & M2 & M3 & M4 & M5 & M6).
    pose proof (w_left _ _ _ _ _ _ _ _ _ _ WA) as HLA. pose proof (w_left _ _ _ _ _ _ _ _ _ _ WJ) as HLJ. unfold left, spec, calc in *. unfold remOK in BRJ.
    pose proof (trail_facts _ _ _ _ _ HH Hfee Hlim _ _ _ _ _ TJ') as (HOJ1 & HOJ' & _ & A0 & C0 & _ & _ & FJ). rewrite (w_price _ _ _ _ _ _ _ _ _ _ WJ) in FJ.
    destruct HOJ' as (_ & _ & _ & _ & HRs' & _). unfold remOK in HRs'.
    destruct (walk_facts _ _ _ _ _ HH Hfee Hlim _ _ _ _ _ WJ) as (SJ0 & _ & FJ1 & FJ2 & FJ3). fold T in FJ2, FJ3. unfold spec in SJ0.
    assert (exactly z (sRemaining s1) (sPrice s1) ) as HE1.
    { rewrite (w_price _ _ _ _ _ _ _ _ _ _ WJ). destruct HOJ1 as (_ & _ & HPs & _ & HRs & _). apply price_bounds in HPs. rewrite (w_price _ _ _ _ _ _ _ _ _ _ WJ) in HPs. unfold remOK, MinSqrtRatio in *. unfold exactly, farther in *. destruct z; [|lia].
      assert (sRemaining s1 * stNext stJ <= sRemaining s * sPrice s); [|lia]. apply Z.mul_le_mono_nonneg; lia. }
    assert (sRemaining s1 = sRemaining s - (stIn stJ + stFee stJ)) as HLJ' by exact HLJ.
    destruct (Z.eq_dec (stIn stA + stFee stA) (sRemaining t)) as [e|e].
    + (* the first swap ends with this round *)
      destruct (M6 e) as (F & _ & O). destruct (trail_done _ _ _ _ TA) as (-> & -> & ->); [lia|].
      destruct (Z.eq_dec (stNext stA) T) as [q|q].
      * (* at the target: the rest is the second swap *)
        assert (stNext stJ = T) as QJ by (rewrite q in F; unfold farther in *; destruct z, (T <=? sPrice s) eqn:?; lia).
        assert (alike u s1) as AS. { pose proof (walk_alike _ _ _ _ _ true true s t s1 t2 k stJ stA AL WJ WA ltac:(congruence)) as [X1 X2]. destruct AU as [X3 X4]. split; congruence. }
        assert (liqR (sLiquidity s)) as HlR by (unfold liqR; lia).
        destruct (step_exactin (sPrice s) T (sLiquidity s) (sRemaining t) fee stA BP BT HlR BR ltac:(lia) EA) as (_ & A2 & _ & _ & _ & _ & _ & A8 & A9 & _).
        destruct (step_exactin (sPrice s) T (sLiquidity s) (sRemaining s) fee stJ BP BT HlR BRJ ltac:(lia) EJ) as (_ & B2 & _ & _ & _ & _ & _ & B8 & B9 & _). cbv zeta in *.
        specialize (A9 q ltac:(lia)). specialize (B9 QJ ltac:(lia)). rewrite q in A2. rewrite QJ in B2. unfold priceR in BP, BT.
        assert (stIn stJ = stIn stA) as EI by (eapply in_ceil_unique; [| |exact B2|exact A2]; lia). rewrite EI in *.
        assert (stFee stJ = stFee stA) as EF by (apply (fee_unique (stIn stA) fee); lia).
        assert (sRemaining u <= sRemaining s1) as LE by lia. pose proof HOJ1 as (_ & _ & HPs1 & _ & HRs1 & _). apply price_bounds in HPs1. unfold remOK in HRs1.
        pose proof (exactly_fits _ _ (price_R (sPrice s1) ltac:(lia)) (proj1 HRs1) HE1) as HFit1.
        destruct (mono_trail _ _ _ _ TB _ _ _ _ TJ' AS LE HFit1) as (I1 & I2 & I3). split; [lia|]. split; [lia|assumption].
      * (* before it: the second swap's first round goes on from there *)
        destruct (walk_facts _ _ _ _ _ HH Hfee Hlim _ _ _ _ _ WA) as (_ & _ & FA1 & FA2 & _). fold T in FA2. rewrite <- (proj1 AL) in FA1.
        assert ((T <=? sPrice s) = z) as EZ by (unfold farther in *; destruct z; lia). rewrite EZ in F.
        assert (sPrice u = stNext stA) as Pu by (rewrite <- (proj1 AU); exact (w_price _ _ _ _ _ _ _ _ _ _ WA)).
        destruct (Z.eq_dec (sRemaining u) 0) as [e0|e0].
        { destruct (trail_done _ _ _ _ TB) as (-> & _ & ->); [lia|]. split; [lia|]. split; [lia|]. rewrite Pu. exact (farther_trans _ _ _ _ F FJ). }
        assert (sPrice u <> limit) as Lu by (rewrite Pu; intros C; unfold farther, T, targetOf in *; destruct z; lia).
        destruct (trail_cases _ _ _ _ TB ltac:(lia) Lu) as (u1 & k'' & stB & a2 & c2 & WB & TB' & -> & ->).
        destruct (walk_between s t u s1 t2 u1 k k k'' stJ stA stB AL WJ WA q AU WB NS) as [-> EB].
        pose proof (w_step _ _ _ _ _ _ _ _ _ _ WB) as Eb. rewrite EB, Pu in Eb. fold T in Eb.
        assert (if T <=? sPrice s then sRemaining s * sPrice s + 2 ^ 224 <= T256 else sRemaining s < 2 ^ 160) as HX by (rewrite EZ; exact HE).
        destruct (step_split (sPrice s) T (sLiquidity s) fee (sRemaining t) (sRemaining u) (sRemaining s) stA stB stJ BP BT Bl Hfee ltac:(lia) ltac:(lia) ltac:(lia) HX EA q Eb EJ) as (S1 & S2 & S3).
        rewrite EZ in S1. pose proof (w_left _ _ _ _ _ _ _ _ _ _ WB) as HLB. unfold left, spec in HLB.
        destruct (walk_facts _ _ _ _ _ HH Hfee Hlim _ _ _ _ _ WB) as (_ & _ & _ & _ & FB5). fold T in FB5. pose proof (w_price _ _ _ _ _ _ _ _ _ _ WB) as Pu1.
        destruct (Z.eq_dec (stNext stB) T) as [qB|qB].
        -- destruct (S3 qB) as [qJ S4]. pose proof (w_price _ _ _ _ _ _ _ _ _ _ WJ) as Ps1. destruct (Z.eq_dec T (rat k)) as [qk|qk].
           ++ assert (alike u1 s1) as AS.
              { split; [congruence|]. pose proof (w_tick _ _ _ _ _ _ _ _ _ _ WB) as K1. pose proof (w_tick _ _ _ _ _ _ _ _ _ _ WJ) as K2. rewrite qB, qk, Z.eqb_refl in K1. rewrite qJ, qk, Z.eqb_refl in K2. congruence. }
              pose proof HOJ1 as (_ & _ & HPs1 & _ & HRs1 & _). apply price_bounds in HPs1. unfold remOK in HRs1.
              pose proof (exactly_fits _ _ (price_R (sPrice s1) ltac:(lia)) (proj1 HRs1) HE1) as HFit1. assert (sRemaining u1 <= sRemaining s1) as LE by lia.
              destruct (mono_trail _ _ _ _ TB' _ _ _ _ TJ' AS LE HFit1) as (I1 & I2 & I3). split; [lia|]. split; [lia|assumption].
           ++ assert (T = limit) as qL by (unfold T, targetOf in *; destruct z; lia).
              destruct (trail_done _ _ _ _ TB') as (-> & _ & ->); [right; congruence|]. destruct (trail_done _ _ _ _ TJ') as (-> & _ & ->); [right; congruence|].
              split; [lia|]. split; [lia|]. rewrite Pu1, Ps1. exact S1.
        -- destruct (trail_done _ _ _ _ TB') as (-> & _ & ->); [left; now apply FB5|]. specialize (FB5 qB). split; [lia|]. split; [lia|]. rewrite Pu1. exact (farther_trans _ _ _ _ S1 FJ).
    + rewrite (M5 ltac:(lia)) in *. destruct (IH NS s1 s' a' c' u u' RB YB TJ' TB) as (I1 & I2 & I3); try assumption.
      * exact (walk_alike _ _ _ _ _ true true s t s1 t2 k stA stA AL WJ WA eq_refl).
      * lia.
      * split; [lia|]. split; assumption.
Qed.
End Split.

(** ** swaps *)
Lemma skips_iff t s : 0 < s -> skips t s <-> t < 0 /\ 254 * s < t mod (256 * s) < 255 * s.
Proof.
  intros Hs. unfold skips. pose proof (Z.div_mod t (256 * s) ltac:(lia)) as D. pose proof (Z.mod_pos_bound t (256 * s) ltac:(lia)) as B. set (w := t / (256 * s)) in *. set (r := t mod (256 * s)) in *. clearbody w r. subst t.
  split; intros [H0 H]; (split; [assumption|]); destruct (quot_bounds (256 * s * w + r) s Hs) as [_ Q]; specialize (Q ltac:(lia)).
  - destruct H as [N M]. set (c := (256 * s * w + r) ÷ s) in *. pose proof (Z.div_mod c 256 ltac:(lia)) as DC. set (v := c / 256) in *. clearbody v. rewrite M in DC.
    assert (c * s <> 256 * s * w + r) as NE by (intros e; apply N; rewrite <- e; apply Z.mod_mul; lia). clearbody c. subst c.
    assert (v = w) as ->. { destruct (Z.lt_trichotomy v w) as [C|[C|C]]; [|assumption|]; exfalso.
      - assert (v * s <= (w - 1) * s) by (apply Z.mul_le_mono_nonneg_r; lia). lia.
      - assert ((w + 1) * s <= v * s) by (apply Z.mul_le_mono_nonneg_r; lia). lia. }
    lia.
  - assert ((256 * s * w + r) ÷ s = 255 + w * 256) as ->.
    { set (c := (256 * s * w + r) ÷ s) in *. clearbody c. destruct (Z.lt_trichotomy c (255 + w * 256)) as [C|[C|C]]; [|assumption|]; exfalso.
      - assert (c * s <= (254 + w * 256) * s) by (apply Z.mul_le_mono_nonneg_r; lia). lia.
      - assert ((256 + w * 256) * s <= c * s) by (apply Z.mul_le_mono_nonneg_r; lia). lia. }
    split; [|rewrite Z_mod_plus_full; reflexivity]. replace (256 * s * w + r) with ((r - 254 * s) + (254 + 256 * w) * s) by ring. rewrite Z_mod_plus_full, Z.mod_small by lia. lia.
Qed.
Theorem split_swap h p n m k (z : bool) a b lim p1 a0 a1 p2 b0 b1 p3 c0 c1 : reach h p -> 0 <= a -> 0 <= b ->
  (if z then clearWay p (effectiveLimit z lim) /\ (a + b) * SqrtRatio p + 2 ^ 224 <= 2 ^ 256
   else a + b < 2 ^ 160 /\ ~ (TickCurrent p1 < 0 /\ 254 * TickSpacing p < TickCurrent p1 mod (256 * TickSpacing p) < 255 * TickSpacing p)) ->
  swap n p z a lim = Ok (p1, a0, a1) -> swap m p1 z b lim = Ok (p2, b0, b1) -> swap k p z (a + b) lim = Ok (p3, c0, c1) ->
  got z a0 a1 + got z b0 b1 <= got z c0 c1 /\ paid z c0 c1 <= paid z a0 a1 + paid z b0 b1 /\ farther z (SqrtRatio p2) (SqrtRatio p3).
Proof.
  intros R Ha Hb HC E1 E2 E3. apply reach_ok in R as HP. pose proof HP as (_ & _ & _ & _ & _ & HPr & _). pose proof (price_bounds _ _ HPr) as HPb.
  assert (exactly z (a + b) (SqrtRatio p)) as HE by (unfold exactly; destruct z; tauto).
  assert (a + b < T255) as HAB. { unfold exactly in HE. destruct z; [|lia]. unfold MinSqrtRatio in HPb. assert ((a + b) * 4 <= (a + b) * SqrtRatio p) by (apply Z.mul_le_mono_nonneg_l; lia). lia. }
  assert (is_u256 a /\ is_u256 b /\ is_u256 (a + b)) as (Ua & Ub & Uab) by (unfold is_u256; lia).
  destruct (swap_ok h p z a lim HP Ua n p1 a0 a1 E1) as (HP1 & _ & _ & EF & ES & _). pose proof (swap_direction h p n z a lim p1 a0 a1 R Ua E1) as SD. cbv zeta in SD.
  destruct (swap_ok_inv h p z a lim HP Ua n p1 a0 a1 E1) as (_ & Hsp & _).
  assert (z = true -> noMisplaced (TickSpacing p) (effectiveLimit z lim) (TickCurrent p)) as NM by (intros Ez; apply (clearWay_noMisplaced h); [assumption|assumption|]; rewrite Ez in *; tauto).
  assert (z = true -> noMisplaced (TickSpacing p1) (effectiveLimit z lim) (TickCurrent p1)) as NM1.
  { intros Ez. specialize (NM Ez). rewrite ES. rewrite Ez in *. destruct HC as [HC _]. destruct SD as (_ & _ & SD). destruct (SD HC) as [_ SD']. intros t Ht. apply NM. lia. }
  pose proof (swap_trail h p n z a lim p1 a0 a1 HP Ua NM E1) as D1. pose proof (swap_trail h p1 m z b lim p2 b0 b1 HP1 Ub NM1 E2) as D2. pose proof (swap_trail h p k z (a + b) lim p3 c0 c1 HP Uab NM E3) as D3.
  cbv zeta in *. replace (a <? T255) with true in D1 by lia. replace (b <? T255) with true in D2 by lia. replace (a + b <? T255) with true in D3 by lia. rewrite ES, EF in D2.
  destruct D1 as (t1 & xA & yA & TA & [P1 K1] & A1 & A2 & A3 & _ & Hfee & Hl). destruct D2 as (u' & xB & yB & TB & [P2 _] & B1 & B2 & B3 & _). destruct D3 as (s' & xJ & yJ & TJ & [P3 _] & C1 & C2 & C3 & _).
  assert (z = false -> ~ skips (sTick t1) (TickSpacing p)) as NS by (intros Ez; rewrite <- K1, skips_iff by assumption; rewrite Ez in HC; tauto).
  destruct (split_trail h _ z _ _ (proj1 HP) Hsp Hfee Hl _ _ _ _ TA NS _ _ _ _ _ _ _ _ TJ TB) as (I1 & I2 & I3).
  - split; reflexivity.
  - split; cbn [startState sPrice sTick]; congruence.
  - cbn [startState sRemaining]. lia.
  - exact HE.
  - unfold left in *. rewrite A1, A2, B1, B2, C1, C2, P2, P3. split; [assumption|]. split; [lia|assumption].
Qed.

(** ** the condition on the tick in between is needed *)
Definition skipHist : hist := [mkE (-1200) 1200 (10 ^ 7)].
Definition skip0 : Pool := Eval vm_compute in okOr (NewPool "A" "B" 3000 (2 ^ 96 - 2 ^ 96 / 41)) startPool.
Definition skip1 : Pool := Eval vm_compute in okOr (step 20 skip0 (OMint (-1200) 1200 (10 ^ 7))) startPool.
Definition skip2 : Pool := Eval vm_compute in okOr (step 20 skip1 (OExactInput 200180 "B" (2 ^ 96 + 2 ^ 96 / 200))) startPool.
Lemma skip1_reach : reach skipHist skip1.
Proof.
  apply (reach_step [] skip0 20 (OMint (-1200) 1200 (10 ^ 7))).
  - apply (reach_new "A" "B" 3000 (2 ^ 96 - 2 ^ 96 / 41)). vm_compute. reflexivity.
  - split; [vm_compute; intuition discriminate|]. split; [apply placed_multiple; [reflexivity|exists (-20); reflexivity]|]. split; [apply placed_multiple; [reflexivity|exists 20; reflexivity]|reflexivity].
  - vm_compute. reflexivity.
Qed.
Lemma skip_pays : let lim := 2 ^ 96 + 2 ^ 96 / 200 in exists a0 a1 p2 b0 b1 p3 c0 c1, swap 20 skip1 false 200180 lim = Ok (skip2, a0, a1) /\
  swap 20 skip2 false (10 ^ 6) lim = Ok (p2, b0, b1) /\ swap 20 skip1 false 1200180 lim = Ok (p3, c0, c1) /\
  got false a0 a1 + got false b0 b1 = got false c0 c1 + 1 /\ a1 + b1 = c1.
Proof. intros lim. do 8 eexists. split; [vm_compute; reflexivity|]. split; [vm_compute; reflexivity|]. split; [vm_compute; reflexivity|]. vm_compute. auto. Qed.
