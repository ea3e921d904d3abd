(** PoolMono.v -- a larger swap goes at least as far: one step, the loop and the swap compared for two amounts. *)
From Coq Require Import ZifyBool String.
From Verif Require Import Base U256Z FullMathFacts SwapMath SwapMathFacts SwapStep TickMath TickMathFacts TickData TickDataFacts TickSearch Ledger Pool PoolTable PoolInv PoolSwap PoolLoop PoolHist PoolOps PoolSpec PoolLimit.
Ltac Zify.zify_post_hook ::= idtac.
Open Scope Z_scope.

(** ** the next price as a function of the amount *)
Lemma next_input_down P l x y r q : priceR P -> liqR l -> 0 <= x <= y -> y < T255 ->
  GetNextSqrtPriceFromInput P l x true = Ok r -> GetNextSqrtPriceFromInput P l y true = Ok q -> q <= r.
Proof.
  intros HP Hl Hx Hy E F. destruct (Z.eq_dec x y) as [->|N]; [rewrite E in F; injection F as ->; lia|].
  pose proof (input_guard P l x true r ltac:(unfold liqR in Hl; lia) E) as [Hl0 _].
  apply input_down_full in E as (A1 & A2 & _ & _); [|assumption|assumption|lia]. apply input_down_full in F as (B1 & B2 & B3 & B4); [|assumption|assumption|lia].
  assert (0 < l * Q96) as Hn by (unfold Q96; lia). unfold priceR in *. set (n := l * Q96) in *. clearbody n.
  apply Z.lt_pred_le, Z.nle_gt. intros C.
  assert (0 <= x * P) by (apply Z.mul_nonneg_nonneg; lia).
  assert (r * (n + x * P) <= (q - 1) * (n + x * P)) as K by (apply Z.mul_le_mono_nonneg_r; lia).
  assert (n * P <= r * (n + x * P)) as KA by lia.
  destruct (Z_lt_le_dec (n + y * P) T256) as [D|D].
  - specialize (B4 D). assert ((q - 1) * (n + x * P) <= (q - 1) * (n + y * P)) as K2; [|lia].
    apply Z.mul_le_mono_nonneg_l; [lia|]. assert (x * P <= y * P) by (apply Z.mul_le_mono_nonneg_r; lia). lia.
  - pose proof (Z.div_mod n P ltac:(lia)) as DM. pose proof (Z.mod_pos_bound n P ltac:(lia)) as MB. set (d := n / P) in *. clearbody d.
    assert (n + x * P <= (d + y) * P) as K3 by (assert ((x + 1) * P <= y * P) by (apply Z.mul_le_mono_nonneg_r; lia); lia).
    assert ((q - 1) * (n + x * P) <= (q - 1) * ((d + y) * P)) as K4 by (apply Z.mul_le_mono_nonneg_l; lia).
    assert ((q - 1) * (d + y) * P < n * P) as K5 by (apply Z.mul_lt_mono_pos_r; lia). lia.
Qed.
Lemma next_input_up P T l x y a r q : priceR P -> priceR T -> P <= T -> liqR l -> 0 <= x <= y -> y < 2 ^ 160 -> ceil1 l P T a -> y < a ->
  GetNextSqrtPriceFromInput P l x false = Ok r -> GetNextSqrtPriceFromInput P l y false = Ok q -> r <= q.
Proof.
  intros HP HT HPT Hl Hx Hy Ha Hya E F.
  pose proof (input_up_target P T l x a r HP HT HPT Hl ltac:(lia) Ha ltac:(lia) E) as [_ R1].
  pose proof (input_up_target P T l y a q HP HT HPT Hl ltac:(lia) Ha Hya F) as [_ R2].
  apply input_up in E as (u & E & Hu & Hu0 & Hl0); [|assumption|assumption|lia]. apply input_up in F as (v & F & Hv & Hv0 & _); [|assumption|assumption|lia].
  rewrite Z.mod_small in Hu, Hv by (unfold Q96; lia). unfold priceR in *.
  assert (u <= v) as K.
  { apply Z.lt_succ_r. apply Z.mul_lt_mono_pos_r with l; [lia|]. unfold Z.succ, Q96 in *. lia. }
  assert (forall w, 0 <= w -> w * l < 2 ^ 160 * Q96 -> P <= uadd P w < T -> w < T256 -> uadd P w = P + w) as HU.
  { intros w W0 _ W1 W2. unfold uadd in *. destruct (Z_lt_le_dec (P + w) T256); [apply Z.mod_small; lia|].
    assert ((P + w) mod T256 = P + w - T256) as M by (rewrite <- (Z.mod_small (P + w - T256) T256) by lia; rewrite <- (Z_mod_plus_full (P + w - T256) 1); f_equal; lia). lia. }
  assert (forall w, 0 <= w -> w * l < 2 ^ 160 * Q96 -> w < T256) as HW.
  { intros w W0 W1. apply Z.nle_gt. intros C. assert (T256 * 1 <= w * l) by (apply Z.mul_le_mono_nonneg; lia). unfold Q96 in *. lia. }
  assert (u * l < 2 ^ 160 * Q96 /\ v * l < 2 ^ 160 * Q96) as [U V] by (unfold Q96 in *; lia).
  subst r q. rewrite (HU u Hu0 U R1 (HW u Hu0 U)), (HU v Hv0 V R2 (HW v Hv0 V)). lia.
Qed.
Lemma next_output_down P T l x y a r q : priceR P -> priceR T -> T <= P -> liqR l -> 0 <= x <= y -> floor1 l T P a -> y < a ->
  GetNextSqrtPriceFromOutput P l x true = Ok r -> GetNextSqrtPriceFromOutput P l y true = Ok q -> q <= r.
Proof.
  intros HP HT HPT Hl Hx Ha Hya E F. pose proof (output_guard P l x true r ltac:(unfold liqR in Hl; lia) E) as [Hl0 _].
  apply (output_down_target P T l x a) in E; try assumption; try lia. apply (output_down_target P T l y a) in F; try assumption; try lia.
  assert (P - r < P - q + 1) as K; [|lia]. apply Z.mul_lt_mono_pos_r with l; [lia|]. unfold Q96 in *. lia.
Qed.
Lemma output_up_exact_target P T l x y r : priceR P -> priceR T -> P <= T -> liqR l -> 0 < x ->
  floor0 l P T y -> x < y -> GetNextSqrtPriceFromOutput P l x false = Ok r ->
  x * P < l * Q96 /\ l * Q96 * P <= r * (l * Q96 - x * P) < l * Q96 * P + (l * Q96 - x * P).
Proof.
  intros HP HT HTP Hl Hx Hc Hxy E. unfold priceR in *.
  pose proof (floor0_lt l P T y x Hc ltac:(lia) ltac:(lia) Hxy) as B. destruct (liq_n1 l Hl) as [_ Hn].
  assert (HPT : 0 < P * T) by (apply Z.mul_pos_pos; lia).
  assert (0 < x * P) as XP by (apply Z.mul_pos_pos; lia).
  assert (x * P < l * Q96 /\ l * Q96 * P <= (T256 - 1) * (l * Q96 - x * P)) as [H1 H2].
  { set (n := l * Q96) in *. clearbody n. replace ((x + 1) * (P * T)) with (x * P * T + P * T) in B by ring.
    set (xp := x * P) in *. clearbody xp. assert (n * P + P * T <= (n - xp) * T) as B2 by lia.
    assert (0 < n - xp) as D.
    { apply Z.nle_gt. intros C. assert ((n - xp) * T <= 0 * T) by (apply Z.mul_le_mono_nonneg_r; lia).
      assert (0 <= n * P) by (apply Z.mul_nonneg_nonneg; lia). lia. }
    split; [lia|]. assert ((n - xp) * T <= (n - xp) * (T256 - 1)) by (apply Z.mul_le_mono_nonneg_l; lia). lia. }
  split; [assumption|]. apply (output_up P l x r); try assumption; unfold priceR; lia.
Qed.
Lemma next_output_up P T l x y a r q : priceR P -> priceR T -> P <= T -> liqR l -> 0 < x <= y -> floor0 l P T a -> y < a ->
  GetNextSqrtPriceFromOutput P l x false = Ok r -> GetNextSqrtPriceFromOutput P l y false = Ok q -> r <= q.
Proof.
  intros HP HT HPT Hl Hx Ha Hya E F. pose proof (output_guard P l x false r ltac:(unfold liqR in Hl; lia) E) as [Hl0 _].
  pose proof (output_up_target P T l y a q HP HT HPT Hl ltac:(lia) Ha Hya F) as [_ Q0].
  apply (output_up_exact_target P T l x a) in E as [E1 E2]; try assumption; try lia. apply (output_up_exact_target P T l y a) in F as [F1 F2]; try assumption; try lia.
  assert (0 < l * Q96) as Hn by (unfold Q96; lia). unfold priceR in *. set (n := l * Q96) in *. clearbody n.
  assert (x * P <= y * P) as K by (apply Z.mul_le_mono_nonneg_r; lia). set (u := x * P) in *. set (v := y * P) in *. clearbody u v.
  apply Z.lt_succ_r. apply Z.lt_sub_lt_add_r. apply Z.mul_lt_mono_pos_r with (n - u); [lia|].
  assert (q * (n - v) <= q * (n - u)) by (apply Z.mul_le_mono_nonneg_l; lia). lia.
Qed.

(** ** the amounts of one step, by the branch it takes *)
Lemma less_fee_eq rem f : 0 <= rem < 2 ^ 236 -> 0 <= f <= MaxFee -> udiv (umul rem (MaxFee - f)) MaxFee = rem * (MaxFee - f) / MaxFee.
Proof.
  intros Hr Hf. rewrite umul_small; [unfold udiv, MaxFee; reflexivity|]. split; [apply Z.mul_nonneg_nonneg; lia|].
  assert (rem * (MaxFee - f) <= 2 ^ 236 * MaxFee) by (apply Z.mul_le_mono_nonneg; lia). unfold MaxFee in *. lia.
Qed.
Lemma step_in_next P T l rem f st : priceR P -> priceR T -> liqR l -> 0 <= rem < T255 -> 0 <= f <= MaxFee -> ComputeSwapStep P T l rem f = Ok st ->
  exists a, in_ceil (T <=? P) l P T a /\
    let x := udiv (umul rem (MaxFee - f)) MaxFee in
    (a <= x /\ stNext st = T \/ x < a /\ GetNextSqrtPriceFromInput P l x (T <=? P) = Ok (stNext st) /\ stNext st <> T).
Proof.
  intros HP HT Hl Hrem Hf E. unfold ComputeSwapStep in E. cbv zeta in E. set (z := T <=? P) in *.
  rewrite usign_nonneg in E by lia. replace (rem <? T255) with true in E by lia.
  rewrite (Z.mod_small f W) in E by (unfold MaxFee in Hf; lia). rewrite usub_fee in E by assumption.
  destruct (less_fee rem f ltac:(lia) Hf) as (Hlf & Hlr & Hlrem). cbv zeta.
  set (x := udiv (umul rem (MaxFee - f)) MaxFee) in *. clearbody x.
  apply bind_ok in E as (((nxt & ain0) & aout0) & E1 & E).
  apply bind_ok in E1 as (ain & Eain & E1). apply bind_ok in E1 as (next & Enext & E1). injection E1 as <- <- <-.
  assert (Hz : if z then T <= P else P <= T) by (unfold z; destruct (T <=? P) eqn:?; lia).
  apply in_amount in Eain as [Hain _]; try assumption.
  apply bind_ok in E as (? & _ & E). apply bind_ok in E as (? & _ & E). apply bind_ok in E as (? & _ & E). injection E as <-. cbn [stNext].
  exists ain. split; [assumption|]. destruct (ain <=? x) eqn:C; [injection Enext as <-; left; lia|right]. split; [lia|]. split; [assumption|].
  unfold in_ceil in Hain. destruct z.
  - apply (input_down_target P T l x ain) in Enext; try assumption; lia.
  - apply (input_up_target P T l x ain) in Enext; try assumption; lia.
Qed.
Lemma step_out_next P T l rem f st : priceR P -> priceR T -> liqR l -> T255 <= rem < T256 -> 0 <= f < MaxFee -> ComputeSwapStep P T l rem f = Ok st ->
  exists a, out_floor (T <=? P) l P T a /\
    let x := T256 - rem in
    (a <= x /\ stNext st = T /\ stOut st = a \/ x < a /\ GetNextSqrtPriceFromOutput P l x (T <=? P) = Ok (stNext st) /\ stOut st = x).
Proof.
  intros HP HT Hl Hrem Hf E. pose proof (step_exactout P T l rem f st HP HT Hl Hrem Hf E) as (_ & _ & _ & _ & _ & _ & HX).
  unfold ComputeSwapStep in E. cbv zeta in E, HX |- *. set (z := T <=? P) in *.
  rewrite usign_nonneg in E by lia. replace (rem <? T255) with false in E by lia. rewrite uneg_pos in E by lia.
  set (want := T256 - rem) in *. clearbody want.
  apply bind_ok in E as (((nxt & ain0) & aout0) & E1 & E).
  apply bind_ok in E1 as (aout & Eaout & E1). apply bind_ok in E1 as (next & Enext & E1). injection E1 as <- <- <-.
  assert (Hz : if z then T <= P else P <= T) by (unfold z; destruct (T <=? P) eqn:?; lia).
  apply out_amount in Eaout as [Haout _]; try assumption.
  apply bind_ok in E as (? & _ & E). apply bind_ok in E as (o & Eo & E). apply bind_ok in E as (? & _ & E). injection E as <-. cbn [stNext stOut] in *.
  cbn [negb andb] in *. rewrite andb_true_r in Eo. exists aout. split; [assumption|].
  destruct (aout <=? want) eqn:C.
  - injection Enext as <-. rewrite Z.eqb_refl in Eo. injection Eo as <-. left. replace (want <? aout) with false by lia. lia.
  - right. split; [lia|]. split; [assumption|]. destruct (T =? next) eqn:D; [|apply HX; lia]. injection Eo as <-. replace (want <? aout) with true by lia. reflexivity.
Qed.

Lemma in_ceil_unique z l P r x y : 0 < P -> 0 < r -> in_ceil z l P r x -> in_ceil z l P r y -> x = y.
Proof.
  unfold in_ceil. intros HP Hr Hx Hy. apply Z.le_antisymm; destruct z.
  - apply (ceil0_le l r P x y Hx); try lia. apply Hy.
  - apply (ceil1_le l P r x y Hx). apply Hy.
  - apply (ceil0_le l r P y x Hy); try lia. apply Hx.
  - apply (ceil1_le l P r y x Hy). apply Hx.
Qed.
Lemma out_floor_unique z l P r x y : 0 < P -> 0 < r -> out_floor z l P r x -> out_floor z l P r y -> x = y.
Proof.
  intros HP Hr Hx Hy. apply Z.le_antisymm; [apply (floor_ge z l P r x y HP Hr Hy)|apply (floor_ge z l P r y x HP Hr Hx)]; now apply out_floor_le.
Qed.
Lemma fee_unique i f x y : 0 <= f < MaxFee -> i * f <= x * (MaxFee - f) < i * f + (MaxFee - f) -> i * f <= y * (MaxFee - f) < i * f + (MaxFee - f) -> x = y.
Proof.
  intros Hf Hx Hy. apply Z.le_antisymm; apply Z.lt_succ_r; apply Z.mul_lt_mono_pos_r with (MaxFee - f); try lia; unfold Z.succ; rewrite Z.mul_add_distr_r; lia.
Qed.
Lemma fee_mono i j f x y : 0 <= f < MaxFee -> 0 <= i <= j -> x * (MaxFee - f) < i * f + (MaxFee - f) -> j * f <= y * (MaxFee - f) -> x <= y.
Proof.
  intros Hf Hij Hx Hy. apply Z.lt_succ_r. apply Z.mul_lt_mono_pos_r with (MaxFee - f); [lia|]. unfold Z.succ. rewrite Z.mul_add_distr_r.
  assert (i * f <= j * f) by (apply Z.mul_le_mono_nonneg_r; lia). lia.
Qed.

(** the farther of two prices on the way *)
Definition farther (z : bool) (r q : Z) : Prop := if z then q <= r else r <= q.
Lemma in_ceil_far (z : bool) l P r q x y : 0 <= l -> 0 < P -> 0 < r -> 0 < q -> (if z then r <= P else P <= r) -> farther z r q -> in_ceil z l P r x -> in_ceil z l P q y -> x <= y.
Proof.
  unfold in_ceil, farther. intros Hl HP Hr Hq HD HF Hx Hy. destruct z; [apply (ceil0_far l r q P); try assumption; lia|apply (ceil1_far l P r q); assumption].
Qed.
Lemma out_floor_far (z : bool) l P r q x y : 0 <= l -> 0 < P -> 0 < r -> 0 < q -> (if z then r <= P else P <= r) -> farther z r q -> out_floor z l P r x -> out_floor z l P q y -> x <= y.
Proof.
  unfold out_floor, farther. intros Hl HP Hr Hq HD HF Hx Hy. destruct z; [apply (floor1_far l r q P); assumption|apply (floor0_far l P r q); try assumption; lia].
Qed.

(** ** two steps from the same price: either the smaller amount lasts and both do the same, or the smaller ends and the larger is as far *)
Definition left (ex : bool) (rem : Z) : Z := if ex then rem else if rem =? 0 then 0 else T256 - rem.
Definition spec (ex : bool) (st : StepResult) : Z := if ex then stIn st + stFee st else stOut st.
Definition calc (ex : bool) (st : StepResult) : Z := if ex then stOut st else stIn st + stFee st.
(** amounts for which no intermediate product of the step wraps *)
Definition fits (z ex : bool) (rem : Z) : Prop := ex = true -> if z then rem < 2 ^ 236 else rem < 2 ^ 160.

Lemma step_mono P T l f ex r1 r2 st1 st2 : priceR P -> priceR T -> 0 <= l < 2 ^ 128 -> 0 <= f < MaxFee -> r1 <> 0 -> remOK ex r1 -> remOK ex r2 ->
  left ex r1 <= left ex r2 -> fits (T <=? P) ex r2 ->
  ComputeSwapStep P T l r1 f = Ok st1 -> ComputeSwapStep P T l r2 f = Ok st2 ->
  spec ex st1 <= left ex r1 /\ spec ex st2 <= left ex r2 /\ 0 <= spec ex st1 /\ 0 <= calc ex st1 /\
  (spec ex st1 < left ex r1 -> st2 = st1) /\
  (spec ex st1 = left ex r1 -> farther (T <=? P) (stNext st1) (stNext st2) /\ spec ex st1 <= spec ex st2 /\ calc ex st1 <= calc ex st2).
Proof.
  intros HP HT Hl Hf R1 H1 H2 HL HFit E1 E2. assert (liqR l) as HlR by (unfold liqR; lia).
  assert (r2 <> 0) as R2 by (unfold left, remOK in *; destruct ex; [lia|]; destruct (r1 =? 0) eqn:?; [lia|]; destruct (r2 =? 0) eqn:?; lia).
  assert (forall r, toward P T r -> priceR r /\ (if T <=? P then r <= P else P <= r)) as HTo by (unfold toward, priceR in *; intros r; destruct (T <=? P); lia).
  destruct ex; unfold remOK, left, spec, calc, fits in *.
  - specialize (HFit eq_refl). assert (r2 < 2 ^ 236) as HFit' by (destruct (T <=? P); lia).
    destruct (step_in_next P T l r1 f st1 HP HT HlR ltac:(lia) ltac:(lia) E1) as (a & Ha & C1). destruct (step_in_next P T l r2 f st2 HP HT HlR ltac:(lia) ltac:(lia) E2) as (a' & Ha' & C2).
    assert (a' = a) as -> by (unfold priceR in *; eapply in_ceil_unique; [| |exact Ha'|exact Ha]; lia). clear Ha'. cbv zeta in *. rewrite !less_fee_eq in C1, C2 by lia.
    destruct (step_exactin P T l r1 f st1 HP HT HlR ltac:(lia) ltac:(lia) E1) as (A1 & A2 & A3 & A4 & A5 & A6 & A7 & A8 & A9 & A10).
    destruct (step_exactin P T l r2 f st2 HP HT HlR ltac:(lia) ltac:(lia) E2) as (B1 & B2 & B3 & B4 & B5 & B6 & B7 & B8 & B9 & B10). cbv zeta in *.
    destruct (HTo _ A1) as [N1 D1]. destruct (HTo _ B1) as [N2 D2]. unfold priceR in *.
    assert (stNext st1 = T -> stNext st2 = T -> st2 = st1) as Same.
    { intros Q1 Q2. specialize (A9 Q1 ltac:(lia)). specialize (B9 Q2 ltac:(lia)). rewrite Q1 in *. rewrite Q2 in *. destruct st1 as [n1 i1 o1 f1], st2 as [n2 i2 o2 f2]. cbn [stNext stIn stOut stFee] in *. subst n1 n2.
      assert (i2 = i1) as -> by (eapply in_ceil_unique; [| |exact B2|exact A2]; lia). assert (o2 = o1) as -> by (eapply out_floor_unique; [| |exact B3|exact A3]; lia).
      assert (f2 = f1) as -> by (apply (fee_unique i1 f); lia). reflexivity. }
    assert (r1 * (MaxFee - f) / MaxFee <= r2 * (MaxFee - f) / MaxFee) as HX by (apply Z.div_le_mono; [reflexivity|]; apply Z.mul_le_mono_nonneg_r; lia).
    assert (stNext st1 = T -> stNext st2 = T) as Reach by (intros Q; destruct C1 as [[C1 _]|(_ & _ & C1)]; [|contradiction]; destruct C2 as [[_ C2]|(C2 & _)]; [assumption|lia]).
    split; [lia|]. split; [lia|]. split; [lia|]. split; [lia|]. split; [intros Q; apply Same; [|apply Reach]; destruct (Z.eq_dec (stNext st1) T) as [e|n]; try exact e; specialize (A10 n); lia|].
    intros Q. assert (farther (T <=? P) (stNext st1) (stNext st2)) as HF.
    { destruct C2 as [[_ C2]|(C2 & G2 & _)]; [rewrite C2; unfold farther, toward in *; destruct (T <=? P); lia|].
      destruct C1 as [[C1 _]|(_ & G1 & _)]; [lia|]. set (x := r1 * _ / _) in *. set (y := r2 * _ / _) in *.
      assert (0 <= x) as X0 by (apply Z.div_pos; [apply Z.mul_nonneg_nonneg; lia|unfold MaxFee; lia]).
      assert (y <= r2) as Y1 by (apply Z.div_le_upper_bound; [reflexivity|]; rewrite (Z.mul_comm MaxFee); apply Z.mul_le_mono_nonneg_l; lia).
      clearbody x y. unfold farther, in_ceil in *. destruct (T <=? P) eqn:CZ.
      - eapply (next_input_down P l x y); try eassumption; unfold priceR; lia.
      - eapply (next_input_up P T l x y a); try eassumption; unfold priceR; lia. }
    split; [assumption|]. split; [|apply (out_floor_far (T <=? P) l P (stNext st1) (stNext st2)); try assumption; lia].
    rewrite Q. destruct (Z.eq_dec (stNext st2) T) as [Q2|Q2]; [|specialize (B10 Q2); lia].
    destruct (Z.eq_dec (stNext st1) T) as [Q1|Q1]; [rewrite (Same Q1 Q2); lia|].
    destruct C1 as [[_ C1]|(C1 & _ & _)]; [contradiction|]. rewrite Q2 in B2.
    assert (stIn st2 = a) as EI by (eapply in_ceil_unique; [| |exact B2|exact Ha]; lia). rewrite EI in *.
    pose proof (Z.mul_succ_div_gt (r1 * (MaxFee - f)) MaxFee ltac:(reflexivity)) as K. set (x := r1 * (MaxFee - f) / MaxFee) in *. clearbody x.
    assert (MaxFee * Z.succ x <= MaxFee * a) as K1 by (apply Z.mul_le_mono_nonneg_l; [discriminate|lia]).
    assert (r1 < a + stFee st2) as K2; [|lia]. apply Z.mul_lt_mono_pos_r with (MaxFee - f); [lia|]. lia.
  - replace (r1 =? 0) with false in * by lia. replace (r2 =? 0) with false in * by lia. destruct H1 as [|H1]; [lia|]. destruct H2 as [|H2]; [lia|].
    destruct (step_out_next P T l r1 f st1 HP HT HlR ltac:(lia) ltac:(lia) E1) as (a & Ha & C1). destruct (step_out_next P T l r2 f st2 HP HT HlR ltac:(lia) ltac:(lia) E2) as (a' & Ha' & C2).
    assert (a' = a) as -> by (unfold priceR in *; eapply out_floor_unique; [| |exact Ha'|exact Ha]; lia). clear Ha'. cbv zeta in *.
    destruct (step_exactout P T l r1 f st1 HP HT HlR ltac:(lia) ltac:(lia) E1) as (A1 & A2 & A3 & A4 & A5 & A6 & A7).
    destruct (step_exactout P T l r2 f st2 HP HT HlR ltac:(lia) ltac:(lia) E2) as (B1 & B2 & B3 & B4 & B5 & B6 & B7). cbv zeta in *.
    destruct (HTo _ A1) as [N1 D1]. destruct (HTo _ B1) as [N2 D2]. unfold priceR in *.
    assert (0 <= stFee st1) as F1.
    { apply Z.nlt_ge. intros C. assert (stFee st1 * (MaxFee - f) <= -1 * (MaxFee - f)) by (apply Z.mul_le_mono_nonneg_r; lia).
      assert (0 <= stIn st1 * f) by (apply Z.mul_nonneg_nonneg; lia). lia. }
    split; [lia|]. split; [lia|]. split; [lia|]. split; [lia|]. split.
    { intros Q. destruct C1 as [(C1 & Q1 & O1)|(_ & _ & C1)]; [|lia]. destruct C2 as [(_ & Q2 & O2)|(C2 & _)]; [|lia]. rewrite Q1 in *. rewrite Q2 in *.
      destruct st1 as [n1 i1 o1 f1], st2 as [n2 i2 o2 f2]. cbn [stNext stIn stOut stFee] in *. subst n1 n2 o1 o2.
      assert (i2 = i1) as -> by (eapply in_ceil_unique; [| |exact B2|exact A2]; lia). assert (f2 = f1) as -> by (apply (fee_unique i1 f); lia). reflexivity. }
    intros Q. assert (farther (T <=? P) (stNext st1) (stNext st2)) as HF.
    { destruct C2 as [(_ & C2 & _)|(C2 & G2 & _)]; [rewrite C2; unfold farther, toward in *; destruct (T <=? P); lia|].
      destruct C1 as [(C1 & _)|(_ & G1 & _)]; [lia|]. unfold farther, out_floor in *. destruct (T <=? P) eqn:CZ.
      - eapply (next_output_down P T l (T256 - r1) (T256 - r2) a); try eassumption; unfold priceR; lia.
      - eapply (next_output_up P T l (T256 - r1) (T256 - r2) a); try eassumption; unfold priceR; lia. }
    split; [assumption|]. split; [lia|].
    assert (stIn st1 <= stIn st2) as HI by (apply (in_ceil_far (T <=? P) l P (stNext st1) (stNext st2)); try assumption; lia).
    pose proof (fee_mono (stIn st1) (stIn st2) f (stFee st1) (stFee st2) ltac:(lia) ltac:(lia) ltac:(lia) ltac:(lia)). lia.
Qed.

(** ** two states at the same price and tick look for the same next tick *)
Lemma search_same h sp z d d' tick n b n' b' : tableOK h sp d -> tableOK h sp d' -> 0 < sp ->
  NextInitializedTickWithinOneWord d tick z = Ok (n, b) -> NextInitializedTickWithinOneWord d' tick z = Ok (n', b') -> n = n' /\ b = b'.
Proof.
  intros HT HT' Hsp E E'. pose proof HT as (Hs & Es & _). pose proof HT' as (Hs' & Es' & _).
  assert (forall j, present d j <-> present d' j) as HPr by (intros j; rewrite (present_gross h sp d j HT), (present_gross h sp d' j HT'); reflexivity).
  destruct z.
  - apply (search_down d tick Hs) in E. apply (search_down d' tick Hs') in E'. cbv zeta in *. rewrite Es in E. rewrite Es' in E'. set (m := wordMin tick sp) in *. clearbody m.
    destruct E as (A1 & A2 & A3 & A4), E' as (B1 & B2 & B3 & B4). destruct b, b'.
    + destruct (A3 eq_refl) as [A5 A6]. destruct (B3 eq_refl) as [B5 B6]. split; [|reflexivity]. destruct (Z.lt_trichotomy n n') as [C|[C|C]]; [|assumption|].
      * exfalso. apply (A2 n'); [lia|]. now apply HPr.
      * exfalso. apply (B2 n); [lia|]. now apply HPr.
    + exfalso. destruct (A3 eq_refl) as [A5 A6]. destruct (B4 eq_refl) as [B5 B6]. destruct (Z.eq_dec n m) as [e|]; [apply B6; [lia|]; rewrite B5, <- e; now apply HPr|apply (B2 n); [lia|]; now apply HPr].
    + exfalso. destruct (B3 eq_refl) as [B5 B6]. destruct (A4 eq_refl) as [A5 A6]. destruct (Z.eq_dec n' m) as [e|]; [apply A6; [lia|]; rewrite A5, <- e; now apply HPr|apply (A2 n'); [lia|]; now apply HPr].
    + split; [|reflexivity]. rewrite (proj1 (A4 eq_refl)), (proj1 (B4 eq_refl)). reflexivity.
  - apply (search_up d tick Hs) in E; [|lia]. apply (search_up d' tick Hs') in E'; [|lia]. cbv zeta in *. rewrite Es in E. rewrite Es' in E'. set (m := wordMax tick sp) in *. clearbody m.
    destruct E as (A1 & A2 & A3 & A4), E' as (B1 & B2 & B3 & B4).
    assert (n = n') as ->.
    { destruct (Z.lt_trichotomy n n') as [C|[C|C]]; [|assumption|]; exfalso.
      - destruct b; [|specialize (A4 eq_refl); lia]. apply (B2 n); [lia|]. apply HPr, A3. reflexivity.
      - destruct b'; [|specialize (B4 eq_refl); lia]. apply (A2 n'); [lia|]. apply HPr, B3. reflexivity. }
    split; [reflexivity|]. destruct b, b'; try reflexivity; exfalso.
    + assert (false = true) by (apply B3, HPr, A3; reflexivity). discriminate.
    + assert (false = true) by (apply A3, HPr, B3; reflexivity). discriminate.
Qed.

Section Pair.
Variables (h : hist) (sp : Z) (z ex : bool) (limit fee : Z).
Hypothesis HH : histOK sp h.
Hypothesis Hsp : 0 < sp.
Hypothesis Hfee : 0 <= fee < MaxFee.
Hypothesis Hlim : limitOK z limit.
Notation ok := (loopOK h sp z ex limit).

(** what a round does to price, tick and amounts *)
Lemma round_desc other s s' : ok s -> swapRound z ex limit fee other s = Ok s' -> exists n b st, let k := clampTick n in
  NextInitializedTickWithinOneWord (sData s) (sTick s) z = Ok (n, b) /\ searchFacts z sp (sTick s) k /\
  ComputeSwapStep (sPrice s) (targetOf z limit (rat k)) (sLiquidity s) (sRemaining s) fee = Ok st /\
  sPrice s' = stNext st /\ sRemaining s' = (if ex then usub (sRemaining s) (uadd (stIn st) (stFee st)) else uadd (sRemaining s) (stOut st)) /\
  sCalculated s' = (if ex then usub (sCalculated s) (stOut st) else uadd (sCalculated s) (uadd (stIn st) (stFee st))) /\
  Ok (sTick s') = (if stNext st =? rat k then Ok (if z then k - 1 else k) else if stNext st =? sPrice s then Ok (sTick s) else GetTickAtSqrtRatio (stNext st)).
Proof.
  intros HO E. pose proof HO as (HT & EL & HP & HG & HR & Hside). unfold swapRound in E. apply bind_inv in E as ((n & b) & En & E).
  pose proof (search_facts h sp z (sData s) (sTick s) n b HH HT Hsp (proj1 HP) En) as [HS _]. cbv zeta in HS. set (k := clampTick n) in *.
  pose proof HS as [Hk _]. rewrite rat_ok in E by assumption. cbn [bind] in E.
  assert ((if z then if rat k <? limit then limit else rat k else if limit <? rat k then limit else rat k) = targetOf z limit (rat k)) as ET.
  { unfold targetOf. destruct z; [destruct (rat k <? limit) eqn:?|destruct (limit <? rat k) eqn:?]; lia. }
  rewrite ET in E. apply bind_inv in E as (st & Est & E). cbv zeta in E. apply bind_inv in E as (g & Eg & E).
  exists n, b, st. cbv zeta. fold k. split; [assumption|]. split; [assumption|]. split; [assumption|].
  destruct (stNext st =? rat k).
  - apply bind_inv in E as ((d' & liq') & _ & E). injection E as <-. cbn [sPrice sRemaining sCalculated sTick]. auto.
  - destruct (stNext st =? sPrice s); cbn [negb] in E.
    + injection E as <-. cbn [sPrice sRemaining sCalculated sTick]. auto.
    + apply bind_inv in E as (t & Et & E). injection E as <-. cbn [sPrice sRemaining sCalculated sTick]. auto.
Qed.

Definition alike (s t : State) : Prop := sPrice s = sPrice t /\ sTick s = sTick t.
(** the amount counted beside the specified one *)
Definition tally (s s' : State) (x : Z) : Prop := sCalculated s' mod T256 = (if ex then sCalculated s - x else sCalculated s + x) mod T256.
Lemma tally_refl s : tally s s 0.
Proof. unfold tally. destruct ex; f_equal; lia. Qed.
Lemma tally_trans s s1 s' x y : tally s s1 x -> tally s1 s' y -> tally s s' (x + y).
Proof.
  unfold tally. intros H1 H2. rewrite H2. destruct ex.
  - rewrite <- Zminus_mod_idemp_l, H1, Zminus_mod_idemp_l. f_equal. ring.
  - rewrite <- Zplus_mod_idemp_l, H1, Zplus_mod_idemp_l. f_equal. ring.
Qed.
Lemma tally_step s s' st : sCalculated s' = (if ex then usub (sCalculated s) (stOut st) else uadd (sCalculated s) (uadd (stIn st) (stFee st))) -> tally s s' (calc ex st).
Proof.
  unfold tally, calc. intros ->. destruct ex; unfold usub, uadd; rewrite Z.mod_mod by lia; [reflexivity|]. now rewrite Zplus_mod_idemp_r.
Qed.
Lemma left_step s s' st : remOK ex (sRemaining s) -> sRemaining s <> 0 ->
  spec ex st <= left ex (sRemaining s) -> 0 <= spec ex st -> sRemaining s' = (if ex then usub (sRemaining s) (uadd (stIn st) (stFee st)) else uadd (sRemaining s) (stOut st)) ->
  left ex (sRemaining s') = left ex (sRemaining s) - spec ex st.
Proof.
  unfold remOK, left, spec. intros HR H0 HS HS0 ->. destruct ex.
  - unfold uadd. rewrite (Z.mod_small (stIn st + stFee st)) by lia. unfold usub. apply Z.mod_small. lia.
  - replace (sRemaining s =? 0) with false in * by lia. destruct HR as [|HR]; [lia|]. unfold uadd. destruct (Z.eq_dec (sRemaining s + stOut st) T256) as [e|e].
    + rewrite e. change (T256 mod T256 =? 0) with true. cbv iota. lia.
    + rewrite Z.mod_small by lia. replace (sRemaining s + stOut st =? 0) with false by lia. lia.
Qed.

Lemma loop_used other n s s' : ok s -> swapLoop n z ex limit fee other s = Ok s' ->
  left ex (sRemaining s') <= left ex (sRemaining s) /\ exists x, 0 <= x <= Z.of_nat n * 2 ^ 216 /\ tally s s' x.
Proof.
  intros HO E. assert (sRemaining s = 0 -> s' = s) as H0 by (intros Z1; rewrite loop_eq in E; unfold running in E; rewrite Z1 in E; cbn [Z.eqb negb andb] in E; congruence).
  pose proof (loop_ind h sp z ex limit fee other HH Hsp Hfee Hlim (fun _ => True) ltac:(auto) n s s' HO I E) as ((_ & _ & _ & _ & HR' & _) & _ & _).
  pose proof HO as (_ & _ & _ & _ & HR & _).
  pose proof (loop_amounts h sp z ex limit fee other HH Hsp Hfee Hlim n s s' HO E) as HA. unfold left, tally, remOK in *. destruct ex.
  - destruct HA as [H1 (Y & H2 & H3)]. split; [lia|]. exists Y. split; [lia|assumption].
  - destruct HA as [H1 (Y & H2 & H3)]. split; [|exists Y; split; [lia|assumption]]. destruct (Z.eq_dec (sRemaining s) 0) as [e|e]; [rewrite (H0 e); lia|].
    destruct (sRemaining s' =? 0) eqn:?, (sRemaining s =? 0) eqn:?; lia.
Qed.
Lemma loop_way t0 other n s s' : (z = true -> noMisplaced sp limit t0 /\ sTick s <= t0) -> ok s -> swapLoop n z ex limit fee other s = Ok s' -> farther z (sPrice s) (sPrice s').
Proof.
  intros HM HO E. unfold farther. destruct z eqn:Ez.
  - destruct (HM eq_refl) as [H1 H2]. now apply (loop_down h sp true ex limit fee other HH Hsp Hfee Hlim t0 n s s' eq_refl H1 H2 HO E).
  - now apply (loop_up h sp false ex limit fee other HH Hsp Hfee Hlim n s s' eq_refl HO E).
Qed.

Lemma loop_pair t0 o1 o2 n : forall m s t s' t', ok s -> ok t -> alike s t -> left ex (sRemaining s) <= left ex (sRemaining t) -> fits z ex (sRemaining t) ->
  (z = true -> noMisplaced sp limit t0 /\ sTick t <= t0) -> swapLoop n z ex limit fee o1 s = Ok s' -> swapLoop m z ex limit fee o2 t = Ok t' ->
  farther z (sPrice s') (sPrice t') /\ left ex (sRemaining s) - left ex (sRemaining s') <= left ex (sRemaining t) - left ex (sRemaining t') /\
  exists x y, 0 <= x <= y /\ y <= Z.of_nat m * 2 ^ 216 /\ tally s s' x /\ tally t t' y.
Proof.
  assert (forall s t, ok s -> ok t -> left ex (sRemaining s) <= left ex (sRemaining t) -> sRemaining t = 0 -> sRemaining s = 0) as HZ.
  { intros s t (_ & _ & _ & _ & R1 & _) (_ & _ & _ & _ & R2 & _) H E. unfold left, remOK in *. rewrite E in *. destruct ex; [lia|]. change (0 =? 0) with true in H. cbv iota in H. destruct (sRemaining s =? 0) eqn:?; lia. }
  induction n as [|n IH]; intros m s t s' t' HO HO' [AP AT] HL HF HM E E'.
  - rewrite loop_eq in E. destruct (running limit s) eqn:R; [discriminate|]. injection E as <-.
    destruct (loop_used o2 m t t' HO' E') as [U (y & Hy & Ty)]. rewrite AP. split; [now apply (loop_way t0 o2 m t t')|]. split; [lia|].
    exists 0, y. split; [lia|]. split; [lia|]. split; [apply tally_refl|assumption].
  - rewrite loop_eq in E. destruct (running limit s) eqn:R.
    2:{ injection E as <-. destruct (loop_used o2 m t t' HO' E') as [U (y & Hy & Ty)]. rewrite AP. split; [now apply (loop_way t0 o2 m t t')|]. split; [lia|].
        exists 0, y. split; [lia|]. split; [lia|]. split; [apply tally_refl|assumption]. }
    apply bind_inv in E as (s1 & E1 & E). assert (sRemaining s <> 0 /\ sPrice s <> limit) as [R0 RP] by (unfold running in R; lia).
    assert (running limit t = true) as R'.
    { unfold running. rewrite <- AP. assert (sRemaining t <> 0) by (intros C; apply R0, (HZ s t); assumption). lia. }
    rewrite loop_eq, R' in E'. destruct m as [|m]; [discriminate|]. apply bind_inv in E' as (t1 & E1' & E').
    destruct (running_ok h sp z ex limit fee o1 HH Hsp Hfee Hlim s s1 HO R E1) as (kk & stt & RF). pose proof (rf_ok _ _ _ _ _ _ _ _ _ _ _ RF) as HO1. clear kk stt RF.
    destruct (running_ok h sp z ex limit fee o2 HH Hsp Hfee Hlim t t1 HO' R' E1') as (kk & stt & RF'). pose proof (rf_ok _ _ _ _ _ _ _ _ _ _ _ RF') as HO1'.
    assert (z = true -> noMisplaced sp limit t0 /\ sTick t1 <= t0) as HM1.
    { intros Ez. destruct (HM Ez) as [M1 M2]. split; [assumption|]. pose proof (noMisplaced_run h sp z ex limit t0 t M1 Ez HO' R' M2) as NM.
      destruct (rf_down _ _ _ _ _ _ _ _ _ _ _ RF' Ez NM). lia. }
    assert (z = true -> ~ misplaced (sTick s) sp) as NM.
    { intros Ez. destruct (HM Ez) as [M1 M2]. rewrite AT. exact (noMisplaced_run h sp z ex limit t0 t M1 Ez HO' R' M2). }
    clear kk stt RF'.
    destruct (round_desc o1 s s1 HO E1) as (k & b & st & En & [Hk HS] & Est & Q1 & Q2 & Q3 & Q4). destruct (round_desc o2 t t1 HO' E1') as (k' & b' & st' & En' & _ & Est' & Q1' & Q2' & Q3' & Q4'). cbv zeta in *.
    pose proof HO as (HT & EL & HP & _ & HR & Hside). pose proof HO' as (HT' & EL' & HP' & _ & HR' & Hside').
    rewrite <- AT in En'. destruct (search_same h sp z _ _ _ _ _ _ _ HT HT' Hsp En En') as [<- <-]. set (kk := clampTick k) in *. clearbody kk. clear k b En En'.
    rewrite <- AP in Est', Q4'. rewrite <- AT in Q4'. assert (sLiquidity t = sLiquidity s) as ELL by (rewrite EL, EL', AT; reflexivity). rewrite ELL in Est'.
    pose proof (active_range _ _ (sTick s) HH) as Hliq. rewrite <- EL in Hliq. pose proof (price_bounds _ _ HP) as HPb. pose proof (rat_range kk Hk) as Hkb.
    assert (MinSqrtRatio <= targetOf z limit (rat kk) <= MaxSqrtRatio) as HTb by (unfold targetOf, side, limitOK in *; destruct z; lia).
    assert (if z then targetOf z limit (rat kk) <= sPrice s else sPrice s <= targetOf z limit (rat kk)) as HTd.
    { destruct HP as (P1 & P2 & P3). unfold targetOf, side in *. destruct z.
      - specialize (proj2 HS (NM eq_refl)) as H1. pose proof (rat_le kk (sTick s) ltac:(lia) ltac:(lia) ltac:(lia)). lia.
      - pose proof (rat_le (sTick s + 1) kk ltac:(lia) ltac:(lia) ltac:(lia)). lia. }
    set (T := targetOf z limit (rat kk)) in *. clearbody T.
    destruct (step_mono (sPrice s) T (sLiquidity s) fee ex (sRemaining s) (sRemaining t) st st' ltac:(apply price_R; lia) ltac:(apply price_R; lia) Hliq Hfee R0 HR HR' HL) as (S1 & S2 & S3 & S4 & S5 & S6); try assumption.
    { unfold fits in *. intros X. specialize (HF X). destruct z; [replace (T <=? sPrice s) with true by lia; assumption|]. destruct (T <=? sPrice s); lia. }
    assert (sRemaining t <> 0) as R0' by (unfold running in R'; lia).
    assert (left ex (sRemaining s1) = left ex (sRemaining s) - spec ex st) as L1 by (apply left_step; assumption).
    assert (0 <= spec ex st' /\ 0 <= calc ex st') as [S3' S4'].
    { destruct (Z_lt_le_dec (spec ex st) (left ex (sRemaining s))) as [C|C]; [rewrite (S5 C); auto|]. specialize (S6 ltac:(lia)). lia. }
    assert (left ex (sRemaining t1) = left ex (sRemaining t) - spec ex st') as L1' by (apply left_step; assumption).
    pose proof (tally_step s s1 st Q3) as T1. pose proof (tally_step t t1 st' Q3') as T1'.
    assert (calc ex st' <= 2 ^ 216) as CB.
    { destruct (step_facts (sPrice s) T (sLiquidity s) (sRemaining t) fee ex st' ltac:(apply price_R; lia) ltac:(apply price_R; lia) Hliq R0' HR' Hfee Est') as (_ & _ & _ & A4 & _ & _ & A7). unfold calc. destruct ex; lia. }
    destruct (Z_lt_le_dec (spec ex st) (left ex (sRemaining s))) as [C|C].
    + specialize (S5 C). subst st'.
      assert (alike s1 t1) as AL. { split; [congruence|]. rewrite <- Q4 in Q4'. congruence. }
      assert (fits z ex (sRemaining t1)) as HF1.
      { unfold fits, left in HF, L1', S3' |- *. intros X. specialize (HF X). rewrite X in L1', S3'. cbv iota in L1'. destruct z; lia. }
      destruct (IH m s1 t1 s' t' HO1 HO1' AL ltac:(lia) HF1 HM1 E E') as (I1 & I2 & x & y & I3 & I4 & I5 & I6).
      split; [assumption|]. split; [lia|]. exists (calc ex st + x), (calc ex st + y). split; [lia|]. split; [lia|].
      split; eapply tally_trans; eassumption.
    + destruct (S6 ltac:(lia)) as (G1 & G2 & G3).
      assert (sRemaining s1 = 0) as Z1.
      { destruct HO1 as (_ & _ & _ & _ & HR1 & _). assert (left ex (sRemaining s1) = 0) as L0 by lia. unfold left, remOK in L0, HR1. destruct ex; [lia|]. destruct (sRemaining s1 =? 0) eqn:?; lia. }
      rewrite loop_eq in E. replace (running limit s1) with false in E by (unfold running; rewrite Z1; reflexivity). injection E as <-.
      destruct (loop_used o2 m t1 t' HO1' E') as [U (y & Hy & Ty)]. pose proof (loop_way t0 o2 m t1 t' HM1 HO1' E') as W.
      split.
      { unfold farther in *. rewrite Q1. rewrite Q1' in W. destruct z; [replace (T <=? sPrice s) with true in G1 by lia; lia|].
        destruct (T <=? sPrice s) eqn:CT; [|lia].
        destruct (step_facts (sPrice s) T (sLiquidity s) (sRemaining t) fee ex st' ltac:(apply price_R; lia) ltac:(apply price_R; lia) Hliq R0' HR' Hfee Est') as (A1 & _).
        destruct (step_facts (sPrice s) T (sLiquidity s) (sRemaining s) fee ex st ltac:(apply price_R; lia) ltac:(apply price_R; lia) Hliq R0 HR Hfee Est) as (B1 & _).
        unfold toward in A1, B1. rewrite CT in A1, B1. lia. }
      split; [lia|]. exists (calc ex st), (calc ex st' + y). split; [lia|]. split; [lia|]. split; [assumption|]. eapply tally_trans; eassumption.
Qed.
End Pair.

(** ** two swaps of the same pool *)
(** what the swapper pays and gets, from the two amounts returned (two's complement) *)
Definition paid (z : bool) (a0 a1 : Z) : Z := if z then a0 else a1.
Definition got (z : bool) (a0 a1 : Z) : Z := (- (if z then a1 else a0)) mod T256.

Lemma loop_counts h sp z ex limit fee other n s s' : histOK sp h -> 0 < sp -> 0 <= fee < MaxFee -> limitOK z limit -> loopOK h sp z ex limit s -> is_u256 (sCalculated s) ->
  swapLoop n z ex limit fee other s = Ok s' -> loopOK h sp z ex limit s' /\ is_u256 (sCalculated s').
Proof.
  intros HH Hsp Hfee Hl HO Hc E. destruct (loop_ind h sp z ex limit fee other HH Hsp Hfee Hl (fun x => is_u256 (sCalculated x))) with (n := n) (s := s) (s' := s') as (HL' & Hc' & _); auto.
  intros x x' k st _ _ _ RF. rewrite (rf_calc _ _ _ _ _ _ _ _ _ _ _ RF). unfold is_u256, usub, uadd. destruct ex; apply Z.mod_pos_bound; lia.
Qed.
(** the amounts returned, from the state the loop ends in *)
Lemma amounts_of (z ex : bool) amt s' x a0 a1 : ex = (amt <? T255) -> is_u256 amt -> amt <> 0 -> remOK ex (sRemaining s') -> is_u256 (sCalculated s') -> 0 <= x < T256 ->
  left ex (sRemaining s') <= left ex amt -> sCalculated s' mod T256 = (if ex then 0 - x else 0 + x) mod T256 ->
  (if Bool.eqb z ex then a0 = usub amt (sRemaining s') /\ a1 = sCalculated s' else a0 = sCalculated s' /\ a1 = usub amt (sRemaining s')) ->
  paid z a0 a1 = (if ex then left ex amt - left ex (sRemaining s') else x) /\ got z a0 a1 = (if ex then x else left ex amt - left ex (sRemaining s')).
Proof.
  intros Eex Ha Hn HR Hc Hx HL HT HA. unfold is_u256, remOK, left, paid, got in *. rewrite (Z.mod_small (sCalculated s')) in HT by assumption.
  destruct ex.
  - rewrite HT in HA. assert ((- ((0 - x) mod T256)) mod T256 = x) as K by (rewrite <- Z.sub_0_l, Zminus_mod_idemp_r; replace (0 - (0 - x)) with x by ring; now apply Z.mod_small).
    assert (usub amt (sRemaining s') = amt - sRemaining s') as U by (unfold usub; apply Z.mod_small; lia).
    destruct z; cbn [Bool.eqb] in HA; destruct HA as [-> ->]; (split; [exact U|exact K]).
  - replace (amt =? 0) with false in * by lia. rewrite (Z.mod_small (0 + x)) in HT by lia.
    assert ((- usub amt (sRemaining s')) mod T256 = T256 - amt - (if sRemaining s' =? 0 then 0 else T256 - sRemaining s')) as U.
    { unfold usub. rewrite <- Z.sub_0_l, Zminus_mod_idemp_r. destruct (sRemaining s' =? 0) eqn:C.
      - replace (0 - (amt - sRemaining s')) with (T256 - amt + (-1) * T256) by lia. rewrite Z_mod_plus_full. rewrite Z.mod_small; lia.
      - rewrite Z.mod_small; lia. }
    destruct z; cbn [Bool.eqb] in HA; destruct HA as [-> ->]; (split; [lia|exact U]).
Qed.

Theorem swap_more h p n m z a b lim p1 a0 a1 p2 b0 b1 : poolOK h p -> is_u256 a -> is_u256 b -> (b <? T255) = (a <? T255) ->
  left (a <? T255) a <= left (a <? T255) b -> fits z (a <? T255) b -> (z = true -> noMisplaced (TickSpacing p) (effectiveLimit z lim) (TickCurrent p)) ->
  swap n p z a lim = Ok (p1, a0, a1) -> swap m p z b lim = Ok (p2, b0, b1) ->
  farther z (SqrtRatio p1) (SqrtRatio p2) /\ 0 <= paid z a0 a1 <= paid z b0 b1 /\ 0 <= got z a0 a1 <= got z b0 b1.
Proof.
  intros HP Ha Hb Eb HL HF HM E1 E2.
  destruct (swap_ok_inv h p z a lim HP Ha n p1 a0 a1 E1) as (HS & Hsp & Hfee & s & Es & -> & EA). destruct (start_ok h p z a lim HP Ha HS) as (HO & Hl & R).
  destruct (swap_ok_inv h p z b lim HP Hb m p2 b0 b1 E2) as (HS' & _ & _ & t & Et & -> & EB). destruct (start_ok h p z b lim HP Hb HS') as (HO' & _ & _).
  rewrite Eb in *. remember (a <? T255) as ex eqn:Eex. assert (ex = (b <? T255)) as Eex' by congruence. pose proof (proj1 HP) as HH. cbn [finish SqrtRatio].
  pose proof (loop_allRounds h (TickSpacing p) z ex (effectiveLimit z lim) (Fee p) (otherGrowth p z) HH Hsp Hfee Hl m _ t HO' Et) as Et'.
  destruct (loop_pair h (TickSpacing p) z ex (effectiveLimit z lim) (Fee p) HH Hsp Hfee Hl (TickCurrent p) (otherGrowth p z) (otherGrowth p z) n allRounds
    (startState p z a) (startState p z b) s t HO HO') as (D1 & D2 & x & y & D3 & D4 & D5 & D6); try assumption.
  { split; reflexivity. }
  { intros Ez. split; [now apply HM|]. cbn [startState sTick]. lia. }
  destruct (loop_counts _ _ _ _ _ _ _ _ _ _ HH Hsp Hfee Hl HO ltac:(unfold is_u256; cbn; lia) Es) as [HOs Hcs].
  destruct (loop_counts _ _ _ _ _ _ _ _ _ _ HH Hsp Hfee Hl HO' ltac:(unfold is_u256; cbn; lia) Et) as [HOt Hct].
  rewrite allRounds_Z in D4. unfold MaxTick, MinTick in D4. unfold tally in D5, D6. cbn [startState sCalculated sRemaining] in D2, D5, D6.
  destruct (loop_used h _ z ex _ (Fee p) HH Hsp Hfee Hl (otherGrowth p z) n _ s HO Es) as [U1 _]. destruct (loop_used h _ z ex _ (Fee p) HH Hsp Hfee Hl (otherGrowth p z) m _ t HO' Et) as [U2 _].
  cbn [startState sRemaining] in U1, U2.
  destruct HOs as (_ & _ & _ & _ & HRs & _). destruct HOt as (_ & _ & _ & _ & HRt & _).
  destruct (amounts_of z ex a s x a0 a1 Eex Ha (proj1 HS) HRs Hcs ltac:(lia) U1 D5 EA) as [A1 A2].
  destruct (amounts_of z ex b t y b0 b1 Eex' Hb (proj1 HS') HRt Hct ltac:(lia) U2 D6 EB) as [B1 B2].
  rewrite A1, A2, B1, B2. split; [assumption|]. destruct ex; lia.
Qed.

Lemma larger_input h p n m (z : bool) a b lim p1 a0 a1 p2 b0 b1 : reach h p -> 0 <= a <= b -> b < (if z then 2 ^ 236 else 2 ^ 160) ->
  (z = true -> clearWay p (effectiveLimit z lim)) -> swap n p z a lim = Ok (p1, a0, a1) -> swap m p z b lim = Ok (p2, b0, b1) ->
  farther z (SqrtRatio p1) (SqrtRatio p2) /\ 0 <= paid z a0 a1 <= paid z b0 b1 /\ 0 <= got z a0 a1 <= got z b0 b1.
Proof.
  intros R Hab Hb CW E1 E2. apply reach_ok in R as HP. assert (b < 2 ^ 236) as Hb' by (destruct z; lia). assert (is_u256 a /\ is_u256 b) as [Ha' Hb2] by (unfold is_u256; lia).
  destruct (swap_ok_inv h p z a lim HP Ha' n p1 a0 a1 E1) as (_ & Hsp & _).
  apply (swap_more h p n m z a b lim p1 a0 a1 p2 b0 b1); try assumption.
  - lia.
  - replace (a <? T255) with true by lia. unfold left. lia.
  - unfold fits. intros _. destruct z; assumption.
  - intros Ez. apply (clearWay_noMisplaced h); auto.
Qed.
Lemma larger_output h p n m (z : bool) a b lim p1 a0 a1 p2 b0 b1 : reach h p -> 0 < a <= b -> b <= 2 ^ 255 ->
  (z = true -> clearWay p (effectiveLimit z lim)) -> swap n p z (2 ^ 256 - a) lim = Ok (p1, a0, a1) -> swap m p z (2 ^ 256 - b) lim = Ok (p2, b0, b1) ->
  farther z (SqrtRatio p1) (SqrtRatio p2) /\ 0 <= paid z a0 a1 <= paid z b0 b1 /\ 0 <= got z a0 a1 <= got z b0 b1.
Proof.
  intros R Hab Hb CW E1 E2. apply reach_ok in R as HP. assert (is_u256 (2 ^ 256 - a) /\ is_u256 (2 ^ 256 - b)) as [Ha' Hb2] by (unfold is_u256; lia).
  destruct (swap_ok_inv h p z (2 ^ 256 - a) lim HP Ha' n p1 a0 a1 E1) as (_ & Hsp & _).
  assert ((2 ^ 256 - a <? T255) = false) as E by lia.
  apply (swap_more h p n m z (2 ^ 256 - a) (2 ^ 256 - b) lim p1 a0 a1 p2 b0 b1); try assumption.
  - lia.
  - rewrite E. unfold left. replace (2 ^ 256 - a =? 0) with false by lia. replace (2 ^ 256 - b =? 0) with false by lia. lia.
  - unfold fits. rewrite E. discriminate.
  - intros Ez. apply (clearWay_noMisplaced h); auto.
Qed.

(** ** both conditions are needed *)
Definition wideHist : hist := [mkE 609000 614400 (2 ^ 127)].
Definition wide0 : Pool := Eval vm_compute in okOr (NewPool "A" "B" 3000 (2 ^ 140)) startPool.
Definition wide1 : Pool := Eval vm_compute in okOr (step 20 wide0 (OMint 609000 614400 (2 ^ 127))) startPool.
Lemma wide1_reach : reach wideHist wide1.
Proof.
  apply (reach_step [] wide0 20 (OMint 609000 614400 (2 ^ 127))).
  - apply (reach_new "A" "B" 3000 (2 ^ 140)). vm_compute. reflexivity.
  - vm_compute. intuition discriminate.
  - vm_compute. reflexivity.
Qed.
(** paying 2^160 and some more into a deep pool buys nothing at all, though half of it would *)
Lemma wide_wraps : exists p1 a0 a1 p2 b0 b1, swap 20 wide1 false (2 ^ 159) 0 = Ok (p1, a0, a1) /\ swap 20 wide1 false 1465899335336913659181228518271096308581677575705 0 = Ok (p2, b0, b1) /\
  got false a0 a1 = 2353526823975287826048 /\ b0 = 0 /\ b1 = 1465899335336913659181228518271096308581677575705 /\ SqrtRatio p2 = SqrtRatio wide1.
Proof. do 6 eexists. split; [vm_compute; reflexivity|]. split; [vm_compute; reflexivity|]. vm_compute. auto. Qed.
Lemma bad_smaller : exists p1 a0 a1 p2 b0 b1, swap 10 badPool true 100000 0 = Ok (p1, a0, a1) /\ swap 10 badPool true (10 ^ 15) 0 = Ok (p2, b0, b1) /\ SqrtRatio p1 < SqrtRatio p2.
Proof. do 6 eexists. split; [vm_compute; reflexivity|]. split; [vm_compute; reflexivity|]. vm_compute. reflexivity. Qed.
