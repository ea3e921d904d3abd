(** PoolRate.v -- what a swap pays out is at most what it takes, less the fee, is worth at the price it starts from. *)
From Coq Require Import ZifyBool String.
From Verif Require Import Base U256Z FullMathFacts SwapMath SwapMathFacts SwapStep TickMath TickMathFacts TickData TickDataFacts TickSearch Ledger Pool PoolTable PoolInv PoolSwap PoolLoop PoolHist PoolOps PoolSpec PoolLimit PoolMono PoolQuote.
Ltac Zify.zify_post_hook ::= idtac.
Open Scope Z_scope.

(** [y] paid out for [x], fee included, is no more than the price [P] less the fee allows *)
Definition within (z : bool) (f P x y : Z) : Prop :=
  if z then y * MaxFee * (Q96 * Q96) <= x * (MaxFee - f) * (P * P) else y * MaxFee * (P * P) <= x * (MaxFee - f) * (Q96 * Q96).

Lemma within_add z f P x y x' y' : within z f P x y -> within z f P x' y' -> within z f P (x + x') (y + y').
Proof. unfold within. destruct z; lia. Qed.
Lemma within_far z f P Q x y : 0 <= x -> 0 <= y -> f <= MaxFee -> 0 <= P -> 0 <= Q -> farther z P Q -> within z f Q x y -> within z f P x y.
Proof.
  unfold within, farther. intros Hx Hy Hf HP HQ HF H. assert (0 <= x * (MaxFee - f)) as K by (apply Z.mul_nonneg_nonneg; lia). assert (0 <= y * MaxFee) as K' by (unfold MaxFee; lia). destruct z.
  - assert (x * (MaxFee - f) * (Q * Q) <= x * (MaxFee - f) * (P * P)); [|lia]. apply Z.mul_le_mono_nonneg_l; [assumption|]. apply Z.mul_le_mono_nonneg; lia.
  - assert (y * MaxFee * (P * P) <= y * MaxFee * (Q * Q)); [|lia]. apply Z.mul_le_mono_nonneg_l; [assumption|]. apply Z.mul_le_mono_nonneg; lia.
Qed.
Lemma step_within z f l P r i o e : 0 < P -> 0 < r -> 0 <= l -> 0 <= i -> 0 <= f <= MaxFee -> farther z P r ->
  in_ceil z l P r i -> out_le z l P r o -> i * f <= e * (MaxFee - f) -> within z f P (i + e) o.
Proof.
  intros HP Hr Hl Hi Hf HF Hin Hout He. assert (i * MaxFee <= (i + e) * (MaxFee - f)) as KF by lia. unfold within, in_ceil, out_le, ceil0, ceil1, farther in *. destruct z.
  - assert (o * (Q96 * Q96) <= i * (P * P)) as K.
    { assert (i * (r * P) <= i * (P * P)) by (apply Z.mul_le_mono_nonneg_l; [lia|]; apply Z.mul_le_mono_nonneg_r; lia). assert (o * Q96 * Q96 <= l * (P - r) * Q96) by (apply Z.mul_le_mono_nonneg_r; [discriminate|lia]). lia. }
    assert (o * (Q96 * Q96) * MaxFee <= i * (P * P) * MaxFee) by (apply Z.mul_le_mono_nonneg_r; [discriminate|lia]).
    assert (i * MaxFee * (P * P) <= (i + e) * (MaxFee - f) * (P * P)) by (apply Z.mul_le_mono_nonneg_r; [apply Z.mul_nonneg_nonneg; lia|lia]). lia.
  - assert (o * (P * r) <= i * (Q96 * Q96)) as K.
    { assert (l * (r - P) * Q96 <= i * Q96 * Q96) by (apply Z.mul_le_mono_nonneg_r; [discriminate|lia]). lia. }
    assert (i * MaxFee * (Q96 * Q96) <= (i + e) * (MaxFee - f) * (Q96 * Q96)) as K1 by (apply Z.mul_le_mono_nonneg_r; [discriminate|lia]).
    destruct (Z_le_dec 0 o) as [C|C].
    + assert (o * (P * P) <= o * (P * r)) by (apply Z.mul_le_mono_nonneg_l; [lia|]; apply Z.mul_le_mono_nonneg_l; lia). unfold MaxFee, Q96 in *. lia.
    + assert (o * (P * P) <= 0) by (apply Z.mul_nonpos_nonneg; [lia|]; apply Z.mul_nonneg_nonneg; lia). unfold MaxFee, Q96 in *. lia.
Qed.

Section Rate.
Variables (h : hist) (sp : Z) (z : bool) (limit fee : Z).
Hypothesis HH : histOK sp h.
Hypothesis Hsp : 0 < sp.
Hypothesis Hfee : 0 <= fee < MaxFee.
Hypothesis Hlim : limitOK z limit.
Notation trail := (trail h sp z limit fee).
Notation walk := (walk h sp z limit fee).

Lemma walk_within ex s s1 k st : walk ex s s1 k st -> within z fee (sPrice s) (stIn st + stFee st) (stOut st) /\ 0 <= stIn st + stFee st /\ 0 <= stOut st.
Proof.
  intros W. destruct (walk_bounds _ _ _ _ _ HH Hlim _ _ _ _ _ W) as (BP & BT & Bl & BR & _). destruct (walk_facts _ _ _ _ _ HH Hfee Hlim _ _ _ _ _ W) as (F1 & F2 & F3 & F4 & _).
  pose proof (w_step _ _ _ _ _ _ _ _ _ _ W) as E. pose proof (w_rem _ _ _ _ _ _ _ _ _ _ W) as R0. pose proof (w_way _ _ _ _ _ _ _ _ _ _ W) as HWay. set (T := targetOf z limit (rat k)) in *.
  assert (liqR (sLiquidity s)) as HlR by (unfold liqR; lia). assert (0 <= stIn st + stFee st /\ 0 <= stOut st) as HN by (unfold spec, calc in *; destruct ex; lia). split; [|assumption].
  assert (toward (sPrice s) T (stNext st) /\ in_ceil (T <=? sPrice s) (sLiquidity s) (sPrice s) (stNext st) (stIn st) /\ out_le (T <=? sPrice s) (sLiquidity s) (sPrice s) (stNext st) (stOut st) /\ 0 <= stIn st /\ stIn st * fee <= stFee st * (MaxFee - fee)) as (A1 & A2 & A3 & A4 & A5).
  { unfold remOK in BR. destruct ex.
    - destruct (step_exactin (sPrice s) T (sLiquidity s) (sRemaining s) fee st BP BT HlR BR ltac:(lia) E) as (A1 & A2 & A3 & A4 & _ & _ & _ & A8 & _). cbv zeta in *. apply out_floor_le in A3. auto.
    - destruct BR as [|BR]; [contradiction|]. destruct (step_exactout (sPrice s) T (sLiquidity s) (sRemaining s) fee st BP BT HlR BR Hfee E) as (A1 & A2 & A3 & A4 & _ & A6 & _). cbv zeta in *. repeat split; try assumption; lia. }
  unfold priceR in *. assert (0 < stNext st) as HN1 by (unfold toward in A1; destruct (T <=? sPrice s); lia).
  assert ((T <=? sPrice s) = z \/ T = sPrice s) as [EZ|EZ] by (unfold farther in *; destruct z; lia).
  - rewrite EZ in *. apply (step_within z fee (sLiquidity s) (sPrice s) (stNext st)); try assumption; lia.
  - (* a round that goes nowhere *)
    assert (stNext st = sPrice s) as EN by (unfold toward in A1; rewrite EZ in A1; destruct (sPrice s <=? sPrice s) eqn:?; lia). rewrite EN in *. rewrite EZ, Z.leb_refl in A2, A3.
    assert (stOut st = 0) as -> by (unfold out_le, Q96 in A3; lia). unfold within.
    assert (0 <= (stIn st + stFee st) * (MaxFee - fee)) by (apply Z.mul_nonneg_nonneg; lia). destruct z; [|unfold Q96; lia].
    assert (0 <= (stIn st + stFee st) * (MaxFee - fee) * (sPrice s * sPrice s)); [|lia]. apply Z.mul_nonneg_nonneg; [assumption|]. apply Z.mul_nonneg_nonneg; lia.
Qed.
Lemma trail_within ex s s' x y : trail ex s s' x y -> within z fee (sPrice s) (if ex then x else y) (if ex then y else x).
Proof.
  induction 1 as [s HO RN|s s1 s' k st a c W TR IH].
  - unfold within. destruct z, ex; lia.
  - destruct (walk_within _ _ _ _ _ W) as (W1 & W2 & W3). pose proof (trail_facts _ _ _ _ _ HH Hfee Hlim _ _ _ _ _ TR) as (_ & _ & _ & A0 & C0 & _).
    destruct (walk_facts _ _ _ _ _ HH Hfee Hlim _ _ _ _ _ W) as (_ & _ & F3 & _). rewrite <- (w_price _ _ _ _ _ _ _ _ _ _ W) in F3.
    pose proof (w_ok _ _ _ _ _ _ _ _ _ _ W) as (_ & _ & HP & _). pose proof (w_ok1 _ _ _ _ _ _ _ _ _ _ W) as (_ & _ & HP1 & _). apply price_bounds in HP, HP1. unfold MinSqrtRatio in *.
    assert (within z fee (sPrice s) (if ex then a else c) (if ex then c else a)) as K by (apply (within_far _ _ _ (sPrice s1)); try assumption; try lia; destruct ex; lia).
    pose proof (within_add _ _ _ _ _ _ _ W1 K) as K2. unfold spec, calc. destruct ex; exact K2.
Qed.
End Rate.

Theorem swap_rate h p n (z : bool) a lim p1 a0 a1 : reach h p -> is_u256 a -> (z = true -> clearWay p (effectiveLimit z lim)) ->
  swap n p z a lim = Ok (p1, a0, a1) -> within z (Fee p) (SqrtRatio p) (paid z a0 a1) (got z a0 a1).
Proof.
  intros R Ha HC E. apply reach_ok in R as HP. destruct (swap_ok_inv h p z a lim HP Ha n p1 a0 a1 E) as (_ & Hsp & _).
  assert (z = true -> noMisplaced (TickSpacing p) (effectiveLimit z lim) (TickCurrent p)) as NM by (intros Ez; apply (clearWay_noMisplaced h); auto).
  destruct (swap_trail h p n z a lim p1 a0 a1 HP Ha NM E) as (s & x & y & TR & _ & A1 & A2 & _ & _ & Hfee & Hl).
  rewrite A1, A2. exact (trail_within h _ z _ _ (proj1 HP) Hfee Hl _ _ _ _ _ TR).
Qed.

(** ** ExactOutputSwap takes its amount as it is *)
Lemma output_is_input n p y lim : Token0 p <> Token1 p ->
  ExactOutputSwap n p y (Token1 p) lim = ExactInputSwap n p y (Token0 p) lim /\ ExactOutputSwap n p y (Token0 p) lim = ExactInputSwap n p y (Token1 p) lim.
Proof.
  intros N. unfold ExactOutputSwap, ExactInputSwap. rewrite !String.eqb_refl. split; [reflexivity|].
  rewrite (proj2 (String.eqb_neq (Token0 p) (Token1 p)) N), (proj2 (String.eqb_neq (Token1 p) (Token0 p))) by congruence. reflexivity.
Qed.
Lemma output_request h p n y tok lim p' a0 a1 : reach h p -> is_u256 y -> ExactOutputSwap n p y tok lim = Ok (p', a0, a1) ->
  let z := String.eqb tok (Token1 p) in
  if y <? T255 then 0 <= paid z a0 a1 <= y /\ (paid z a0 a1 = y \/ SqrtRatio p' = effectiveLimit z lim)
  else 0 <= got z a0 a1 <= T256 - y /\ (got z a0 a1 = T256 - y \/ SqrtRatio p' = effectiveLimit z lim).
Proof.
  intros R Hy E z. unfold ExactOutputSwap in E. fold z in E. destruct (swap_request h p n z y lim p' a0 a1 R Hy E) as (i & o & Hio & Hi & Ho & HR).
  assert (forall x, 0 <= x < T256 -> (- ((- x) mod T256)) mod T256 = x) as NN.
  { intros x Hx. destruct (Z.eq_dec x 0) as [->|n0]; [reflexivity|]. rewrite (Z_mod_nz_opp_full x T256); rewrite (Z.mod_small x T256) by lia; [|assumption].
    replace (- (T256 - x)) with (x + -1 * T256) by ring. rewrite Z_mod_plus_full. apply Z.mod_small. lia. }
  assert (paid z a0 a1 = i /\ (o < T256 -> got z a0 a1 = o)) as [-> G] by (unfold paid, got; destruct z; destruct Hio as [-> ->]; (split; [reflexivity|]); intros; apply NN; lia).
  destruct (y <? T255) eqn:C; [lia|]. unfold is_u256 in Hy. destruct HR as (H1 & H2 & H3). rewrite G by lia. lia.
Qed.
