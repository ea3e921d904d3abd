(** SwapStep.v -- facts about GetNextSqrtPriceFrom* as used by ComputeSwapStep, and about ComputeSwapStep. *)
From Verif Require Import Base U256Z FullMathFacts SwapMath SwapMathFacts.
From Coq Require Import ZifyBool.
Ltac Zify.zify_post_hook ::= idtac.

Lemma ceil0_lt l a b x y : ceil0 l a b x -> 0 < a -> 0 < b -> y < x -> y * (a * b) < l * Q96 * (b - a).
Proof.
  unfold ceil0. intros H Ha Hb Hy. assert (0 < a * b) by (apply Z.mul_pos_pos; lia).
  assert (y * (a * b) <= (x - 1) * (a * b)) by (apply Z.mul_le_mono_nonneg_r; lia). lia.
Qed.
Lemma ceil1_lt l a b x y : ceil1 l a b x -> y < x -> y * Q96 < l * (b - a).
Proof. unfold ceil1, Q96. lia. Qed.
Lemma ceil0_le l a b x y : ceil0 l a b x -> 0 < a -> 0 < b -> l * Q96 * (b - a) <= y * (a * b) -> x <= y.
Proof.
  intros H Ha Hb Hy. apply Z.nlt_ge. intros C. pose proof (ceil0_lt l a b x y H Ha Hb C). lia.
Qed.
Lemma ceil1_le l a b x y : ceil1 l a b x -> l * (b - a) <= y * Q96 -> x <= y.
Proof. unfold ceil1, Q96. lia. Qed.
Lemma floor0_lt l a b x y : floor0 l a b x -> 0 < a -> 0 < b -> y < x -> (y + 1) * (a * b) <= l * Q96 * (b - a).
Proof.
  unfold floor0. intros H Ha Hb Hy. assert (0 < a * b) by (apply Z.mul_pos_pos; lia).
  assert ((y + 1) * (a * b) <= x * (a * b)) by (apply Z.mul_le_mono_nonneg_r; lia). lia.
Qed.
Lemma floor1_lt l a b x y : floor1 l a b x -> y < x -> (y + 1) * Q96 <= l * (b - a).
Proof. unfold floor1, Q96. lia. Qed.

Lemma input_guard P l x z r : 0 <= l < T256 -> GetNextSqrtPriceFromInput P l x z = Ok r ->
  0 < l /\ (if z then getNextSqrtPriceFromAmount0RoundingUp P l x true
            else getNextSqrtPriceFromAmount1RoundingDown P l x true) = Ok r.
Proof.
  intros Hl E. unfold GetNextSqrtPriceFromInput in E. apply bind_ok in E as (u1 & _ & E).
  apply bind_ok in E as (u2 & E2 & E). apply invariant_ok in E2. apply Z.eqb_eq, usign_1 in E2; [|assumption].
  split; [lia|exact E].
Qed.
Lemma output_guard P l x z r : 0 <= l < T256 -> GetNextSqrtPriceFromOutput P l x z = Ok r ->
  0 < l /\ (if z then getNextSqrtPriceFromAmount1RoundingDown P l x false
            else getNextSqrtPriceFromAmount0RoundingUp P l x false) = Ok r.
Proof.
  intros Hl E. unfold GetNextSqrtPriceFromOutput in E. apply bind_ok in E as (u1 & _ & E).
  apply bind_ok in E as (u2 & E2 & E). apply invariant_ok in E2. apply Z.eqb_eq, usign_1 in E2; [|assumption].
  split; [lia|exact E].
Qed.

(** ** exact input, downwards: any amount *)
Lemma input_down_full P l x r : priceR P -> liqR l -> 0 <= x < T255 ->
  GetNextSqrtPriceFromInput P l x true = Ok r ->
  l * Q96 * (P - r) <= x * (P * r) /\ 0 < r <= P /\ (r - 1) * (l * Q96 / P + x) < l * Q96 /\
  (l * Q96 + x * P < T256 -> (r - 1) * (l * Q96 + x * P) < l * Q96 * P).
Proof.
  unfold priceR. intros HP Hl Hx E. destruct (liq_n1 l Hl) as [En Hn].
  apply input_guard in E as [Hl0 E]; [|unfold liqR in Hl; lia].
  assert (0 < l * Q96) by (unfold Q96; lia).
  destruct (Z.eq_dec x 0) as [->|Hx0].
  - apply next0_zero in E. subst r. rewrite Z.sub_diag. refine (conj _ (conj _ (conj _ _))); try lia.
    set (n := l * Q96) in *. clearbody n. pose proof (Z.mul_div_le n P ltac:(lia)).
    assert (0 <= n / P) by (apply Z.div_pos; lia). 
    destruct (Z.eq_dec (n / P) 0) as [e|ne]; [rewrite e; lia|lia].
  - pose proof (next0_add P l x r) as N. cbv zeta in N. rewrite En in N. unfold price in N.
    specialize (N ltac:(lia) ltac:(lia) ltac:(lia) ltac:(lia) E). 
    replace (x * (P * r)) with (x * P * r) by ring. exact N.
Qed.
Lemma input_down P l x r : priceR P -> liqR l -> 0 <= x < T255 ->
  GetNextSqrtPriceFromInput P l x true = Ok r ->
  l * Q96 * (P - r) <= x * (P * r) /\ 0 < r <= P.
Proof. intros HP Hl Hx E. apply input_down_full in E; tauto. Qed.
Lemma input_down_target P T l x y r : priceR P -> priceR T -> T <= P -> liqR l -> 0 <= x < T255 ->
  ceil0 l T P y -> x < y -> GetNextSqrtPriceFromInput P l x true = Ok r ->
  l * Q96 * (P - r) <= x * (P * r) /\ T < r <= P.
Proof.
  intros HP HT HTP Hl Hx Hc Hxy E. apply input_down in E as [E Hr]; [|assumption..].
  unfold priceR in *. pose proof (ceil0_lt l T P y x Hc ltac:(lia) ltac:(lia) Hxy) as B.
  split; [exact E|split; [|lia]]. apply Z.nle_gt. intros C.
  destruct (liq_n1 l Hl) as [_ Hn]. set (n := l * Q96) in *. clearbody n.
  assert (n * (P - T) <= n * (P - r)) by (apply Z.mul_le_mono_nonneg_l; lia).
  assert (P * r <= P * T) by (apply Z.mul_le_mono_nonneg_l; lia).
  assert (x * (P * r) <= x * (P * T)) by (apply Z.mul_le_mono_nonneg_l; lia).
  replace (T * P) with (P * T) in B by ring. lia.
Qed.

(** ** exact input, upwards *)
Lemma input_up P l x r : priceR P -> liqR l -> 0 <= x < T256 ->
  GetNextSqrtPriceFromInput P l x false = Ok r ->
  exists q, r = uadd P q /\ q * l <= (x * Q96) mod T256 < (q + 1) * l /\ 0 <= q /\ 0 < l.
Proof.
  unfold priceR. intros HP Hl Hx E. apply input_guard in E as [Hl0 E]; [|unfold liqR in Hl; lia].
  apply next1_add in E; [|unfold price; lia|lia|lia]. destruct E as (q & E & H & Hq). exists q. repeat split; try assumption; lia.
Qed.
Lemma input_up_target P T l x y r : priceR P -> priceR T -> P <= T -> liqR l -> 0 <= x < T256 ->
  ceil1 l P T y -> x < y -> GetNextSqrtPriceFromInput P l x false = Ok r ->
  (r - P) * l <= x * Q96 /\ P <= r < T.
Proof.
  intros HP HT HTP Hl Hx Hc Hxy E. apply input_up in E as (q & E & Hq & Hq0 & Hl0); [|assumption..].
  unfold priceR in *. pose proof (ceil1_lt l P T y x Hc Hxy) as B.
  assert (Hm : (x * Q96) mod T256 <= x * Q96) by (apply Z.mod_le; [apply Z.mul_nonneg_nonneg; [lia|unfold Q96; lia]|lia]).
  assert (q < T - P).
  { apply Z.nle_gt. intros C. assert ((T - P) * l <= q * l) by (apply Z.mul_le_mono_nonneg_r; lia). lia. }
  rewrite uadd_small in E by lia. subst r. replace (P + q - P) with q by ring. lia.
Qed.

(** ** exact output, downwards *)
Lemma output_down P l x r : priceR P -> liqR l -> 0 <= x -> x * Q96 <= (T256 - 1) * l ->
  GetNextSqrtPriceFromOutput P l x true = Ok r ->
  exists q, r = usub P q /\ x * Q96 <= q * l < x * Q96 + l /\ 0 <= q < T256 /\ 0 < l.
Proof.
  unfold priceR. intros HP Hl Hx Hf E. apply output_guard in E as [Hl0 E]; [|unfold liqR in Hl; lia].
  apply next1_out in E; [|unfold price; lia|lia|lia|lia]. destruct E as (q & E & H & Hq). exists q. repeat split; try assumption; lia.
Qed.
Lemma output_down_target P T l x y r : priceR P -> priceR T -> T <= P -> liqR l -> 0 <= x ->
  floor1 l T P y -> x < y -> GetNextSqrtPriceFromOutput P l x true = Ok r ->
  x * Q96 <= (P - r) * l < x * Q96 + l /\ T <= r <= P.
Proof.
  intros HP HT HTP Hl Hx Hc Hxy E. pose proof (floor1_lt l T P y x Hc Hxy) as B. unfold priceR in *.
  assert (Hl0 : 0 < l).
  { unfold liqR in Hl. destruct (Z.eq_dec l 0) as [->|]; [|lia]. unfold Q96 in B. lia. }
  assert (l * (P - T) <= l * (T256 - 1)) by (apply Z.mul_le_mono_nonneg_l; lia).
  apply output_down in E as (q & E & Hq & Hq0 & _); [|unfold priceR; lia|assumption|assumption|unfold Q96 in *; lia].
  assert (q <= P - T).
  { apply Z.nlt_ge. intros C. assert ((P - T) * l <= (q - 1) * l) by (apply Z.mul_le_mono_nonneg_r; lia).
    unfold Q96 in *. lia. }
  rewrite usub_small in E by lia. subst r. replace (P - (P - q)) with q by ring. lia.
Qed.

(** ** exact output, upwards *)
Lemma output_up P l x r : priceR P -> liqR l -> 0 < x -> x * P < l * Q96 ->
  l * Q96 * P <= (T256 - 1) * (l * Q96 - x * P) ->
  GetNextSqrtPriceFromOutput P l x false = Ok r ->
  l * Q96 * P <= r * (l * Q96 - x * P) < l * Q96 * P + (l * Q96 - x * P) /\ 0 <= r < T256.
Proof.
  unfold priceR. intros HP Hl Hx Hf Hf2 E. apply output_guard in E as [Hl0 E]; [|unfold liqR in Hl; lia].
  destruct (liq_n1 l Hl) as [En Hn]. pose proof (next0_out P l x r) as N. cbv zeta in N. rewrite En in N.
  apply N; try assumption. unfold price; lia.
Qed.
Lemma output_up_target P T l x y r : priceR P -> priceR T -> P <= T -> liqR l -> 0 <= x ->
  floor0 l P T y -> x < y -> GetNextSqrtPriceFromOutput P l x false = Ok r ->
  x * (P * r) <= l * Q96 * (r - P) /\ P <= r <= T.
Proof.
  intros HP HT HTP Hl Hx Hc Hxy E. unfold priceR in *.
  pose proof (floor0_lt l P T y x Hc ltac:(lia) ltac:(lia) Hxy) as B.
  destruct (liq_n1 l Hl) as [_ Hn].
  destruct (Z.eq_dec x 0) as [->|Hx0].
  { apply output_guard in E as [_ E]; [|unfold liqR in Hl; lia]. apply next0_zero in E. subst r.
    rewrite Z.sub_diag. lia. }
  assert (HPT : 0 < P * T) by (apply Z.mul_pos_pos; lia).
  (* x*P*T < n*(T-P) <= n*T, so x*P < n *)
  assert (Hlt : x * P < l * Q96).
  { apply Z.nle_gt. intros C. assert (l * Q96 * T <= x * P * T) by (apply Z.mul_le_mono_nonneg_r; lia).
    assert (0 <= l * Q96 * P) by (apply Z.mul_nonneg_nonneg; lia). lia. }
  assert (Hb : l * Q96 * P <= T * (l * Q96 - x * P)).
  { replace (x * (P * T)) with (x * P * T) in * by ring. lia. }
  assert (HbT : T * (l * Q96 - x * P) <= (T256 - 1) * (l * Q96 - x * P)) by (apply Z.mul_le_mono_nonneg_r; lia).
  apply output_up in E; [|unfold priceR; lia|assumption|lia|assumption|lia].
  destruct E as [E Hr]. set (n := l * Q96) in *. set (xp := x * P) in *.
  assert (0 < xp) by (apply Z.mul_pos_pos; lia).
  split; [|split].
  - replace (x * (P * r)) with (xp * r) by (unfold xp; ring). clearbody n xp. lia.
  - clearbody n xp. apply Z.nlt_ge. intros C.
    assert (r * (n - xp) <= (P - 1) * (n - xp)) by (apply Z.mul_le_mono_nonneg_r; lia).
    assert (0 < P * xp) by (apply Z.mul_pos_pos; lia). lia.
  - clearbody n xp. apply Z.nlt_ge. intros C.
    assert ((T + 1) * (n - xp) <= r * (n - xp)) by (apply Z.mul_le_mono_nonneg_r; lia). lia.
Qed.

(** ** ComputeSwapStep *)
Lemma usub_fee f : 0 <= f <= MaxFee -> usub MaxFee f = MaxFee - f.
Proof. unfold MaxFee. intros. apply usub_small. lia. Qed.
Lemma less_fee rem f : 0 <= rem -> 0 <= f <= MaxFee ->
  let x := udiv (umul rem (MaxFee - f)) MaxFee in
  x * MaxFee <= rem * (MaxFee - f) /\ 0 <= x < T255 /\ x <= rem.
Proof.
  intros Hr Hf x.
  assert (Hm : umul rem (MaxFee - f) <= rem * (MaxFee - f)).
  { unfold umul. apply Z.mod_le; [apply Z.mul_nonneg_nonneg; lia|lia]. }
  pose proof (umul_range rem (MaxFee - f)) as R.
  assert (rem * (MaxFee - f) <= rem * MaxFee) by (apply Z.mul_le_mono_nonneg_l; lia).
  unfold x, udiv. set (m := umul _ _) in *. set (y := rem * (MaxFee - f)) in *. clearbody m y. unfold MaxFee in *.
  replace (1000000 =? 0) with false by lia.
  pose proof (Z.div_mod m 1000000 ltac:(lia)). pose proof (Z.mod_pos_bound m 1000000 ltac:(lia)). lia.
Qed.

(** amount moved in the direction of the trade from [P] to [r] *)
Definition in_ceil (z : bool) (l P r x : Z) : Prop := if z then ceil0 l r P x else ceil1 l P r x.
Definition out_floor (z : bool) (l P r x : Z) : Prop := if z then floor1 l r P x else floor0 l P r x.
(** [r] lies between the current price [P] and the target [T] *)
Definition toward (P T r : Z) : Prop := if T <=? P then T <= r <= P else P <= r <= T.

Lemma in_amount (z : bool) P r l x : liqR l -> priceR P -> priceR r -> (if z then r <= P else P <= r) ->
  (if z then GetAmount0Delta r P l true else GetAmount1Delta P r l true) = Ok x ->
  in_ceil z l P r x /\ 0 <= x < T256.
Proof.
  intros Hl HP Hr Hd E. unfold priceR in *.
  destruct z; [eapply amount0_up in E|eapply amount1_up in E]; try exact E; try assumption; lia.
Qed.
Lemma out_amount (z : bool) P r l x : liqR l -> priceR P -> priceR r -> (if z then r <= P else P <= r) ->
  (if z then GetAmount1Delta r P l false else GetAmount0Delta P r l false) = Ok x ->
  out_floor z l P r x /\ 0 <= x < T256.
Proof.
  intros Hl HP Hr Hd E. unfold priceR in *.
  destruct z; [eapply amount1_down in E|eapply amount0_down in E]; try exact E; try assumption; lia.
Qed.

Lemma step_exactin P T l rem f s : priceR P -> priceR T -> liqR l -> 0 <= rem < T255 -> 0 <= f <= MaxFee ->
  ComputeSwapStep P T l rem f = Ok s ->
  let z := T <=? P in
  toward P T (stNext s) /\ in_ceil z l P (stNext s) (stIn s) /\ out_floor z l P (stNext s) (stOut s) /\
  0 <= stIn s /\ 0 <= stOut s < T256 /\ 0 <= stFee s /\
  stIn s + stFee s <= rem /\
  stIn s * f <= stFee s * (MaxFee - f) /\
  (stNext s = T -> f < MaxFee -> stFee s * (MaxFee - f) < stIn s * f + (MaxFee - f)) /\
  (stNext s <> T -> stIn s + stFee s = rem).
Proof.
  intros HP HT Hl Hrem Hf E z. unfold ComputeSwapStep in E. cbv zeta in E. fold z in E.
  rewrite usign_nonneg in E by lia. replace (rem <? T255) with true in E by lia.
  rewrite (Z.mod_small f W) in E by (unfold MaxFee in Hf; lia). rewrite usub_fee in E by assumption.
  destruct (less_fee rem f ltac:(lia) Hf) as (Hlf & Hlr & Hlrem).
  set (x := udiv (umul rem (MaxFee - f)) MaxFee) in *. clearbody x.
  apply bind_ok in E as (((nxt & ain0) & aout0) & E1 & E).
  apply bind_ok in E1 as (ain & Eain & E1). apply bind_ok in E1 as (next & Enext & E1).
  injection E1 as <- <- <-.
  assert (Hz : if z then T <= P else P <= T) by (unfold z; destruct (T <=? P) eqn:?; lia).
  apply in_amount in Eain as [Hain Ra]; try assumption.
  (* the two ways to get the next price *)
  assert (HN : (next = T /\ ain <= x) \/
     (x < ain /\ next <> T /\ toward P T next /\
       (if z then l * Q96 * (P - next) <= x * (next * P) else l * (next - P) <= x * Q96))).
  { destruct (ain <=? x) eqn:C.
    - injection Enext as <-. left. lia.
    - right. split; [lia|]. unfold toward. fold z. unfold in_ceil in Hain. destruct z.
      + eapply (input_down_target P T l x ain) in Enext as [N1 N2]; try assumption; lia.
      + eapply (input_up_target P T l x ain) in Enext as [N1 N2]; try assumption; lia. }
  clear Enext.
  assert (Hto : toward P T next) by (destruct HN as [[-> _]|(_ & _ & H & _)]; [unfold toward; destruct (T <=? P) eqn:?; lia|exact H]).
  assert (Hnd : if z then next <= P else P <= next) by (unfold toward in Hto; fold z in Hto; destruct z; lia).
  assert (Hnr : priceR next) by (unfold toward, priceR in *; destruct (T <=? P); lia).
  apply bind_ok in E as (ain' & Eain' & E). apply bind_ok in E as (aout' & Eaout' & E).
  cbn [negb andb] in E, Eaout'. rewrite andb_false_r in Eaout'. rewrite andb_true_r in Eain'.
  apply out_amount in Eaout' as [Haout' Ro]; try assumption.
  apply bind_ok in E as (fee & Efee & E). injection E as <-. cbn [stNext stIn stOut stFee].
  destruct HN as [[-> Hle]|(Hlt & Hne & _ & Hpay)].
  - (* target reached *)
    rewrite Z.eqb_refl in Eain', Efee. cbn [negb] in Efee. injection Eain' as <-.
    assert (Hk : ain * MaxFee <= rem * (MaxFee - f)).
    { assert (ain * MaxFee <= x * MaxFee) by (apply Z.mul_le_mono_nonneg_r; unfold MaxFee; lia). lia. }
    assert (Hk2 : ain * f <= (rem - ain) * (MaxFee - f)) by lia.
    assert (Hfee : ain * f <= fee * (MaxFee - f) /\ 0 <= fee /\ ain + fee <= rem /\
                   (f < MaxFee -> fee * (MaxFee - f) < ain * f + (MaxFee - f))).
    { destruct (Z.eq_dec f MaxFee) as [->|Hf1].
      - assert (ain = 0) by (unfold MaxFee in *; lia). subst ain. cbv in Efee. injection Efee as <-. lia.
      - pose proof (Z.mul_le_mono_nonneg_r (rem - ain) (T256 - 1) (MaxFee - f)) as M.
        apply MulDivRoundingUp_ceil in Efee; [|lia|lia|lia|lia].
        refine (conj _ (conj _ (conj _ _))); try lia.
        apply Z.nlt_ge. intros C. assert ((rem - ain) * (MaxFee - f) <= (fee - 1) * (MaxFee - f)) by (apply Z.mul_le_mono_nonneg_r; lia). lia. }
    repeat (split; [first [exact Hto|exact Hain|exact Haout'|lia]|]). intros; lia.
  - replace (T =? next) with false in Eain' by lia. replace (next =? T) with false in Efee by lia. cbn [negb] in Efee.
    injection Efee as <-.
    apply in_amount in Eain' as [Hain' Ra']; try assumption.
    assert (ain' <= x).
    { unfold in_ceil in Hain'. unfold priceR in *. destruct z.
      - eapply ceil0_le; [exact Hain'|lia|lia|exact Hpay].
      - eapply ceil1_le; [exact Hain'|exact Hpay]. }
    rewrite usub_small by lia.
    assert (Hk : ain' * MaxFee <= rem * (MaxFee - f)).
    { assert (ain' * MaxFee <= x * MaxFee) by (apply Z.mul_le_mono_nonneg_r; unfold MaxFee; lia). lia. }
    repeat (split; [first [exact Hto|exact Hain'|exact Haout'|lia]|]). intros; lia.
Qed.

Definition out_le (z : bool) (l P r x : Z) : Prop :=
  if z then x * Q96 <= l * (P - r) else x * (P * r) <= l * Q96 * (r - P).
Lemma out_floor_le z l P r x : out_floor z l P r x -> out_le z l P r x.
Proof. unfold out_floor, out_le, floor0, floor1. destruct z; lia. Qed.
Lemma out_le_mono z l P r x y : 0 <= P -> 0 <= r -> y <= x -> out_le z l P r x -> out_le z l P r y.
Proof.
  unfold out_le. intros HP Hr Hy. destruct z; [unfold Q96; lia|].
  assert (y * (P * r) <= x * (P * r)) by (apply Z.mul_le_mono_nonneg_r; [apply Z.mul_nonneg_nonneg; lia|lia]). lia.
Qed.
Lemma floor_ge z l P r x y : 0 < P -> 0 < r -> out_floor z l P r y -> out_le z l P r x -> x <= y.
Proof.
  unfold out_floor, out_le, floor0, floor1. intros HP Hr H H2. apply Z.nlt_ge. intros C. destruct z; [unfold Q96 in *; lia|].
  assert (0 < P * r) by (apply Z.mul_pos_pos; lia).
  assert ((y + 1) * (P * r) <= x * (P * r)) by (apply Z.mul_le_mono_nonneg_r; lia). lia.
Qed.
(** with prices of at least 2^32 the input of one step is below 2^225 *)
Lemma in_bound (z : bool) l P r x : priceR P -> priceR r -> (if z then r <= P else P <= r) -> liqR l ->
  0 <= x -> in_ceil z l P r x -> x < 2 ^ 225.
Proof.
  unfold in_ceil, priceR. intros HP Hr Hd Hl Hx H. destruct (liq_n1 l Hl) as [_ Hn]. destruct z.
  - unfold ceil0 in H. set (n := l * Q96) in *. clearbody n.
    assert (n * (P - r) <= n * P) by (apply Z.mul_le_mono_nonneg_l; lia).
    apply Z.nle_gt. intros C. 
    assert (2 ^ 225 * (r * P) <= x * (r * P)) by (apply Z.mul_le_mono_nonneg_r; [apply Z.mul_nonneg_nonneg; lia|lia]).
    assert (2 ^ 32 * P <= r * P) by (apply Z.mul_le_mono_nonneg_r; lia).
    assert (n * P <= T256 * P) by (apply Z.mul_le_mono_nonneg_r; lia). lia.
  - unfold ceil1 in H. destruct (liq_delta l (r - P) Hl ltac:(lia)) as [_ H2]. unfold Q96 in *. lia.
Qed.

Lemma step_exactout P T l rem f s : priceR P -> priceR T -> liqR l -> T255 <= rem < T256 -> 0 <= f < MaxFee ->
  ComputeSwapStep P T l rem f = Ok s ->
  let z := T <=? P in let want := T256 - rem in
  toward P T (stNext s) /\ in_ceil z l P (stNext s) (stIn s) /\ out_le z l P (stNext s) (stOut s) /\
  0 <= stIn s < 2 ^ 225 /\ 0 <= stOut s <= want /\
  stIn s * f <= stFee s * (MaxFee - f) < stIn s * f + (MaxFee - f) /\
  (stNext s <> T -> stOut s = want).
Proof.
  intros HP HT Hl Hrem Hf E z want. unfold ComputeSwapStep in E. cbv zeta in E. fold z in E.
  rewrite usign_nonneg in E by lia. replace (rem <? T255) with false in E by lia.
  rewrite (Z.mod_small f W) in E by (unfold MaxFee in Hf; lia). rewrite usub_fee in E by lia.
  rewrite uneg_pos in E by lia. fold want in E. assert (Hw : 0 < want <= T255) by (unfold want; lia). clearbody want.
  apply bind_ok in E as (((nxt & ain0) & aout0) & E1 & E).
  apply bind_ok in E1 as (aout & Eaout & E1). apply bind_ok in E1 as (next & Enext & E1).
  injection E1 as <- <- <-.
  assert (Hz : if z then T <= P else P <= T) by (unfold z; destruct (T <=? P) eqn:?; lia).
  apply out_amount in Eaout as [Haout Ra]; try assumption.
  assert (HN : (next = T /\ aout <= want) \/ (want < aout /\ toward P T next /\ out_le z l P next want)).
  { destruct (aout <=? want) eqn:C.
    - injection Enext as <-. left. lia.
    - right. split; [lia|]. unfold toward, out_le. fold z. unfold out_floor in Haout. destruct z.
      + eapply (output_down_target P T l want aout) in Enext as [N1 N2]; try assumption; lia.
      + eapply (output_up_target P T l want aout) in Enext as [N1 N2]; try assumption; lia. }
  clear Enext.
  assert (Hto : toward P T next) by (destruct HN as [[-> _]|(_ & H & _)]; [unfold toward; destruct (T <=? P) eqn:?; lia|exact H]).
  assert (Hnd : if z then next <= P else P <= next) by (unfold toward in Hto; fold z in Hto; destruct z; lia).
  assert (Hnr : priceR next) by (unfold toward, priceR in *; destruct (T <=? P); lia).
  apply bind_ok in E as (ain' & Eain' & E). apply bind_ok in E as (aout' & Eaout' & E).
  cbn [negb andb] in E, Eaout'. rewrite andb_true_r in Eaout'. rewrite andb_false_r in Eain'.
  apply in_amount in Eain' as [Hain' Ri]; try assumption.
  pose proof (in_bound z l P next ain' HP Hnr Hnd Hl ltac:(lia) Hain') as Hib.
  apply bind_ok in E as (fee & Efee & E). injection E as <-. cbn [stNext stIn stOut stFee].
  assert (Ho : out_floor z l P next aout' /\ 0 <= aout').
  { destruct (T =? next) eqn:C.
    - injection Eaout' as <-. apply Z.eqb_eq in C. subst next. split; [assumption|lia].
    - apply out_amount in Eaout' as [H1 H2]; try assumption. split; [assumption|lia]. }
  destruct Ho as [Ho Ho0]. apply out_floor_le in Ho as Hole.
  assert (Hfee : ain' * f <= fee * (MaxFee - f) < ain' * f + (MaxFee - f)).
  { apply MulDivRoundingUp_ceil in Efee; [lia|lia|lia|lia|].
    assert (ain' * f <= 2 ^ 225 * MaxFee) by (apply Z.mul_le_mono_nonneg; lia).
    assert ((T256 - 1) * 1 <= (T256 - 1) * (MaxFee - f)) by (apply Z.mul_le_mono_nonneg_l; lia).
    unfold MaxFee in *. lia. }
  unfold priceR in *.
  assert (Hout : out_le z l P next (if want <? aout' then want else aout')).
  { eapply out_le_mono; [| | |exact Hole]; [lia|lia|]. destruct (want <? aout') eqn:?; lia. }
  repeat (split; [first [exact Hto|exact Hain'|exact Hout|destruct (want <? aout') eqn:?; lia]|]).
  intros Hne. destruct HN as [[? _]|(_ & _ & Hw2)]; [contradiction|].
  pose proof (floor_ge z l P next want aout' ltac:(lia) ltac:(lia) Ho Hw2). destruct (want <? aout') eqn:?; lia.
Qed.

Lemma step_not_fuel P T l rem f : ComputeSwapStep P T l rem f <> OutOfFuel.
Proof.
  assert (B : forall A B (x : res A) (f : A -> res B), x <> OutOfFuel -> (forall a, f a <> OutOfFuel) -> bind x f <> OutOfFuel)
    by (intros A B [| |] g H1 H2; cbn; [apply H2|discriminate|congruence]).
  assert (I : forall b, invariant b <> OutOfFuel) by (intros []; discriminate).
  assert (A0 : forall a b l u, GetAmount0Delta a b l u <> OutOfFuel).
  { intros a b l' u. unfold GetAmount0Delta. destruct (ordered a b). destruct u; apply B; intros; try discriminate;
    auto using MulDiv_not_fuel, MulDivRoundingUp_not_fuel. }
  assert (A1 : forall a b l u, GetAmount1Delta a b l u <> OutOfFuel).
  { intros a b l' u. unfold GetAmount1Delta. destruct (ordered a b). destruct u; auto using MulDiv_not_fuel, MulDivRoundingUp_not_fuel. }
  assert (N0 : forall a b l u, getNextSqrtPriceFromAmount0RoundingUp a b l u <> OutOfFuel).
  { intros a b l' u. unfold getNextSqrtPriceFromAmount0RoundingUp. destruct (l' =? 0); [discriminate|]. cbv zeta.
    destruct u; [destruct (_ && _)|]; apply MulDivRoundingUp_not_fuel. }
  assert (N1 : forall a b l u, getNextSqrtPriceFromAmount1RoundingDown a b l u <> OutOfFuel).
  { intros a b l' u. unfold getNextSqrtPriceFromAmount1RoundingDown. destruct u; [discriminate|].
    apply B; [apply MulDivRoundingUp_not_fuel|discriminate]. }
  assert (NI : forall a b l u, GetNextSqrtPriceFromInput a b l u <> OutOfFuel).
  { intros a b l' u. unfold GetNextSqrtPriceFromInput. apply B; [apply I|intros _]. apply B; [apply I|intros _]. destruct u; auto. }
  assert (NO : forall a b l u, GetNextSqrtPriceFromOutput a b l u <> OutOfFuel).
  { intros a b l' u. unfold GetNextSqrtPriceFromOutput. apply B; [apply I|intros _]. apply B; [apply I|intros _]. destruct u; auto. }
  unfold ComputeSwapStep. cbv zeta. apply B.
  - destruct (0 <=? usign rem); (apply B; [destruct (T <=? P); auto|intros a]); (apply B; [destruct (_ <=? _); [discriminate|auto]|discriminate]).
  - intros ((n & a) & b). apply B; [destruct (_ && _); [discriminate|destruct (T <=? P); auto]|intros a'].
    apply B; [destruct (_ && _); [discriminate|destruct (T <=? P); auto]|intros b'].
    apply B; [destruct (_ && _); [discriminate|apply MulDivRoundingUp_not_fuel]|discriminate].
Qed.
