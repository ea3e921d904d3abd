(** SwapMathFacts.v -- rounding and direction facts about sqrtprice_math and swapmath. *)
From Verif Require Import Base U256Z FullMathFacts SwapMath.
From Coq Require Import ZifyBool.
Ltac Zify.zify_post_hook ::= idtac.

Definition price (x : Z) : Prop := 0 < x < T256.

Lemma ordered_le a b : a <= b -> ordered a b = (a, b).
Proof. intros. unfold ordered. replace (b <? a) with false by lia. reflexivity. Qed.
Lemma ordered_sym a b : ordered a b = ordered b a.
Proof. unfold ordered. destruct (b <? a) eqn:E1; destruct (a <? b) eqn:E2; try reflexivity; try lia. 
  replace b with a by lia. reflexivity. Qed.

Lemma GetAmount0Delta_sym a b l u : GetAmount0Delta a b l u = GetAmount0Delta b a l u.
Proof. unfold GetAmount0Delta. now rewrite ordered_sym. Qed.
Lemma GetAmount1Delta_sym a b l u : GetAmount1Delta a b l u = GetAmount1Delta b a l u.
Proof. unfold GetAmount1Delta. now rewrite ordered_sym. Qed.

Lemma mul_lt_bound n1 a b : 0 <= n1 < T256 -> 0 < a <= b -> n1 * (b - a) <= (T256 - 1) * b.
Proof. intros. apply Z.mul_le_mono_nonneg; lia. Qed.

(** amount0, rounded down: the exact floor of n1*(b-a)/(a*b), n1 = liquidity*2^96 mod 2^256 *)
Lemma GetAmount0Delta_down a b l r : 0 < a <= b -> b < T256 -> GetAmount0Delta a b l false = Ok r ->
  let n1 := ulsh l 96 in
  r * (a * b) <= n1 * (b - a) < (r + 1) * (a * b) /\ 0 <= r < T256.
Proof.
  intros Ha Hb. unfold GetAmount0Delta. rewrite ordered_le by lia. rewrite usub_small by lia.
  pose proof (ulsh_range l 96) as Hn. cbv zeta. set (n1 := ulsh l 96) in *. clearbody n1.
  destruct (MulDiv n1 (b - a) b) as [x| |] eqn:E; [|discriminate|discriminate]. cbn [bind]. intros [= <-].
  pose proof (mul_lt_bound n1 a b Hn Ha).
  apply MulDiv_floor in E; [|lia|lia|lia|lia]. destruct E as (_ & E & Hx).
  unfold udiv. replace (a =? 0) with false by lia.
  pose proof (Z.div_mod x a ltac:(lia)) as D. pose proof (Z.mod_pos_bound x a ltac:(lia)) as M.
  assert (0 <= x / a) by (apply Z.div_pos; lia).
  assert (x / a <= x).
  { apply Z.div_le_upper_bound; [lia|]. assert (1 * x <= a * x) by (apply Z.mul_le_mono_nonneg_r; lia). lia. }
  set (q := x / a) in *. set (m := x mod a) in *. clearbody q m. split; [|lia].
  assert (E1 : x * b = a * q * b + m * b) by (rewrite D; ring).
  assert (0 <= m * b) by (apply Z.mul_nonneg_nonneg; lia).
  assert (m * b <= (a - 1) * b) by (apply Z.mul_le_mono_nonneg_r; lia).
  replace (q * (a * b)) with (a * q * b) by ring.
  replace ((q + 1) * (a * b)) with (a * q * b + a * b) by ring. lia.
Qed.

(** rounded up: the exact ceiling *)
Lemma GetAmount0Delta_up a b l r : 0 < a <= b -> b < T256 -> GetAmount0Delta a b l true = Ok r ->
  let n1 := ulsh l 96 in
  n1 * (b - a) <= r * (a * b) < n1 * (b - a) + a * b /\ 0 <= r < T256.
Proof.
  intros Ha Hb. unfold GetAmount0Delta. rewrite ordered_le by lia. rewrite usub_small by lia.
  pose proof (ulsh_range l 96) as Hn. cbv zeta. set (n1 := ulsh l 96) in *. clearbody n1.
  destruct (MulDivRoundingUp n1 (b - a) b) as [x| |] eqn:E; [|discriminate|discriminate]. cbn [bind]. intros E2.
  pose proof (mul_lt_bound n1 a b Hn Ha).
  apply MulDivRoundingUp_ceil in E; [|lia|lia|lia|lia]. destruct E as (E & Hx).
  apply MulDivRoundingUp_ceil in E2; [|lia|lia|lia|].
  2: { assert (x * 1 <= (T256 - 1) * 1) by lia. assert ((T256 - 1) * 1 <= (T256 - 1) * a) by (apply Z.mul_le_mono_nonneg_l; lia). lia. }
  destruct E2 as (E2 & Hr). split; [|assumption]. rewrite Z.mul_1_r in E2.
  assert (x * b <= r * a * b) by (apply Z.mul_le_mono_nonneg_r; lia).
  assert (r * a * b <= (x + a - 1) * b) by (apply Z.mul_le_mono_nonneg_r; lia).
  replace (r * (a * b)) with (r * a * b) by ring. lia.
Qed.

Lemma GetAmount1Delta_down a b l r : 0 <= l -> 0 <= a <= b -> b < T256 -> l * (b - a) < T256 * Q96 ->
  GetAmount1Delta a b l false = Ok r ->
  r * Q96 <= l * (b - a) < (r + 1) * Q96 /\ 0 <= r < T256.
Proof.
  intros Hl Ha Hb Hf. unfold GetAmount1Delta. rewrite ordered_le by lia. rewrite usub_small by lia. intros E.
  apply MulDiv_floor in E; unfold Q96 in *; lia.
Qed.
Lemma GetAmount1Delta_up a b l r : 0 <= l -> 0 <= a <= b -> b < T256 -> l * (b - a) <= (T256 - 1) * Q96 ->
  GetAmount1Delta a b l true = Ok r ->
  l * (b - a) <= r * Q96 < l * (b - a) + Q96 /\ 0 <= r < T256.
Proof.
  intros Hl Ha Hb Hf. unfold GetAmount1Delta. rewrite ordered_le by lia. rewrite usub_small by lia. intros E.
  apply MulDivRoundingUp_ceil in E; unfold Q96 in *; lia.
Qed.

(** * Next price *)
Lemma multiplyIn256_eq x y : multiplyIn256 x y = umul x y.
Proof. unfold multiplyIn256. apply land_max. apply umul_range. Qed.
Lemma addIn256_eq x y : addIn256 x y = uadd x y.
Proof. unfold addIn256. apply land_max. apply uadd_range. Qed.

(** the overflow test [product / amount == sqrtP] *)
Lemma mul_check amount p : 0 < amount < T256 -> 0 <= p < T256 ->
  (udiv (umul amount p) amount =? p) = true -> umul amount p = amount * p.
Proof.
  intros Ha Hp. unfold udiv. replace (amount =? 0) with false by lia. intros E. apply Z.eqb_eq in E.
  pose proof (umul_range amount p) as R. set (m := umul amount p) in *.
  assert (Hm : exists k, m = amount * p - T256 * k /\ 0 <= k).
  { exists (amount * p / T256). unfold m, umul. pose proof (Z.div_mod (amount * p) T256 ltac:(lia)).
    split; [lia|]. apply Z.div_pos; [apply Z.mul_nonneg_nonneg; lia|lia]. }
  destruct Hm as (k & Hm & Hk). clearbody m.
  pose proof (Z.div_mod m amount ltac:(lia)) as D. pose proof (Z.mod_pos_bound m amount ltac:(lia)).
  rewrite E in D. assert (k = 0) by lia. subst k. lia.
Qed.

(** Selling token0: the exact next price is n1*P/(n1 + amount*P); the result is at least that, at most P. *)
Lemma next0_add P l amount r : price P -> 0 < amount < T255 ->
  let n1 := ulsh l 96 in 0 < n1 ->
  (2 <= P) ->
  getNextSqrtPriceFromAmount0RoundingUp P l amount true = Ok r ->
  n1 * (P - r) <= amount * P * r /\ 0 < r <= P /\ (r - 1) * (n1 / P + amount) < n1 /\
  (n1 + amount * P < T256 -> (r - 1) * (n1 + amount * P) < n1 * P).
Proof.
  intros HP Ham n1 Hn1 HP2. unfold getNextSqrtPriceFromAmount0RoundingUp. replace (amount =? 0) with false by lia.
  fold n1. pose proof (ulsh_range l 96) as Hn. fold n1 in Hn. clearbody n1.
  rewrite multiplyIn256_eq, addIn256_eq. cbv zeta. unfold price in *.
  pose proof (Z.div_mod n1 P ltac:(lia)) as D. pose proof (Z.mod_pos_bound n1 P ltac:(lia)) as M.
  assert (0 <= n1 / P) by (apply Z.div_pos; lia).
  destruct (_ && _) eqn:E.
  - apply andb_true_iff in E as [E1 E2]. apply mul_check in E1; [|lia|lia].
    pose proof (umul_range amount P) as Rm. rewrite E1 in *. set (pr := amount * P) in *.
    assert (Hpr : 0 < pr) by (apply Z.mul_pos_pos; lia). 
    assert (Ed : uadd n1 pr = n1 + pr).
    { clearbody pr. unfold uadd in *. destruct (Z.lt_ge_cases (n1 + pr) T256); [apply Z.mod_small; lia|exfalso].
      assert ((n1 + pr) mod T256 = n1 + pr - T256) by (symmetry; apply Z.mod_unique_pos with (q := 1); lia). lia. }
    rewrite Ed. intros E.
    assert (Hq : n1 * P <= (T256 - 1) * (n1 + pr)).
    { rewrite Z.mul_comm. apply Z.mul_le_mono_nonneg; lia. }
    apply MulDivRoundingUp_ceil in E; [|lia|lia|lia|lia]. destruct E as [[E3 E4] E5].
    assert (Hnp : 0 < n1 * P) by (apply Z.mul_pos_pos; lia).
    assert (r <> 0) by (intros ->; lia).
    split; [|split; [split; [lia|]|split]].
    + replace (n1 * (P - r)) with (n1 * P - n1 * r) by ring. lia.
    + clearbody pr. apply Z.nlt_ge. intros C. assert ((P + 1) * (n1 + pr) <= r * (n1 + pr)) by (apply Z.mul_le_mono_nonneg_r; lia).
      assert (0 <= P * pr) by (apply Z.mul_nonneg_nonneg; lia). lia.
    + apply (Z.mul_lt_mono_pos_r P); [lia|].
      assert ((r - 1) * (P * (n1 / P)) <= (r - 1) * n1) by (apply Z.mul_le_mono_nonneg_l; lia).
      replace ((r - 1) * (n1 / P + amount) * P) with ((r - 1) * (P * (n1 / P)) + (r - 1) * pr) by (unfold pr; ring).
      clearbody pr. lia.
    + intros _. lia.
  - intros E'.
    unfold udiv in E'. replace (P =? 0) with false in E' by lia.
    assert (Hno : ~ n1 + amount * P < T256).
    { intros C. assert (0 < amount * P) by (apply Z.mul_pos_pos; lia).
      rewrite umul_small in E by lia. rewrite uadd_small in E by lia. unfold udiv in E.
      replace (amount =? 0) with false in E by lia. rewrite (Z.mul_comm amount P), Z.div_mul in E by lia. lia. }
    clear E. rename E' into E.
    set (q := n1 / P) in *. set (m := n1 mod P) in *. clearbody q m.
    assert (Hq2 : 2 * q <= P * q) by (apply Z.mul_le_mono_nonneg_r; lia).
    rewrite uadd_small in E by lia.
    assert (Hq : n1 * 1 <= (T256 - 1) * (q + amount)).
    { assert ((T256 - 1) * 1 <= (T256 - 1) * (q + amount)) by (apply Z.mul_le_mono_nonneg_l; lia). lia. }
    apply MulDivRoundingUp_ceil in E; [|lia|lia|lia|lia]. rewrite Z.mul_1_r in E. destruct E as [[E3 E4] E5].
    assert (r <> 0) by (intros ->; lia).
    split; [|split; [split; [lia|]|split; [lia|intros C; contradiction]]].
    + (* n1 <= r*(q+amount), P*q <= n1 *)
      assert (A : n1 * P <= r * (q + amount) * P) by (apply Z.mul_le_mono_nonneg_r; lia).
      assert (B : r * (P * q) <= r * n1) by (apply Z.mul_le_mono_nonneg_l; lia).
      replace (n1 * (P - r)) with (n1 * P - r * n1) by ring.
      replace (r * (q + amount) * P) with (r * (P * q) + amount * P * r) in A by ring. lia.
    + apply Z.nlt_ge. intros C.
      assert ((P + 1) * (q + amount) <= r * (q + amount)) by (apply Z.mul_le_mono_nonneg_r; lia).
      assert (P * 1 <= P * amount) by (apply Z.mul_le_mono_nonneg_l; lia). lia.
Qed.

(** Buying token0: the exact next price n1*P/(n1 - amount*P), rounded up. *)
Lemma next0_out P l amount r : price P -> 0 < amount ->
  let n1 := ulsh l 96 in amount * P < n1 -> n1 * P <= (T256 - 1) * (n1 - amount * P) ->
  getNextSqrtPriceFromAmount0RoundingUp P l amount false = Ok r ->
  n1 * P <= r * (n1 - amount * P) < n1 * P + (n1 - amount * P) /\ 0 <= r < T256.
Proof.
  intros HP Ham n1 Hlt Hq. unfold getNextSqrtPriceFromAmount0RoundingUp. replace (amount =? 0) with false by lia.
  fold n1. pose proof (ulsh_range l 96) as Hn. fold n1 in Hn. clearbody n1. unfold price in *.
  rewrite multiplyIn256_eq. cbv zeta. assert (0 < amount * P) by (apply Z.mul_pos_pos; lia).
  rewrite umul_small by lia. set (pr := amount * P) in *. clearbody pr.
  rewrite usub_small by lia. intros E. apply MulDivRoundingUp_ceil in E; lia.
Qed.
Lemma next0_zero P l add r : getNextSqrtPriceFromAmount0RoundingUp P l 0 add = Ok r -> r = P.
Proof. cbv [getNextSqrtPriceFromAmount0RoundingUp]. cbn [Z.eqb]. now intros [= <-]. Qed.

(** Selling token1: P + floor(amount*2^96 / l); for amount >= 2^160 the product is reduced mod 2^256 first. *)
Lemma next1_add P l amount r : price P -> 0 < l -> 0 <= amount < T256 ->
  getNextSqrtPriceFromAmount1RoundingDown P l amount true = Ok r ->
  exists q, r = uadd P q /\ q * l <= (amount * Q96) mod T256 < (q + 1) * l /\ 0 <= q.
Proof.
  intros HP Hl Ha. unfold getNextSqrtPriceFromAmount1RoundingDown. intros [= <-].
  assert (E : (if amount <=? MaxUint160 then udiv (ulsh amount 96) l else udiv (umul amount Q96) l)
              = (amount * Q96) mod T256 / l).
  { unfold udiv, ulsh, umul. replace (l =? 0) with false by lia. destruct (_ <=? _); reflexivity. }
  rewrite E. exists ((amount * Q96) mod T256 / l). split; [reflexivity|].
  pose proof (Z.mod_pos_bound (amount * Q96) T256 ltac:(lia)) as M. set (m := _ mod T256) in *. clearbody m.
  pose proof (Z.div_mod m l ltac:(lia)). pose proof (Z.mod_pos_bound m l ltac:(lia)).
  assert (0 <= m / l) by (apply Z.div_pos; lia). lia.
Qed.
(** Buying token1: P - ceil(amount*2^96 / l) *)
Lemma next1_out P l amount r : price P -> 0 < l -> 0 <= amount -> amount * Q96 <= (T256 - 1) * l ->
  getNextSqrtPriceFromAmount1RoundingDown P l amount false = Ok r ->
  exists q, r = usub P q /\ amount * Q96 <= q * l < amount * Q96 + l /\ 0 <= q < T256.
Proof.
  intros HP Hl Ha Hq. unfold getNextSqrtPriceFromAmount1RoundingDown.
  destruct (MulDivRoundingUp amount Q96 l) as [q| |] eqn:E; [|discriminate|discriminate].
  cbn [bind]. intros [= <-]. exists q. split; [reflexivity|].
  apply MulDivRoundingUp_ceil in E; [assumption|lia|unfold Q96; lia|lia|assumption].
Qed.

Lemma invariant_ok b u : invariant b = Ok u -> b = true.
Proof. unfold invariant. destruct b; [reflexivity|discriminate]. Qed.
Lemma bind_ok {A B} (x : res A) (f : A -> res B) b : bind x f = Ok b -> exists a, x = Ok a /\ f a = Ok b.
Proof. destruct x; cbn; [eauto|discriminate|discriminate]. Qed.

Lemma usign_1 l : usign l = 1 -> 0 <= l < T256 -> 0 < l < T255.
Proof. unfold usign. destruct (l =? 0) eqn:E; [lia|]. destruct (l <? T255) eqn:E2; lia. Qed.
Lemma usign_nonneg x : 0 <= x < T256 -> (0 <=? usign x) = (x <? T255).
Proof. unfold usign. destruct (x =? 0) eqn:E; destruct (x <? T255) eqn:E2; lia. Qed.

(** ranges in which the pool works: prices from 2^32 to 2^160 (MIN/MAX_SQRT_RATIO lie inside) and
    liquidity below 2^160 (2^128 is the maximum in the contracts) *)
Definition priceR (x : Z) : Prop := 2 ^ 32 <= x < 2 ^ 160.
Definition liqR (x : Z) : Prop := 0 <= x < 2 ^ 160.
Lemma liq_n1 l : liqR l -> ulsh l 96 = l * Q96 /\ 0 <= l * Q96 < T256.
Proof.
  unfold liqR, Q96. intros H. assert (0 <= l * 2 ^ 96 < T256) by lia.
  rewrite ulsh_small by lia. change (2 ^ 96) with 79228162514264337593543950336 in *. lia.
Qed.
Lemma liq_delta l d : liqR l -> 0 <= d < 2 ^ 160 -> 0 <= l * d <= (T256 - 1) * Q96 /\ l * d < 2 ^ 320.
Proof.
  unfold liqR, Q96. intros H Hd. assert (0 <= l * d) by (apply Z.mul_nonneg_nonneg; lia).
  assert (l * d <= (2 ^ 160 - 1) * (2 ^ 160 - 1)) by (apply Z.mul_le_mono_nonneg; lia).
  lia.
Qed.

(** the exact amounts of a price move, as inequalities over integers: x is the ceiling / the floor of
    l*2^96*(b-a)/(a*b) and of l*(b-a)/2^96 *)
Definition ceil0 (l a b x : Z) : Prop := l * Q96 * (b - a) <= x * (a * b) < l * Q96 * (b - a) + a * b.
Definition floor0 (l a b x : Z) : Prop := x * (a * b) <= l * Q96 * (b - a) < (x + 1) * (a * b).
Definition ceil1 (l a b x : Z) : Prop := l * (b - a) <= x * Q96 < l * (b - a) + Q96.
Definition floor1 (l a b x : Z) : Prop := x * Q96 <= l * (b - a) < (x + 1) * Q96.

Lemma amount0_up a b l x : liqR l -> 0 < a <= b -> b < 2 ^ 160 -> GetAmount0Delta a b l true = Ok x ->
  ceil0 l a b x /\ 0 <= x < T256.
Proof.
  intros Hl Ha Hb E. destruct (liq_n1 l Hl) as [En Hn]. apply GetAmount0Delta_up in E; [|lia|lia].
  cbv zeta in E. rewrite En in E. exact E.
Qed.
Lemma amount0_down a b l x : liqR l -> 0 < a <= b -> b < 2 ^ 160 -> GetAmount0Delta a b l false = Ok x ->
  floor0 l a b x /\ 0 <= x < T256.
Proof.
  intros Hl Ha Hb E. destruct (liq_n1 l Hl) as [En Hn]. apply GetAmount0Delta_down in E; [|lia|lia].
  cbv zeta in E. rewrite En in E. exact E.
Qed.
Lemma amount1_up a b l x : liqR l -> 0 <= a <= b -> b < 2 ^ 160 -> GetAmount1Delta a b l true = Ok x ->
  ceil1 l a b x /\ 0 <= x < T256.
Proof.
  intros Hl Ha Hb E. destruct (liq_delta l (b - a) Hl ltac:(lia)) as [H _].
  apply GetAmount1Delta_up in E; [exact E|unfold liqR in Hl; lia|lia|lia|lia].
Qed.
Lemma amount1_down a b l x : liqR l -> 0 <= a <= b -> b < 2 ^ 160 -> GetAmount1Delta a b l false = Ok x ->
  floor1 l a b x /\ 0 <= x < T256.
Proof.
  intros Hl Ha Hb E. destruct (liq_delta l (b - a) Hl ltac:(lia)) as [H _].
  apply GetAmount1Delta_down in E; [exact E|unfold liqR in Hl; lia|lia|lia|unfold Q96 in *; lia].
Qed.
