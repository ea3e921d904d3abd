(** PoolPos.v -- position keys, position updates, collect and flash. *)
From Coq Require Import ZifyBool String.
From Verif Require Import Base U256Z FullMathFacts SwapMath SwapMathFacts LiqFacts TickMath TickMathFacts TickData TickDataFacts TickSearch Ledger Pool PoolTable PoolInv PoolOps PoolMint.
Ltac Zify.zify_post_hook ::= idtac.
Open Scope Z_scope.

(** ** position keys *)
(** the code point a tick is turned into *)
Definition runeOf (t : Z) : Z := if validRune t then t else 65533.

(** reading one UTF-8 code point *)
Definition decodeRune (s : list Z) : option (Z * list Z) :=
  match s with
  | a :: s1 =>
      if a <? 128 then Some (a, s1)
      else match s1 with
      | b :: s2 =>
          if a <? 224 then Some ((a - 192) * 64 + (b - 128), s2)
          else match s2 with
          | c :: s3 =>
              if a <? 240 then Some ((a - 224) * 4096 + (b - 128) * 64 + (c - 128), s3)
              else match s3 with
              | d :: s4 => Some ((a - 240) * 262144 + (b - 128) * 4096 + (c - 128) * 64 + (d - 128), s4)
              | [] => None
              end
          | [] => None
          end
      | [] => None
      end
  | [] => None
  end.

Lemma decode_rune t s : decodeRune (runeString t ++ s) = Some (runeOf t, s).
Proof.
  unfold runeString, runeOf. destruct (validRune t) eqn:V; cbn [negb]; [|reflexivity]. unfold validRune in V.
  destruct (t <? 128) eqn:C1. { cbn [app decodeRune]. now rewrite C1. }
  pose proof (Z.div_mod t 64 ltac:(lia)) as D1. pose proof (Z.mod_pos_bound t 64 ltac:(lia)) as M1.
  destruct (t <? 2048) eqn:C2.
  { cbn [app decodeRune]. replace (192 + t / 64 <? 128) with false by lia. replace (192 + t / 64 <? 224) with true by lia. f_equal. f_equal. lia. }
  assert (t / 4096 = t / 64 / 64) as E2 by (rewrite Z.div_div by lia; reflexivity).
  pose proof (Z.div_mod (t / 64) 64 ltac:(lia)) as D2. pose proof (Z.mod_pos_bound (t / 64) 64 ltac:(lia)) as M2. rewrite <- E2 in D2.
  destruct (t <? 65536) eqn:C3.
  { cbn [app decodeRune]. replace (224 + t / 4096 <? 128) with false by lia. replace (224 + t / 4096 <? 224) with false by lia.
    replace (224 + t / 4096 <? 240) with true by lia. f_equal. f_equal. lia. }
  assert (t / 262144 = t / 4096 / 64) as E3 by (rewrite Z.div_div by lia; reflexivity).
  pose proof (Z.div_mod (t / 4096) 64 ltac:(lia)) as D3. pose proof (Z.mod_pos_bound (t / 4096) 64 ltac:(lia)) as M3. rewrite <- E3 in D3.
  cbn [app decodeRune]. replace (240 + t / 262144 <? 128) with false by lia. replace (240 + t / 262144 <? 224) with false by lia.
  replace (240 + t / 262144 <? 240) with false by lia. f_equal. f_equal. lia.
Qed.

Lemma posKey_iff l u l' u' : posKey l u = posKey l' u' <-> runeOf l = runeOf l' /\ runeOf u = runeOf u'.
Proof.
  unfold posKey. split.
  - intros E. pose proof (decode_rune l (45 :: runeString u)) as D. rewrite E, decode_rune in D. injection D as D1 D2.
    pose proof (decode_rune u []) as D. rewrite <- D2, decode_rune in D. injection D as D3. auto.
  - intros [E1 E2].
    assert (forall a b, runeOf a = runeOf b -> runeString a = runeString b) as K.
    { intros a b. unfold runeOf, runeString. destruct (validRune a) eqn:A; destruct (validRune b) eqn:B; cbn [negb]; intros H; [now rewrite H|..|reflexivity]; subst; reflexivity. }
    now rewrite (K _ _ E1), (K _ _ E2).
Qed.

(** ** position updates *)
Lemma words_Q128 : words Q128 = 3. Proof. reflexivity. Qed.

Lemma MulDiv_Q128 x l : is_u256 x -> 0 <= l < 2 ^ 192 ->
  (MulDiv x l Q128 = Panic <-> 0 < x * l < 2 ^ 64) /\ (forall r, MulDiv x l Q128 = Ok r -> r = (x * l / 2 ^ 128) mod T256).
Proof.
  intros Hx Hl. unfold is_u256 in Hx. split; [|intros r E; apply MulDiv_ok in E; [exact E|lia|lia|unfold Q128; lia]].
  assert (0 <= x * l < 2 ^ 448) as HB by (split; [apply Z.mul_nonneg_nonneg; lia|]; apply Z.le_lt_trans with (T256 * l); [apply Z.mul_le_mono_nonneg_r; lia|]; change (2 ^ 448) with (T256 * 2 ^ 192); apply Z.mul_lt_mono_pos_l; lia).
  assert (W = 2 ^ 64) as EW by reflexivity.
  unfold MulDiv. destruct ((x =? 0) || (l =? 0)) eqn:C0. { split; [discriminate|]. intros H. exfalso. apply orb_prop in C0. destruct C0 as [C0|C0]; apply Z.eqb_eq in C0; subst; lia. }
  assert (0 < x * l) as Hpos by (apply Z.mul_pos_pos; lia).
  destruct (udivrem5_ok (x * l) Q128) eqn:U; (split; [|]); try discriminate; try reflexivity.
  - intros H. exfalso. unfold udivrem5_ok in U. rewrite words_Q128 in U.
    assert (words (x * l) <= 1) by (apply words_spec; [lia|lia|change (W ^ 1) with W; lia]). lia.
  - intros _. split; [assumption|]. destruct (Z_lt_le_dec (x * l) (2 ^ 64)) as [H|H]; [assumption|]. exfalso.
    assert (words (x * l) <= 7) by (apply words_spec; [lia|lia|change (W ^ 7) with (2 ^ 448); lia]).
    assert (~ words (x * l) <= 1) by (intros K; apply words_spec in K; [change (W ^ 1) with W in K; lia|lia|lia]).
    unfold udivrem5_ok in U. rewrite words_Q128 in U. change (Q128 =? 0) with false in U. lia.
Qed.

(** the fee share credited to a position *)
Definition creditOf (liq now last : Z) : Z := liq * ((now - last) mod T256) / 2 ^ 128.

Lemma update_value i d x0 x1 i' : is_u256 (pLiquidity i) -> InfoUpdate i d x0 x1 = Ok i' ->
  i' = mkInfo ((pLiquidity i + d) mod T256) x0 x1
         ((pOwed0 i + creditOf (pLiquidity i) x0 (pLast0 i)) mod T256) ((pOwed1 i + creditOf (pLiquidity i) x1 (pLast1 i)) mod T256).
Proof.
  intros Hl E. unfold is_u256 in Hl. unfold InfoUpdate in E. cbv zeta in E. apply bind_inv in E as (a & Ea & E). apply bind_inv in E as (b & Eb & E). injection E as <-.
  apply MulDiv_ok in Ea; [|apply usub_range|lia|unfold Q128; lia]. apply MulDiv_ok in Eb; [|apply usub_range|lia|unfold Q128; lia].
  subst a b. unfold uadd, creditOf, usub. rewrite !Zplus_mod_idemp_r. f_equal; f_equal; f_equal; rewrite Z.mul_comm; reflexivity.
Qed.
Lemma update_panics i d x0 x1 : 0 <= pLiquidity i < 2 ^ 192 ->
  InfoUpdate i d x0 x1 = Panic <->
    0 < pLiquidity i * ((x0 - pLast0 i) mod T256) < 2 ^ 64 \/ 0 < pLiquidity i * ((x1 - pLast1 i) mod T256) < 2 ^ 64.
Proof.
  intros Hl. unfold InfoUpdate. cbv zeta. rewrite !(Z.mul_comm (pLiquidity i)). fold (usub x0 (pLast0 i)). fold (usub x1 (pLast1 i)).
  destruct (MulDiv_Q128 (usub x0 (pLast0 i)) (pLiquidity i) (usub_range _ _) Hl) as [<- _]. destruct (MulDiv_Q128 (usub x1 (pLast1 i)) (pLiquidity i) (usub_range _ _) Hl) as [<- _].
  destruct (MulDiv (usub x0 (pLast0 i)) (pLiquidity i) Q128) eqn:E0; [|cbn [bind]; tauto|now apply MulDiv_not_fuel in E0].
  destruct (MulDiv (usub x1 (pLast1 i)) (pLiquidity i) Q128) eqn:E1; [|cbn [bind]; tauto|now apply MulDiv_not_fuel in E1]. cbn [bind]. split; [discriminate|intros [H|H]; discriminate].
Qed.
Lemma update_not_fuel i d x0 x1 : InfoUpdate i d x0 x1 <> OutOfFuel.
Proof.
  unfold InfoUpdate. cbv zeta. destruct (MulDiv _ _ _) eqn:E0; cbn [bind]; [|discriminate|now apply MulDiv_not_fuel in E0].
  destruct (MulDiv (usub x1 _) _ _) eqn:E1; cbn [bind]; [discriminate|discriminate|now apply MulDiv_not_fuel in E1].
Qed.

(** a list of growth values at which a position of constant liquidity is updated *)
Fixpoint creditSum (liq last : Z) (xs : list Z) : Z :=
  match xs with [] => 0 | x :: xs => creditOf liq x last + creditSum liq x xs end.
Fixpoint ascending (last : Z) (xs : list Z) : Prop := match xs with [] => last < T256 | x :: xs => last <= x /\ ascending x xs end.

Lemma ascending_lt : forall xs a, ascending a xs -> a < T256.
Proof. induction xs as [|x xs IH]; intros a; cbn [ascending]; [auto|]. intros [H1 H2]. specialize (IH x H2). lia. Qed.
Lemma ascending_last : forall xs a, ascending a xs -> a <= last xs a < T256.
Proof.
  induction xs as [|x xs IH]; intros a; cbn [ascending last]; [lia|]. intros [H1 H2]. specialize (IH x H2). destruct xs; [cbn in *; lia|].
  assert (forall d d', last (z :: xs) d = last (z :: xs) d') as K. { clear. revert z. induction xs as [|y xs IH]; intros z d d'; [reflexivity|]. cbn [last] in *. apply IH. }
  rewrite (K a x). lia.
Qed.

Lemma floor_add a b q : 0 < q -> a / q + b / q <= (a + b) / q <= a / q + b / q + 1.
Proof.
  intros Hq. pose proof (Z.div_mod a q ltac:(lia)) as Da. pose proof (Z.mod_pos_bound a q Hq) as Ma. pose proof (Z.div_mod b q ltac:(lia)) as Db. pose proof (Z.mod_pos_bound b q Hq) as Mb.
  split.
  - apply Z.div_le_lower_bound; [assumption|]. rewrite Z.mul_add_distr_l. lia.
  - assert ((a + b) / q < a / q + b / q + 2); [|lia]. apply Z.div_lt_upper_bound; [assumption|]. rewrite !Z.mul_add_distr_l. lia.
Qed.

(** crediting in parts loses at most one unit per part and never gains *)
Lemma parts_credit liq : 0 <= liq -> forall xs a, 0 <= a -> ascending a xs ->
  creditSum liq a xs <= creditOf liq (last xs a) a <= creditSum liq a xs + Z.of_nat (length xs).
Proof.
  intros Hl. assert (forall a b, 0 <= a <= b -> b < T256 -> creditOf liq b a = liq * (b - a) / 2 ^ 128) as K by (intros; unfold creditOf; rewrite Z.mod_small by lia; reflexivity).
  induction xs as [|x xs IH]; intros a Ha HA; cbn [creditSum last length].
  - cbn [ascending] in HA. rewrite K by lia. rewrite Z.sub_diag, Z.mul_0_r. cbn. lia.
  - cbn [ascending] in HA. destruct HA as [H1 H2]. specialize (IH x ltac:(lia) H2). pose proof (ascending_last xs x H2) as HL.
    assert ((match xs with [] => x | _ :: _ => last xs a end) = last xs x) as ->.
    { destruct xs as [|y xs]; [reflexivity|]. clear. revert y. induction xs as [|z xs IH]; intros y; [reflexivity|]. cbn [last] in *. apply IH. }
    rewrite (K a x) by lia. rewrite (K a (last xs x)) by lia. rewrite (K x (last xs x)) in IH by lia.
    pose proof (floor_add (liq * (x - a)) (liq * (last xs x - x)) (2 ^ 128) ltac:(lia)) as F.
    replace (liq * (x - a) + liq * (last xs x - x)) with (liq * (last xs x - a)) in F by ring. lia.
Qed.

(** updates with no change of liquidity, one after the other *)
Fixpoint pokes (i : Info) (xs : list (Z * Z)) : res Info :=
  match xs with [] => Ok i | (x0, x1) :: xs => do i' <- InfoUpdate i 0 x0 x1; pokes i' xs end.

Lemma pokes_value : forall xs i i', is_u256 (pLiquidity i) -> is_u256 (pOwed0 i) -> is_u256 (pOwed1 i) -> pokes i xs = Ok i' ->
  pLiquidity i' = pLiquidity i /\ pLast0 i' = last (map fst xs) (pLast0 i) /\ pLast1 i' = last (map snd xs) (pLast1 i) /\
  pOwed0 i' = (pOwed0 i + creditSum (pLiquidity i) (pLast0 i) (map fst xs)) mod T256 /\
  pOwed1 i' = (pOwed1 i + creditSum (pLiquidity i) (pLast1 i) (map snd xs)) mod T256.
Proof.
  induction xs as [|[x0 x1] xs IH]; intros i i' Hl H0 H1 E; cbn [pokes] in E.
  - injection E as <-. cbn. unfold is_u256 in *. rewrite !Z.add_0_r, !Z.mod_small by lia. auto.
  - apply bind_inv in E as (j & E1 & E). apply update_value in E1; [|assumption]. subst j. unfold is_u256 in *.
    apply IH in E; cbn [pLiquidity pOwed0 pOwed1 pLast0 pLast1] in *; [|apply Z.mod_pos_bound; lia..].
    rewrite Z.add_0_r, (Z.mod_small (pLiquidity i)) in E by assumption. destruct E as (E1 & E2 & E3 & E4 & E5).
    split; [assumption|]. cbn [map fst snd creditSum]. rewrite E4, E5, !Zplus_mod_idemp_l, !Z.add_assoc. split; [|split; [|split; reflexivity]].
    + rewrite E2. destruct (map fst xs) as [|y l] eqn:Q; [reflexivity|]. cbn [last]. clear. revert y. induction l as [|z l IH]; intros y; [reflexivity|]. apply IH.
    + rewrite E3. destruct (map snd xs) as [|y l] eqn:Q; [reflexivity|]. cbn [last]. clear. revert y. induction l as [|z l IH]; intros y; [reflexivity|]. apply IH.
Qed.

(** ** collect *)
Lemma collect_spec p l u : (posGet (Pos p) (posKey l u) = None -> CollectStrategy p l u = Panic) /\
  forall i, posGet (Pos p) (posKey l u) = Some i -> exists p',
    CollectStrategy p l u = Ok (p', pOwed0 i, pOwed1 i) /\ with_pos p' (Pos p) = p /\
    forall k, posGet (Pos p') k = if keyEq (posKey l u) k then Some (mkInfo (pLiquidity i) (pLast0 i) (pLast1 i) 0 0) else posGet (Pos p) k.
Proof.
  unfold CollectStrategy. split; [intros ->; reflexivity|]. intros i ->. eexists. split; [reflexivity|]. split; [destruct p; reflexivity|].
  intros k. cbn [with_pos Pos]. apply posGet_put.
Qed.

(** ** flash *)
Lemma flash_spec p a0 a1 p' : is_u256 a0 -> is_u256 a1 -> is_u256 (Liquidity p) -> 0 <= Fee p < 1000000 -> Flash p a0 a1 = Ok p' ->
  0 < Liquidity p /\ exists f0 f1,
    f0 = (a0 * Fee p + 999999) / 1000000 /\ f1 = (a1 * Fee p + 999999) / 1000000 /\
    p' = mkPool (Token0 p) (Token1 p) (Fee p) (SqrtRatio p) (Liquidity p)
           ((FeeGrowth0 p + f0 * 2 ^ 128 / Liquidity p) mod T256) ((FeeGrowth1 p + f1 * 2 ^ 128 / Liquidity p) mod T256)
           (TickSpacing p) (TickCurrent p) (Data p) (Pos p).
Proof.
  intros H0 H1 HL HF E. unfold Flash in E. apply bind_inv in E as ([] & E0 & E). apply invariant_inv in E0. apply usign_1 in E0; [|assumption]. unfold is_u256 in *.
  rewrite (Z.mod_small (Fee p)) in E by lia.
  assert (forall a, 0 <= a < T256 -> 0 <= a * Fee p <= (T256 - 1) * 1000000) as HB.
  { intros a Ha. split; [apply Z.mul_nonneg_nonneg; lia|]. apply Z.mul_le_mono_nonneg; lia. }
  apply bind_inv in E as (f0 & E1 & E). apply bind_inv in E as (f1 & E2 & E). apply bind_inv in E as (g0 & E3 & E). apply bind_inv in E as (g1 & E4 & E). injection E as <-.
  split; [lia|]. exists f0, f1.
  assert (forall a f, 0 <= a < T256 -> MulDivRoundingUp a (Fee p) 1000000 = Ok f -> f = (a * Fee p + 999999) / 1000000) as KU.
  { intros a f Ha Ef. apply MulDivRoundingUp_ceil in Ef; [|lia|lia|lia|apply HB; lia]. 
    pose proof (HB a Ha). pose proof (Z.div_mod (a * Fee p + 999999) 1000000 ltac:(lia)). pose proof (Z.mod_pos_bound (a * Fee p + 999999) 1000000 ltac:(lia)). lia. }
  split; [now apply KU|]. split; [now apply KU|].
  pose proof (MulDivRoundingUp_range _ _ _ _ E1). pose proof (MulDivRoundingUp_range _ _ _ _ E2).
  apply MulDiv_ok in E3; [|lia|unfold Q128; lia|lia]. apply MulDiv_ok in E4; [|lia|unfold Q128; lia|lia]. subst g0 g1. unfold uadd. rewrite !Zplus_mod_idemp_r. reflexivity.
Qed.
