(** PricesFacts.v -- the price history is a ring buffer; its average and volatility. *)
From Coq Require Import ZifyBool.
From Verif Require Import Base U256Z Prices.
Ltac Zify.zify_post_hook ::= idtac.
Open Scope Z_scope.

Fixpoint addAll (p : Prices) (prices : list Z) : res Prices :=
  match prices with
  | [] => Ok p
  | x :: l => do p <- AddPrice p x; addAll p l
  end.

(** the last [n] of the zeros the buffer starts with and the squares of the prices so far *)
Definition window (n : nat) (squares : list Z) : list Z := skipn (length squares) (repeat 0 n ++ squares).
(** the buffer, oldest first *)
Definition oldestFirst (p : Prices) : list Z :=
  skipn (Z.to_nat (prIndex p)) (prPrices p) ++ firstn (Z.to_nat (prIndex p)) (prPrices p).

Lemma int64_id z : - 2 ^ 63 <= z < 2 ^ 63 -> int64 z = z.
Proof. intros H. unfold int64. rewrite Z.mod_small; change (2 ^ 64) with (2 ^ 63 + 2 ^ 63); lia. Qed.

Lemma setNth_some l : forall i v, (i < length l)%nat -> setNth l i v = Some (firstn i l ++ v :: skipn (S i) l).
Proof.
  induction l as [|x l IH]; intros i v H; [cbn in H; lia|]. destruct i as [|i]; cbn [setNth]; [reflexivity|].
  cbn in H. rewrite IH by lia. reflexivity.
Qed.
Lemma skipn_cons {A} (l : list A) i d : (i < length l)%nat -> skipn i l = nth i l d :: skipn (S i) l.
Proof.
  revert i. induction l as [|x l IH]; intros i H; [cbn in H; lia|]. destruct i as [|i]; [reflexivity|]. cbn in H. cbn [skipn nth]. apply IH. lia.
Qed.
Lemma skipn_S_tl {A} k (l : list A) : skipn (S k) l = tl (skipn k l).
Proof. revert l. induction k as [|k IH]; intros l; [destruct l; reflexivity|]. destruct l as [|x l]; [reflexivity|]. cbn [skipn]. rewrite <- IH. destruct l; reflexivity. Qed.

Definition ring (n : nat) (squares : list Z) (p : Prices) : Prop :=
  prLength p = Z.of_nat n /\ length (prPrices p) = n /\ prIndex p = Z.of_nat (length squares) mod Z.of_nat n /\
  oldestFirst p = window n squares.

Lemma Ok_inj {A} (a b : A) : Ok a = Ok b -> a = b.
Proof. congruence. Qed.
Lemma ring_new n p : 0 < n < 2 ^ 63 -> NewPrices n = Ok p -> ring (Z.to_nat n) [] p.
Proof.
  intros Hn E. unfold NewPrices in E. replace (0 <=? n) with true in E by lia. cbn [invariant bind] in E. injection E as <-.
  unfold ring, oldestFirst, window. cbn [prLength prPrices prIndex length]. rewrite Z2Nat.id by lia.
  split; [reflexivity|]. split; [now rewrite repeat_length|]. split; [now rewrite Z.mod_0_l by lia|]. cbn. now rewrite !app_nil_r.
Qed.
Lemma ring_add n sq p x p' : 0 < Z.of_nat n < 2 ^ 63 -> ring n sq p -> AddPrice p x = Ok p' -> ring n (sq ++ [umul x x]) p'.
Proof.
  intros Hn (HL & HP & HI & HO) E. unfold AddPrice in E. destruct (ursh (umul x x) 230 =? 0); cbn [invariant bind] in E; [|discriminate].
  assert (0 <= prIndex p < Z.of_nat n) as Hb by (rewrite HI; apply Z.mod_pos_bound; lia).
  replace (prIndex p <? 0) with false in E by lia.
  rewrite setNth_some in E by lia. apply Ok_inj in E. subst p'.
  set (i := Z.to_nat (prIndex p)) in *. assert (Z.of_nat i = prIndex p) as Ei by (unfold i; lia). assert (i < n)%nat as Hi by lia.
  assert (iadd (prIndex p) 1 = Z.of_nat (S i)) as Ea by (unfold iadd; rewrite int64_id; lia).
  assert (tl (oldestFirst p) ++ [umul x x] = window n (sq ++ [umul x x])) as HW.
  { rewrite HO. unfold window. rewrite app_length. cbn [length]. rewrite Nat.add_comm. cbn [Nat.add]. rewrite skipn_S_tl, app_assoc, (skipn_app (length sq) (repeat 0 n ++ sq)).
    assert (length sq - length (repeat 0%Z n ++ sq) = 0)%nat as E0 by (rewrite app_length; lia). rewrite E0. cbn [skipn].
    destruct (skipn (length sq) (repeat 0 n ++ sq)) as [|y l] eqn:Es; [|reflexivity].
    exfalso. apply (f_equal (@length Z)) in Es. rewrite skipn_length, app_length, repeat_length in Es. cbn in Es. lia. }
  unfold ring. cbn [prLength prPrices prIndex]. rewrite HL, Ea. split; [reflexivity|]. split.
  { rewrite app_length, firstn_length. cbn [length]. rewrite skipn_length. lia. }
  rewrite Z.rem_mod_nonneg by lia. split.
  { rewrite app_length. cbn [length]. replace (Z.of_nat (S i)) with (prIndex p + 1) by lia. rewrite HI.
    rewrite Zplus_mod_idemp_l. f_equal. lia. }
  rewrite <- HW. unfold oldestFirst. cbn [prPrices prIndex]. fold i. rewrite (skipn_cons (prPrices p) i 0) by lia. cbn [tl app].
  assert (length (firstn i (prPrices p)) = i) as Lf by (rewrite firstn_length; lia).
  destruct (Nat.eq_dec (S i) n) as [En|En].
  - rewrite En. rewrite Z_mod_same_full. cbn [Z.to_nat skipn firstn]. rewrite app_nil_r.
    assert (skipn n (prPrices p) = []) as Es by (apply skipn_all2; lia). rewrite Es. reflexivity.
  - rewrite Z.mod_small by lia. rewrite Nat2Z.id.
    assert (skipn (S i) (firstn i (prPrices p) ++ umul x x :: skipn (S i) (prPrices p)) = skipn (S i) (prPrices p)) as ->.
    { rewrite skipn_app, Lf. rewrite skipn_all2 by lia. replace (S i - i)%nat with 1%nat by lia. reflexivity. }
    assert (firstn (S i) (firstn i (prPrices p) ++ umul x x :: skipn (S i) (prPrices p)) = firstn i (prPrices p) ++ [umul x x]) as ->.
    { rewrite firstn_app, Lf. rewrite firstn_all2 by lia. replace (S i - i)%nat with 1%nat by lia. reflexivity. }
    now rewrite app_assoc.
Qed.
Lemma ring_addAll n prices : forall sq p p', 0 < Z.of_nat n < 2 ^ 63 -> ring n sq p -> addAll p prices = Ok p' ->
  ring n (sq ++ map (fun x => umul x x) prices) p'.
Proof.
  induction prices as [|x l IH]; intros sq p p' Hn HR E; cbn [addAll map] in *.
  - injection E as <-. now rewrite app_nil_r.
  - destruct (AddPrice p x) as [p1| |] eqn:E1; cbn [bind] in E; try discriminate.
    specialize (IH (sq ++ [umul x x]) p1 p' Hn (ring_add n sq p x p1 Hn HR E1) E). now rewrite <- app_assoc in IH.
Qed.

(** ** C47 *)
Definition sumZ (l : list Z) : Z := fold_right Z.add 0 l.
Lemma sumZ_app l m : sumZ (l ++ m) = sumZ l + sumZ m.
Proof. unfold sumZ. induction l as [|x l IH]; cbn [app fold_right]; [lia|]. rewrite IH. lia. Qed.
Lemma fold_uadd l : forall a, fold_left uadd l a mod T256 = (a + sumZ l) mod T256.
Proof.
  induction l as [|x l IH]; intros a; unfold sumZ in *; cbn [fold_left fold_right].
  - now rewrite Z.add_0_r.
  - rewrite IH. unfold uadd. rewrite Z.add_mod_idemp_l by discriminate. f_equal. lia.
Qed.
Lemma fold_uadd_small l : forall a, 0 <= a < T256 -> 0 <= fold_left uadd l a < T256.
Proof. induction l as [|x l IH]; intros a H; cbn [fold_left]; [assumption|]. apply IH. unfold uadd. apply Z.mod_pos_bound. reflexivity. Qed.
Lemma fold_uadd_sum l : fold_left uadd l 0 = sumZ l mod T256.
Proof. rewrite <- (Z.mod_small (fold_left uadd l 0) T256) by (apply fold_uadd_small; split; [discriminate|reflexivity]). now rewrite fold_uadd. Qed.
Lemma sumZ_oldest p : sumZ (oldestFirst p) = sumZ (prPrices p).
Proof.
  unfold oldestFirst. rewrite sumZ_app, Z.add_comm, <- sumZ_app. now rewrite firstn_skipn.
Qed.
Lemma Average_window n sq p : 0 < Z.of_nat n < 2 ^ 63 -> ring n sq p -> 0 <= sumZ (window n sq) < T256 -> Average p = sumZ (window n sq) / Z.of_nat n.
Proof.
  intros Hn (HL & HP & HI & HO) HS. unfold Average. rewrite fold_uadd_sum, <- sumZ_oldest, HO, HL. rewrite Z.mod_small by assumption.
  assert (Z.of_nat n mod W = Z.of_nat n) as -> by (apply Z.mod_small; change W with (2 ^ 64); change (2 ^ 64) with (2 * 2 ^ 63); lia).
  unfold udiv. replace (Z.of_nat n =? 0) with false by lia. reflexivity.
Qed.

(** stored squares stay below 2^230 *)
Lemma umul_range x y : 0 <= umul x y < T256.
Proof. apply Z.mod_pos_bound. reflexivity. Qed.
Lemma AddPrice_accepts p x p' : AddPrice p x = Ok p' -> 0 <= umul x x < 2 ^ 230.
Proof.
  intros E. unfold AddPrice in E. destruct (ursh (umul x x) 230 =? 0) eqn:H; cbn [invariant bind] in E; [|discriminate].
  apply Z.eqb_eq in H. pose proof (umul_range x x). unfold ursh in H. split; [lia|].
  apply Z.div_small_iff in H; [|discriminate]. destruct H as [H|H]; lia.
Qed.
Lemma addAll_accepts prices : forall p p', addAll p prices = Ok p' -> Forall (fun x => 0 <= umul x x < 2 ^ 230) prices.
Proof.
  induction prices as [|x l IH]; intros p p' E; cbn [addAll] in E; [constructor|].
  destruct (AddPrice p x) as [p1| |] eqn:E1; cbn [bind] in E; try discriminate. constructor; [now apply (AddPrice_accepts p x p1)|now apply (IH p1 p')].
Qed.
Lemma window_bounds n sq : Forall (fun v => 0 <= v < 2 ^ 230) sq -> Forall (fun v => 0 <= v < 2 ^ 230) (window n sq) /\ length (window n sq) = n.
Proof.
  intros H. unfold window. split; [|rewrite skipn_length, app_length, repeat_length; lia].
  assert (Forall (fun v => 0 <= v < 2 ^ 230) (repeat 0 n ++ sq)) as K.
  { apply Forall_app. split; [|assumption]. apply Forall_forall. intros v Hv. apply repeat_spec in Hv. subst. split; [discriminate|reflexivity]. }
  rewrite <- (firstn_skipn (length sq)) in K. apply Forall_app in K. apply K.
Qed.
Lemma sumZ_bounds l b : Forall (fun v => 0 <= v < b) l -> 0 <= sumZ l <= Z.of_nat (length l) * b.
Proof.
  unfold sumZ. induction 1 as [|x l Hx _ IH]; cbn [fold_right length]; [lia|]. rewrite Nat2Z.inj_succ. lia.
Qed.

Lemma sumZ_bounds_strict l b : Forall (fun v => 0 <= v < b) l -> sumZ l <= Z.of_nat (length l) * (b - 1).
Proof.
  unfold sumZ. induction 1 as [|x l Hx _ IH]; cbn [fold_right length]; [lia|]. rewrite Nat2Z.inj_succ. lia.
Qed.

(** ** C48: what Add accepts *)
Lemma AddPrice_ok_iff p x : 0 <= prIndex p -> (Z.to_nat (prIndex p) < length (prPrices p))%nat ->
  (exists p', AddPrice p x = Ok p') <-> (x * x) mod 2 ^ 256 < 2 ^ 230.
Proof.
  intros H1 H2. change ((x * x) mod 2 ^ 256) with (umul x x). split.
  - intros [p' E]. now apply AddPrice_accepts in E.
  - intros H. unfold AddPrice. pose proof (umul_range x x). assert (ursh (umul x x) 230 = 0) as -> by (unfold ursh; apply Z.div_small; lia).
    cbn [Z.eqb invariant bind]. replace (prIndex p <? 0) with false by lia. rewrite setNth_some by assumption. eauto.
Qed.
Lemma AddPrice_small p x : 0 <= x < 2 ^ 128 -> 0 <= prIndex p -> (Z.to_nat (prIndex p) < length (prPrices p))%nat ->
  ((exists p', AddPrice p x = Ok p') <-> x < 2 ^ 115) /\ umul x x = x * x.
Proof.
  intros Hx H1 H2.
  assert (0 <= x * x < T256) as Hs. { split; [now apply Z.mul_nonneg_nonneg|]. change T256 with (2 ^ 128 * 2 ^ 128). apply Z.mul_lt_mono_nonneg; lia. }
  assert (umul x x = x * x) as E by (unfold umul; now apply Z.mod_small).
  split; [|exact E]. rewrite (AddPrice_ok_iff p x H1 H2). change ((x * x) mod 2 ^ 256) with (umul x x). rewrite E.
  change (2 ^ 230) with (2 ^ 115 * 2 ^ 115). split; intros H.
  - destruct (Z.lt_ge_cases x (2 ^ 115)) as [K|K]; [assumption|]. exfalso. assert (2 ^ 115 * 2 ^ 115 <= x * x); [apply Z.mul_le_mono_nonneg; lia|lia].
  - apply Z.mul_lt_mono_nonneg; lia.
Qed.

(** ** Volatility *)
Lemma uabs_diff x avg : 0 <= x < 2 ^ 230 -> 0 <= avg < 2 ^ 230 -> uabs (usub x avg) = Z.abs (x - avg).
Proof.
  intros Hx Ha. change (2 ^ 230) with 1725436586697640946858688965569256363112777243042596638790631055949824 in *.
  unfold uabs, usub, uneg. change T256 with (2 ^ 256). change T255 with (2 ^ 255).
  change (2 ^ 256) with 115792089237316195423570985008687907853269984665640564039457584007913129639936 in *.
  change (2 ^ 255) with 57896044618658097711785492504343953926634992332820282019728792003956564819968 in *.
  destruct (Z.le_gt_cases avg x) as [H|H].
  - rewrite (Z.mod_small (x - avg)) by lia. replace (_ <? _) with true by lia. lia.
  - assert ((x - avg) mod 115792089237316195423570985008687907853269984665640564039457584007913129639936 = x - avg + 115792089237316195423570985008687907853269984665640564039457584007913129639936) as E.
    { symmetry. apply Z.mod_unique with (q := -1); lia. }
    rewrite E. replace (_ <? _) with false by lia. replace (Z.abs (x - avg)) with (avg - x) by lia.
    symmetry. apply Z.mod_unique with (q := -1); lia.
Qed.
Lemma fold_squares (l : list Z) avg : Forall (fun v => 0 <= v < 2 ^ 230) l -> 0 <= avg < 2 ^ 230 -> forall a,
  fold_left (fun s price => let diff := uabs (usub price avg) in s + diff * diff) l a = a + sumZ (map (fun v => (v - avg) * (v - avg)) l).
Proof.
  intros HF Ha. unfold sumZ. induction HF as [|x l Hx _ IH]; intros a; cbn [fold_left map fold_right]; [lia|].
  rewrite IH, uabs_diff by assumption. cbv zeta. rewrite Z.abs_square. lia.
Qed.
Lemma sumZ_map_perm f p : sumZ (map f (oldestFirst p)) = sumZ (map f (prPrices p)).
Proof. unfold oldestFirst. rewrite map_app, sumZ_app, Z.add_comm, <- sumZ_app, <- map_app. now rewrite firstn_skipn. Qed.
Lemma oldest_Forall P p : Forall P (oldestFirst p) -> Forall P (prPrices p).
Proof.
  unfold oldestFirst. intros H. apply Forall_app in H. destruct H as [H1 H2]. rewrite <- (firstn_skipn (Z.to_nat (prIndex p)) (prPrices p)). apply Forall_app. auto.
Qed.
Lemma sumSq_bounds l avg : Forall (fun v => 0 <= v < 2 ^ 230) l -> 0 <= avg < 2 ^ 230 ->
  0 <= sumZ (map (fun v => (v - avg) * (v - avg)) l) <= Z.of_nat (length l) * (2 ^ 230 * 2 ^ 230).
Proof.
  intros HW Havg. unfold sumZ. induction HW as [|x l Hx _ IH]; cbn [map fold_right length]; [lia|]. rewrite Nat2Z.inj_succ.
  assert (0 <= (x - avg) * (x - avg) <= 2 ^ 230 * 2 ^ 230) as H.
  { split; [apply Z.square_nonneg|]. rewrite <- Z.abs_square. apply Z.mul_le_mono_nonneg; lia. }
  unfold Z.succ. rewrite Z.mul_add_distr_r, Z.mul_1_l.
  revert H IH. generalize (fold_right Z.add 0 (map (fun v => (v - avg) * (v - avg)) l)), ((x - avg) * (x - avg)), (2 ^ 230 * 2 ^ 230). intros a b c. generalize (Z.of_nat (length l) * c). intros; lia.
Qed.
Lemma Volatility_window n sq p : 2 <= Z.of_nat n <= 2 ^ 26 -> ring n sq p -> Forall (fun v => 0 <= v < 2 ^ 230) sq ->
  let w := window n sq in
  let avg := sumZ w / Z.of_nat n in
  Average p = avg /\ Volatility p = Ok (Z.sqrt (sumZ (map (fun v => (v - avg) * (v - avg)) w) / (Z.of_nat n - 1))).
Proof.
  intros Hn HR HF w avg. destruct (window_bounds n sq HF) as [HW HLw].
  assert (0 <= sumZ w < 2 ^ 230 * Z.of_nat n) as Hs.
  { assert (0 <= sumZ w <= Z.of_nat (length w) * (2 ^ 230 - 1)).
    { apply sumZ_bounds with (b := 2 ^ 230) in HW as HB. split; [apply HB|].
      clear - HW. fold w in HW. unfold sumZ. induction HW as [|x l Hx _ IH]; cbn [fold_right length]; [lia|]. rewrite Nat2Z.inj_succ. lia. }
    unfold w in *. rewrite HLw in H. lia. }
  assert (0 <= sumZ w < T256) as Hs'.
  { split; [lia|]. change T256 with (2 ^ 230 * 2 ^ 26). assert (2 ^ 230 * Z.of_nat n <= 2 ^ 230 * 2 ^ 26); [apply Z.mul_le_mono_nonneg_l; lia|lia]. }
  assert (Average p = avg) as EA. { apply (Average_window n sq p); [lia|assumption|exact Hs']. }
  split; [exact EA|].
  assert (0 <= avg < 2 ^ 230) as Havg.
  { unfold avg. split; [apply Z.div_pos; lia|]. apply Z.div_lt_upper_bound; lia. }
  unfold Volatility. rewrite EA. destruct HR as (HL & HP & HI & HO). rewrite HL.
  assert (isub (Z.of_nat n) 1 = Z.of_nat n - 1) as -> by (unfold isub; apply int64_id; lia).
  replace (Z.of_nat n - 1 =? 0) with false by lia.
  assert (Forall (fun v => 0 <= v < 2 ^ 230) (prPrices p)) as HFp by (apply oldest_Forall; now rewrite HO).
  rewrite (fold_squares _ avg HFp Havg), Z.add_0_l, <- sumZ_map_perm, HO. fold w.
  set (S2 := sumZ (map (fun v => (v - avg) * (v - avg)) w)).
  assert (0 <= S2 <= Z.of_nat n * (2 ^ 230 * 2 ^ 230)) as HS2.
  { unfold S2. rewrite <- HLw. fold w. now apply sumSq_bounds. }
  rewrite Z.sgn_pos, Z.mul_1_l, Z.abs_eq by lia.
  assert (0 <= S2 / (Z.of_nat n - 1)) as Hv by (apply Z.div_pos; lia).
  replace (0 <=? S2 / (Z.of_nat n - 1)) with true by lia. cbn [invariant bind]. do 2 f_equal.
  apply Z.mod_small. split; [apply Z.sqrt_nonneg|]. apply Z.sqrt_lt_square; [assumption|discriminate|].
  apply Z.div_lt_upper_bound; [lia|]. change (T256 * T256) with (2 ^ 26 * (2 ^ 26 * (2 ^ 230 * 2 ^ 230))).
  assert (Z.of_nat n * (2 ^ 230 * 2 ^ 230) <= 2 ^ 26 * (2 ^ 230 * 2 ^ 230)) by (apply Z.mul_le_mono_nonneg_r; lia). lia.
Qed.
Lemma Volatility_one p : prLength p = 1 -> Volatility p = Panic.
Proof. intros H. unfold Volatility. rewrite H. reflexivity. Qed.

(** ** the specifications for prices added by any equal fold *)
Lemma ring_end n prices p p' : 0 < n < 2 ^ 63 -> NewPrices n = Ok p -> addAll p prices = Ok p' ->
  ring (Z.to_nat n) (map (fun x => umul x x) prices) p'.
Proof. intros Hn E1 E2. pose proof (ring_new n p Hn E1) as HR. apply (ring_addAll (Z.to_nat n) prices [] p p'); [rewrite Z2Nat.id by lia; lia|assumption|assumption]. Qed.
Lemma squares_bounded p p' prices : addAll p prices = Ok p' -> Forall (fun v => 0 <= v < 2 ^ 230) (map (fun x => umul x x) prices).
Proof. intros E. rewrite Forall_map. exact (addAll_accepts prices p p' E). Qed.

Section Specs.
  Variable n : Z.
  Variable prices : list Z.
  Variables p p' : Prices.
  Variable add : res Prices.
  Hypothesis Hadd : add = addAll p prices.
  Lemma ring_spec : 0 < n < 2 ^ 63 -> NewPrices n = Ok p -> add = Ok p' ->
    skipn (Z.to_nat (prIndex p')) (prPrices p') ++ firstn (Z.to_nat (prIndex p')) (prPrices p') =
      skipn (length prices) (repeat 0 (Z.to_nat n) ++ map (fun x => (x * x) mod 2 ^ 256) prices) /\
    length (prPrices p') = Z.to_nat n /\ 0 <= prIndex p' < n /\ prLength p' = n.
  Proof.
    intros Hn E1 E2. rewrite Hadd in E2. destruct (ring_end n prices p p' Hn E1 E2) as (HL & HP & HI & HO).
    unfold oldestFirst, window in HO. rewrite map_length in HO, HI. rewrite Z2Nat.id in HL, HI by lia.
    split; [exact HO|]. split; [exact HP|]. split; [rewrite HI; apply Z.mod_pos_bound; lia|exact HL].
  Qed.
  Lemma average_spec : 0 < n <= 2 ^ 26 -> NewPrices n = Ok p -> add = Ok p' ->
    Average p' = fold_right Z.add 0 (skipn (length prices) (repeat 0 (Z.to_nat n) ++ map (fun x => (x * x) mod 2 ^ 256) prices)) / n.
  Proof.
    intros Hn E1 E2. rewrite Hadd in E2. pose proof (ring_end n prices p p' ltac:(lia) E1 E2) as HR.
    destruct (window_bounds (Z.to_nat n) _ (squares_bounded p p' prices E2)) as [HW HLw].
    apply sumZ_bounds in HW as HB. rewrite HLw, Z2Nat.id in HB by lia.
    assert (fold_right Z.add 0 (skipn (length prices) (repeat 0 (Z.to_nat n) ++ map (fun x => (x * x) mod 2 ^ 256) prices)) = sumZ (window (Z.to_nat n) (map (fun x => umul x x) prices))) as ->.
    { unfold sumZ, window. rewrite map_length. reflexivity. }
    rewrite (Average_window (Z.to_nat n) (map (fun x => umul x x) prices) p'); [now rewrite Z2Nat.id by lia|rewrite Z2Nat.id by lia; lia|assumption|].
    split; [lia|]. clear - HB HW HLw Hn.
    assert (sumZ (window (Z.to_nat n) (map (fun x => umul x x) prices)) <= n * (2 ^ 230 - 1)) as K.
    { pose proof (sumZ_bounds_strict _ (2 ^ 230) HW) as K. rewrite HLw, Z2Nat.id in K by lia. exact K. }
    assert (n * (2 ^ 230 - 1) <= 2 ^ 26 * (2 ^ 230 - 1)) by (apply Z.mul_le_mono_nonneg_r; lia).
    change T256 with (2 ^ 256). lia.
  Qed.
  Lemma volatility_spec : 1 < n <= 2 ^ 26 -> NewPrices n = Ok p -> add = Ok p' ->
    let w := skipn (length prices) (repeat 0 (Z.to_nat n) ++ map (fun x => (x * x) mod 2 ^ 256) prices) in
    let mean := fold_right Z.add 0 w / n in
    Volatility p' = Ok (Z.sqrt (fold_right Z.add 0 (map (fun v => (v - mean) * (v - mean)) w) / (n - 1))).
  Proof.
    intros Hn E1 E2 w mean. rewrite Hadd in E2. pose proof (ring_end n prices p p' ltac:(lia) E1 E2) as HR.
    destruct (Volatility_window (Z.to_nat n) (map (fun x => umul x x) prices) p') as [_ HV]; [rewrite Z2Nat.id by lia; lia|assumption|now apply (squares_bounded p p')|].
    rewrite HV. rewrite !Z2Nat.id by lia. unfold mean, w, window, sumZ. rewrite map_length. reflexivity.
  Qed.
  Lemma addAll_total : 0 < n < 2 ^ 63 -> NewPrices n = Ok p ->
    ((exists p', add = Ok p') <-> Forall (fun x => (x * x) mod 2 ^ 256 < 2 ^ 230) prices).
  Proof.
    intros Hn E1. rewrite Hadd. split.
    - intros [q E]. apply addAll_accepts in E. eapply Forall_impl; [|exact E]. intros x H. exact (proj2 H).
    - intros HF. pose proof (ring_new n p Hn E1) as HR. revert HR. generalize (@nil Z) as sq. clear Hadd E1. revert p.
      induction HF as [|x l Hx _ IH]; intros q sq HR; cbn [addAll]; [eauto|].
      assert (HR' := HR). destruct HR' as (HL & HP & HI & HO). rewrite Z2Nat.id in * by lia.
      destruct (proj2 (AddPrice_ok_iff q x ltac:(rewrite HI; apply Z.mod_pos_bound; lia) ltac:(rewrite HP; apply Z2Nat.inj_lt; [rewrite HI; apply Z.mod_pos_bound; lia|lia|rewrite HI; apply Z.mod_pos_bound; lia])) Hx) as [q' E].
      rewrite E. cbn [bind]. apply (IH q' (sq ++ [umul x x])). apply (ring_add _ _ q); [rewrite Z2Nat.id by lia; lia|assumption|assumption].
  Qed.
  Lemma accepted_spec x : 0 < n < 2 ^ 63 -> NewPrices n = Ok p -> add = Ok p' ->
    ((exists p'', AddPrice p' x = Ok p'') <-> (x * x) mod 2 ^ 256 < 2 ^ 230) /\
    (AddPrice p' x = Panic <-> 2 ^ 230 <= (x * x) mod 2 ^ 256) /\
    (0 <= x < 2 ^ 128 -> ((exists p'', AddPrice p' x = Ok p'') <-> x < 2 ^ 115) /\ (x * x) mod 2 ^ 256 = x * x).
  Proof.
    intros Hn E1 E2. destruct (ring_spec Hn E1 E2) as (_ & HP & HI & _).
    assert ((Z.to_nat (prIndex p') < length (prPrices p'))%nat) as HB by (rewrite HP; apply Z2Nat.inj_lt; lia).
    pose proof (AddPrice_ok_iff p' x (proj1 HI) HB) as A. split; [exact A|]. split.
    - destruct (AddPrice p' x) as [q| |] eqn:E.
      + split; [discriminate|]. intros H. assert ((x * x) mod 2 ^ 256 < 2 ^ 230) by (apply A; eauto). lia.
      + split; [|reflexivity]. intros _. destruct (Z.le_gt_cases (2 ^ 230) ((x * x) mod 2 ^ 256)) as [K|K]; [assumption|]. exfalso.
        destruct (proj2 A ltac:(lia)) as [q K']. discriminate.
      + exfalso. unfold AddPrice in E. destruct (_ =? 0); cbn [invariant bind] in E; [|discriminate]. destruct (_ <? 0); [discriminate|]. destruct (setNth _ _ _); discriminate.
    - intros Hx. apply (AddPrice_small p' x Hx (proj1 HI) HB).
  Qed.
End Specs.
Lemma volatility_one_spec prices p p' add : add = addAll p prices -> NewPrices 1 = Ok p -> add = Ok p' -> Volatility p' = Panic.
Proof. intros Ha E1 E2. apply Volatility_one. apply (ring_spec 1 prices p p' add Ha); [lia|assumption|assumption]. Qed.
Lemma overflow_unnoticed :
  ~ (forall n p x p', 0 < n < 2 ^ 63 -> NewPrices n = Ok p -> 0 <= x < 2 ^ 160 -> AddPrice p x = Ok p' -> x * x < 2 ^ 256).
Proof.
  intros H. specialize (H 1 (mkPrices [0] 0 1) (2 ^ 128) (mkPrices [0] 0 1)).
  assert (2 ^ 128 * 2 ^ 128 < 2 ^ 256) as K by (apply H; [lia|vm_compute; reflexivity|lia|vm_compute; reflexivity]). revert K. vm_compute. discriminate.
Qed.
