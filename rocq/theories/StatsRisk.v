(** StatsRisk.v -- what the statistics compute: returns, deviations, value at risk, samples *)
From Coq Require Import Floats.SpecFloat Lia ZifyBool Permutation Sorted.
From Verif Require Import Base Float64 Float64Facts FloatSpec Prices Stats StatsFacts.
Ltac Zify.zify_post_hook ::= idtac.
Open Scope Z_scope.
Local Ltac lia := first [solve [drop_pow; Lia.lia] | solve [hide_pow; Lia.lia] | Lia.lia].

(** ** a worthless start *)
Lemma min_nan x : x <> S754_infinity true -> f64_min S754_nan x = S754_nan.
Proof. destruct x as [s|[]| |s m e]; intros H; try reflexivity. now contradiction H. Qed.
Lemma fin_not_inf x v s : fin x v -> x <> S754_infinity s.
Proof. intros H ->. exact H. Qed.
Lemma zero_div x y : fin x 0 -> fin y 0 -> f64_div x y = S754_nan.
Proof.
  assert (forall s m e, fin (S754_finite s m e) 0 -> False) as K.
  { intros s m e [H HB]. pose proof (finite_pos _ _ HB). destruct s; cbn [neg] in H; lia. }
  intros Hx Hy. destruct x as [s|s| |s m e]; try contradiction; [|now apply K in Hx]. destruct y as [s'|s'| |s' m' e']; try contradiction; [reflexivity|now apply K in Hy].
Qed.
Lemma step_nan mx M p : price M -> price p -> fin mx (rd M) ->
  snd (drawdownStep (mx, S754_nan) (f64_of_int p)) = S754_nan /\ fin (fst (drawdownStep (mx, S754_nan) (f64_of_int p))) (rd (Z.max M p)).
Proof.
  intros PM Pp Hm. destruct (price_fin p Pp) as [Fp _]. unfold drawdownStep. cbn [fst snd].
  pose proof (max_fin _ _ _ _ Hm Fp) as FX.
  assert (Z.max (rd M) (rd p) = rd (Z.max M p)) as EM.
  { unfold price in *. destruct (Z_le_dec M p) as [L|L].
    - rewrite (Z.max_r M p) by lia. apply Z.max_r. apply rd_mono; lia.
    - rewrite (Z.max_l M p) by lia. apply Z.max_l. apply rd_mono; lia. }
  rewrite EM in FX. split; [|exact FX]. apply min_nan. destruct (Z.eq_dec (Z.max M p) 0) as [E|E].
  - assert (p = 0) by (unfold price in *; lia). subst p. rewrite E in FX.
    assert (fin (f64_sub (f64_of_int 0) (f64_max mx (f64_of_int 0))) 0) as FS.
    { destruct (sub_near _ _ _ _ Fp FX) as (c & Nc & Fc). assert (c = 0) by (apply (near_exact _ _ _ Z.lt_0_1 Nc 0 repr_0); reflexivity). subst c. apply Fc. reflexivity. }
    rewrite (zero_div _ _ FS FX). discriminate.
  - assert (price (Z.max M p)) as PX by (unfold price in *; lia).
    destruct (change_of (Z.max M p) p _ _ PX Pp ltac:(unfold price in *; lia) FX Fp) as (w & Fw & _). exact (fin_not_inf _ _ _ Fw).
Qed.
Lemma fold_nan l : forall mx M, price M -> fin mx (rd M) -> Forall price l -> snd (fold_left drawdownStep (map f64_of_int l) (mx, S754_nan)) = S754_nan.
Proof.
  induction l as [|p l IH]; intros mx M PM Hm PL; cbn [map fold_left]; [reflexivity|]. inversion PL as [|? ? Pp PL']; subst.
  destruct (step_nan mx M p PM Pp Hm) as [E F]. destruct (drawdownStep (mx, S754_nan) (f64_of_int p)) as [mx' dd']. cbn [fst snd] in *. subst dd'.
  apply (IH mx' (Z.max M p)); try assumption. unfold price in *; lia.
Qed.
Theorem drawdown_nan q rest : Forall price (q :: rest) -> calculateMaximumDrawdown (0 :: q :: rest) = S754_nan.
Proof.
  intros PL. unfold calculateMaximumDrawdown. cbn [map fold_left].
  change (fold_left drawdownStep (map f64_of_int rest) (drawdownStep (drawdownStep (f64_of_int 0, f64_zero) (f64_of_int 0)) (f64_of_int q)))
    with (fold_left drawdownStep (map f64_of_int (q :: rest)) (drawdownStep (f64_of_int 0, f64_zero) (f64_of_int 0))).
  change (drawdownStep (f64_of_int 0, f64_zero) (f64_of_int 0)) with (f64_of_int 0, S754_nan).
  apply (fold_nan _ _ 0); [unfold price; lia|reflexivity|assumption].
Qed.

(** ** returns *)
(** what is assumed of math.Log: it is finite, and below 1024 in absolute value, on positive finite doubles *)
Definition logarithm (ln : spec_float -> spec_float) : Prop :=
  forall x v, fin x v -> 0 < v -> exists r, fin (ln x) r /\ Z.abs r < 2 ^ 1084.
Definition positive (p : Z) : Prop := 0 < p < 2 ^ 256.
Definition bounded_return (x : spec_float) : Prop := exists r, fin x r /\ Z.abs r < 2 ^ 1084.

Lemma ratio_fin a b : positive a -> positive b -> exists v, fin (f64_div (f64_of_int b) (f64_of_int a)) v /\ 0 < v /\ (a <= b -> 2 ^ 1074 <= v).
Proof.
  intros Ha Hb. destruct (price_fin a ltac:(unfold positive, price in *; lia)) as [Fa Na]. destruct (price_fin b ltac:(unfold positive, price in *; lia)) as [Fb Nb].
  pose proof (rd_pos a Ha) as La. pose proof (rd_pos b Hb) as Lb.
  assert (forall p, positive p -> rd p <= 2 ^ 1330) as UB.
  { intros r Pr. destruct (price_fin r ltac:(unfold positive, price in *; lia)) as [_ Nr]. refine (near_le _ _ _ _ _ Nr (repr_pow 1330 _) _); [lia|lia|]. rewrite Z.mul_1_r.
    change (2 ^ 1330) with (2 ^ 256 * 2 ^ 1074). unfold positive in *. apply Z.mul_le_mono_nonneg_r; lia. }
  pose proof (UB a Ha) as Ua. pose proof (UB b Hb) as Ub.
  assert (0 < rd a) as Ha0 by (apply Z.lt_le_trans with (2 ^ 1074); [reflexivity|assumption]).
  assert (0 < rd b) as Hb0 by (apply Z.lt_le_trans with (2 ^ 1074); [reflexivity|assumption]).
  destruct (div_near' _ _ _ _ Fb Fa ltac:(lia)) as (v & Nv & Fv). rewrite Z.sgn_pos, Z.mul_1_l, Z.abs_eq in Nv by lia.
  assert (2 ^ 800 <= v) as V1.
  { refine (near_ge _ _ _ _ _ Nv (repr_pow 800 _) _); [lia|lia|]. apply Z.le_trans with (2 ^ 800 * 2 ^ 1330); [apply Z.mul_le_mono_nonneg_l; lia|].
    apply Z.le_trans with (2 ^ 1074 * 2 ^ 1074); [vm_compute; discriminate|apply Z.mul_le_mono_nonneg_r; lia]. }
  assert (v <= 2 ^ 1330) as V2.
  { refine (near_le _ _ _ _ _ Nv (repr_pow 1330 _) _); [lia|lia|]. apply Z.mul_le_mono_nonneg; lia. }
  exists v. split; [|split; [apply Z.lt_le_trans with (2 ^ 800); [reflexivity|assumption]|]].
  - apply Fv. rewrite Z.abs_eq by (apply Z.le_trans with (2 ^ 800); [vm_compute; discriminate|assumption]). apply Z.le_lt_trans with (2 ^ 1330); [assumption|reflexivity].
  - intros L. refine (near_ge _ _ _ _ _ Nv (repr_pow 1074 _) _); [lia|lia|]. rewrite Z.mul_comm. apply Z.mul_le_mono_nonneg_r; [lia|]. apply rd_mono; unfold positive in *; lia.
Qed.
Lemma returns_cons ln a b l : getReturns ln (a :: b :: l) = ln (f64_div (f64_of_int b) (f64_of_int a)) :: getReturns ln (b :: l).
Proof. reflexivity. Qed.
Lemma returns_fin ln : logarithm ln -> forall prices, Forall positive prices -> Forall bounded_return (getReturns ln prices).
Proof.
  intros Hln. induction prices as [|a l IH]; intros H; [constructor|]. destruct l as [|b l]; [constructor|]. rewrite returns_cons.
  inversion H as [|? ? Ha H1]; subst. inversion H1 as [|? ? Hb H2]; subst. constructor; [|now apply IH].
  destruct (ratio_fin a b Ha Hb) as (v & Fv & Hv & _). exact (Hln _ _ Fv Hv).
Qed.
Lemma returns_length ln : forall prices, length (getReturns ln prices) = pred (length prices).
Proof. induction prices as [|a l IH]; [reflexivity|]. destruct l as [|b l]; [reflexivity|]. rewrite returns_cons. cbn [length pred] in *. now rewrite IH. Qed.
Lemma returns_nth ln : forall prices i a b, nth_error prices i = Some a -> nth_error prices (S i) = Some b ->
  nth_error (getReturns ln prices) i = Some (ln (f64_div (f64_of_int b) (f64_of_int a))).
Proof.
  induction prices as [|x l IH]; intros i a b Ha Hb; [destruct i; discriminate|]. destruct l as [|y l]; [destruct i as [|[|i]]; discriminate|]. rewrite returns_cons.
  destruct i as [|i]; [injection Ha as <-; injection Hb as <-; reflexivity|]. apply (IH i); assumption.
Qed.

(** ** sums *)
Lemma repr_nat n k : 0 <= n < 2 ^ 53 -> 0 <= k -> repr (n * 2 ^ k).
Proof. intros Hn Hk. exists n, k. split; [reflexivity|]. lia. Qed.
(** adding [n] numbers below 2^k in absolute value *)
Lemma sum_step x y a b n k : fin x a -> fin y b -> 0 <= n -> n + 1 < 2 ^ 53 -> 0 <= k <= 1200 -> Z.abs a <= n * 2 ^ k -> Z.abs b <= 2 ^ k ->
  exists c, fin (f64_add x y) c /\ Z.abs c <= (n + 1) * 2 ^ k /\ (0 <= a + b -> 0 <= c).
Proof.
  intros Hx Hy Hn Hn1 Hk Ha Hb. destruct (add_near x y a b Hx Hy) as (c & Nc & Fc).
  assert (repr ((n + 1) * 2 ^ k)) as R by (apply repr_nat; lia).
  assert (Z.abs (a + b) <= (n + 1) * 2 ^ k) as HS. { rewrite Z.mul_add_distr_r, Z.mul_1_l. generalize dependent (n * 2 ^ k). intros. lia. }
  assert (Z.abs c <= (n + 1) * 2 ^ k) as HC.
  { apply Z.abs_le. split.
    - refine (near_ge _ _ _ _ _ Nc (repr_opp _ R) _); [lia|]. generalize dependent ((n + 1) * 2 ^ k). intros. lia.
    - refine (near_le _ _ _ _ _ Nc R _); [lia|]. generalize dependent ((n + 1) * 2 ^ k). intros. lia. }
  exists c. split; [|split; [exact HC|intros H; refine (near_ge _ _ _ _ _ Nc repr_0 _); lia]]. apply Fc. eapply Z.le_lt_trans; [exact HC|].
  apply Z.le_lt_trans with (2 ^ 53 * 2 ^ 1200); [|reflexivity]. apply Z.mul_le_mono_nonneg; [lia|lia|apply Z.pow_nonneg; lia|apply Z.pow_le_mono_r; lia].
Qed.
Lemma square_fin x r : fin x r -> Z.abs r < 2 ^ 1084 -> exists s, fin (f64_mul x x) s /\ 0 <= s <= 2 ^ 1094.
Proof.
  intros Hx Hr. destruct (mul_near x x r r Hx Hx) as (s & Ns & Fs).
  assert (0 <= s) as S0 by (refine (near_ge _ _ _ _ _ Ns repr_0 _); [lia|]; rewrite Z.mul_0_l; apply Z.square_nonneg).
  assert (s <= 2 ^ 1094) as S1.
  { refine (near_le _ _ _ _ _ Ns (repr_pow 1094 _) _); [lia|lia|]. rewrite <- Z.abs_square. change (2 ^ 1094 * 2 ^ 1074) with (2 ^ 1084 * 2 ^ 1084). apply Z.mul_le_mono_nonneg; lia. }
  exists s. split; [|lia]. apply Fs. rewrite Z.abs_eq by assumption. apply Z.le_lt_trans with (2 ^ 1094); [assumption|reflexivity].
Qed.
Lemma squares_fin (pick : spec_float -> bool) l : forall x a n, Forall bounded_return l -> fin x a -> 0 <= a <= n * 2 ^ 1094 -> 0 <= n -> n + Z.of_nat (length l) < 2 ^ 53 ->
  exists s, fin (fold_left (fun sum r => if pick r then f64_add sum (f64_mul r r) else sum) l x) s /\ 0 <= s <= (n + Z.of_nat (length l)) * 2 ^ 1094
    /\ ((forall r, In r l -> pick r = false) -> s = a).
Proof.
  induction l as [|r l IH]; intros x a n HL Hx Ha Hn Hlen; cbn [fold_left length].
  - exists a. rewrite Z.add_0_r. split; [assumption|]. split; [assumption|reflexivity].
  - inversion HL as [|? ? Hr HL']; subst. cbn [length] in Hlen. rewrite Nat2Z.inj_succ in *. destruct (pick r) eqn:EP.
    + destruct Hr as (v & Fv & Hv). destruct (square_fin r v Fv Hv) as (s & Fs & Hs).
      destruct (sum_step x _ a s n 1094 Hx Fs Hn ltac:(lia) ltac:(lia) ltac:(lia) ltac:(lia)) as (c & Fc & Hc & Hc0). specialize (Hc0 ltac:(lia)).
      destruct (IH _ c (n + 1) HL' Fc ltac:(lia) ltac:(lia) ltac:(lia)) as (s' & F' & H' & _). exists s'. split; [exact F'|].
      replace (n + Z.succ (Z.of_nat (length l))) with (n + 1 + Z.of_nat (length l)) by lia. split; [exact H'|]. intros C. now rewrite C in EP by now left.
    + destruct (IH x a (n + 1) HL' Hx) as (s' & F' & H' & C'); [rewrite Z.mul_add_distr_r; lia|lia|lia|]. exists s'. split; [exact F'|].
      replace (n + Z.succ (Z.of_nat (length l))) with (n + 1 + Z.of_nat (length l)) by lia. split; [exact H'|]. intros C. apply C'. intros q Hq. apply C. now right.
Qed.
Lemma total_fin l : forall x a n, Forall bounded_return l -> fin x a -> Z.abs a <= n * 2 ^ 1084 -> 0 <= n -> n + Z.of_nat (length l) < 2 ^ 53 ->
  exists s, fin (fold_left f64_add l x) s /\ Z.abs s <= (n + Z.of_nat (length l)) * 2 ^ 1084.
Proof.
  induction l as [|r l IH]; intros x a n HL Hx Ha Hn Hlen; cbn [fold_left length].
  - exists a. rewrite Z.add_0_r. split; assumption.
  - inversion HL as [|? ? Hr HL']; subst. cbn [length] in Hlen. rewrite Nat2Z.inj_succ in *. destruct Hr as (v & Fv & Hv).
    destruct (sum_step x _ a v n 1084 Hx Fv Hn ltac:(lia) ltac:(lia) Ha ltac:(lia)) as (c & Fc & Hc & _).
    destruct (IH _ c (n + 1) HL' Fc Hc ltac:(lia) ltac:(lia)) as (s' & F' & H'). exists s'. split; [exact F'|].
    replace (n + Z.succ (Z.of_nat (length l))) with (n + 1 + Z.of_nat (length l)) by lia. exact H'.
Qed.
(** dividing by a positive integer *)
Lemma quotient_fin x a n k : fin x a -> 0 < n < 2 ^ 64 -> 0 <= a <= 2 ^ k -> 0 <= k <= 2000 -> exists v, fin (f64_div x (f64_of_int n)) v /\ 0 <= v <= 2 ^ k /\ (a = 0 -> v = 0).
Proof.
  intros Hx Hn Ha Hk. assert (n < 2 ^ 256) as Hn2 by (apply Z.lt_le_trans with (2 ^ 64); [lia|vm_compute; discriminate]).
  destruct (price_fin n ltac:(unfold price; lia)) as [Fn _]. pose proof (rd_pos n ltac:(lia)) as Ln.
  assert (0 < rd n) as Hn0 by (apply Z.lt_le_trans with (2 ^ 1074); [reflexivity|assumption]).
  destruct (div_near' _ _ _ _ Hx Fn ltac:(lia)) as (v & Nv & Fv). rewrite Z.sgn_pos, Z.mul_1_l, Z.abs_eq in Nv by lia.
  assert (0 <= v) as V0 by (refine (near_ge _ _ _ _ _ Nv repr_0 _); [lia|]; rewrite Z.mul_0_l; apply Z.mul_nonneg_nonneg; lia).
  assert (v <= 2 ^ k) as V1 by (refine (near_le _ _ _ _ _ Nv (repr_pow k _) _); [lia|lia|]; apply Z.mul_le_mono_nonneg; lia).
  exists v. split; [|split; [lia|]].
  - apply Fv. rewrite Z.abs_eq by assumption. eapply Z.le_lt_trans; [exact V1|]. apply Z.pow_lt_mono_r; lia.
  - intros ->. apply (near_exact _ _ _ Hn0 Nv 0 repr_0). ring.
Qed.

(** ** deviations *)
Theorem down_deviation_fin ln prices : logarithm ln -> Forall positive prices -> Z.of_nat (length prices) < 2 ^ 53 ->
  exists v, fin (calculateDownDeviation ln prices) v /\ 0 <= v.
Proof.
  intros Hln HP HL. unfold calculateDownDeviation. destruct (Z.of_nat (length prices) <=? 2) eqn:E; [exists 0; split; [reflexivity|lia]|].
  pose proof (returns_fin ln Hln prices HP) as HR. pose proof (returns_length ln prices) as HN. cbv zeta.
  destruct (squares_fin (fun r => f64_lt r f64_zero) _ f64_zero 0 0 HR eq_refl ltac:(lia) ltac:(lia) ltac:(lia)) as (s & Fs & Hs & _).
  destruct (quotient_fin _ s (Z.of_nat (length (getReturns ln prices))) 1200 Fs ltac:(lia)) as (v & Fv & Hv & _); [|lia|].
  - split; [lia|]. apply Z.le_trans with (2 ^ 53 * 2 ^ 1094); [|vm_compute; discriminate].
    eapply Z.le_trans; [apply Hs|]. apply Z.mul_le_mono_nonneg_r; lia.
  - exact (sqrt_fin _ v Fv ltac:(lia)).
Qed.
(** a run that never loses between two samples has none *)
Theorem down_deviation_zero ln prices : logarithm ln -> (forall x v, fin x v -> 2 ^ 1074 <= v -> exists r, fin (ln x) r /\ 0 <= r) ->
  Forall positive prices -> Z.of_nat (length prices) < 2 ^ 53 ->
  (forall i a b, nth_error prices i = Some a -> nth_error prices (S i) = Some b -> a <= b) -> fin (calculateDownDeviation ln prices) 0.
Proof.
  intros Hln Hln1 HP HL Hmono. unfold calculateDownDeviation. destruct (Z.of_nat (length prices) <=? 2) eqn:E; [reflexivity|].
  pose proof (returns_fin ln Hln prices HP) as HR. pose proof (returns_length ln prices) as HN. cbv zeta.
  destruct (squares_fin (fun r => f64_lt r f64_zero) _ f64_zero 0 0 HR eq_refl ltac:(lia) ltac:(lia) ltac:(lia)) as (s & Fs & Hs & Hz).
  assert (s = 0) as ->.
  { apply Hz. intros r Hr. apply In_nth_error in Hr as [i Hi].
    assert (i < pred (length prices))%nat as Li by (rewrite <- HN; apply nth_error_Some; rewrite Hi; discriminate).
    destruct (nth_error prices i) as [a|] eqn:Ea; [|apply nth_error_None in Ea; lia].
    destruct (nth_error prices (S i)) as [b|] eqn:Eb; [|apply nth_error_None in Eb; lia].
    rewrite (returns_nth ln prices i a b Ea Eb) in Hi. injection Hi as <-. specialize (Hmono i a b Ea Eb).
    rewrite Forall_forall in HP. destruct (ratio_fin a b (HP a (nth_error_In _ _ Ea)) (HP b (nth_error_In _ _ Eb))) as (v & Fv & _ & Hv).
    destruct (Hln1 _ v Fv (Hv Hmono)) as (x & Fx & Hx). unfold f64_lt. rewrite (ltb_val _ f64_zero x 0 Fx eq_refl). lia. }
  destruct (quotient_fin _ 0 (Z.of_nat (length (getReturns ln prices))) 1200 Fs ltac:(lia)) as (v & Fv & Hv & Hv0); [|lia|].
  - split; [lia|vm_compute; discriminate].
  - rewrite Hv0 in Fv by reflexivity. destruct (f64_div _ _) as [s'|s'| |s' m' e']; try contradiction; [reflexivity|].
    destruct Fv as [Fv HB]. apply finite_pos in HB. destruct s'; cbn [neg] in Fv; lia.
Qed.
Lemma sqrt_neg x v : fin x v -> v < 0 -> SFsqrt 53 1024 x = S754_nan.
Proof.
  intros H Hv. destruct x as [s|s| |s m e]; try contradiction; [cbn in H; lia|]. destruct H as [-> HB]. apply finite_pos in HB. destruct s; [reflexivity|cbn [neg] in Hv; lia].
Qed.
Theorem std_fin ln prices : logarithm ln -> Forall positive prices -> Z.of_nat (length prices) < 2 ^ 31 ->
  (exists v, fin (calculateStd ln prices) v /\ 0 <= v) \/ calculateStd ln prices = S754_nan.
Proof.
  intros Hln HP HL. unfold calculateStd. destruct (Z.of_nat (length prices) <=? 2) eqn:E; [left; exists 0; split; [reflexivity|lia]|].
  pose proof (returns_fin ln Hln prices HP) as HR. pose proof (returns_length ln prices) as HN. cbv zeta.
  set (n := Z.of_nat (length (getReturns ln prices))) in *. assert (2 <= n < 2 ^ 31) as Hn by (unfold n; lia).
  destruct (squares_fin (fun _ => true) _ f64_zero 0 0 HR eq_refl ltac:(lia) ltac:(lia) ltac:(fold n; lia)) as (s & Fs & Hs & _). fold n in Hs.
  destruct (total_fin _ f64_zero 0 0 HR eq_refl ltac:(lia) ltac:(lia) ltac:(fold n; lia)) as (t & Ft & Ht). fold n in Ht.
  assert (0 <= s <= 2 ^ 1200) as Hs'.
  { split; [lia|]. apply Z.le_trans with (2 ^ 31 * 2 ^ 1094); [|vm_compute; discriminate]. eapply Z.le_trans; [apply Hs|]. apply Z.mul_le_mono_nonneg_r; lia. }
  assert (Z.abs t <= 2 ^ 1115) as Ht'.
  { eapply Z.le_trans; [exact Ht|]. change (2 ^ 1115) with (2 ^ 31 * 2 ^ 1084). apply Z.mul_le_mono_nonneg_r; lia. }
  destruct (quotient_fin _ s (n - 1) 1200 Fs ltac:(lia) Hs' ltac:(lia)) as (v1 & F1 & H1 & _).
  destruct (mul_near _ _ _ _ Ft Ft) as (t2 & Nt & F2).
  assert (0 <= t2) as T0 by (refine (near_ge _ _ _ _ _ Nt repr_0 _); [lia|]; rewrite Z.mul_0_l; apply Z.square_nonneg).
  assert (t2 <= 2 ^ 1200) as T1.
  { refine (near_le _ _ _ _ _ Nt (repr_pow 1200 _) _); [lia|lia|]. rewrite <- Z.abs_square. apply Z.le_trans with (2 ^ 1115 * 2 ^ 1115); [apply Z.mul_le_mono_nonneg; lia|vm_compute; discriminate]. }
  assert (Z.abs t2 < 2 ^ 2098) as T2 by (rewrite Z.abs_eq by assumption; apply Z.le_lt_trans with (2 ^ 1200); [assumption|reflexivity]). specialize (F2 T2).
  assert (0 < n * (n - 1) < 2 ^ 62) as Hnn.
  { split; [apply Z.mul_pos_pos; lia|]. apply Z.le_lt_trans with ((2 ^ 31 - 1) * (2 ^ 31 - 1)); [apply Z.mul_le_mono_nonneg; lia|reflexivity]. }
  assert (int64 (n * (n - 1)) = n * (n - 1)) as EI.
  { revert Hnn. generalize (n * (n - 1)). intros z Hz. unfold int64. first [rewrite Z.mod_small by lia | idtac]. lia. }
  rewrite EI. destruct (quotient_fin _ t2 (n * (n - 1)) 1200 F2 ltac:(lia) ltac:(lia) ltac:(lia)) as (v2 & F3 & H3 & _).
  destruct (sub_near _ _ _ _ F1 F3) as (c & Nc & Fc).
  assert (Z.abs c <= 2 ^ 1200) as Hc.
  { apply Z.abs_le. split; [refine (near_ge _ _ _ _ _ Nc (repr_opp _ (repr_pow 1200 _)) _)|refine (near_le _ _ _ _ _ Nc (repr_pow 1200 _) _)]; lia. }
  specialize (Fc ltac:(apply Z.le_lt_trans with (2 ^ 1200); [assumption|reflexivity])).
  destruct (Z_le_dec 0 c) as [L|L]; [left; exact (sqrt_fin _ c Fc L)|right; apply (sqrt_neg _ c Fc); lia].
Qed.

(** ** value at risk *)
Lemma insert_perm x l : Permutation (x :: l) (insert x l).
Proof. induction l as [|y l IH]; cbn [insert]; [reflexivity|]. destruct (f64_less y x); [|reflexivity]. rewrite perm_swap. now apply perm_skip. Qed.
Lemma sort_perm l : Permutation l (Float64s l).
Proof. induction l as [|x l IH]; cbn [Float64s fold_right]; [constructor|]. etransitivity; [apply perm_skip, IH|]. apply insert_perm. Qed.
Definition finite (x : spec_float) : Prop := fin x (val x).
Lemma less_val x y : finite x -> finite y -> f64_less x y = (val x <? val y).
Proof.
  intros Hx Hy. unfold f64_less, f64_lt. rewrite (ltb_val _ _ _ _ Hx Hy). destruct x; try contradiction; cbn [isNaN andb]; apply orb_false_r.
Qed.
Definition below (x y : spec_float) : Prop := val x <= val y.
Lemma insert_sorted x l : finite x -> Forall finite l -> StronglySorted below l -> StronglySorted below (insert x l).
Proof.
  intros Hx. induction l as [|y l IH]; intros HF HS; cbn [insert]; [repeat constructor|].
  inversion HF as [|? ? Hy HF']; subst. inversion HS as [|? ? HS' HA]; subst. rewrite less_val by assumption. destruct (val y <? val x) eqn:E.
  - constructor; [now apply IH|]. rewrite Forall_forall in *. intros z Hz. apply (Permutation_in z (Permutation_sym (insert_perm x l))) in Hz. destruct Hz as [<-|Hz]; [unfold below; lia|now apply HA].
  - constructor; [constructor; assumption|]. constructor; [unfold below; lia|]. rewrite Forall_forall in *. intros z Hz. specialize (HA z Hz). unfold below in *. lia.
Qed.
Lemma sort_sorted l : Forall finite l -> StronglySorted below (Float64s l).
Proof.
  induction l as [|x l IH]; intros HF; cbn [Float64s fold_right]; [constructor|]. inversion HF as [|? ? Hx HF']; subst. apply insert_sorted; [assumption| |now apply IH].
  fold (Float64s l). rewrite Forall_forall in *. intros z Hz. apply HF'. exact (Permutation_in z (Permutation_sym (sort_perm l)) Hz).
Qed.
(** how many satisfy [f] *)
Definition count (f : spec_float -> bool) (l : list spec_float) : nat := length (filter f l).
Lemma count_perm f l l' : Permutation l l' -> count f l = count f l'.
Proof.
  unfold count. induction 1 as [|x l l' _ IH|x y l|l l' l'' _ IH1 _ IH2]; cbn [filter]; [reflexivity| | |congruence].
  - destruct (f x); cbn [length]; now rewrite IH.
  - destruct (f x), (f y); reflexivity.
Qed.
Lemma count_0 f l : (forall x, In x l -> f x = false) -> count f l = O.
Proof. unfold count. induction l as [|y l IH]; intros H; [reflexivity|]. cbn [filter]. rewrite H by now left. apply IH. intros x Hx. apply H. now right. Qed.
Lemma sorted_rank l : StronglySorted below l -> forall k x, nth_error l k = Some x ->
  (count (fun y => (val y <? val x)%Z) l <= k)%nat /\ (k < count (fun y => (val y <=? val x)%Z) l)%nat.
Proof.
  induction 1 as [|y l HS IH HA]; intros k x Hk; [destruct k; discriminate|]. rewrite Forall_forall in HA. unfold count in *. cbn [filter]. destruct k as [|k].
  - injection Hk as <-. rewrite Z.ltb_irrefl, Z.leb_refl. split; [|cbn [length]; lia].
    change (length (filter _ l)) with (count (fun z => val z <? val y) l). rewrite count_0; [lia|]. intros z Hz. specialize (HA z Hz). unfold below in HA. lia.
  - cbn [nth_error] in Hk. assert (In x l) as Hx by (apply (nth_error_In l k Hk)). specialize (HA x Hx). unfold below in HA. specialize (IH k x Hk).
    assert (val y <=? val x = true) as -> by lia. cbn [length]. destruct (val y <? val x); cbn [length]; lia.
Qed.
Lemma sort_length l : length (Float64s l) = length l.
Proof. symmetry. apply Permutation_length, sort_perm. Qed.
Theorem var_total ln prices : exists x, calculateVar ln prices = Ok x.
Proof.
  unfold calculateVar. destruct (Z.of_nat (length prices) <=? 2) eqn:E; [now eexists|]. rewrite sort_length.
  destruct (nth_error _ _) as [x|] eqn:EN; [now exists x|]. apply nth_error_None in EN. rewrite sort_length, returns_length in EN.
  assert (Z.of_nat (pred (length prices)) / 20 < Z.of_nat (pred (length prices))) by (apply Z.div_lt; lia). lia.
Qed.
Theorem var_rank ln prices x : logarithm ln -> Forall positive prices -> 2 < Z.of_nat (length prices) -> calculateVar ln prices = Ok x ->
  In x (getReturns ln prices) /\ finite x
  /\ Z.of_nat (count (fun y => val y <? val x) (getReturns ln prices)) <= (Z.of_nat (length prices) - 1) / 20 < Z.of_nat (count (fun y => val y <=? val x) (getReturns ln prices)).
Proof.
  intros Hln HP HL. unfold calculateVar. destruct (Z.of_nat (length prices) <=? 2) eqn:E; [lia|]. rewrite sort_length, returns_length.
  destruct (nth_error _ _) as [y|] eqn:EN; [|discriminate]. injection 1 as ->.
  pose proof (returns_fin ln Hln prices HP) as HR.
  assert (Forall finite (getReturns ln prices)) as HF. { eapply Forall_impl; [|exact HR]. intros z (r & Fr & _). unfold finite. now rewrite <- (fin_val _ _ Fr). }
  assert (In x (getReturns ln prices)) as HI by exact (Permutation_in x (Permutation_sym (sort_perm _)) (nth_error_In _ _ EN)).
  split; [exact HI|]. split; [rewrite Forall_forall in HF; now apply HF|].
  destruct (sorted_rank _ (sort_sorted _ HF) _ _ EN) as [H1 H2]. rewrite <- (count_perm _ _ _ (sort_perm (getReturns ln prices))) in H1. rewrite <- (count_perm _ _ _ (sort_perm (getReturns ln prices))) in H2.
  replace (Z.of_nat (length prices) - 1) with (Z.of_nat (pred (length prices))) by lia.
  assert (0 <= Z.of_nat (pred (length prices)) / 20) by (apply Z.div_pos; lia). lia.
Qed.

(** ** samples *)
Lemma sample_spec step : 0 < step -> forall l i, 0 <= i -> forall k x, nth_error (sampleFrom step i l) k = Some x <->
  nth_error l (Z.to_nat (step * Z.of_nat k + (- i) mod step)) = Some x.
Proof.
  intros Hs. induction l as [|y l IH]; intros i Hi k x; cbn [sampleFrom].
  - split; intros H; [destruct k|destruct (Z.to_nat _)]; discriminate.
  - pose proof (Z.mod_pos_bound (- i) step Hs) as MB. pose proof (Z.mod_pos_bound (- (i + 1)) step Hs) as MB2.
    assert (0 <= step * Z.of_nat k) as K0 by (apply Z.mul_nonneg_nonneg; lia).
    rewrite Z.rem_mod_nonneg by lia. destruct (i mod step =? 0) eqn:E.
    + assert ((- i) mod step = 0) as E1 by (rewrite Z.mod_opp_l_z; lia).
      assert ((- (i + 1)) mod step = step - 1) as E2.
      { replace (- (i + 1)) with (step - 1 + (- i - step)) by ring. rewrite Zplus_mod. replace (- i - step) with (- i + (-1) * step) by ring. rewrite Z.mod_add, E1, Z.add_0_r, Z.mod_mod by lia. apply Z.mod_small. lia. }
      rewrite E1. destruct k as [|k].
      * change (Z.of_nat 0) with 0. rewrite Z.mul_0_r. reflexivity.
      * cbn [nth_error]. rewrite (IH (i + 1) ltac:(lia) k x), E2.
        replace (Z.to_nat (step * Z.of_nat (S k) + 0)) with (S (Z.to_nat (step * Z.of_nat k + (step - 1)))); [reflexivity|].
        assert (0 <= step * Z.of_nat k) by (apply Z.mul_nonneg_nonneg; lia). rewrite Nat2Z.inj_succ, Z.mul_succ_r. generalize dependent (step * Z.of_nat k). intros. lia.
    + assert (i mod step <> 0) as N by lia. rewrite (IH (i + 1) ltac:(lia) k x).
      assert ((- i) mod step = (- (i + 1)) mod step + 1) as E2.
      { rewrite Z.mod_opp_l_nz by lia. symmetry. pose proof (Z.mod_pos_bound i step Hs).
        assert ((- (i + 1)) mod step = step - i mod step - 1) as E3; [|lia].
        symmetry. apply (Z.mod_unique_pos _ _ (- (i / step) - 1)); [lia|]. rewrite (Z.div_mod i step) at 1 by lia. ring. }
      rewrite E2. replace (Z.to_nat (step * Z.of_nat k + ((- (i + 1)) mod step + 1))) with (S (Z.to_nat (step * Z.of_nat k + (- (i + 1)) mod step))); [reflexivity|].
      generalize dependent (step * Z.of_nat k). intros. lia.
Qed.
