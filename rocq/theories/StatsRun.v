(** StatsRun.v -- the result of a run *)
From Coq Require Import Floats.SpecFloat Lia ZifyBool.
From Verif Require Import Base U256Z Float64 Float64Facts FloatSpec Pool Prices Client Strategy Executor StrategyFacts Stats StatsFacts StatsRisk.
Ltac Zify.zify_post_hook ::= idtac.
Open Scope Z_scope.

(** ** what a run records *)
Definition gives {A} (P : A -> Prop) (m : M A) : Prop := ens (fun _ a => P a) m.
Lemma gives_bind {A B} (P : A -> Prop) (Q : B -> Prop) (m : M A) (f : A -> M B) : gives P m -> (forall a, P a -> gives Q (f a)) -> gives Q (mbind m f).
Proof. intros H K. apply (ens_bind (fun _ => P)); [exact H|]. intros t a Ha. exact (K a Ha). Qed.
Lemma gives_any {A} (m : M A) : gives (fun _ => True) m.
Proof. intros fuel p q t a _. exact I. Qed.
Lemma gives_done {A} (P : A -> Prop) a : P a -> gives P (done a).
Proof. intros H. now apply ens_done. Qed.
Lemma gives_value a b : gives price (valueUSD a b).
Proof.
  unfold valueUSD. apply (gives_bind _ _ _ _ (gives_any _)). intros p _. cbv zeta. apply (gives_bind _ _ _ _ (gives_any _)). intros x _. apply gives_done.
  unfold price, uadd. apply Z.mod_pos_bound. reflexivity.
Qed.
Lemma gives_loop {S} (strat : Strat S) c txs : forall s l, Forall price (lValues l) -> gives (fun sl => Forall price (lValues (snd sl))) (runLoop strat c txs s l).
Proof.
  induction txs as [|t txs IH]; intros s l Hl; cbn [runLoop]; [now apply gives_done|].
  destruct (cEnd c <? txTime t); [now apply gives_done|].
  apply (gives_bind (fun sl => Forall price (lValues (snd sl)))).
  { destruct (_ && _); [|now apply gives_done]. apply (gives_bind _ _ _ _ (gives_any _)). intros [s1 [a0 a1]] _.
    apply (gives_bind _ _ _ _ (gives_value _ _)). intros v Hv. apply gives_done. cbn [snd lValues]. apply Forall_app. split; [assumption|now constructor]. }
  intros [s1 l1] H1. cbn [snd] in H1. apply (gives_bind (fun sl => Forall price (lValues (snd sl)))).
  { destruct (_ <? _); [|now apply gives_done]. apply (gives_bind _ _ _ _ (gives_any _)). intros s2 _. now apply gives_done. }
  intros [s2 l2] H2. cbn [snd] in H2. apply (gives_bind (fun l => Forall price (lValues l))).
  { destruct (_ <=? _); [|now apply gives_done]. apply (gives_bind _ _ _ _ (gives_any _)). intros a _.
    apply (gives_bind _ _ _ _ (gives_value _ _)). intros v Hv. apply gives_done. cbn [lValues]. apply Forall_app. split; [assumption|now constructor]. }
  intros l3 H3. apply (gives_bind (fun sl => Forall price (lValues (snd sl)))).
  { destruct (_ <=? _); [|now apply gives_done]. apply (gives_bind _ _ _ _ (gives_any _)). intros s3 _. now apply gives_done. }
  intros [s4 l4] H4. cbn [snd] in H4. apply (gives_bind _ _ _ _ (gives_any _)). intros _ _. now apply IH.
Qed.
Lemma run_values {S} (strat : Strat S) c txs s fuel p q tr r : runV fuel p (Run strat c txs s) = Ok (q, tr, r) -> Forall price (snd r) /\ snd r <> [].
Proof.
  assert (gives (fun r => Forall price (snd r) /\ snd r <> []) (Run strat c txs s)) as K.
  { unfold Run. apply (gives_bind (fun sl => Forall price (lValues (snd sl)))); [apply gives_loop; constructor|]. intros [s1 l] Hl. cbn [snd] in Hl.
    apply (gives_bind _ _ _ _ (gives_any _)). intros [s2 [a0 a1]] _. apply (gives_bind _ _ _ _ (gives_value _ _)). intros v Hv. apply gives_done. cbn [snd]. split.
    - apply Forall_app. split; [assumption|now constructor].
    - intros E. now apply app_eq_nil in E as [_ E]. }
  intros H. exact (K _ _ _ _ _ H).
Qed.

(** ** the result *)
Lemma result_total ln mul duration interval values : (exists r, resultOf ln mul duration interval values = Ok r) <-> values <> [].
Proof.
  unfold resultOf. cbv zeta. destruct (var_total ln values) as [v1 ->]. destruct (var_total ln (sampleFrom 24 0 values)) as [v2 ->]. destruct (var_total ln (sampleFrom (24 * 7) 0 values)) as [v3 ->].
  cbn [bind]. destruct values as [|x l]; [split; [intros [r H]; discriminate|congruence]|]. destruct (rev (x :: l)) as [|y m] eqn:E.
  - apply (f_equal (@rev Z)) in E. rewrite rev_involutive in E. discriminate.
  - split; [discriminate|]. intros _. eexists. reflexivity.
Qed.
Lemma last_rev (x : Z) l d : match rev (x :: l) with y :: _ => y | [] => d end = last (x :: l) d.
Proof.
  destruct (exists_last (l := x :: l) ltac:(discriminate)) as (l' & y & ->). now rewrite rev_app_distr, last_last.
Qed.
Lemma sample_0 step values k : 0 < step -> nth_error (sampleFrom step 0 values) k = nth_error values (Z.to_nat (step * Z.of_nat k)).
Proof.
  intros Hs. pose proof (sample_spec step Hs values 0 ltac:(lia) k) as H. change (- 0) with 0 in H. rewrite Z.mod_0_l, Z.add_0_r in H by lia.
  destruct (nth_error (sampleFrom step 0 values) k) as [x|]; [symmetry; now apply H|]. destruct (nth_error values _) as [y|]; [|reflexivity]. now apply H.
Qed.
Theorem result_fields ln mul duration interval values r : resultOf ln mul duration interval values = Ok r ->
  UpdateInterval r = interval /\ MultiplierX10 r = mul /\ HistoryWindow r = duration /\ EndAmount r = last values 0 /\ MaxDrawdown r = calculateMaximumDrawdown values
  /\ StdHourly r = calculateStd ln values /\ DownHourly r = calculateDownDeviation ln values /\ calculateVar ln values = Ok (VarHourly r)
  /\ (exists daily, (forall k, nth_error daily k = nth_error values (24 * k)) /\
        StdDaily r = calculateStd ln daily /\ DownDaily r = calculateDownDeviation ln daily /\ calculateVar ln daily = Ok (VarDaily r))
  /\ (exists weekly, (forall k, nth_error weekly k = nth_error values (168 * k)) /\
        StdWeekly r = calculateStd ln weekly /\ DownWeekly r = calculateDownDeviation ln weekly /\ calculateVar ln weekly = Ok (VarWeekly r)).
Proof.
  unfold resultOf. cbv zeta. destruct (calculateVar ln values) as [v1| |] eqn:E1; cbn [bind]; try discriminate.
  destruct (calculateVar ln (sampleFrom 24 0 values)) as [v2| |] eqn:E2; cbn [bind]; try discriminate.
  destruct (calculateVar ln (sampleFrom (24 * 7) 0 values)) as [v3| |] eqn:E3; cbn [bind]; try discriminate.
  destruct values as [|x l]; [discriminate|]. pose proof (last_rev x l 0) as EL. destruct (rev (x :: l)) as [|y m]; [discriminate|]. intros H. injection H as <-.
  cbn [UpdateInterval MultiplierX10 HistoryWindow EndAmount MaxDrawdown StdHourly DownHourly VarHourly StdDaily DownDaily VarDaily StdWeekly DownWeekly VarWeekly].
  split; [reflexivity|]. split; [reflexivity|]. split; [reflexivity|]. split; [exact EL|]. split; [reflexivity|]. split; [reflexivity|]. split; [reflexivity|]. split; [reflexivity|]. split.
  - exists (sampleFrom 24 0 (x :: l)). split; [|split; [reflexivity|]; split; [reflexivity|exact E2]]. intros k. rewrite sample_0 by lia. f_equal. lia.
  - exists (sampleFrom (24 * 7) 0 (x :: l)). split; [|split; [reflexivity|]; split; [reflexivity|exact E3]]. intros k. rewrite sample_0 by lia. f_equal. lia.
Qed.
Theorem result_return ln mul duration interval first rest r : resultOf ln mul duration interval (first :: rest) = Ok r -> Forall price (first :: rest) -> 0 < first ->
  exists w, fin (Return r) w /\ - 2 ^ 1074 <= w
    /\ Z.abs (w * first - (EndAmount r - first) * 2 ^ 1074) <= Z.max first (EndAmount r) * 2 ^ 1024
    /\ (EndAmount r <= first -> w <= 0) /\ (first <= EndAmount r -> 0 <= w).
Proof.
  intros H HP Hf. unfold resultOf in H. cbv zeta in H. destruct (calculateVar ln (first :: rest)) as [v1| |]; cbn [bind] in H; try discriminate.
  destruct (calculateVar ln _) as [v2| |]; cbn [bind] in H; try discriminate. destruct (calculateVar ln _) as [v3| |]; cbn [bind] in H; try discriminate.
  destruct (rev (first :: rest)) as [|y m] eqn:ER; [discriminate|]. injection H as <-. cbn [Return EndAmount].
  assert (price first) as P1 by now inversion HP. assert (price y) as P2.
  { rewrite Forall_forall in HP. apply HP. apply in_rev. rewrite ER. now left. }
  destruct (price_fin first P1) as [F1 _]. destruct (price_fin y P2) as [F2 _].
  destruct (change_of first y _ _ P1 P2 Hf F1 F2) as (w & Fw & Hw & W0 & W1 & W2). exists w. split; [exact Fw|]. split; [exact W0|]. split; [exact Hw|]. unfold price in *. split; intros L.
  - apply W1. apply rd_mono; lia.
  - apply W2. apply rd_mono; lia.
Qed.

(** ** the file *)
Lemma is_finite x : isFinite x = true <-> x <> S754_nan /\ forall s, x <> S754_infinity s.
Proof.
  destruct x as [s|s| |s m e]; cbn [isFinite]; split; try discriminate; try reflexivity; try (intros _; split; [discriminate|intros; discriminate]).
  - intros [_ H]. now contradiction (H s).
  - intros [H _]. now contradiction H.
Qed.
Definition numbers (r : RunResult) : list spec_float :=
  [Return r; MaxDrawdown r; StdHourly r; StdDaily r; StdWeekly r; DownHourly r; DownDaily r; DownWeekly r; VarHourly r; VarDaily r; VarWeekly r].
Theorem save_all results : (forall r x, In r results -> In x (numbers r) -> x <> S754_nan /\ forall s, x <> S754_infinity s) -> saveFile results = Some results.
Proof.
  intros H. unfold saveFile. assert (forallb encodable results = true) as ->; [|reflexivity].
  apply forallb_forall. intros r Hr. unfold encodable. apply forallb_forall. intros x Hx. apply is_finite. exact (H r x Hr Hx).
Qed.
Theorem save_nothing results r x : In r results -> In x (numbers r) -> x = S754_nan \/ (exists s, x = S754_infinity s) -> saveFile results = None.
Proof.
  intros Hr Hx Hbad. unfold saveFile. destruct (forallb encodable results) eqn:E; [|reflexivity]. exfalso.
  rewrite forallb_forall in E. specialize (E r Hr). unfold encodable in E. rewrite forallb_forall in E. specialize (E x Hx). apply is_finite in E as [E1 E2].
  destruct Hbad as [->|[s ->]]; [now apply E1|now apply (E2 s)].
Qed.
(** which numbers of a result can be undefined *)
Definition sampled (ln : spec_float -> spec_float) (l : list Z) : Prop := Forall positive l /\ Z.of_nat (length l) < 2 ^ 31.
Lemma sampled_sub ln step l l' : sampled ln l -> (0 < step)%nat -> (forall k, nth_error l' k = nth_error l (step * k)) -> sampled ln l'.
Proof.
  intros [HP HL] Hs H. split.
  - rewrite Forall_forall in *. intros x Hx. apply In_nth_error in Hx as [k Hk]. rewrite H in Hk. apply HP. exact (nth_error_In _ _ Hk).
  - assert (length l' <= length l)%nat; [|lia]. destruct (le_gt_dec (length l') (length l)) as [|C]; [assumption|]. exfalso.
    assert (nth_error l' (length l) <> None) as N by now apply nth_error_Some. apply N. rewrite H. apply nth_error_None.
    rewrite <- (Nat.mul_1_l (length l)) at 1. apply Nat.mul_le_mono_r. exact Hs.
Qed.
Definition number (x : spec_float) : Prop := x <> S754_nan /\ forall s, x <> S754_infinity s.
Lemma fin_number x v : fin x v -> number x.
Proof. intros H. split; [intros ->; exact H|intros s ->; exact H]. Qed.
Lemma down_number ln l : logarithm ln -> sampled ln l -> number (calculateDownDeviation ln l).
Proof. intros Hln [HP HL]. destruct (down_deviation_fin ln l Hln HP ltac:(lia)) as (v & F & _). exact (fin_number _ _ F). Qed.
Lemma var_number ln l x : logarithm ln -> sampled ln l -> calculateVar ln l = Ok x -> number x.
Proof.
  intros Hln [HP HL] H. destruct (Z_le_dec (Z.of_nat (length l)) 2) as [L|L].
  - unfold calculateVar in H. destruct (Z.of_nat (length l) <=? 2) eqn:E; [|lia]. injection H as <-. exact (fin_number f64_zero 0 eq_refl).
  - destruct (var_rank ln l x Hln HP ltac:(lia) H) as (_ & F & _). exact (fin_number _ _ F).
Qed.
Lemma std_number ln l : logarithm ln -> sampled ln l -> calculateStd ln l <> S754_nan -> number (calculateStd ln l).
Proof. intros Hln [HP HL] N. destruct (std_fin ln l Hln HP HL) as [(v & F & _)|E]; [exact (fin_number _ _ F)|contradiction]. Qed.
Theorem result_numbers ln mul duration interval values r : logarithm ln -> Forall positive values -> Z.of_nat (length values) < 2 ^ 31 ->
  resultOf ln mul duration interval values = Ok r -> StdHourly r <> S754_nan -> StdDaily r <> S754_nan -> StdWeekly r <> S754_nan ->
  forall x, In x (numbers r) -> number x.
Proof.
  intros Hln HP HL H N1 N2 N3. assert (sampled ln values) as S1 by (split; assumption).
  destruct (result_fields _ _ _ _ _ _ H) as (_ & _ & _ & _ & ED & E1 & E2 & E3 & (daily & Hd & D1 & D2 & D3) & (weekly & Hw & W1 & W2 & W3)).
  assert (sampled ln daily) as S2 by (apply (sampled_sub ln 24 values); [assumption|lia|assumption]).
  assert (sampled ln weekly) as S3 by (apply (sampled_sub ln 168 values); [assumption|lia|assumption]).
  assert (number (Return r) /\ number (MaxDrawdown r)) as [K1 K2].
  { destruct values as [|first rest]; [exfalso; apply (proj1 (result_total ln mul duration interval [])); [now exists r|reflexivity]|].
    assert (Forall price (first :: rest)) as HP'. { eapply Forall_impl; [|exact HP]. unfold price, positive. intros; lia. }
    assert (0 < first) as H0. { inversion HP as [|? ? Q _]; subst. unfold positive in Q. lia. }
    destruct (result_return _ _ _ _ _ _ _ H HP' H0) as (w & F & _). split; [exact (fin_number _ _ F)|]. rewrite ED.
    destruct (drawdown_spec first rest HP' H0) as (v & F' & _). exact (fin_number _ _ F'). }
  unfold numbers. intros x Hx. repeat (destruct Hx as [<-|Hx]); try contradiction.
  - exact K1. - exact K2.
  - rewrite E1 in *. now apply std_number. - rewrite D1 in *. now apply std_number. - rewrite W1 in *. now apply std_number.
  - rewrite E2. now apply down_number. - rewrite D2. now apply down_number. - rewrite W2. now apply down_number.
  - now apply (var_number ln values). - now apply (var_number ln daily). - now apply (var_number ln weekly).
Qed.
