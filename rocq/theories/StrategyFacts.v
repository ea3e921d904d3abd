(** StrategyFacts.v -- the books of a strategy: balances and positions against the calls it made to the pool. *)
From Coq Require Import String.
From Verif Require Import Base U256Z SwapMath TickMath Float64 Pool PoolOps Prices Client Strategy PoolSpec.
Ltac Zify.zify_post_hook ::= idtac.
Open Scope Z_scope.

(** ** the books kept by an observer of the calls *)
(** what a call brings to the caller's balances *)
Definition gain0 (c : op * (Z * Z)) : Z :=
  match fst c with
  | OCollectStrategy _ _ => fst (snd c)
  | OMintStrategy _ _ _ | OExactInput _ _ _ | OExactOutput _ _ _ => - fst (snd c)
  | _ => 0
  end.
Definition gain1 (c : op * (Z * Z)) : Z :=
  match fst c with
  | OCollectStrategy _ _ => snd (snd c)
  | OMintStrategy _ _ _ | OExactInput _ _ _ | OExactOutput _ _ _ => - snd (snd c)
  | _ => 0
  end.
(** the liquidity a call puts in the range [l, u] for the caller *)
Definition added (l u : Z) (c : op * (Z * Z)) : Z :=
  match fst c with
  | OMintStrategy l' u' a => if (l =? l') && (u =? u') then a else 0
  | OBurnStrategy l' u' a => if (l =? l') && (u =? u') then - a else 0
  | _ => 0
  end.
Definition sumOf {A} (f : A -> Z) (l : list A) : Z := fold_right (fun x s => f x + s) 0 l.
(** the liquidity the strategy thinks it has there *)
Definition recorded (l u : Z) (x : Position) : Z := if (l =? poLower x) && (u =? poUpper x) then poAmount x else 0.

Lemma sumOf_app {A} (f : A -> Z) l m : sumOf f (l ++ m) = sumOf f l + sumOf f m.
Proof. unfold sumOf. induction l as [|x l IH]; cbn [fold_right app]; [lia|]. rewrite IH. lia. Qed.

(** [s] becomes [s'] while making the calls [tr] *)
Definition balanced (s : St) (tr : trace) (s' : St) : Prop :=
  sAmount0 s' mod T256 = (sAmount0 s + sumOf gain0 tr) mod T256 /\
  sAmount1 s' mod T256 = (sAmount1 s + sumOf gain1 tr) mod T256.
Definition registered (s : St) (tr : trace) (s' : St) : Prop :=
  forall l u, sumOf (recorded l u) (sPositions s') = sumOf (recorded l u) (sPositions s) + sumOf (added l u) tr.

(** ** reasoning about clients *)
Definition ens {A} (P : trace -> A -> Prop) (m : M A) : Prop := forall fuel p q t a, runV fuel p m = Ok (q, t, a) -> P t a.
Lemma ens_bind {A B} (P : trace -> A -> Prop) (Q : trace -> B -> Prop) (m : M A) (f : A -> M B) :
  ens P m -> (forall t a, P t a -> ens (fun t' b => Q (t ++ t') b) (f a)) -> ens Q (mbind m f).
Proof.
  intros H K fuel p q t b. rewrite runV_bind. destruct (runV fuel p m) as [[[q1 t1] a]| |] eqn:E; cbn [bind]; try discriminate.
  destruct (runV fuel q1 (f a)) as [[[q2 t2] b2]| |] eqn:E2; cbn [bind]; try discriminate.
  intros X. injection X as <- <- <-. apply (K t1 a (H _ _ _ _ _ E) _ _ _ _ _ E2).
Qed.
Lemma ens_done {A} (P : trace -> A -> Prop) a : P [] a -> ens P (done a).
Proof. intros H fuel p q t b E. unfold done in E. cbn [runV bind] in E. injection E as _ <- <-. assumption. Qed.
Lemma ens_call (P : trace -> Z * Z -> Prop) o : (forall r, P [(o, r)] r) -> ens P (call o).
Proof.
  intros H fuel p q t b. unfold call. cbn [runV]. destruct (apply fuel p o) as [[[p' a0] a1]| |]; cbn [bind]; try discriminate.
  unfold done. cbn [runV bind]. intros E. injection E as _ <- <-. apply H.
Qed.
Definition quiet {A} (m : M A) : Prop := ens (fun t _ => t = []) m.
Lemma quiet_pure {A} (r : res A) : quiet (pure r).
Proof. intros fuel p q t b. unfold pure. cbn [runV]. destruct r; cbn [bind]; try discriminate. intros E. now injection E as _ <- _. Qed.
Lemma quiet_look : quiet look.
Proof. intros fuel p q t b. unfold look, done. cbn [runV bind]. intros E. now injection E as _ <- _. Qed.
Lemma quiet_done {A} (a : A) : quiet (done a).
Proof. now apply ens_done. Qed.
Lemma quiet_bind {A B} (m : M A) (f : A -> M B) : quiet m -> (forall a, quiet (f a)) -> quiet (mbind m f).
Proof. intros H K. eapply ens_bind; [exact H|]. intros t a ->. apply K. Qed.
Lemma ens_quiet {A B} (Q : trace -> B -> Prop) (m : M A) (f : A -> M B) :
  quiet m -> (forall a, ens Q (f a)) -> ens Q (mbind m f).
Proof. intros H K. eapply ens_bind; [exact H|]. intros t a ->. apply K. Qed.
Lemma ens_weaken {A} (P Q : trace -> A -> Prop) (m : M A) : ens P m -> (forall t a, P t a -> Q t a) -> ens Q m.
Proof. intros H K fuel p q t a E. apply K, (H _ _ _ _ _ E). Qed.

(** ** one relation for everything but burning *)
Definition kept (s : St) (tr : trace) (s' : St) : Prop := balanced s tr s' /\ registered s tr s'.
Lemma balanced_refl s : balanced s [] s.
Proof. unfold balanced. cbn. rewrite !Z.add_0_r. auto. Qed.
Lemma kept_refl s : kept s [] s.
Proof. split; [apply balanced_refl|]. intros l u. cbn. lia. Qed.
Lemma balanced_trans s t s1 t' s2 : balanced s t s1 -> balanced s1 t' s2 -> balanced s (t ++ t') s2.
Proof.
  intros [A B] [C D]. unfold balanced. rewrite !sumOf_app. split.
  - rewrite C, Z.add_assoc. rewrite <- Z.add_mod_idemp_l, A, Z.add_mod_idemp_l by discriminate. reflexivity.
  - rewrite D, Z.add_assoc. rewrite <- Z.add_mod_idemp_l, B, Z.add_mod_idemp_l by discriminate. reflexivity.
Qed.
Lemma kept_trans s t s1 t' s2 : kept s t s1 -> kept s1 t' s2 -> kept s (t ++ t') s2.
Proof.
  intros [A B] [C D]. split; [now apply (balanced_trans s t s1)|]. intros l u. rewrite D, B, sumOf_app. lia.
Qed.
Lemma kept_seq {B} s (Q : trace -> B -> Prop) (m : M St) (f : St -> M B) :
  ens (kept s) m -> (forall t s1, kept s t s1 -> ens (fun t' b => Q (t ++ t') b) (f s1)) -> ens Q (mbind m f).
Proof. intros H K. eapply ens_bind; [exact H|]. exact K. Qed.
Lemma keep_seq s (m : M St) (f : St -> M St) : ens (kept s) m -> (forall s1, ens (kept s1) (f s1)) -> ens (kept s) (mbind m f).
Proof.
  intros H K. eapply ens_bind; [exact H|]. intros t s1 H1. eapply ens_weaken; [apply K|]. intros t' s2 H2. now apply (kept_trans s t s1).
Qed.
Lemma keep_id s : ens (kept s) (done s).
Proof. apply ens_done, kept_refl. Qed.

Lemma sub_mod a b x : (x mod T256 = a mod T256) -> usub x b mod T256 = (a + (- b + 0)) mod T256.
Proof.
  intros H. unfold usub. rewrite Zmod_mod. replace (x - b) with (x + - b) by ring. rewrite Z.add_0_r.
  rewrite <- Z.add_mod_idemp_l, H, Z.add_mod_idemp_l by discriminate. reflexivity.
Qed.

Lemma keep_mintAmount s l u a : ens (kept s) (mintAmount s l u a).
Proof.
  unfold mintAmount. eapply ens_bind; [apply ens_call with (P := fun t r => t = [(OMintStrategy l u a, r)]); reflexivity|].
  intros t r ->. apply ens_done. split.
  - split; cbn [sAmount0 sAmount1 with_amounts with_positions app sumOf fold_right gain0 gain1 fst snd]; now apply sub_mod.
  - intros l' u'. cbn [sPositions with_amounts with_positions]. rewrite sumOf_app.
    cbn [app sumOf fold_right added recorded poAmount poLower poUpper fst snd]. unfold recorded. cbn [poAmount poLower poUpper]. lia.
Qed.
Ltac quiets := repeat first [apply quiet_pure | apply quiet_look | apply quiet_done | apply quiet_bind; [|intros ?]].
Lemma quiet_liquidityFor s l u : quiet (liquidityFor s l u).
Proof. unfold liquidityFor. quiets. Qed.
Lemma keep_mintPosition s l u : ens (kept s) (mintPosition s l u).
Proof.
  unfold mintPosition. apply ens_quiet; [apply quiet_liquidityFor|]. intros a. destruct (a =? 0); [apply keep_id|apply keep_mintAmount].
Qed.
Lemma keep_mintUnchecked s l u : ens (kept s) (mintUnchecked s l u).
Proof. unfold mintUnchecked. apply ens_quiet; [apply quiet_liquidityFor|]. intros a. apply keep_mintAmount. Qed.
Lemma keep_mintHalf s l u : ens (kept s) (mintHalf s l u).
Proof.
  unfold mintHalf. apply ens_quiet; [apply quiet_liquidityFor|]. intros a. cbv zeta. destruct (_ =? 0); [apply keep_id|apply keep_mintAmount].
Qed.
Lemma keep_twoInterval a b s : ens (kept s) (twoIntervalPositions a b s).
Proof.
  unfold twoIntervalPositions. apply ens_quiet; [apply quiet_look|]. intros p. cbv zeta. destruct (around _ _ _) as [l u].
  apply keep_seq; [apply keep_mintPosition|]. intros s1. apply keep_seq.
  - destruct (negb _); [|apply keep_id]. apply ens_quiet; [apply quiet_look|]. intros p'. apply keep_mintPosition.
  - intros s2. destruct (negb _); [|apply keep_id]. apply ens_quiet; [apply quiet_look|]. intros p'. apply keep_mintPosition.
Qed.
Lemma keep_fillUp s sp l u : ens (kept s) (fillUp s sp l u).
Proof.
  unfold fillUp. destruct (negb (sAmount0 s =? 0)); [|destruct (negb _); [|apply keep_id]];
    (apply ens_quiet; [apply quiet_look|]; intros p; cbv zeta; destruct (_ <? _); [apply keep_mintPosition|apply keep_id]).
Qed.
Lemma keep_fillUpPositions w s : ens (kept s) (fillUpPositions w s).
Proof.
  unfold fillUpPositions. apply ens_quiet; [apply quiet_look|]. intros p. destruct (around _ _ _) as [l u].
  apply keep_seq; [apply keep_mintPosition|]. intros s1. apply keep_fillUp.
Qed.
Lemma kept_limit s t s' x d : kept s t s' -> kept s t (with_limit s' x d).
Proof. intros H. exact H. Qed.
Lemma keep_limitOrder w s : ens (kept s) (limitOrderPositions w s).
Proof.
  unfold limitOrderPositions. apply ens_quiet; [apply quiet_look|]. intros p. cbv zeta. destruct (around _ _ _) as [l u].
  apply keep_seq; [apply keep_mintPosition|]. intros s1. apply keep_seq.
  - destruct (negb _); [|apply keep_id]. apply ens_quiet; [apply quiet_look|]. intros p'. cbv zeta.
    apply keep_seq; [apply keep_mintHalf|]. intros s2. apply ens_done, (kept_refl s2).
  - intros s2. destruct (negb _); [|apply keep_id]. apply ens_quiet; [apply quiet_look|]. intros p'. cbv zeta.
    apply keep_seq; [apply keep_mintHalf|]. intros s3. apply ens_done, (kept_refl s3).
Qed.
Lemma keep_swap s amount token lim :
  ens (kept s) (act r <- call (OExactInput amount token lim); done (with_amounts s (usub (sAmount0 s) (fst r)) (usub (sAmount1 s) (snd r)))).
Proof.
  eapply ens_bind; [apply ens_call with (P := fun t r => t = [(OExactInput amount token lim, r)]); reflexivity|].
  intros t r ->. apply ens_done. split.
  - split; cbn [sAmount0 sAmount1 with_amounts app sumOf fold_right gain0 gain1 fst snd]; now apply sub_mod.
  - intros l' u'. cbn [sPositions with_amounts app sumOf fold_right added fst]. unfold sumOf. cbn [fold_right]. lia.
Qed.
Lemma keep_swapAndMint s l u : ens (kept s) (swapAndMint s l u).
Proof.
  unfold swapAndMint. do 5 (apply ens_quiet; [quiets|]; intros ?). cbv zeta.
  apply keep_seq.
  - destruct (_ <? _); (destruct (_ =? 1); [|apply keep_id]); (apply ens_quiet; [quiets|]; intros p; apply keep_swap).
  - intros s1. do 2 (apply ens_quiet; [quiets|]; intros ?). apply keep_mintAmount.
Qed.
Lemma quiet_volatility m s : quiet (volatilityTicks m s).
Proof. unfold volatilityTicks. quiets. Qed.
Lemma quiet_bollinger m s : quiet (bollingerTicks m s).
Proof. unfold bollingerTicks. quiets. Qed.
Lemma quiet_average m s : quiet (averageTicks m s).
Proof. unfold averageTicks. quiets. Qed.
Lemma keep_mintAt g s : (forall s, quiet (g s)) -> ens (kept s) (mintAt g s).
Proof. intros H. unfold mintAt. apply ens_quiet; [apply H|]. intros t. apply keep_mintPosition. Qed.
Lemma keep_mintAround w mint s : (forall s l u, ens (kept s) (mint s l u)) -> ens (kept s) (mintAround w mint s).
Proof. intros H. unfold mintAround. apply ens_quiet; [apply quiet_look|]. intros p. destruct (around _ _ _). apply H. Qed.
Lemma keep_bollingerFillUp m s : ens (kept s) (bollingerFillUp m s).
Proof.
  unfold bollingerFillUp. apply ens_quiet; [apply quiet_bollinger|]. intros [l u]. apply keep_seq; [apply keep_mintPosition|].
  intros s1. apply ens_quiet; [apply quiet_look|]. intros p. destruct (_ && _); [apply keep_fillUp|apply keep_id].
Qed.
Lemma keep_initPositions k s : ens (kept s) (initPositions k s).
Proof.
  destruct k; cbn [initPositions].
  - apply keep_twoInterval.
  - apply keep_mintAt, quiet_bollinger.
  - apply keep_mintAt, quiet_bollinger.
  - apply ens_quiet; [apply quiet_look|]. intros p. destruct (around _ _ _) as [l u]. apply (keep_mintUnchecked (with_range s l u)).
  - apply keep_fillUpPositions.
  - apply keep_mintAt, quiet_average.
  - apply keep_mintAround, keep_mintUnchecked.
  - apply keep_limitOrder.
  - apply keep_id.
  - apply keep_mintAround, keep_swapAndMint.
  - apply keep_mintPosition.
  - apply keep_mintAt, quiet_volatility.
Qed.
Lemma keep_rebalancePositions k s : ens (kept s) (rebalancePositions k s).
Proof.
  destruct k; cbn [rebalancePositions].
  - apply keep_twoInterval.
  - apply keep_mintAt, quiet_bollinger.
  - apply keep_bollingerFillUp.
  - apply keep_mintPosition.
  - apply keep_fillUpPositions.
  - apply keep_mintAt, quiet_average.
  - apply keep_mintAround, keep_mintPosition.
  - apply keep_limitOrder.
  - apply keep_id.
  - apply keep_mintAround, keep_swapAndMint.
  - apply keep_mintPosition.
  - apply keep_mintAt, quiet_volatility.
Qed.

(** ** burning *)
(** the calls of BurnAll: burn and collect every recorded position, in order *)
Fixpoint burns (l : list Position) (tr : trace) : Prop :=
  match l with
  | [] => tr = []
  | x :: l => exists r1 r2 tr', tr = (OBurnStrategy (poLower x) (poUpper x) (poAmount x), r1) :: (OCollectStrategy (poLower x) (poUpper x), r2) :: tr' /\ burns l tr'
  end.
Lemma burns_added x y l : forall tr, burns l tr -> sumOf (added x y) tr = - sumOf (recorded x y) l.
Proof.
  induction l as [|p l IH]; intros tr H; cbn [burns] in H; [subst; reflexivity|].
  destruct H as (r1 & r2 & tr' & -> & H). cbn [sumOf fold_right added recorded fst]. specialize (IH _ H). unfold sumOf in *. rewrite IH.
  unfold recorded. destruct (_ && _); lia.
Qed.
Definition burnt (l : list Position) (s : St) (tr : trace) (s' : St) : Prop :=
  balanced s tr s' /\ burns l tr /\ s' = with_amounts s (sAmount0 s') (sAmount1 s').
Lemma ens_burnPositions l : forall s, ens (burnt l s) (burnPositions l s).
Proof.
  induction l as [|x l IH]; intros s; cbn [burnPositions].
  - apply ens_done. split; [apply balanced_refl|]. split; [reflexivity|]. destruct s; reflexivity.
  - eapply ens_bind; [apply ens_call with (P := fun t r => t = [(OBurnStrategy (poLower x) (poUpper x) (poAmount x), r)]); reflexivity|].
    intros t r1 ->.
    eapply ens_bind; [apply ens_call with (P := fun t r => t = [(OCollectStrategy (poLower x) (poUpper x), r)]); reflexivity|].
    intros t r2 ->. eapply ens_weaken; [apply IH|]. intros t s' (HB & HT & HS).
    split; [|split].
    + cbn [app]. apply (balanced_trans s [(OBurnStrategy (poLower x) (poUpper x) (poAmount x), r1); (OCollectStrategy (poLower x) (poUpper x), r2)] (with_amounts s (uadd (sAmount0 s) (fst r2)) (uadd (sAmount1 s) (snd r2))) t s'); [|exact HB].
      split; cbn [sAmount0 sAmount1 with_amounts sumOf fold_right gain0 gain1 fst snd]; unfold uadd; rewrite Zmod_mod; f_equal; lia.
    + exists r1, r2, t. split; [reflexivity|assumption].
    + rewrite HS at 1. reflexivity.
Qed.

(** ** C51 *)
Lemma ens_Init k s : ens (fun tr r => balanced s tr (fst r) /\ registered s tr (fst r) /\ snd r = (sAmount0 s, sAmount1 s)) (Init k s).
Proof.
  unfold Init. eapply ens_bind; [apply keep_initPositions|]. intros t s1 [A B]. apply ens_done. rewrite app_nil_r. cbn [fst snd]. auto.
Qed.
Lemma ens_burnReset s : ens (fun tr r => balanced s tr (fst r) /\ burns (sPositions s) tr /\ snd r = (sAmount0 (fst r), sAmount1 (fst r)) /\ sPositions (fst r) = []) (burnReset s).
Proof.
  unfold burnReset. eapply ens_bind; [apply ens_burnPositions|]. intros t s1 (A & B & C). apply ens_done. rewrite app_nil_r. cbn [fst snd].
  split; [exact A|]. split; [exact B|]. split; reflexivity.
Qed.
Definition keepsPositions (k : Kind) : bool :=
  match k with TwoInterval _ _ | ConstantInterval _ | IntervalAroundPrice _ => true | _ => false end.
Lemma ens_BurnAll k s : k <> NoProvision ->
  ens (fun tr r => balanced s tr (fst r) /\ burns (sPositions s) tr /\ snd r = (sAmount0 (fst r), sAmount1 (fst r)) /\
         sPositions (fst r) = if keepsPositions k then sPositions s else []) (BurnAll k s).
Proof.
  intros HK. assert (ens (fun tr r => balanced s tr (fst r) /\ burns (sPositions s) tr /\ snd r = (sAmount0 (fst r), sAmount1 (fst r)) /\ sPositions (fst r) = sPositions s) (burnKeep s)) as Hkeep.
  { unfold burnKeep. eapply ens_bind; [apply ens_burnPositions|]. intros t s1 (A & B & C). apply ens_done. rewrite app_nil_r. cbn [fst snd].
    split; [exact A|]. split; [exact B|]. split; [reflexivity|]. now rewrite C. }
  destruct k; cbn [BurnAll keepsPositions]; first [exact Hkeep | apply ens_burnReset | congruence].
Qed.
Lemma ens_Rebalance k s : k <> NoProvision ->
  ens (fun tr r => balanced s tr (fst r) /\ registered s tr (fst r) /\
         exists t1 t2 a0 a1, tr = t1 ++ t2 /\ burns (sPositions s) t1 /\ snd r = Some (a0, a1) /\
           a0 mod T256 = (sAmount0 s + sumOf gain0 t1) mod T256 /\ a1 mod T256 = (sAmount1 s + sumOf gain1 t1) mod T256) (Rebalance k s).
Proof.
  intros HK.
  assert (ens (fun tr r => balanced s tr (fst r) /\ registered s tr (fst r) /\
         exists t1 t2 a0 a1, tr = t1 ++ t2 /\ burns (sPositions s) t1 /\ snd r = Some (a0, a1) /\
           a0 mod T256 = (sAmount0 s + sumOf gain0 t1) mod T256 /\ a1 mod T256 = (sAmount1 s + sumOf gain1 t1) mod T256)
     (act r <- burnReset s; act s <- rebalancePositions k (fst r); done (s, Some (snd r)))) as H.
  { eapply ens_bind; [apply ens_burnReset|]. intros t1 [s1 [a0 a1]] (A & B & C & D). cbn [fst snd] in *.
    eapply ens_bind; [apply keep_rebalancePositions|]. intros t2 s2 [E F]. apply ens_done. rewrite app_nil_r. cbn [fst snd].
    split; [now apply (balanced_trans s t1 s1)|]. split.
    - intros l u. rewrite F, D, sumOf_app, (burns_added l u _ _ B). cbn. lia.
    - injection C as -> ->. destruct A as [A1 A2]. exists t1, t2, (sAmount0 s1), (sAmount1 s1). repeat split; assumption. }
  destruct k; cbn [Rebalance]; try exact H. congruence.
Qed.
Lemma NoProvision_idle s fuel p :
  runV fuel p (Init NoProvision s) = Ok (p, [], (s, (sAmount0 s, sAmount1 s))) /\
  runV fuel p (BurnAll NoProvision s) = Ok (p, [], (s, (sAmount0 s, sAmount1 s))) /\
  runV fuel p (Rebalance NoProvision s) = Ok (p, [], (s, None)).
Proof. repeat split. Qed.

(** ** C52 *)
Definition twice (k : Kind) (s : St) : M (St * (Z * Z)) := act r <- BurnAll k s; BurnAll k (fst r).
Lemma burnKeep_nil s fuel p : sPositions s = [] -> runV fuel p (burnKeep s) = Ok (p, [], (s, (sAmount0 s, sAmount1 s))).
Proof. intros H. unfold burnKeep. rewrite H. reflexivity. Qed.
Lemma with_positions_nil s : sPositions s = [] -> with_positions s [] = s.
Proof. intros H. destruct s. cbn in H. subst. reflexivity. Qed.
Lemma BurnAll_nil k s fuel p : sPositions s = [] -> runV fuel p (BurnAll k s) = Ok (p, [], (s, (sAmount0 s, sAmount1 s))).
Proof.
  intros H. assert (runV fuel p (burnReset s) = Ok (p, [], (s, (sAmount0 s, sAmount1 s)))) as HR.
  { unfold burnReset. rewrite H. cbn. now rewrite with_positions_nil. }
  destruct k; cbn [BurnAll]; first [exact HR | now apply burnKeep_nil | reflexivity].
Qed.
Lemma BurnAll_twice k s fuel p : keepsPositions k = false \/ sPositions s = [] ->
  runV fuel p (twice k s) = runV fuel p (BurnAll k s).
Proof.
  intros H. assert (k = NoProvision \/ k <> NoProvision) as [->|HN] by (destruct k; first [now left|now right]); [reflexivity|].
  unfold twice. rewrite runV_bind.
  destruct (runV fuel p (BurnAll k s)) as [[[q t] [s1 a]]| |] eqn:E; cbn [bind]; try reflexivity. cbn [fst].
  assert (HE := ens_BurnAll k s HN fuel p q t (s1, a) E). cbv beta in HE. cbn [fst snd] in HE. destruct HE as (_ & _ & H2 & H1).
  assert (sPositions s1 = []) as H3. { destruct H as [H|H]; rewrite H in H1; [assumption|]. now destruct (keepsPositions k). }
  rewrite BurnAll_nil by assumption. cbn [bind]. rewrite app_nil_r, H2. reflexivity.
Qed.

(** a strategy that keeps its list is paid twice *)
Definition st0 : St := mkSt (10 ^ 20) (10 ^ 20) [] (mkPrices [] 0 0) 0 0 0 false.
Definition seedPool (q : Pool) : Pool := match Mint q (-600) 600 (10 ^ 21) with Ok p => p | _ => q end.
Lemma ens_BurnAll' k s : k <> NoProvision ->
  ens (fun tr r => balanced s tr (fst r) /\ burns (sPositions s) tr /\ snd r = (sAmount0 (fst r), sAmount1 (fst r)) /\
         sPositions (fst r) = match k with TwoInterval _ _ | ConstantInterval _ | IntervalAroundPrice _ => sPositions s | _ => [] end) (BurnAll k s).
Proof.
  intros H. eapply ens_weaken; [apply (ens_BurnAll k s H)|]. intros t a (A & B & C & D). split; [exact A|]. split; [exact B|]. split; [exact C|].
  destruct k; exact D.
Qed.
Lemma BurnAll_twice' k s fuel p :
  match k with TwoInterval _ _ | ConstantInterval _ | IntervalAroundPrice _ => sPositions s = [] | _ => True end ->
  runV fuel p (twice k s) = runV fuel p (BurnAll k s).
Proof. intros H. apply BurnAll_twice. destruct k; cbn [keepsPositions]; auto. Qed.
Lemma paid_twice : exists k p s fuel q tr once twice,
  runV fuel p (act r <- Init k s; act b <- BurnAll k (fst r); act c <- BurnAll k (fst b); done (snd b, snd c)) = Ok (q, tr, (once, twice)) /\
  fst once <= sAmount0 s /\ snd once <= sAmount1 s /\ 199 * sAmount0 s <= 100 * fst twice /\ 199 * sAmount1 s <= 100 * snd twice.
Proof.
  exists (ConstantInterval 100), (seedPool startPool), st0, 50%nat. eexists. eexists. eexists. eexists.
  split; [vm_compute; reflexivity|]. repeat split; vm_compute; discriminate.
Qed.
