(** Money.v -- a whole run creates no money: the strategy's calls, the market's calls and the pool against one account. *)
From Coq Require Import ZifyBool String QArith Lqa.
From Verif Require Import Base U256Z FullMathFacts SwapMath LiqFacts TickMath TickSpec TickData TickDataFacts TickFees Ledger Pool PoolInv PoolSwap PoolHist PoolOps PoolPos PoolSpec
  Prices Client Strategy Executor Plan StrategyFacts StrategyBudget ReplayFacts Solvency Cash.
From Verif Require U256Facts.
Ltac Zify.zify_post_hook ::= idtac.
Open Scope Z_scope.

(** ** the pools of the account are reachable *)
Lemma cash_reach h hs p r0 r1 : cash true true h hs p r0 r1 -> reach h p.
Proof.
  induction 1 as [t0 t1 fee price p E|h hs p r0 r1 l u a p' x0 x1 C IH HA E _|h hs p r0 r1 l u a p' y0 y1 C IH H0 HM HP E _|h hs p r0 r1 l u a p' x0 x1 C IH HA _ E|h hs p r0 r1 l u a p' x0 x1 C IH HA HP E
    |h hs p r0 r1 l u p' x0 x1 C IH E|h hs p r0 r1 a0 a1 p' C IH H0 H1 E|h hs p r0 r1 n z amt lim p' a0 a1 C IH HA _ E].
  - now apply (reach_new t0 t1 fee price).
  - now apply (reach_step h p 0 (OMint l u a)).
  - apply (reach_step h p 0 (OBurn l u a)); [assumption| |assumption]. cbn [allowed]. pose proof (ck_cov _ _ _ _ _ (cash_ok _ _ _ _ _ C) l u). lia.
  - apply (reach_step h p 0 (OMintStrategy l u a)); [assumption|assumption|]. cbn [step]. rewrite E. reflexivity.
  - apply (reach_step h p 0 (OBurnStrategy l u a)); [assumption| |cbn [step]; rewrite E; reflexivity]. cbn [allowed]. pose proof (ck_sub _ _ _ _ _ (cash_ok _ _ _ _ _ C) l u). lia.
  - apply (reach_step h p 0 (OCollectStrategy l u)); [assumption|exact I|]. cbn [step]. rewrite E. reflexivity.
  - apply (reach_step h p 0 (OFlash a0 a1)); [assumption|exact I|assumption].
  - destruct z.
    + apply (reach_step h p n (OExactInput amt (Token0 p) lim)); [assumption|exact HA|]. cbn [step]. unfold ExactInputSwap. rewrite String.eqb_refl, E. reflexivity.
    + apply (reach_step h p n (OExactInput amt (append "x" (Token0 p)) lim)); [assumption|exact HA|]. cbn [step]. unfold ExactInputSwap.
      assert ((append "x" (Token0 p) =? Token0 p)%string = false) as ->; [|rewrite E; reflexivity].
      apply String.eqb_neq. intros X. apply (f_equal String.length) in X. cbn in X. lia.
Qed.

(** ** what a list of calls means for the ledgers *)
Definition mints (tr : trace) : list Position := flat_map (fun c => match fst c with OMintStrategy l u a => [mkPosition a l u] | _ => [] end) tr.
Definition noBurns (tr : trace) : Prop := Forall (fun c => match fst c with OBurnStrategy _ _ _ => False | _ => True end) tr.
Definition listed (n : nat) (s : St) (tr : trace) (s' : St) : Prop :=
  sPositions s' = sPositions s ++ mints tr /\ noBurns tr /\ (length (mints tr) <= n)%nat.
Lemma mints_app a b : mints (a ++ b) = mints a ++ mints b.
Proof. apply flat_map_app. Qed.
Lemma listed_trans n m s t s1 t' s2 : listed n s t s1 -> listed m s1 t' s2 -> listed (n + m) s (t ++ t') s2.
Proof.
  intros (A1 & A2 & A3) (B1 & B2 & B3). unfold listed. rewrite B1, A1, mints_app, app_length, app_assoc. split; [reflexivity|].
  split; [now apply Forall_app|lia].
Qed.
Lemma listed_more n m s t s' : (n <= m)%nat -> listed n s t s' -> listed m s t s'.
Proof. intros H (A & B & C). split; [assumption|]. split; [assumption|lia]. Qed.
Lemma list_seq n m s (f : M St) (g : St -> M St) : ens (listed n s) f -> (forall s1, ens (listed m s1) (g s1)) -> ens (listed (n + m) s) (mbind f g).
Proof.
  intros H K. eapply ens_bind; [exact H|]. intros t s1 H1. eapply ens_weaken; [apply K|]. intros t' s2 H2. now apply (listed_trans n m s t s1).
Qed.
Lemma list_id n s : ens (listed n s) (done s).
Proof. apply ens_done. split; [symmetry; apply app_nil_r|]. split; [constructor|cbn; lia]. Qed.
Lemma list_mintAmount s l u a : ens (listed 1 s) (mintAmount s l u a).
Proof.
  unfold mintAmount. eapply ens_bind; [apply ens_call with (P := fun t r => t = [(OMintStrategy l u a, r)]); reflexivity|].
  intros t r ->. apply ens_done. split; [reflexivity|]. split; [repeat constructor|cbn; lia].
Qed.
Lemma list_mintPosition s l u : ens (listed 1 s) (mintPosition s l u).
Proof. unfold mintPosition. apply ens_quiet; [apply quiet_liquidityFor|]. intros a. destruct (a =? 0); [apply list_id|apply list_mintAmount]. Qed.
Lemma list_mintUnchecked s l u : ens (listed 1 s) (mintUnchecked s l u).
Proof. unfold mintUnchecked. apply ens_quiet; [apply quiet_liquidityFor|]. intros a. apply list_mintAmount. Qed.
Lemma list_mintHalf s l u : ens (listed 1 s) (mintHalf s l u).
Proof. unfold mintHalf. apply ens_quiet; [apply quiet_liquidityFor|]. intros a. cbv zeta. destruct (_ =? 0); [apply list_id|apply list_mintAmount]. Qed.
Lemma list_twoInterval a b s : ens (listed 3 s) (twoIntervalPositions a b s).
Proof.
  unfold twoIntervalPositions. apply ens_quiet; [apply quiet_look|]. intros p. cbv zeta. destruct (around _ _ _) as [l u].
  apply (list_seq 1 2); [apply list_mintPosition|]. intros s1. apply (list_seq 1 1).
  - destruct (negb _); [|apply list_id]. apply ens_quiet; [apply quiet_look|]. intros p'. apply list_mintPosition.
  - intros s2. destruct (negb _); [|apply list_id]. apply ens_quiet; [apply quiet_look|]. intros p'. apply list_mintPosition.
Qed.
Lemma list_fillUp s sp l u : ens (listed 1 s) (fillUp s sp l u).
Proof.
  unfold fillUp. destruct (negb (sAmount0 s =? 0)); [|destruct (negb _); [|apply list_id]];
    (apply ens_quiet; [apply quiet_look|]; intros p; cbv zeta; destruct (_ <? _); [apply list_mintPosition|apply list_id]).
Qed.
Lemma list_fillUpPositions w s : ens (listed 3 s) (fillUpPositions w s).
Proof.
  unfold fillUpPositions. apply ens_quiet; [apply quiet_look|]. intros p. destruct (around _ _ _) as [l u].
  apply (list_seq 2 1); [eapply ens_weaken; [apply list_mintPosition|]; intros t s1; apply listed_more; lia|]. intros s1. apply list_fillUp.
Qed.
Lemma list_limitOrder w s : ens (listed 3 s) (limitOrderPositions w s).
Proof.
  assert (forall s l u x d, ens (listed 1 s) (act s <- mintHalf s l u; done (with_limit s x d))) as K.
  { intros s0 l u x d. apply (list_seq 1 0); [apply list_mintHalf|]. intros s1. apply ens_done. split; [symmetry; apply app_nil_r|]. split; [constructor|cbn; lia]. }
  unfold limitOrderPositions. apply ens_quiet; [apply quiet_look|]. intros p. cbv zeta. destruct (around _ _ _) as [l u].
  apply (list_seq 1 2); [apply list_mintPosition|]. intros s1. apply (list_seq 1 1).
  - destruct (negb _); [|apply list_id]. apply ens_quiet; [apply quiet_look|]. intros p'. cbv zeta. apply K.
  - intros s2. destruct (negb _); [|apply list_id]. apply ens_quiet; [apply quiet_look|]. intros p'. cbv zeta. apply K.
Qed.
Lemma list_swapAndMint s l u : ens (listed 1 s) (swapAndMint s l u).
Proof.
  assert (forall s amount token, ens (listed 0 s) (act r <- call (OExactInput amount token 0); done (with_amounts s (usub (sAmount0 s) (fst r)) (usub (sAmount1 s) (snd r))))) as K.
  { intros s0 amount token. eapply ens_bind; [apply ens_call with (P := fun t r => t = [(OExactInput amount token 0, r)]); reflexivity|].
    intros t r ->. apply ens_done. split; [symmetry; apply app_nil_r|]. split; [repeat constructor|cbn; lia]. }
  unfold swapAndMint. do 5 (apply ens_quiet; [quiets|]; intros ?). cbv zeta.
  apply (list_seq 0 1).
  - destruct (_ <? _); (destruct (_ =? 1); [|apply list_id]); (apply ens_quiet; [quiets|]; intros p; apply K).
  - intros s1. do 2 (apply ens_quiet; [quiets|]; intros ?). apply list_mintAmount.
Qed.
Lemma list_mintAt g s : (forall s, quiet (g s)) -> ens (listed 1 s) (mintAt g s).
Proof. intros H. unfold mintAt. apply ens_quiet; [apply H|]. intros t. apply list_mintPosition. Qed.
Lemma list_mintAround w mint s : (forall s l u, ens (listed 1 s) (mint s l u)) -> ens (listed 1 s) (mintAround w mint s).
Proof. intros H. unfold mintAround. apply ens_quiet; [apply quiet_look|]. intros p. destruct (around _ _ _). apply H. Qed.
Lemma list_bollingerFillUp m s : ens (listed 3 s) (bollingerFillUp m s).
Proof.
  unfold bollingerFillUp. apply ens_quiet; [apply quiet_bollinger|]. intros [l u]. apply (list_seq 1 2); [apply list_mintPosition|].
  intros s1. apply ens_quiet; [apply quiet_look|]. intros p. destruct (_ && _); [|apply list_id]. eapply ens_weaken; [apply list_fillUp|]. intros t s2. apply listed_more; lia.
Qed.

(** the strategies that never hold two ranges at once *)
Definition single (k : Kind) : bool :=
  match k with TwoInterval _ _ | BollingerBandsFillUp _ | FillUp _ | LimitOrder _ => false | _ => true end.
Definition most (k : Kind) : nat := if single k then 1 else 3.
Ltac more := eapply ens_weaken; [|intros ? ?; apply (listed_more 1); lia].
Lemma list_initPositions k s : ens (listed (most k) s) (initPositions k s).
Proof.
  destruct k; cbn [initPositions most single].
  - apply list_twoInterval.
  - apply list_mintAt, quiet_bollinger.
  - more. apply list_mintAt, quiet_bollinger.
  - apply ens_quiet; [apply quiet_look|]. intros p. destruct (around _ _ _) as [l u]. apply (list_mintUnchecked (with_range s l u)).
  - apply list_fillUpPositions.
  - apply list_mintAt, quiet_average.
  - apply list_mintAround, list_mintUnchecked.
  - apply list_limitOrder.
  - apply list_id.
  - apply list_mintAround, list_swapAndMint.
  - apply list_mintPosition.
  - apply list_mintAt, quiet_volatility.
Qed.
Lemma list_rebalancePositions k s : ens (listed (most k) s) (rebalancePositions k s).
Proof.
  destruct k; cbn [rebalancePositions most single].
  - apply list_twoInterval.
  - apply list_mintAt, quiet_bollinger.
  - apply list_bollingerFillUp.
  - apply list_mintPosition.
  - apply list_fillUpPositions.
  - apply list_mintAt, quiet_average.
  - apply list_mintAround, list_mintPosition.
  - apply list_limitOrder.
  - apply list_id.
  - apply list_mintAround, list_swapAndMint.
  - apply list_mintPosition.
  - apply list_mintAt, quiet_volatility.
Qed.
Lemma list_Init k s : ens (fun tr r => listed (most k) s tr (fst r)) (Init k s).
Proof. unfold Init. eapply ens_bind; [apply list_initPositions|]. intros t s1 H. apply ens_done. now rewrite app_nil_r. Qed.
Lemma list_Rebalance k s : k <> NoProvision ->
  ens (fun tr r => exists t1 t2, tr = t1 ++ t2 /\ burns (sPositions s) t1 /\ sPositions (fst r) = mints t2 /\ noBurns t2 /\ (length (mints t2) <= most k)%nat) (Rebalance k s).
Proof.
  intros HK.
  assert (ens (fun tr r => exists t1 t2, tr = t1 ++ t2 /\ burns (sPositions s) t1 /\ sPositions (fst r) = mints t2 /\ noBurns t2 /\ (length (mints t2) <= most k)%nat)
    (act r <- burnReset s; act s <- rebalancePositions k (fst r); done (s, Some (snd r)))) as H.
  { eapply ens_bind; [apply ens_burnReset|]. intros t1 [s1 [a0 a1]] (_ & B & _ & D). cbn [fst snd] in *.
    eapply ens_bind; [apply list_rebalancePositions|]. intros t2 s2 (E & F & G). apply ens_done. rewrite app_nil_r. cbn [fst snd].
    exists t1, t2. rewrite D in E. auto. }
  destruct k; cbn [Rebalance]; try exact H. congruence.
Qed.

(** a strategy sells a positive amount *)
Definition sells (o : op) : Prop := match o with OExactInput a _ _ => 0 < a < 2 ^ 255 | _ => True end.
Lemma lp_sells o : lp o -> sells o.
Proof. destruct o; cbn; tauto. Qed.
Lemma half_range a : usign (udiv a 2) =? 1 = true -> is_u256 a -> 0 < udiv a 2 < 2 ^ 255.
Proof.
  intros H Ha. apply usign_1 in H; [exact H|]. unfold is_u256 in Ha. unfold udiv. cbn [Z.eqb]. split; [apply Z.div_pos; lia|].
  apply Z.div_lt_upper_bound; lia.
Qed.
Lemma sells_swapAndMint s l u : only sells (swapAndMint s l u).
Proof.
  unfold swapAndMint. cbv zeta.
  repeat match goal with |- only _ (mbind (pure _) _) => apply only_bind; [exact I|intros ?] | |- only _ (mbind look _) => apply only_bind; [intros ?; exact I|intros ?] end.
  apply only_bind.
  - destruct (_ <? _).
    + destruct (usign _ =? 1) eqn:E; [|exact I]. apply half_range in E; [|apply usub_u]. apply only_bind; [intros ?; exact I|]. intros x. split; [exact E|]. intros y. exact I.
    + destruct (usign _ =? 1) eqn:E; [|exact I]. apply half_range in E; [|apply usub_u]. apply only_bind; [intros ?; exact I|]. intros x. split; [exact E|]. intros y. exact I.
  - intros s1. apply only_bind; [intros ?; exact I|]. intros x. apply only_bind; [exact I|]. intros y. eapply only_weaken; [apply lp_sells|apply lp_mintAmount].
Qed.
Lemma own_sells k o : swaps k = false -> ownCall k o -> sells o.
Proof. destruct k, o; cbn; try tauto; discriminate. Qed.
Lemma sells_Init k s : only sells (Init k s).
Proof.
  destruct (swaps k) eqn:HK.
  - destruct k; try discriminate HK.
    unfold Init. cbv zeta.
    apply only_bind; [|intros ?; exact I].
    cbn [initPositions].
    unfold mintAround.
    lps.
    apply sells_swapAndMint.
  - eapply only_weaken; [intros o; apply own_sells; exact HK|]. apply (own_strategy k s).
Qed.
Lemma sells_burn l s : only sells (burnPositions l s).
Proof. eapply only_weaken; [apply lp_sells|apply lp_burnPositions]. Qed.
Lemma sells_Rebalance k s : only sells (Rebalance k s).
Proof.
  destruct k; try exact I; cbn [Rebalance]; (apply only_bind; [unfold burnReset; apply only_bind; [apply sells_burn|intros ?; exact I]|]; intros r; apply only_bind; [|intros ?; exact I]).
  9:{ cbn [rebalancePositions]. unfold mintAround. lps. apply sells_swapAndMint. }
  all: match goal with |- only _ (rebalancePositions ?k ?s) => apply (only_weaken (ownCall k)); [intros o; apply own_sells; reflexivity|refine (proj2 (own_positions k s _)); discriminate] end.
Qed.
Lemma sells_BurnAll k s : only sells (BurnAll k s).
Proof. destruct k; cbn [BurnAll]; try exact I; unfold burnReset, burnKeep; (apply only_bind; [apply sells_burn|intros ?; exact I]). Qed.

(** ** the account of a list of calls *)
(** A call is tagged [true] if the strategy made it and [false] if the market did. *)
Definition tagged := list (bool * (op * (Z * Z))).
(** [account keys fuel h hs p tt h' hs' q i0 i1 o0 o1]: the calls [tt] go through from [p] to [q], the ledger of all positions grows from [h] to [h'], the one of
    the strategy's from [hs] to [hs'], and the market pays in [i0], [i1] and takes out [o0], [o1].  A historical mint pays at least the exact worth of its
    liquidity and a historical burn is paid at most that; downward swaps keep clear of the misplaced ticks; with [keys] the strategy mints a range only
    while no other range it holds has its key. *)
Inductive account (keys : bool) (fuel : nat) : hist -> hist -> Pool -> tagged -> hist -> hist -> Pool -> Z -> Z -> Z -> Z -> Prop :=
| acc_nil h hs p : account keys fuel h hs p [] h hs p 0 0 0 0
| acc_mint h hs p l u a p' x0 x1 tt h' hs' q i0 i1 o0 o1 : allowed h p (OMint l u a) -> Mint p l u a = Ok p' ->
    0 <= x0 -> 0 <= x1 -> (forall tk, [a]q * worth tk (SqrtRatio p) l u <= [tok tk x0 x1]q)%Q ->
    account keys fuel (mkE l u a :: h) hs p' tt h' hs' q i0 i1 o0 o1 ->
    account keys fuel h hs p ((false, (OMint l u a, (0, 0))) :: tt) h' hs' q (x0 + i0) (x1 + i1) o0 o1
| acc_burn h hs p l u a p' y0 y1 tt h' hs' q i0 i1 o0 o1 : 0 <= a -> minted hs l u + a <= minted h l u -> 0 < minted h l u -> Burn p l u a = Ok p' ->
    0 <= y0 -> 0 <= y1 -> (forall tk, [tok tk y0 y1]q <= [a]q * worth tk (SqrtRatio p) l u)%Q ->
    account keys fuel (mkE l u (- a) :: h) hs p' tt h' hs' q i0 i1 o0 o1 ->
    account keys fuel h hs p ((false, (OBurn l u a, (0, 0))) :: tt) h' hs' q i0 i1 (y0 + o0) (y1 + o1)
| acc_flash h hs p a0 a1 p' tt h' hs' q i0 i1 o0 o1 : is_u256 a0 -> is_u256 a1 -> Flash p a0 a1 = Ok p' ->
    account keys fuel h hs p' tt h' hs' q i0 i1 o0 o1 ->
    account keys fuel h hs p ((false, (OFlash a0 a1, (0, 0))) :: tt) h' hs' q (flashFee (Fee p) a0 + i0) (flashFee (Fee p) a1 + i1) o0 o1
| acc_swap (own : bool) h hs p amt t lim p' a0 a1 tt h' hs' q i0 i1 o0 o1 : is_u256 amt -> (t = Token0 p -> keepsClear fuel p amt (p', a0, a1)) ->
    ExactInputSwap fuel p amt t lim = Ok (p', a0, a1) ->
    account keys fuel h hs p' tt h' hs' q i0 i1 o0 o1 ->
    account keys fuel h hs p ((own, (OExactInput amt t lim, (a0, a1))) :: tt) h' hs' q
      ((if own then 0 else Z.max 0 (sgn256 a0)) + i0) ((if own then 0 else Z.max 0 (sgn256 a1)) + i1)
      ((if own then 0 else Z.max 0 (- sgn256 a0)) + o0) ((if own then 0 else Z.max 0 (- sgn256 a1)) + o1)
| acc_mintS h hs p l u a p' x0 x1 tt h' hs' q i0 i1 o0 o1 : allowed h p (OMintStrategy l u a) -> (keys = true -> ownKey hs l u) ->
    MintStrategy p l u a = Ok (p', x0, x1) ->
    account keys fuel (mkE l u a :: h) (mkE l u a :: hs) p' tt h' hs' q i0 i1 o0 o1 ->
    account keys fuel h hs p ((true, (OMintStrategy l u a, (x0, x1))) :: tt) h' hs' q i0 i1 o0 o1
| acc_burnS h hs p l u a p' x0 x1 tt h' hs' q i0 i1 o0 o1 : BurnStrategy p l u a = Ok (p', x0, x1) ->
    account keys fuel (mkE l u (- a) :: h) (mkE l u (- a) :: hs) p' tt h' hs' q i0 i1 o0 o1 ->
    account keys fuel h hs p ((true, (OBurnStrategy l u a, (x0, x1))) :: tt) h' hs' q i0 i1 o0 o1
| acc_collect h hs p l u p' x0 x1 tt h' hs' q i0 i1 o0 o1 : CollectStrategy p l u = Ok (p', x0, x1) ->
    account keys fuel h hs p' tt h' hs' q i0 i1 o0 o1 ->
    account keys fuel h hs p ((true, (OCollectStrategy l u, (x0, x1))) :: tt) h' hs' q i0 i1 o0 o1.

(** the fee of a pool never changes *)
Lemma updatePosition_fee p l u a q i : updatePosition p l u a = Ok (q, i) -> Fee q = Fee p.
Proof.
  unfold updatePosition. intros E. apply bind_inv in E as ([[d c1] c2] & _ & E). apply bind_inv in E as ([i0 i1] & _ & E). cbv zeta in E.
  apply bind_inv in E as (pos & _ & E). apply bind_inv in E as (d' & _ & E). injection E as <- _. reflexivity.
Qed.
Lemma modifyPositionStrategy_fee p l u a q a0 a1 : modifyPositionStrategy p l u a = Ok (q, a0, a1) -> Fee q = Fee p.
Proof.
  unfold modifyPositionStrategy. intros E. apply bind_inv in E as (? & _ & E). apply bind_inv in E as ([p1 i] & E1 & E).
  apply updatePosition_fee in E1. destruct (a =? 0); [|destruct (TickCurrent p1 <? l); [|destruct (TickCurrent p1 <? u)]].
  all: repeat (apply bind_inv in E as (? & _ & E)); injection E as <- _ _; exact E1.
Qed.
Lemma modifyPosition_fee p l u a q : modifyPosition p l u a = Ok q -> Fee q = Fee p.
Proof.
  unfold modifyPosition. intros E. apply bind_inv in E as (? & _ & E). apply bind_inv in E as ([d c] & _ & E). apply bind_inv in E as ([d1 c1] & _ & E).
  apply bind_inv in E as (? & _ & E). apply bind_inv in E as (? & _ & E). cbv zeta in E. destruct (_ && _); injection E as <-; reflexivity.
Qed.
Lemma swap_fee fuel p z a lim q a0 a1 : swap fuel p z a lim = Ok (q, a0, a1) -> Fee q = Fee p.
Proof.
  unfold swap. intros E. apply bind_inv in E as (? & _ & E). apply bind_inv in E as (? & _ & E). cbv zeta in E. apply bind_inv in E as (? & _ & E).
  cbv zeta in E. destruct (Bool.eqb _ _); injection E as <- _ _; reflexivity.
Qed.
Lemma apply_fee fuel p o q a0 a1 : apply fuel p o = Ok (q, a0, a1) -> Fee q = Fee p.
Proof.
  destruct o as [l u a|l u a|l u a|l u a|l u|x y|a t lim|a t lim]; cbn [apply]; intros E.
  - apply bind_inv in E as (q' & E1 & E). injection E as <- _ _. unfold Mint in E1. apply bind_inv in E1 as (? & _ & E1). now apply modifyPosition_fee in E1.
  - apply bind_inv in E as (q' & E1 & E). injection E as <- _ _. now apply modifyPosition_fee in E1.
  - unfold MintStrategy in E. apply bind_inv in E as (? & _ & E1). now apply modifyPositionStrategy_fee in E1.
  - unfold BurnStrategy in E. apply bind_inv in E as (((q' & b0) & b1) & E1 & E). apply modifyPositionStrategy_fee in E1. cbv zeta in E.
    destruct (posGet _ _); [|discriminate]. injection E as <- _ _. exact E1.
  - unfold CollectStrategy in E. destruct (posGet _ _); [|discriminate]. injection E as <- _ _. reflexivity.
  - apply bind_inv in E as (q' & E1 & E). injection E as <- _ _. unfold Flash in E1. repeat (apply bind_inv in E1 as (? & _ & E1)). injection E1 as <-. reflexivity.
  - now apply swap_fee in E.
  - now apply swap_fee in E.
Qed.
Lemma flashFee_nonneg fee a : 0 <= fee -> is_u256 a -> 0 <= flashFee fee a.
Proof. intros H Ha. unfold flashFee. apply Z.div_pos; [|lia]. unfold is_u256 in Ha. pose proof (Z.mul_nonneg_nonneg a fee). lia. Qed.
Lemma account_nonneg keys fuel h hs p tt h' hs' q i0 i1 o0 o1 : account keys fuel h hs p tt h' hs' q i0 i1 o0 o1 ->
  0 <= Fee p -> 0 <= i0 /\ 0 <= i1 /\ 0 <= o0 /\ 0 <= o1.
Proof.
  induction 1; intros F; [lia|..].
  - assert (Fee p' = Fee p) as K by (apply (apply_fee fuel p (OMint l u a) p' 0 0); cbn [apply]; now rewrite H0). lia.
  - assert (Fee p' = Fee p) as K by (apply (apply_fee fuel p (OBurn l u a) p' 0 0); cbn [apply]; now rewrite H2). lia.
  - assert (Fee p' = Fee p) as K by (apply (apply_fee fuel p (OFlash a0 a1) p' 0 0); cbn [apply]; now rewrite H1).
    pose proof (flashFee_nonneg (Fee p) a0 F H). pose proof (flashFee_nonneg (Fee p) a1 F H0). lia.
  - assert (Fee p' = Fee p) as K by (apply (apply_fee fuel p (OExactInput amt t lim) p' a0 a1); assumption). destruct own; lia.
  - assert (Fee p' = Fee p) as K by (apply (apply_fee fuel p (OMintStrategy l u a) p' x0 x1); assumption). lia.
  - assert (Fee p' = Fee p) as K by (apply (apply_fee fuel p (OBurnStrategy l u a) p' x0 x1); assumption). lia.
  - assert (Fee p' = Fee p) as K by (apply (apply_fee fuel p (OCollectStrategy l u) p' x0 x1); assumption). lia.
Qed.

(** the calls by themselves lead from one pool to one pool *)
Fixpoint replayed (fuel : nat) (p : Pool) (tr : trace) : res Pool :=
  match tr with
  | [] => Ok p
  | c :: tr => do r <- apply fuel p (fst c); replayed fuel (fst (fst r)) tr
  end.
Lemma replayed_run {A} fuel (m : M A) : forall p q tr a, runV fuel p m = Ok (q, tr, a) -> replayed fuel p tr = Ok q.
Proof.
  induction m as [r|o k IH|k IH]; intros p q tr a E; cbn [runV] in E.
  - apply bind_inv in E as (x & _ & E). injection E as <- <- _. reflexivity.
  - apply bind_inv in E as (((p1 & a0) & a1) & E1 & E). apply bind_inv in E as (((p2 & t2) & a2) & E2 & E). injection E as <- <- _.
    cbn [replayed fst snd]. rewrite E1. cbn [bind fst]. now apply IH in E2.
  - now apply IH in E.
Qed.
Lemma account_replayed keys fuel h hs p tt h' hs' q i0 i1 o0 o1 : account keys fuel h hs p tt h' hs' q i0 i1 o0 o1 -> replayed fuel p (map snd tt) = Ok q.
Proof.
  induction 1; cbn [map replayed fst snd apply]; try reflexivity;
    match goal with E : _ = Ok _ |- _ => rewrite E end; cbn [bind fst]; assumption.
Qed.
Lemma replayed_fee fuel tr : forall p q, replayed fuel p tr = Ok q -> Fee q = Fee p.
Proof.
  induction tr as [|c tr IH]; intros p q E; cbn [replayed] in E; [now injection E as <-|]. apply bind_inv in E as (((p1 & a0) & a1) & E1 & E). cbn [fst] in E.
  rewrite (IH _ _ E). now apply apply_fee in E1.
Qed.
Lemma account_fee keys fuel h hs p tt h' hs' q i0 i1 o0 o1 : account keys fuel h hs p tt h' hs' q i0 i1 o0 o1 -> Fee q = Fee p.
Proof. intros H. apply account_replayed in H. now apply replayed_fee in H. Qed.
Lemma no_own keys fuel tt h hs p h' hs' q i0 i1 o0 o1 : Forall (fun c => fst c = false) tt -> account keys fuel h hs p tt h' hs' q i0 i1 o0 o1 -> hs' = hs.
Proof.
  intros HF H. induction H; try (inversion HF as [|? ? F1 F2]; subst); auto; discriminate F1.
Qed.
Lemma account_app keys fuel t1 : forall t2 h hs p h' hs' q i0 i1 o0 o1, account keys fuel h hs p (t1 ++ t2) h' hs' q i0 i1 o0 o1 ->
  exists h1 hs1 p1 j0 j1 k0 k1 m0 m1 n0 n1, account keys fuel h hs p t1 h1 hs1 p1 j0 j1 k0 k1 /\ account keys fuel h1 hs1 p1 t2 h' hs' q m0 m1 n0 n1 /\
    i0 = j0 + m0 /\ i1 = j1 + m1 /\ o0 = k0 + n0 /\ o1 = k1 + n1.
Proof.
  induction t1 as [|c t1 IH]; intros t2 h hs p h' hs' q i0 i1 o0 o1 H; cbn [app] in H.
  - exists h, hs, p, 0, 0, 0, 0, i0, i1, o0, o1. split; [constructor|]. auto.
  - inversion H; subst; clear H;
    match goal with A : account _ _ _ _ _ (t1 ++ t2) _ _ _ _ _ _ _ |- _ =>
      apply IH in A; destruct A as (h1 & hs1 & p1 & j0 & j1 & k0 & k1 & m0 & m1 & n0 & n1 & A1 & A2 & -> & -> & -> & ->) end;
    exists h1, hs1, p1; do 4 eexists; exists m0, m1, n0, n1;
    (split; [first [eapply acc_mint; [exact H2|exact H3|exact H4|exact H5|eassumption|exact A1]|eapply acc_burn; [exact H2|exact H3|exact H4|exact H5|exact H6|exact H7|eassumption|exact A1]|econstructor; eassumption]|]; split; [exact A2|]; split; [|split; [|split]]; lia).
Qed.

(** ** the market's calls *)
Lemma cash_fee h hs p r0 r1 : cash true true h hs p r0 r1 -> 0 <= Fee p.
Proof. intros C. apply cash_ok, ck_pool in C. apply C. Qed.
Lemma acc_swap_cash h hs p r0 r1 fuel amt t lim p' a0 a1 : cash true true h hs p r0 r1 -> is_u256 amt -> (t = Token0 p -> keepsClear fuel p amt (p', a0, a1)) ->
  ExactInputSwap fuel p amt t lim = Ok (p', a0, a1) -> cash true true h hs p' (r0 + sgn256 a0) (r1 + sgn256 a1).
Proof.
  intros C Ha K E. unfold ExactInputSwap in E. eapply cash_swap; [exact C|exact Ha| |exact E]. intros _ Z. apply K. now apply String.eqb_eq.
Qed.
Lemma market_account keys fuel tr : forall h hs p h' hs' q i0 i1 o0 o1 r0 r1, cash true true h hs p r0 r1 ->
  account keys fuel h hs p (map (pair false) tr) h' hs' q i0 i1 o0 o1 ->
  cash true true h' hs' q (r0 + i0 - o0) (r1 + i1 - o1) /\ hs' = hs /\ 0 <= i0 /\ 0 <= i1 /\ 0 <= o0 /\ 0 <= o1.
Proof.
  induction tr as [|c tr IH]; intros h hs p h' hs' q i0 i1 o0 o1 r0 r1 C H; cbn [map] in H.
  - inversion H; subst. rewrite !Z.add_0_r, !Z.sub_0_r. split; [assumption|]. split; [reflexivity|lia].
  - inversion H; subst; clear H;
    match goal with A : account _ _ _ _ _ (map (pair false) tr) _ _ _ _ _ _ _ |- _ => rename A into HA end;
    match goal with
    | E : Mint _ _ _ _ = _ |- _ => eapply IH in HA; [|eapply cash_mint; eassumption]
    | E : Burn _ _ _ _ = _ |- _ => eapply IH in HA; [|eapply cash_burn; eassumption]
    | E : Flash _ _ _ = _ |- _ => eapply IH in HA; [|eapply cash_flash; [eassumption| | |exact E]; assumption]
    | E : ExactInputSwap _ _ _ _ _ = _ |- _ => eapply IH in HA; [|eapply acc_swap_cash; [eassumption| | |exact E]; assumption]
    end; destruct HA as (A1 & -> & A3 & A4 & A5 & A6).
    + split; [|split; [reflexivity|lia]]. replace (r0 + (x0 + i2) - o0) with (r0 + x0 + i2 - o0) by lia. replace (r1 + (x1 + i3) - o1) with (r1 + x1 + i3 - o1) by lia. exact A1.
    + split; [|split; [reflexivity|lia]]. replace (r0 + i0 - (y0 + o2)) with (r0 - y0 + i0 - o2) by lia. replace (r1 + i1 - (y1 + o3)) with (r1 - y1 + i1 - o3) by lia. exact A1.
    + pose proof (cash_fee _ _ _ _ _ C) as F. pose proof (flashFee_nonneg (Fee p) a0 F ltac:(assumption)) as F0. pose proof (flashFee_nonneg (Fee p) a1 F ltac:(assumption)) as F1.
      split; [|split; [reflexivity|lia]].
      match goal with |- cash _ _ _ _ _ ?x ?y => match type of A1 with cash _ _ _ _ _ ?x' ?y' => replace x with x' by lia; replace y with y' by lia end end. exact A1.
    + split; [|split; [reflexivity|lia]].
      match goal with |- cash _ _ _ _ _ ?x ?y => match type of A1 with cash _ _ _ _ _ ?x' ?y' => replace x with x' by lia; replace y with y' by lia end end. exact A1.
Qed.

(** ** the strategy's calls *)
Definition ownLog (hs : hist) (tr : trace) : hist :=
  fold_left (fun hs c => match fst c with OMintStrategy l u a => mkE l u a :: hs | OBurnStrategy l u a => mkE l u (- a) :: hs | _ => hs end) tr hs.
Lemma ownLog_app hs a b : ownLog hs (a ++ b) = ownLog (ownLog hs a) b.
Proof. apply fold_left_app. Qed.
Lemma ownLog_minted l u tr : forall hs, minted (ownLog hs tr) l u = minted hs l u + sumOf (added l u) tr.
Proof.
  induction tr as [|[o r] tr IH]; intros hs; cbn [ownLog fold_left]; [cbn; lia|].
  change (minted (ownLog (match o with OMintStrategy l u a => mkE l u a :: hs | OBurnStrategy l u a => mkE l u (- a) :: hs | _ => hs end) tr) l u = minted hs l u + (added l u (o, r) + sumOf (added l u) tr)).
  rewrite IH. unfold added. destruct o; cbn [fst]; rewrite ?minted_cons; try lia;
    rewrite (Z.eqb_sym lower), (Z.eqb_sym upper); destruct (_ && _); lia.
Qed.
(** every burn is covered by the strategy's ledger, and without [keys] every mint has its key to itself *)
Fixpoint covers (keys : bool) (hs : hist) (tr : trace) : Prop :=
  match tr with
  | [] => True
  | c :: tr =>
      match fst c with
      | OMintStrategy l u a => (keys = false -> ownKey hs l u) /\ covers keys (mkE l u a :: hs) tr
      | OBurnStrategy l u a => 0 <= a <= minted hs l u /\ 0 < minted hs l u /\ covers keys (mkE l u (- a) :: hs) tr
      | _ => covers keys hs tr
      end
  end.
Lemma covers_app keys a : forall hs b, covers keys hs a -> covers keys (ownLog hs a) b -> covers keys hs (a ++ b).
Proof.
  induction a as [|[o r] a IH]; intros hs b HA HB; cbn [app]; [exact HB|]. cbn [covers fst] in *. cbn [ownLog fold_left fst] in HB.
  destruct o; try (apply IH; assumption).
  - destruct HA as [H1 H2]. split; [assumption|]. now apply IH.
  - destruct HA as (H1 & H2 & H3). split; [assumption|]. split; [assumption|]. now apply IH.
Qed.
Lemma covers_burns keys l : forall hs tr, burns l tr -> (forall x, In x l -> 0 < poAmount x) ->
  (forall lo up, sumOf (recorded lo up) l <= minted hs lo up) -> covers keys hs tr.
Proof.
  induction l as [|x l IH]; intros hs tr HB HA HS; cbn [burns] in HB; [subst; exact I|]. destruct HB as (c1 & c2 & tr' & -> & HB). cbn [covers fst].
  pose proof (HA x (or_introl eq_refl)) as Hx. pose proof (sum_nonneg (poLower x) (poUpper x) l (fun y Hy => HA y (or_intror Hy))) as HN.
  pose proof (HS (poLower x) (poUpper x)) as H1. cbn [sumOf fold_right] in H1. fold (sumOf (recorded (poLower x) (poUpper x)) l) in H1. unfold recorded at 1 in H1. rewrite !Z.eqb_refl in H1. cbn [andb] in H1.
  split; [lia|]. split; [lia|]. apply IH; [assumption|intros y Hy; apply HA; now right|]. intros lo up. rewrite minted_cons. specialize (HS lo up).
  cbn [sumOf fold_right] in HS. fold (sumOf (recorded lo up) l) in HS. unfold recorded at 1 in HS. rewrite (Z.eqb_sym lo), (Z.eqb_sym up) in HS. destruct (_ && _); lia.
Qed.
Lemma covers_mints keys tr : forall hs, noBurns tr -> (keys = true \/ ((length (mints tr) <= 1)%nat /\ forall l u, minted hs l u <= 0) \/ mints tr = []) -> covers keys hs tr.
Proof.
  induction tr as [|[o r] tr IH]; intros hs HB HK; [exact I|]. inversion HB as [|? ? H1 H2 E]; subst. cbn [fst] in H1. cbn [covers fst].
  cbn [mints flat_map fst] in HK. fold (mints tr) in HK. destruct o; try contradiction H1; try (apply IH; assumption). cbn [app length] in HK. split.
  - intros ->. destruct HK as [HK|[[_ HK]|HK]]; [discriminate| |discriminate]. intros l' u' H. specialize (HK l' u'). lia.
  - apply IH; [assumption|]. destruct HK as [HK|[[HK _]|HK]]; [now left| |discriminate]. right. right. destruct (mints tr); [reflexivity|cbn in HK; lia].
Qed.

Lemma mints_cons o r tr : mints ((o, r) :: tr) = match o with OMintStrategy l u a => [mkPosition a l u] | _ => [] end ++ mints tr.
Proof. reflexivity. Qed.
Lemma collect_range h hs p r0 r1 l u p' x0 x1 : cashOK h hs p r0 r1 -> CollectStrategy p l u = Ok (p', x0, x1) -> 0 <= x0 /\ 0 <= x1.
Proof.
  intros C E. unfold CollectStrategy in E. destruct (posGet (Pos p) (posKey l u)) as [i|] eqn:EI; [|discriminate]. injection E as <- <- <-.
  pose proof (posOK_get _ _ _ (ck_info _ _ _ _ _ C) EI) as K. unfold infoOK, is_u256 in K. lia.
Qed.
Lemma mintS_pos h p l u a p' x0 x1 : allowed h p (OMintStrategy l u a) -> MintStrategy p l u a = Ok (p', x0, x1) -> 0 < a.
Proof.
  intros (Ha & _) E. unfold MintStrategy in E. apply bind_inv in E as ([] & E0 & _). apply invariant_inv in E0. apply usign_1 in E0; [lia|exact Ha].
Qed.
Lemma out_mod out out' : 0 <= out' < 2 ^ 214 -> (- out) mod 2 ^ 256 = uneg out' -> forall b, (b + out) mod 2 ^ 256 = (b + out') mod 2 ^ 256.
Proof.
  intros H E b. change (2 ^ 256) with T256 in *. unfold uneg in E.
  assert (exists k, out = out' + k * T256) as (k & ->).
  { assert ((out - out') mod T256 = 0) as D.
    { replace (out - out') with (- out' - - out) by ring. rewrite Zminus_mod, E. rewrite ?Zmod_mod. now rewrite Z.sub_diag. }
    apply Z.mod_divide in D; [|lia]. destruct D as [k D]. exists k. lia. }
  replace (b + (out' + k * T256)) with (b + out' + k * T256) by ring. apply Z_mod_plus_full.
Qed.
Lemma apply_sameTokens fuel p o q a0 a1 : apply fuel p o = Ok (q, a0, a1) -> Token0 q = Token0 p /\ Token1 q = Token1 p.
Proof. intros E. apply apply_tokens in E. destruct E; split; congruence. Qed.

Lemma own_account keys fuel t0 t1 tr : forall h hs p h' hs' q i0 i1 o0 o1 b0 b1 b' r0 r1,
  cash true true h hs p r0 r1 -> Token0 p = t0 -> Token1 p = t1 -> t0 <> t1 ->
  account keys fuel h hs p (map (pair true) tr) h' hs' q i0 i1 o0 o1 ->
  pays t0 t1 (b0, b1) tr b' -> covers keys hs tr -> Forall (fun c => sells (fst c)) tr ->
  0 <= b0 -> 0 <= b1 -> b0 + r0 < 2 ^ 256 -> b1 + r1 < 2 ^ 256 ->
  exists r0' r1', cash true true h' hs' q r0' r1' /\ fst b' + r0' = b0 + r0 /\ snd b' + r1' = b1 + r1 /\ 0 <= fst b' /\ 0 <= snd b' /\
    hs' = ownLog hs tr /\ (forall x, In x (mints tr) -> 0 < poAmount x) /\ i0 = 0 /\ i1 = 0 /\ o0 = 0 /\ o1 = 0.
Proof.
  induction tr as [|[o [c0 c1]] tr IH]; intros h hs p h' hs' q i0 i1 o0 o1 b0 b1 b' r0 r1 C T0 T1 TN HA HP HC HS H0 H1 B0 B1; cbn [map] in HA.
  - inversion HA; subst. inversion HP; subst. exists r0, r1. cbn [fst snd]. repeat (split; [first [assumption|reflexivity|lia]|]). split; [intros x []|lia].
  - inversion HS as [|? ? HS1 HS2 ES]; subst. pose proof (cash_ok _ _ _ _ _ C) as CK.
    inversion HA; subst; clear HA; match goal with A : account _ _ _ _ _ (map (pair true) tr) _ _ _ _ _ _ _ |- _ => rename A into HA end.
    + (* swap *)
      match goal with E : ExactInputSwap _ _ _ _ _ = _ |- _ => rename E into E1 end.
      match goal with E : is_u256 amt |- _ => rename E into Hu end.
      assert (cash true true h hs p' (r0 + sgn256 c0) (r1 + sgn256 c1)) as C' by (eapply acc_swap_cash; [exact C| | |exact E1]; assumption).
      pose proof (cash_solvent _ _ _ _ _ C') as (N0 & N1 & _).
      pose proof (apply_sameTokens fuel p (OExactInput amt t lim) p' c0 c1 E1) as [E0 E0'].
      cbn [fst sells] in HS1.
      destruct (swap_amounts h p (String.eqb t (Token0 p)) amt lim (ck_pool _ _ _ _ _ CK) Hu fuel p' c0 c1 E1) as (inp & out & Er & Hi & Ho & Hr).
      assert (amt <? T255 = true) as Hex by lia. rewrite Hex in Hr. destruct Hr as (Hr1 & _ & Hr2).
      assert (sgn256 inp = inp) as SI by (apply sgn_small; lia). assert (sgn256 (uneg out) = - out) as SO by (apply sgn_neg; lia).
      cbn [covers fst] in HC. inversion HP; subst; clear HP.
      * rewrite String.eqb_refl in Er. destruct Er as [-> Er]. rewrite SI in *. rewrite Er, SO in *.
        match goal with P : pays _ _ (_, (_ + ?o) mod _) tr _ |- _ => rewrite (out_mod o out ltac:(lia) Er b1), (Z.mod_small (b1 + out)) in P by lia; rename P into HP end.
        destruct (IH _ _ _ _ _ _ _ _ _ _ _ _ _ _ _ C' E0 E0' TN HA HP HC HS2) as (s0 & s1 & K1 & K2 & K3 & K4 & K5 & K6 & K7 & K8 & K9 & K10 & K11); try lia.
        exists s0, s1. split; [exact K1|]. split; [lia|]. split; [lia|]. split; [exact K4|]. split; [exact K5|]. split; [exact K6|]. split; [exact K7|lia].
      * assert ((Token1 p =? Token0 p)%string = false) as ET by (apply String.eqb_neq; congruence). rewrite ET in Er. destruct Er as [-> Er]. rewrite SI in *. rewrite Er, SO in *.
        match goal with P : pays _ _ ((_ + ?o) mod _, _) tr _ |- _ => rewrite (out_mod o out ltac:(lia) Er b0), (Z.mod_small (b0 + out)) in P by lia; rename P into HP end.
        destruct (IH _ _ _ _ _ _ _ _ _ _ _ _ _ _ _ C' E0 E0' TN HA HP HC HS2) as (s0 & s1 & K1 & K2 & K3 & K4 & K5 & K6 & K7 & K8 & K9 & K10 & K11); try lia.
        exists s0, s1. split; [exact K1|]. split; [lia|]. split; [lia|]. split; [exact K4|]. split; [exact K5|]. split; [exact K6|]. split; [exact K7|lia].
    + (* mint *)
      match goal with E : MintStrategy _ _ _ _ = _ |- _ => rename E into E1 end. match goal with E : allowed _ _ _ |- _ => rename E into EA end.
      match goal with E : keys = true -> _ |- _ => rename E into EK end.
      cbn [covers fst] in HC. destruct HC as [HK HC]. assert (ownKey hs l u) as OK by (destruct keys; auto).
      assert (cash true true (mkE l u a :: h) (mkE l u a :: hs) p' (r0 + c0) (r1 + c1)) as C' by (eapply cash_mintS; [exact C|exact EA|auto|exact E1]).
      pose proof (apply_sameTokens fuel p (OMintStrategy l u a) p' c0 c1 E1) as [E0 E0'].
      inversion HP; subst; clear HP. match goal with P : pays _ _ _ tr _ |- _ => rename P into HP end.
      destruct (IH _ _ _ _ _ _ _ _ _ _ _ _ _ _ _ C' E0 E0' TN HA HP HC HS2) as (s0 & s1 & K1 & K2 & K3 & K4 & K5 & K6 & K7 & K8 & K9 & K10 & K11); try lia.
      exists s0, s1. split; [exact K1|]. split; [lia|]. split; [lia|]. split; [exact K4|]. split; [exact K5|]. split; [exact K6|]. split; [|lia].
      intros x. rewrite mints_cons. intros [<-|Hx]; [|now apply K7]. cbn [poAmount]. eapply mintS_pos; eassumption.
    + (* burn *)
      match goal with E : BurnStrategy _ _ _ _ = _ |- _ => rename E into E1 end. cbn [covers fst] in HC. destruct HC as (HC1 & HC2 & HC).
      assert (cash true true (mkE l u (- a) :: h) (mkE l u (- a) :: hs) p' r0 r1) as C' by (eapply cash_burnS; [exact C|exact HC1|exact HC2|exact E1]).
      pose proof (apply_sameTokens fuel p (OBurnStrategy l u a) p' c0 c1 E1) as [E0 E0'].
      inversion HP; subst; clear HP. match goal with P : pays _ _ _ tr _ |- _ => rename P into HP end.
      destruct (IH _ _ _ _ _ _ _ _ _ _ _ _ _ _ _ C' E0 E0' TN HA HP HC HS2) as (s0 & s1 & K1 & K2 & K3 & K4 & K5 & K6 & K7 & K8 & K9 & K10 & K11); try lia.
      exists s0, s1. split; [exact K1|]. split; [lia|]. split; [lia|]. split; [exact K4|]. split; [exact K5|]. split; [exact K6|]. split; [exact K7|lia].
    + (* collect *)
      match goal with E : CollectStrategy _ _ _ = _ |- _ => rename E into E1 end. cbn [covers fst] in HC.
      assert (cash true true h hs p' (r0 - c0) (r1 - c1)) as C' by (eapply cash_collect; [exact C|exact E1]).
      destruct (collect_range _ _ _ _ _ _ _ _ _ _ CK E1) as [R0 R1]. pose proof (cash_solvent _ _ _ _ _ C') as (N0 & N1 & _).
      pose proof (apply_sameTokens fuel p (OCollectStrategy l u) p' c0 c1 E1) as [E0 E0'].
      inversion HP; subst; clear HP. match goal with P : pays _ _ _ tr _ |- _ => rename P into HP end. rewrite (Z.mod_small (b0 + c0)), (Z.mod_small (b1 + c1)) in HP by lia.
      destruct (IH _ _ _ _ _ _ _ _ _ _ _ _ _ _ _ C' E0 E0' TN HA HP HC HS2) as (s0 & s1 & K1 & K2 & K3 & K4 & K5 & K6 & K7 & K8 & K9 & K10 & K11); try lia.
      exists s0, s1. split; [exact K1|]. split; [lia|]. split; [lia|]. split; [exact K4|]. split; [exact K5|]. split; [exact K6|]. split; [exact K7|lia].
Qed.

(** ** the strategy's books *)
Definition books (s : St) (hs : hist) : Prop :=
  0 <= sAmount0 s /\ 0 <= sAmount1 s /\ (forall l u, sumOf (recorded l u) (sPositions s) = minted hs l u) /\ (forall x, In x (sPositions s) -> 0 < poAmount x).
Definition keyed (keys : bool) (k : Kind) : Prop := keys = true \/ single k = true.
Lemma map_snd_pair {A} (b : bool) (l : list A) : map snd (map (pair b) l) = l.
Proof. rewrite map_map. cbn. apply map_id. Qed.
Lemma same_pool {A} keys fuel b h hs p tr h' hs' q i0 i1 o0 o1 (m : M A) q' a :
  account keys fuel h hs p (map (pair b) tr) h' hs' q i0 i1 o0 o1 -> runV fuel p m = Ok (q', tr, a) -> q = q'.
Proof. intros HA E. apply account_replayed in HA. apply replayed_run in E. rewrite map_snd_pair in HA. congruence. Qed.
Lemma funded_books s hs h p r0 r1 : books s hs -> cash true true h hs p r0 r1 -> sAmount0 s + r0 < 2 ^ 256 -> sAmount1 s + r1 < 2 ^ 256 ->
  is_u256 (sAmount0 s) /\ is_u256 (sAmount1 s).
Proof. intros (A & B & _) C H0 H1. apply cash_solvent in C as (N0 & N1 & _). unfold is_u256. split; lia. Qed.

Lemma init_money keys k fuel h hs p r0 r1 s q tr r h' hs' q' i0 i1 o0 o1 : keyed keys k -> cash true true h hs p r0 r1 -> Token0 p <> Token1 p ->
  books s hs -> sPositions s = [] -> runV fuel p (Init k s) = Ok (q, tr, r) -> account keys fuel h hs p (map (pair true) tr) h' hs' q' i0 i1 o0 o1 ->
  sAmount0 s + r0 < 2 ^ 256 -> sAmount1 s + r1 < 2 ^ 256 ->
  exists r0' r1', cash true true h' hs' q' r0' r1' /\ books (fst r) hs' /\ sAmount0 (fst r) + r0' = sAmount0 s + r0 /\ sAmount1 (fst r) + r1' = sAmount1 s + r1 /\
    i0 = 0 /\ i1 = 0 /\ o0 = 0 /\ o1 = 0.
Proof.
  intros HK C HT HB HE E HA B0 B1. destruct (funded_books _ _ _ _ _ _ HB C B0 B1) as [F0 F1]. destruct HB as (N0 & N1 & HS & _).
  pose proof (init_pays h p k s fuel q tr r (cash_reach _ _ _ _ _ C) HT F0 F1 E) as HP.
  pose proof (list_Init k s fuel p q tr r E) as (L1 & L2 & L3). rewrite HE in L1. cbn [app] in L1.
  pose proof (ens_Init k s fuel p q tr r E) as (_ & HR & _).
  pose proof (only_trace _ _ _ (sells_Init k s) _ _ _ _ E) as HSell.
  assert (covers keys hs tr) as HC.
  { apply covers_mints; [assumption|]. destruct HK as [HK|HK]; [now left|]. right. left. unfold most in L3. rewrite HK in L3. split; [assumption|].
    intros l u. rewrite <- HS, HE. cbn. lia. }
  destruct (own_account keys fuel _ _ tr _ _ _ _ _ _ _ _ _ _ _ _ _ _ _ C eq_refl eq_refl HT HA HP HC HSell N0 N1 B0 B1) as (s0 & s1 & K1 & K2 & K3 & K4 & K5 & K6 & K7 & K8).
  cbn [fst snd] in *. exists s0, s1. split; [exact K1|]. split; [|auto]. split; [exact K4|]. split; [exact K5|]. split.
  - intros l u. rewrite HR, K6, ownLog_minted, HS. lia.
  - rewrite L1. exact K7.
Qed.

Lemma nop_or k : k = NoProvision \/ k <> NoProvision.
Proof. destruct k; first [now left|now right]. Qed.
Lemma rebalance_money keys k fuel h hs p r0 r1 s q tr r h' hs' q' i0 i1 o0 o1 : keyed keys k -> cash true true h hs p r0 r1 -> Token0 p <> Token1 p ->
  books s hs -> runV fuel p (Rebalance k s) = Ok (q, tr, r) -> account keys fuel h hs p (map (pair true) tr) h' hs' q' i0 i1 o0 o1 ->
  sAmount0 s + r0 < 2 ^ 256 -> sAmount1 s + r1 < 2 ^ 256 ->
  exists r0' r1', cash true true h' hs' q' r0' r1' /\ books (fst r) hs' /\ sAmount0 (fst r) + r0' = sAmount0 s + r0 /\ sAmount1 (fst r) + r1' = sAmount1 s + r1 /\
    i0 = 0 /\ i1 = 0 /\ o0 = 0 /\ o1 = 0.
Proof.
  intros HK C HT HB E HA B0 B1. destruct (funded_books _ _ _ _ _ _ HB C B0 B1) as [F0 F1].
  destruct (nop_or k) as [->|HN].
  { cbn in E. injection E as <- <- <-. inversion HA; subst. exists r0, r1. cbn [fst]. auto 10. }
  destruct HB as (N0 & N1 & HS & HPos).
  assert (backed h (sPositions s)) as HBk.
  { split; [|exact HPos]. intros lo up. rewrite HS. apply (ck_sub _ _ _ _ _ (cash_ok _ _ _ _ _ C)). }
  pose proof (rebalance_pays h p k s fuel q tr r (cash_reach _ _ _ _ _ C) HT F0 F1 ltac:(destruct k; first [exact HBk|exact I]) E) as HP.
  destruct (list_Rebalance k s HN fuel p q tr r E) as (t1 & t2 & -> & L1 & L2 & L3 & L4).
  pose proof (ens_Rebalance k s HN fuel p q _ r E) as (_ & HR & _).
  pose proof (only_trace _ _ _ (sells_Rebalance k s) _ _ _ _ E) as HSell.
  assert (covers keys hs (t1 ++ t2)) as HC.
  { apply covers_app; [apply (covers_burns keys _ _ _ L1 HPos); intros lo up; rewrite HS; lia|]. apply covers_mints; [assumption|].
    destruct HK as [HK|HK]; [now left|]. right. left. unfold most in L4. rewrite HK in L4. split; [assumption|]. intros l u. rewrite ownLog_minted, (burns_added l u _ _ L1), HS. lia. }
  destruct (own_account keys fuel _ _ _ _ _ _ _ _ _ _ _ _ _ _ _ _ _ _ C eq_refl eq_refl HT HA HP HC HSell N0 N1 B0 B1) as (s0 & s1 & K1 & K2 & K3 & K4 & K5 & K6 & K7 & K8).
  cbn [fst snd] in *. exists s0, s1. split; [exact K1|]. split; [|auto]. split; [exact K4|]. split; [exact K5|]. split.
  - intros l u. rewrite HR, K6, ownLog_minted, HS. lia.
  - rewrite L2. intros x Hx. apply K7. rewrite mints_app. apply in_or_app. now right.
Qed.

Lemma burnAll_pays h p k s fuel q tr r : reach h p -> is_u256 (sAmount0 s) -> is_u256 (sAmount1 s) -> runV fuel p (BurnAll k s) = Ok (q, tr, r) ->
  pays (Token0 p) (Token1 p) (sAmount0 s, sAmount1 s) tr (sAmount0 (fst r), sAmount1 (fst r)).
Proof.
  intros R H0 H1 E. assert (good p) as HG by apply (reach_ok h p R). destruct (nop_or k) as [->|HN].
  { cbn in E. injection E as <- <- <-. constructor. }
  assert (exists s', runV fuel p (burnPositions (sPositions s) s) = Ok (q, tr, s') /\ bal (fst r) = bal s') as (s' & E' & EB).
  { assert (forall (f : St -> St * (Z * Z)), (forall s, bal (fst (f s)) = bal s) -> runV fuel p (act s <- burnPositions (sPositions s) s; done (f s)) = Ok (q, tr, r) ->
      exists s', runV fuel p (burnPositions (sPositions s) s) = Ok (q, tr, s') /\ bal (fst r) = bal s') as K.
    { intros f Hf. rewrite runV_bind. destruct (runV fuel p (burnPositions _ _)) as [[[q1 u1] s1]| |]; cbn [bind]; try discriminate. unfold done. cbn [runV bind].
      intros X. injection X as X1 X2 X3. rewrite app_nil_r in X2. subst. eauto. }
    destruct k; cbn [BurnAll] in E; unfold burnKeep, burnReset in E; first [congruence|eapply K; [|exact E]; reflexivity]. }
  assert (funded s) as HF by (split; assumption).
  pose proof (safe_burnPositions (Token0 p) (Token1 p) _ _ _ _ _ _ _ HG HF E') as (_ & P & _). rewrite <- EB in P. exact P.
Qed.
Lemma burnAll_money keys k fuel h hs p r0 r1 s q tr r h' hs' q' i0 i1 o0 o1 : cash true true h hs p r0 r1 -> Token0 p <> Token1 p ->
  books s hs -> runV fuel p (BurnAll k s) = Ok (q, tr, r) -> account keys fuel h hs p (map (pair true) tr) h' hs' q' i0 i1 o0 o1 ->
  sAmount0 s + r0 < 2 ^ 256 -> sAmount1 s + r1 < 2 ^ 256 ->
  exists r0' r1', cash true true h' hs' q' r0' r1' /\ sAmount0 (fst r) + r0' = sAmount0 s + r0 /\ sAmount1 (fst r) + r1' = sAmount1 s + r1 /\
    0 <= sAmount0 (fst r) /\ 0 <= sAmount1 (fst r) /\ i0 = 0 /\ i1 = 0 /\ o0 = 0 /\ o1 = 0 /\ (k <> NoProvision -> forall l u, minted hs' l u = 0).
Proof.
  intros C HT HB E HA B0 B1. destruct (funded_books _ _ _ _ _ _ HB C B0 B1) as [F0 F1]. destruct HB as (N0 & N1 & HS & HPos).
  pose proof (burnAll_pays h p k s fuel q tr r (cash_reach _ _ _ _ _ C) F0 F1 E) as HP.
  pose proof (only_trace _ _ _ (sells_BurnAll k s) _ _ _ _ E) as HSell.
  assert (k = NoProvision /\ tr = [] \/ burns (sPositions s) tr) as HBr.
  { destruct (nop_or k) as [->|HN]; [left|right]; [cbn in E; injection E as _ <- _; auto|]. apply (ens_BurnAll k s HN fuel p q tr r E). }
  assert (covers keys hs tr) as HC.
  { destruct HBr as [[_ ->]|HBr]; [exact I|]. apply (covers_burns keys _ _ _ HBr HPos). intros lo up. rewrite HS. lia. }
  destruct (own_account keys fuel _ _ _ _ _ _ _ _ _ _ _ _ _ _ _ _ _ _ C eq_refl eq_refl HT HA HP HC HSell N0 N1 B0 B1) as (s0 & s1 & K1 & K2 & K3 & K4 & K5 & K6 & K7 & K8 & K9 & K10 & K11).
  cbn [fst snd] in *. exists s0, s1. repeat (split; [assumption|]). intros HN l u. destruct HBr as [[X _]|HBr]; [congruence|].
  rewrite K6, ownLog_minted, (burns_added l u _ _ HBr), HS. lia.
Qed.

(** ** a run *)
(** what happens between two states of the strategy and the pool: it is initialized while it holds nothing, rebalances, records prices, and the market trades *)
Inductive happens (k : Kind) (fuel : nat) : St -> Pool -> tagged -> St -> Pool -> Prop :=
| hap_nil s p : happens k fuel s p [] s p
| hap_init s p q tr r tt s' p' : sPositions s = [] -> runV fuel p (Init k s) = Ok (q, tr, r) -> happens k fuel (fst r) q tt s' p' ->
    happens k fuel s p (map (pair true) tr ++ tt) s' p'
| hap_rebalance s p q tr r tt s' p' : runV fuel p (Rebalance k s) = Ok (q, tr, r) -> happens k fuel (fst r) q tt s' p' ->
    happens k fuel s p (map (pair true) tr ++ tt) s' p'
| hap_price s p s1 tt s' p' : sAmount0 s1 = sAmount0 s -> sAmount1 s1 = sAmount1 s -> sPositions s1 = sPositions s -> happens k fuel s1 p tt s' p' ->
    happens k fuel s p tt s' p'
| hap_tx s p t q tr a tt s' p' : runV fuel p (execTx t) = Ok (q, tr, a) -> happens k fuel s q tt s' p' -> happens k fuel s p (map (pair false) tr ++ tt) s' p'.

Lemma happens_money keys k fuel s p tt s' p' : keyed keys k -> happens k fuel s p tt s' p' -> forall h hs r0 r1 h' hs' q i0 i1 o0 o1,
  cash true true h hs p r0 r1 -> Token0 p <> Token1 p -> books s hs -> account keys fuel h hs p tt h' hs' q i0 i1 o0 o1 ->
  sAmount0 s + r0 + i0 < 2 ^ 256 -> sAmount1 s + r1 + i1 < 2 ^ 256 ->
  q = p' /\ Token0 p' = Token0 p /\ Token1 p' = Token1 p /\ exists r0' r1', cash true true h' hs' q r0' r1' /\ books s' hs' /\
    sAmount0 s' + r0' = sAmount0 s + r0 + i0 - o0 /\ sAmount1 s' + r1' = sAmount1 s + r1 + i1 - o1 /\ 0 <= i0 /\ 0 <= i1 /\ 0 <= o0 /\ 0 <= o1.
Proof.
  intros HK H. induction H as [s p|s p q tr r tt s' p' HE E _ IH|s p q tr r tt s' p' E _ IH|s p s1 tt s' p' E0 E1 E2 _ IH|s p t q tr a tt s' p' E _ IH];
    intros h hs r0 r1 h' hs' q0 i0 i1 o0 o1 C HT HB HA B0 B1; pose proof (cash_fee _ _ _ _ _ C) as F.
  - inversion HA; subst. repeat (split; [reflexivity|]). exists r0, r1. split; [assumption|]. split; [assumption|]. lia.
  - apply account_app in HA as (h1 & hs1 & p1 & j0 & j1 & k0 & k1 & m0 & m1 & n0 & n1 & A1 & A2 & -> & -> & -> & ->).
    pose proof (account_nonneg _ _ _ _ _ _ _ _ _ _ _ _ _ A1 F) as (P1 & P2 & P3 & P4).
    pose proof (account_nonneg _ _ _ _ _ _ _ _ _ _ _ _ _ A2 ltac:(rewrite (account_fee _ _ _ _ _ _ _ _ _ _ _ _ _ A1); exact F)) as (P5 & P6 & P7 & P8).
    pose proof (same_pool _ _ _ _ _ _ _ _ _ _ _ _ _ _ _ _ _ A1 E) as ->. pose proof (runV_tokens _ _ _ _ _ _ E) as [T0 T1].
    destruct (init_money keys k fuel _ _ _ _ _ _ _ _ _ _ _ _ _ _ _ _ HK C HT HB HE E A1 ltac:(lia) ltac:(lia)) as (x0 & x1 & K1 & K2 & K3 & K4 & K5 & K6 & K7 & K8).
    destruct (IH _ _ _ _ _ _ _ _ _ _ _ K1 ltac:(congruence) K2 A2 ltac:(lia) ltac:(lia)) as (-> & Q0 & Q1 & y0 & y1 & L1 & L2 & L3 & L4 & L5).
    split; [reflexivity|]. split; [congruence|]. split; [congruence|]. exists y0, y1. split; [assumption|]. split; [assumption|]. lia.
  - apply account_app in HA as (h1 & hs1 & p1 & j0 & j1 & k0 & k1 & m0 & m1 & n0 & n1 & A1 & A2 & -> & -> & -> & ->).
    pose proof (account_nonneg _ _ _ _ _ _ _ _ _ _ _ _ _ A1 F) as (P1 & P2 & P3 & P4).
    pose proof (account_nonneg _ _ _ _ _ _ _ _ _ _ _ _ _ A2 ltac:(rewrite (account_fee _ _ _ _ _ _ _ _ _ _ _ _ _ A1); exact F)) as (P5 & P6 & P7 & P8).
    pose proof (same_pool _ _ _ _ _ _ _ _ _ _ _ _ _ _ _ _ _ A1 E) as ->. pose proof (runV_tokens _ _ _ _ _ _ E) as [T0 T1].
    destruct (rebalance_money keys k fuel _ _ _ _ _ _ _ _ _ _ _ _ _ _ _ _ HK C HT HB E A1 ltac:(lia) ltac:(lia)) as (x0 & x1 & K1 & K2 & K3 & K4 & K5 & K6 & K7 & K8).
    destruct (IH _ _ _ _ _ _ _ _ _ _ _ K1 ltac:(congruence) K2 A2 ltac:(lia) ltac:(lia)) as (-> & Q0 & Q1 & y0 & y1 & L1 & L2 & L3 & L4 & L5).
    split; [reflexivity|]. split; [congruence|]. split; [congruence|]. exists y0, y1. split; [assumption|]. split; [assumption|]. lia.
  - assert (books s1 hs) as HB' by (unfold books in *; rewrite E0, E1, E2; exact HB).
    destruct (IH _ _ _ _ _ _ _ _ _ _ _ C HT HB' HA ltac:(lia) ltac:(lia)) as (-> & Q0 & Q1 & y0 & y1 & L1 & L2 & L3 & L4 & L5).
    split; [reflexivity|]. split; [congruence|]. split; [congruence|]. exists y0, y1. split; [assumption|]. split; [assumption|]. lia.
  - apply account_app in HA as (h1 & hs1 & p1 & j0 & j1 & k0 & k1 & m0 & m1 & n0 & n1 & A1 & A2 & -> & -> & -> & ->).
    pose proof (account_nonneg _ _ _ _ _ _ _ _ _ _ _ _ _ A2 ltac:(rewrite (account_fee _ _ _ _ _ _ _ _ _ _ _ _ _ A1); exact F)) as (P5 & P6 & P7 & P8).
    pose proof (same_pool _ _ _ _ _ _ _ _ _ _ _ _ _ _ _ _ _ A1 E) as ->. pose proof (runV_tokens _ _ _ _ _ _ E) as [T0 T1].
    destruct (market_account keys fuel tr _ _ _ _ _ _ _ _ _ _ _ _ C A1) as (K1 & -> & P1 & P2 & P3 & P4).
    destruct (IH _ _ _ _ _ _ _ _ _ _ _ K1 ltac:(congruence) HB A2 ltac:(lia) ltac:(lia)) as (-> & Q0 & Q1 & y0 & y1 & L1 & L2 & L3 & L4 & L5).
    split; [reflexivity|]. split; [congruence|]. split; [congruence|]. exists y0, y1. split; [assumption|]. split; [assumption|]. lia.
Qed.

(** *** the executor's run is such a history *)
Definition marketOps (tt : tagged) : list op := map (fun c => fst (snd c)) (filter (fun c => negb (fst c)) tt).
Definition ownOps (k : Kind) (tt : tagged) : Prop := Forall (fun c => fst c = true -> ownCall k (fst (snd c))) tt.
Lemma happens_app k fuel s p t1 s1 p1 t2 s2 p2 : happens k fuel s p t1 s1 p1 -> happens k fuel s1 p1 t2 s2 p2 -> happens k fuel s p (t1 ++ t2) s2 p2.
Proof.
  induction 1; intros K; cbn [app]; rewrite <- ?app_assoc.
  - exact K.
  - eapply hap_init; eauto.
  - eapply hap_rebalance; eauto.
  - eapply hap_price; eauto.
  - eapply hap_tx; eauto.
Qed.
(** the strategy is started before it is rebalanced, and once *)
Fixpoint orderly (started : bool) (bl : list Block) : Prop :=
  match bl with
  | [] => True
  | b :: bl => (started = true -> bInit b = false) /\ (bRebalance b = true -> started || bInit b = true) /\ orderly (started || bInit b) bl
  end.
Lemma plan_orderly c txs : forall st u sn pr, 0 <= cUpdate c < 2 ^ 62 -> Forall (fun t => - 2 ^ 62 < txTime t < 2 ^ 62) txs -> (st = false -> u = MaxInt64) ->
  orderly st (plan c st u sn pr txs).
Proof.
  induction txs as [|t txs IH]; intros st u sn pr HU HT HM; cbn [plan]; [exact I|]. destruct (cEnd c <? txTime t); [exact I|]. cbv zeta.
  inversion HT as [|? ? HT1 HT2 ET]; subst. cbn [orderly]. set (b := blockOf c st u sn pr t).
  assert (bInit b = negb st && (cStart c <=? txTime t)) as EI by reflexivity.
  assert (bRebalance b = ((if bInit b then iadd (txTime t) (cUpdate c) else u) <=? txTime t)) as ER by reflexivity.
  split; [|split].
  - intros ->. rewrite EI. reflexivity.
  - intros HR. destruct st; [reflexivity|]. destruct (bInit b) eqn:EB; [reflexivity|]. exfalso. rewrite ER, (HM eq_refl) in HR. apply Z.leb_le in HR. unfold MaxInt64 in HR. lia.
  - unfold nextStarted. rewrite (Bool.orb_comm (bInit b) st). apply IH; [assumption|assumption|]. intros HO. apply Bool.orb_false_iff in HO as [-> EB]. unfold nextTime. rewrite EB.
    rewrite ER, EB, (HM eq_refl). destruct (MaxInt64 <=? txTime t) eqn:EX; [|reflexivity]. apply Z.leb_le in EX. unfold MaxInt64 in EX. lia.
Qed.

Lemma valueUSD_quiet a0 a1 fuel p q tr v : runV fuel p (valueUSD a0 a1) = Ok (q, tr, v) -> q = p /\ tr = [].
Proof.
  assert (only (fun _ => False) (valueUSD a0 a1)) as O by (unfold valueUSD; cbv zeta; lps).
  revert O. generalize (valueUSD a0 a1). intros m. revert p. induction m as [r|o k IH|k IH]; intros p O E; cbn [runV only] in *.
  - apply bind_inv in E as (x & _ & E). injection E as <- <- _. auto.
  - destruct O as [[] _].
  - now apply (IH (slot p)).
Qed.
Lemma amounts_quiet k s fuel p q tr v : runV fuel p (GetAmounts k s) = Ok (q, tr, v) -> q = p /\ tr = [].
Proof.
  assert (only (fun _ => False) (GetAmounts k s)) as O.
  { assert (forall l a b, only (fun _ => False) (sumPositions l a b)) as HS by (induction l as [|x l IH]; intros a b; cbn [sumPositions]; lps; apply IH).
    destruct k; cbn [GetAmounts]; first [exact I|apply only_bind; [apply HS|intros ?; exact I]]. }
  revert O. generalize (GetAmounts k s). intros m. revert p. induction m as [r|o f IH|f IH]; intros p O E; cbn [runV only] in *.
  - apply bind_inv in E as (x & _ & E). injection E as <- <- _. auto.
  - destruct O as [[] _].
  - now apply (IH (slot p)).
Qed.
Lemma snapshot_quiet k s fuel p q tr s' : runV fuel p (MakeSnapshot k s) = Ok (q, tr, s') ->
  q = p /\ tr = [] /\ sAmount0 s' = sAmount0 s /\ sAmount1 s' = sAmount1 s /\ sPositions s' = sPositions s.
Proof.
  unfold MakeSnapshot. destruct (keepsHistory k).
  - unfold look, pure, done. cbn [mbind runV]. destruct (AddPrice _ _); cbn [mbind runV bind]; try discriminate. intros E. injection E as <- <- <-. auto.
  - unfold done. cbn [runV bind]. intros E. injection E as <- <- <-. auto.
Qed.
Lemma marketOps_app a b : marketOps (a ++ b) = marketOps a ++ marketOps b.
Proof. unfold marketOps. now rewrite filter_app, map_app. Qed.
Lemma marketOps_own tr : marketOps (map (pair true) tr) = [].
Proof. induction tr as [|c tr IH]; [reflexivity|exact IH]. Qed.
Lemma marketOps_market tr : marketOps (map (pair false) tr) = map fst tr.
Proof. unfold marketOps. induction tr as [|c tr IH]; [reflexivity|]. cbn [map filter fst negb snd]. now rewrite IH. Qed.
Lemma ownOps_own k tr : Forall (fun c => ownCall k (fst c)) tr -> ownOps k (map (pair true) tr).
Proof. intros H. unfold ownOps. rewrite Forall_map. eapply Forall_impl; [|exact H]. cbn. auto. Qed.
Lemma ownOps_market k tr : ownOps k (map (pair false) tr).
Proof. unfold ownOps. rewrite Forall_map. apply Forall_forall. intros c _ X. discriminate. Qed.

Lemma execBlock_happens k b s vs fuel p q tr r : txOK (bTx b) -> (bInit b = true -> sPositions s = []) ->
  runV fuel p (execBlock (strategyOf k) b s vs) = Ok (q, tr, r) ->
  exists tt, happens k fuel s p tt (fst r) q /\ map snd tt = tr /\ ownOps k tt /\
    marketOps tt = match marketOp (Token0 p) (Token1 p) (bTx b) with Some o => [o] | None => [] end /\
    (bInit b = false -> bRebalance b = false -> sPositions (fst r) = sPositions s).
Proof.
  intros HT HI E. unfold execBlock in E.
  rewrite runV_bind in E. apply bind_inv in E as (((p1 & t1) & [s1 v1]) & E1 & E). apply bind_inv in E as (((p2' & t2') & r2) & E2 & E). injection E as <- <- <-. cbn [fst snd] in E2.
  rewrite runV_bind in E2. apply bind_inv in E2 as (((p2 & t2) & s2) & E2 & E). apply bind_inv in E as (((p3' & t3') & r3) & E3 & E). injection E as <- <- <-.
  rewrite runV_bind in E3. apply bind_inv in E3 as (((p3 & t3) & v3) & E3 & E). apply bind_inv in E as (((p4' & t4') & r4) & E4 & E). injection E as <- <- <-.
  rewrite runV_bind in E4. apply bind_inv in E4 as (((p4 & t4) & s4) & E4 & E). apply bind_inv in E as (((p5' & t5') & r5) & E5 & E). injection E as <- <- <-.
  rewrite runV_bind in E5. apply bind_inv in E5 as (((p5 & t5) & x5) & E5 & E). apply bind_inv in E as (((p6 & t6) & r6) & E6 & E). injection E as <- <- <-.
  unfold done in E6. cbn [runV bind] in E6. injection E6 as <- <- <-. cbn [fst].
  (* start *)
  assert (happens k fuel s p (map (pair true) t1) s1 p1 /\ Forall (fun c => ownCall k (fst c)) t1 /\ (bInit b = false -> sPositions s1 = sPositions s)) as (H1 & O1 & P1).
  { destruct (bInit b).
    - rewrite runV_bind in E1. apply bind_inv in E1 as (((pa & ta) & ra) & Ea & E). apply bind_inv in E as (((pb & tb) & rb) & Eb & E). injection E as <- <- ->.
      rewrite runV_bind in Eb. apply bind_inv in Eb as (((pc & tc) & rc) & Ec & E). apply bind_inv in E as (((pd & td) & rd) & Ed & E). injection E as <- <- ->.
      unfold done in Ed. cbn [runV bind] in Ed. injection Ed as <- <- <- <-. apply valueUSD_quiet in Ec as [-> ->]. cbn [app]. rewrite app_nil_r.
      split; [|split; [|discriminate]].
      + rewrite <- (app_nil_r (map (pair true) ta)). eapply hap_init; [auto|exact Ea|constructor].
      + refine (only_trace (ownCall k) _ _ _ _ _ _ _ Ea). apply own_strategy.
    - unfold done in E1. cbn [runV bind] in E1. injection E1 as <- <- <- <-. split; [constructor|]. split; [constructor|reflexivity]. }
  (* price snapshot *)
  assert (p2 = p1 /\ t2 = [] /\ sAmount0 s2 = sAmount0 s1 /\ sAmount1 s2 = sAmount1 s1 /\ sPositions s2 = sPositions s1) as (-> & -> & Q0 & Q1 & P2).
  { destruct (bPrice b); [now apply snapshot_quiet in E2|]. unfold done in E2. cbn [runV bind] in E2. injection E2 as <- <- <-. auto. }
  (* snapshot *)
  assert (p3 = p1 /\ t3 = []) as (-> & ->).
  { destruct (bSnapshot b).
    - rewrite runV_bind in E3. apply bind_inv in E3 as (((pa & ta) & ra) & Ea & E). apply bind_inv in E as (((pb & tb) & rb) & Eb & E). injection E as <- <- <-.
      rewrite runV_bind in Eb. apply bind_inv in Eb as (((pc & tc) & rc) & Ec & E). apply bind_inv in E as (((pd & td) & rd) & Ed & E). injection E as <- <- <-.
      unfold done in Ed. cbn [runV bind] in Ed. injection Ed as <- <- <-. apply amounts_quiet in Ea as [-> ->]. apply valueUSD_quiet in Ec as [-> ->]. auto.
    - unfold done in E3. cbn [runV bind] in E3. injection E3 as <- <- <-. auto. }
  (* rebalance *)
  assert (happens k fuel s2 p1 (map (pair true) t4) s4 p4 /\ Forall (fun c => ownCall k (fst c)) t4 /\ (bRebalance b = false -> sPositions s4 = sPositions s2)) as (H4 & O4 & P4).
  { destruct (bRebalance b).
    - split; [|split; [|discriminate]].
      + cbn [doRebalance strategyOf] in E4. rewrite runV_bind in E4. apply bind_inv in E4 as (((pa & ta) & ra) & Ea & E). apply bind_inv in E as (((pb & tb) & rb) & Eb & E). injection E as <- <- <-.
        unfold done in Eb. cbn [runV bind] in Eb. injection Eb as <- <- <-. rewrite app_nil_r.
        rewrite <- (app_nil_r (map (pair true) ta)). eapply hap_rebalance; [exact Ea|constructor].
      + refine (only_trace (ownCall k) _ _ _ _ _ _ _ E4). apply own_strategy.
    - unfold done in E4. cbn [runV bind] in E4. injection E4 as <- <- <-. split; [constructor|]. split; [constructor|reflexivity]. }
  exists (map (pair true) t1 ++ map (pair true) t4 ++ map (pair false) t5). split; [|split; [|split; [|split]]].
  - eapply happens_app; [exact H1|]. eapply hap_price; [exact Q0|exact Q1|exact P2|]. eapply happens_app; [exact H4|].
    rewrite <- (app_nil_r (map (pair false) t5)). eapply hap_tx; [exact E5|constructor].
  - rewrite !map_app, !map_snd_pair, app_nil_r. cbn [app]. reflexivity.
  - unfold ownOps. rewrite !Forall_app. split; [now apply ownOps_own|]. split; [now apply ownOps_own|apply ownOps_market].
  - rewrite !marketOps_app, !marketOps_own, marketOps_market. cbn [app]. rewrite (execTx_market _ _ _ _ _ _ HT E5).
    pose proof (runV_tokens _ _ _ _ _ _ E1) as [T1 T1']. pose proof (runV_tokens _ _ _ _ _ _ E4) as [T4 T4']. now rewrite T4, T4', T1, T1'.
  - intros A B. rewrite (P4 B), P2. auto.
Qed.
Lemma execBlocks_happens k bl : forall s vs fuel p q tr r st, Forall (fun b => txOK (bTx b)) bl -> orderly st bl -> (st = false -> sPositions s = []) ->
  runV fuel p (execBlocks (strategyOf k) bl s vs) = Ok (q, tr, r) ->
  exists tt, happens k fuel s p tt (fst r) q /\ map snd tt = tr /\ ownOps k tt /\
    marketOps tt = flat_map (fun t => match marketOp (Token0 p) (Token1 p) t with Some o => [o] | None => [] end) (map bTx bl).
Proof.
  induction bl as [|b bl IH]; intros s vs fuel p q tr r st HF HO HS E; cbn [execBlocks map flat_map] in *.
  - unfold done in E. cbn [runV bind] in E. injection E as <- <- <-. exists []. split; [constructor|]. split; [reflexivity|]. split; [constructor|reflexivity].
  - rewrite runV_bind in E. apply bind_inv in E as (((p1 & t1) & r1) & E1 & E). apply bind_inv in E as (((p2 & t2) & r2) & E2 & E). injection E as <- <- <-.
    inversion HF as [|? ? HF1 HF2 EF]; subst. cbn [orderly] in HO. destruct HO as (O1 & O2 & O3).
    assert (bInit b = true -> sPositions s = []) as HI by (intros HI; apply HS; destruct st; [rewrite (O1 eq_refl) in HI; discriminate|reflexivity]).
    destruct (execBlock_happens k b s vs fuel p p1 t1 r1 HF1 HI E1) as (u1 & H1 & M1 & W1 & K1 & P1).
    assert (st || bInit b = false -> sPositions (fst r1) = []) as HS'.
    { intros X. apply Bool.orb_false_iff in X as [-> X]. rewrite P1; [now apply HS|exact X|]. destruct (bRebalance b); [|reflexivity]. specialize (O2 eq_refl). rewrite X in O2. discriminate. }
    destruct (IH _ _ _ _ _ _ _ _ HF2 O3 HS' E2) as (u2 & H2 & M2 & W2 & K2).
    pose proof (runV_tokens _ _ _ _ _ _ E1) as [T1 T1']. rewrite T1, T1' in K2.
    exists (u1 ++ u2). split; [eapply happens_app; eassumption|]. split; [now rewrite map_app, M1, M2|]. split; [unfold ownOps; rewrite Forall_app; auto|].
    rewrite marketOps_app, K1, K2. reflexivity.
Qed.

(** ** C73 *)
Lemma run_money keys k c txs s fuel p q tr r h r0 r1 : keyed keys k -> cash true true h [] p r0 r1 -> Token0 p <> Token1 p ->
  regular c txs -> Forall txOK txs -> sPositions s = [] -> is_u256 (sAmount0 s) -> is_u256 (sAmount1 s) ->
  runV fuel p (Run (strategyOf k) c txs s) = Ok (q, tr, r) ->
  exists tt, map snd tt = tr /\ ownOps k tt /\
    marketOps tt = flat_map (fun t => match marketOp (Token0 p) (Token1 p) t with Some o => [o] | None => [] end) (upTo (cEnd c) txs) /\
    forall h' hs' q' i0 i1 o0 o1, account keys fuel h [] p tt h' hs' q' i0 i1 o0 o1 -> sAmount0 s + r0 + i0 < 2 ^ 256 -> sAmount1 s + r1 + i1 < 2 ^ 256 ->
      q' = q /\ (forall l u, minted hs' l u = 0) /\ exists e0 e1, cash true true h' hs' q e0 e1 /\ 0 <= e0 /\ 0 <= e1 /\
        sAmount0 (fst r) + e0 = sAmount0 s + r0 + i0 - o0 /\ sAmount1 (fst r) + e1 = sAmount1 s + r1 + i1 - o1.
Proof.
  intros HK C HT HR HF HE F0 F1 E. rewrite (Run_plan (strategyOf k) c txs s fuel p) in E. unfold execPlan in E.
  rewrite runV_bind in E. apply bind_inv in E as (((p1 & t1) & v1) & E1 & E). apply bind_inv in E as (((p2 & t2) & r2) & E2 & E). injection E as <- <- <-.
  rewrite runV_bind in E2. apply bind_inv in E2 as (((pa & ta) & ra) & Ea & E). apply bind_inv in E as (((pb & tb) & rb) & Eb & E). injection E as <- <- <-.
  rewrite runV_bind in Eb. apply bind_inv in Eb as (((pc & tc) & rc) & Ec & E). apply bind_inv in E as (((pd & td) & rd) & Ed & E). injection E as <- <- <-.
  unfold done in Ed. cbn [runV bind] in Ed. injection Ed as <- <- <-. apply valueUSD_quiet in Ec as [-> ->]. cbn [app fst]. rewrite app_nil_r. cbn [doBurnAll strategyOf] in Ea.
  assert (Forall (fun b => txOK (bTx b)) (plan c false MaxInt64 MaxInt64 0 txs)) as HF'.
  { rewrite <- Forall_map. rewrite plan_txs. rewrite Forall_forall in *. intros t Ht. apply HF. now apply upTo_sub in Ht. }
  destruct HR as (HU & _ & _ & HTm).
  destruct (execBlocks_happens k _ s [] fuel p p1 t1 v1 false HF' (plan_orderly c txs false _ _ _ HU HTm (fun _ => eq_refl)) (fun _ => HE) E1) as (tt & H & M & W & K). rewrite plan_txs in K.
  exists (tt ++ map (pair true) ta). split; [now rewrite map_app, map_snd_pair, M|]. split.
  { unfold ownOps. rewrite Forall_app. split; [exact W|]. apply ownOps_own. refine (only_trace (ownCall k) _ _ _ _ _ _ _ Ea). apply (own_strategy k (fst v1)). }
  split; [rewrite marketOps_app, marketOps_own, app_nil_r; exact K|].
  intros h' hs' q' i0 i1 o0 o1 HA B0 B1. pose proof (cash_fee _ _ _ _ _ C) as F.
  apply account_app in HA as (h1 & hs1 & q1 & j0 & j1 & k0 & k1 & m0 & m1 & n0 & n1 & A1 & A2 & -> & -> & -> & ->).
  pose proof (account_nonneg _ _ _ _ _ _ _ _ _ _ _ _ _ A2 ltac:(rewrite (account_fee _ _ _ _ _ _ _ _ _ _ _ _ _ A1); exact F)) as (P5 & P6 & P7 & P8).
  assert (books s []) as HB. { split; [apply F0|]. split; [apply F1|]. rewrite HE. split; [intros l u; reflexivity|intros x []]. }
  destruct (happens_money keys k fuel _ _ _ _ _ HK H _ _ _ _ _ _ _ _ _ _ _ C HT HB A1 ltac:(lia) ltac:(lia)) as (-> & T0 & T1 & y0 & y1 & L1 & L2 & L3 & L4 & L5).
  destruct (burnAll_money keys k fuel _ _ _ _ _ _ _ _ _ _ _ _ _ _ _ _ L1 ltac:(congruence) L2 Ea A2 ltac:(lia) ltac:(lia)) as (z0 & z1 & Z1 & Z2 & Z3 & Z4 & Z5 & Z6 & Z7 & Z8 & Z9 & Z10).
  pose proof (same_pool _ _ _ _ _ _ _ _ _ _ _ _ _ _ _ _ _ A2 Ea) as ->. split; [reflexivity|]. split.
  { destruct (nop_or k) as [->|HN]; [|now apply Z10]. cbn in Ea. injection Ea as _ <- _. inversion A2; subst.
    assert (hs' = []) as ->; [|reflexivity]. refine (no_own keys fuel tt _ _ _ _ _ _ _ _ _ _ _ A1).
    eapply Forall_impl; [|exact W]. cbn. intros x Hx. destruct (fst x); [|reflexivity]. now destruct (Hx eq_refl). }
  pose proof (cash_solvent _ _ _ _ _ Z1) as (N0 & N1 & _). exists z0, z1. split; [exact Z1|]. lia.
Qed.
