(** RunCheck.v -- a program that checks, for given transactions, what RunReturns.v asks of a run. *)
From Coq Require Import ZifyBool String.
From Verif Require Import Base U256Z SwapMath TickMath TickMathFacts Float64 TickSearch TickData TickDataFacts Ledger Pool PoolTable PoolSwap PoolHist PoolSpec PoolMint PoolOps PoolReturns Prices PricesFacts Client Strategy StrategyFacts Executor Plan ReplayFacts StrategyBudget Cash Money World RunReturns.
Ltac Zify.zify_post_hook ::= idtac.
Open Scope Z_scope.

Section Check.
Variable n : nat.
Variable cap : Z.

Definition placedB (s j : Z) : bool := (0 <? s) && negb ((j <? 0) && negb (j mod s =? 0) && ((j ÷ s) mod 256 =? 0)).
Definition ownKeyB (hs : hist) (l u : Z) : bool :=
  forallb (fun e => (minted hs (eLower e) (eUpper e) <=? 0) || negb (keyEq (posKey (eLower e) (eUpper e)) (posKey l u)) || ((eLower e =? l) && (eUpper e =? u))) hs.
(** down to 2^96, up to 2^128 - 1 *)
Definition stopsB (p : Pool) (z : bool) (amt : Z) : bool :=
  let b := if z then 2 ^ 96 else 2 ^ 128 - 1 in
  (if z then b <? SqrtRatio p else SqrtRatio p <? b) && match swap n p z amt b with Ok r => negb (SqrtRatio (fst (fst r)) =? b) | _ => false end.
Definition guardB (w : World) (o : op) : bool :=
  let p := wPool w in
  match o with
  | OMint l u a => (0 <? a) && (MinTick <=? l) && (l <? u) && (u <=? MaxTick) && placedB (TickSpacing p) l && placedB (TickSpacing p) u && (total (wAll w) + a <=? cap) &&
      (wIn0 w + cost true p l u a <? 2 ^ 128) && (wIn1 w + cost false p l u a <? 2 ^ 128)
  | OBurn l u a => (0 <=? a) && (minted (wOwn w) l u + a <=? minted (wAll w) l u) && (0 <? minted (wAll w) l u)
  | OFlash b0 b1 => (0 <=? b0) && (0 <=? b1) && (0 <? Liquidity p) && (wIn0 w + b0 <? 2 ^ 128) && (wIn1 w + b1 <? 2 ^ 128)
  | OExactInput amt t lim =>
      let z := String.eqb t (Token0 p) in
      (lim =? 0) && (0 <? amt) && ((if z then wIn0 w else wIn1 w) + amt <? 2 ^ 128) && match ticks (Data p) with [] => false | _ => true end && stopsB p z amt
  | OMintStrategy l u a => (0 <? a) && placedB (TickSpacing p) l && placedB (TickSpacing p) u && (total (wAll w) + a <=? cap) && (cap <=? 2 ^ 63 * a) && ownKeyB (wOwn w) l u
  | OBurnStrategy _ _ _ | OCollectStrategy _ _ => true
  | OExactOutput _ _ _ => false
  end.
(** runs a tree, checking every call *)
Fixpoint runC {A} (w : World) (m : M A) : option (World * A) :=
  match m with
  | MRet (Ok a) => Some (w, a)
  | MRet _ => None
  | MRead k => runC w (k (slot (wPool w)))
  | MOp o k => if guardB w o then match apply n (wPool w) o with Ok r => runC (after w o r) (k (snd (fst r), snd r)) | _ => None end else None
  end.
Definition validB (l u : Z) : bool := (MinTick <=? l) && (l <? u) && (u <=? MaxTick).
Definition aimsB (r : Z * Z) : bool := validB (fst r) (snd r).
Definition fillsB (t sp : Z) (r : Z * Z) : bool := (negb (Ceil t sp <? snd r) || (MinTick <=? Ceil t sp)) && (negb (fst r <? Floor t sp) || (Floor t sp <=? MaxTick)).
Definition sidesB (t sp b : Z) : bool := validB (Ceil t sp) (iadd (Ceil t sp) b) && validB (isub (Floor t sp) b) (Floor t sp).
Definition okB {A} (r : res A) (f : A -> bool) : bool := match r with Ok a => f a | _ => false end.
Definition aimedB (again : bool) (k : Kind) (s : St) (sl : Slot) : bool :=
  let t := slTick sl in let fee := slFee sl in let sp := TickSpaces fee in
  match k with
  | TwoInterval a b => aimsB (around t a fee) && sidesB t sp b
  | BollingerBands m => okB (do w <- bandWidth (sHistory s) m; bandTicks (usqrt (Average (sHistory s))) w) aimsB
  | BollingerBandsFillUp m => okB (do w <- bandWidth (sHistory s) m; bandTicks (usqrt (Average (sHistory s))) w) (fun r => aimsB r && (negb again || fillsB t sp r))
  | ConstantInterval w => if again then validB (sTickLower s) (sTickUpper s) else aimsB (around t w fee)
  | FillUp w => aimsB (around t w fee) && fillsB t sp (around t w fee)
  | IntervalAroundAverage w => okB (GetTickAtSqrtRatio (usqrt (Average (sHistory s)))) (fun t' => aimsB (around t' w fee))
  | IntervalAroundPrice w => aimsB (around t w fee)
  | LimitOrder w => aimsB (around t w fee) && sidesB t sp 10
  | NoProvision | V2 => true
  | IntervalAroundPriceAndSwap w => aimsB (around t w fee) &&
      match GetLiquidityForAmount (slPrice sl) (rat (fst (around t w fee))) (rat (snd (around t w fee))) (sAmount0 s) (sAmount1 s) with Ok liq => liq <? 2 ^ 128 | _ => true end
  | VolatilitySized m => okB (do w <- bandWidth (sHistory s) m; bandTicks (slPrice sl) w) aimsB
  end.
Fixpoint steadyB (k : Kind) (bl : list Block) (w : World) (s : St) : bool :=
  match bl with
  | [] => true
  | b :: bl =>
      match (if bInit b then if aimedB false k s (slot (wPool w)) then option_map (fun r => (fst r, fst (snd r))) (runC w (Init k s)) else None else Some (w, s)) with
      | None => false
      | Some (w1, s1) =>
          match (if bPrice b then if negb (keepsHistory k) || (SqrtRatio (wPool w1) <? 2 ^ 115) then option_map snd (runC w1 (MakeSnapshot k s1)) else None else Some s1) with
          | None => false
          | Some s2 =>
              match (if bRebalance b then
                       match runC w1 (burnReset s2) with
                       | Some (w', r) => if aimedB true k (fst r) (slot (wPool w')) then option_map (fun r => (fst r, fst (snd r))) (runC w1 (Rebalance k s2)) else None
                       | None => None
                       end
                     else Some (w1, s2)) with
              | None => false
              | Some (w3, s3) => match runC w3 (execTx (bTx b)) with Some (w4, _) => steadyB k bl w4 s3 | None => false end
              end
          end
      end
  end.
(** the start *)
Definition startB (k : Kind) (c : Config) (txs : list Transaction) (h : hist) (p : Pool) (r0 r1 u0 u1 : Z) (s : St) : bool :=
  negb (String.eqb (Token0 p) (Token1 p)) && (SqrtRatio p <? 2 ^ 128) && (total h <=? cap) && (cap <=? 2 ^ 127) && match sPositions s with [] => true | _ => false end &&
  (0 <=? sAmount0 s) && (sAmount0 s + r0 <=? u0) && (u0 <? 2 ^ 128) && (0 <=? sAmount1 s) && (sAmount1 s + r1 <=? u1) && (u1 <? 2 ^ 128) &&
  steadyB k (plan c false MaxInt64 MaxInt64 0 txs) (mkWorld h [] p r0 r1 u0 u1) s.

Variable fuel : nat.
Hypothesis less : (n <= fuel)%nat.

Ltac bools := repeat match goal with H : _ && _ = true |- _ => apply andb_true_iff in H as [? H] end.
Lemma placedB_ok s j : placedB s j = true -> placed s j.
Proof. unfold placedB, placed, misplaced. intros H. apply andb_true_iff in H as [H1 H2]. split; [lia|]. intros (A & B & C). rewrite C in H2. replace (j <? 0) with true in H2 by lia. replace (j mod s =? 0) with false in H2 by lia. discriminate. Qed.
Lemma minted_in hs l u : 0 < minted hs l u -> exists e, In e hs /\ eLower e = l /\ eUpper e = u.
Proof.
  unfold minted. induction hs as [|e hs IH]; cbn [sumOn]; [lia|]. intros H. destruct ((eLower e =? l) && (eUpper e =? u)) eqn:E.
  - exists e. split; [now left|]. lia.
  - cbn [ind] in H. destruct IH as (e' & A & B); [lia|]. exists e'. split; [now right|assumption].
Qed.
Lemma ownKeyB_ok hs l u : ownKeyB hs l u = true -> ownKey hs l u.
Proof.
  intros H l' u' Hm E. destruct (minted_in _ _ _ Hm) as (e & HI & <- & <-). unfold ownKeyB in H. rewrite forallb_forall in H. specialize (H e HI).
  rewrite (proj2 (keyEq_true _ _) E) in H. cbn [negb] in H. lia.
Qed.
Lemma stopsB_ok p z amt : stopsB p z amt = true -> stops fuel p z amt.
Proof.
  unfold stopsB. cbv zeta. intros H. apply andb_true_iff in H as [H1 H2]. destruct (swap n p z amt (if z then 2 ^ 96 else 2 ^ 128 - 1)) as [r0| |] eqn:E; try discriminate.
  exists (if z then 2 ^ 96 else 2 ^ 128 - 1). split; [destruct z; [split; [unfold MinSqrtRatio; lia|apply clear_above; lia]|lia]|].
  intros r Er. rewrite (swap_mono _ _ _ _ _ _ _ less E) in Er. injection Er as <-. lia.
Qed.
Lemma guardB_ok w o : guardB w o = true -> guard fuel cap w o.
Proof.
  destruct o as [l u a|l u a|b0 b1|amt t lim|amt t lim|l u a|l u a|l u]; cbn [guardB guard]; intros H; repeat (apply andb_true_iff in H as [H ?]);
    repeat match goal with K : placedB _ _ = true |- _ => apply placedB_ok in K | K : ownKeyB _ _ _ = true |- _ => apply ownKeyB_ok in K | K : stopsB _ _ _ = true |- _ => apply stopsB_ok in K end.
  all: try (repeat (split; [first [assumption|lia]|]); first [assumption|lia]); try exact I; try discriminate.
  split; [lia|]. split; [lia|]. split; [lia|]. split; [|assumption]. destruct (ticks (Data (wPool w))); [discriminate|intros C; discriminate C].
Qed.
Lemma runC_ok {A} (m : M A) : forall w w' a, runC w m = Some (w', a) -> calm fuel cap w m /\ runW fuel w m = Ok (w', a).
Proof.
  induction m as [r|o k IH|k IH]; intros w w' a E; cbn [runC calm runW] in *.
  - destruct r; try discriminate. injection E as <- <-. split; [exact I|reflexivity].
  - destruct (guardB w o) eqn:G; [|discriminate]. destruct (apply n (wPool w) o) as [r| |] eqn:EA; try discriminate. apply (apply_mono _ _ _ _ _ less) in EA.
    destruct (IH _ _ _ _ E) as [C R]. rewrite EA. cbn [bind]. split; [|exact R]. split; [now apply guardB_ok|]. intros r' Er. injection Er as <-. exact C.
  - now apply IH.
Qed.
Lemma validB_ok l u : validB l u = true -> valid l u.
Proof. unfold validB, valid. lia. Qed.
Lemma fillsB_ok t sp r : fillsB t sp r = true -> fills t sp r.
Proof. unfold fillsB, fills. lia. Qed.
Lemma sidesB_ok t sp b : sidesB t sp b = true -> sides t sp b.
Proof. unfold sidesB, sides. intros H. apply andb_true_iff in H as [A B]. split; now apply validB_ok. Qed.
Lemma okB_ok {A} (r : res A) f : okB r f = true -> exists a, r = Ok a /\ f a = true.
Proof. destruct r; cbn [okB]; try discriminate. eauto. Qed.
Lemma aimedB_ok again k s sl : aimedB again k s sl = true -> aimed again k s sl.
Proof.
  unfold aimedB, aimed, aims. cbv zeta. destruct k as [a b|m|m|x|x|x|x|x| |x| |m]; intros H.
  - apply andb_true_iff in H as [A B]. split; [now apply validB_ok|now apply sidesB_ok].
  - apply okB_ok in H as (r & E & A). exists r. split; [assumption|now apply validB_ok].
  - apply okB_ok in H as (r & E & A). apply andb_true_iff in A as [A B]. exists r. split; [assumption|]. split; [now apply validB_ok|]. intros ->. now apply fillsB_ok.
  - destruct again; now apply validB_ok.
  - apply andb_true_iff in H as [A B]. split; [now apply validB_ok|now apply fillsB_ok].
  - apply okB_ok in H as (r & E & A). exists r. split; [assumption|now apply validB_ok].
  - now apply validB_ok.
  - apply andb_true_iff in H as [A B]. split; [now apply validB_ok|now apply sidesB_ok].
  - exact I.
  - apply andb_true_iff in H as [A B]. split; [now apply validB_ok|]. intros liq E. rewrite E in B. lia.
  - exact I.
  - apply okB_ok in H as (r & E & A). exists r. split; [assumption|now apply validB_ok].
Qed.
Lemma steadyB_ok k bl : forall w s, steadyB k bl w s = true -> steady fuel cap k bl w s.
Proof.
  induction bl as [|b bl IH]; intros w s H; cbn [steadyB steady] in *; [exact I|].
  destruct (if bInit b then _ else _) as [[w1 s1]|] eqn:E1; [|discriminate].
  destruct (if bPrice b then _ else _) as [s2|] eqn:E2; [|discriminate].
  destruct (if bRebalance b then _ else _) as [[w3 s3]|] eqn:E3; [|discriminate].
  destruct (runC w3 (execTx (bTx b))) as [[w4 v4]|] eqn:E4; [|discriminate].
  apply runC_ok in E4 as [C4 R4]. apply IH in H. split.
  - intros EB. rewrite EB in E1. destruct (aimedB _ _ _ _) eqn:EA; [|discriminate]. destruct (runC w (Init k s)) as [[w' r]|] eqn:E; [|discriminate].
    split; [now apply aimedB_ok|]. now apply runC_ok in E.
  - intros w1' s1' H1. assert (w1' = w1 /\ s1' = s1) as [-> ->].
    { destruct (bInit b); [|injection E1 as <- <-; exact H1]. destruct (aimedB _ _ _ _) eqn:EA; [|discriminate]. destruct (runC w (Init k s)) as [[w' r]|] eqn:E; [|discriminate].
      apply runC_ok in E as [_ R]. cbn [option_map fst snd] in E1. injection E1 as <- <-. destruct H1 as (v & H1). rewrite R in H1. injection H1 as <- ->. auto. }
    clear E1 H1. split.
    + intros EB EK. rewrite EB, EK in E2. cbn [negb orb] in E2. destruct (_ <? _) eqn:L; [lia|discriminate].
    + intros s2' H2. assert (s2' = s2) as ->.
      { destruct (bPrice b); [|injection E2 as <-; exact H2]. destruct (_ || _); [|discriminate]. destruct (runC w1 (MakeSnapshot k s1)) as [[w' r]|] eqn:E; [|discriminate].
        apply runC_ok in E as [_ R]. cbn [option_map snd] in E2. injection E2 as <-. rewrite R in H2. now injection H2 as _ ->. }
      clear E2 H2. split.
      * intros EB. rewrite EB in E3. destruct (runC w1 (burnReset s2)) as [[w' r]|] eqn:EN; [|discriminate]. destruct (aimedB _ _ _ _) eqn:EA; [|discriminate].
        destruct (runC w1 (Rebalance k s2)) as [[w'' r']|] eqn:E; [|discriminate]. apply runC_ok in E as [C _]. apply runC_ok in EN as [_ RN]. split; [assumption|].
        intros wx rx Ex. rewrite RN in Ex. injection Ex as <- <-. now apply aimedB_ok.
      * intros w3' s3' H3. assert (w3' = w3 /\ s3' = s3) as [-> ->].
        { destruct (bRebalance b); [|injection E3 as <- <-; exact H3]. destruct (runC w1 (burnReset s2)) as [[w' r]|] eqn:EN; [|discriminate]. destruct (aimedB _ _ _ _) eqn:EA; [|discriminate].
          destruct (runC w1 (Rebalance k s2)) as [[w'' r']|] eqn:E; [|discriminate]. apply runC_ok in E as [_ R]. cbn [option_map fst snd] in E3. injection E3 as <- <-.
          destruct H3 as (v & H3). rewrite R in H3. injection H3 as <- ->. auto. }
        split; [assumption|]. intros w5 v5 E5. rewrite R4 in E5. injection E5 as <- <-. exact H.
Qed.
Theorem checked_returns k c txs h p r0 r1 u0 u1 s : (allRounds <= fuel)%nat -> cash true true h [] p r0 r1 -> historyOK k s ->
  startB k c txs h p r0 r1 u0 u1 s = true -> exists q tr r, runV fuel p (Run (strategyOf k) c txs s) = Ok (q, tr, r).
Proof.
  intros HF C HH H. unfold startB in H. repeat (apply andb_true_iff in H as [H ?]).
  match goal with K : steadyB _ _ _ _ = true |- _ => apply steadyB_ok in K as HS end.
  eapply run_returns with (cap := cap) (u0 := u0) (u1 := u1); try eassumption; try lia.
  - apply String.eqb_neq. now apply negb_true_iff.
  - destruct (sPositions s); [reflexivity|discriminate].
Qed.
End Check.
