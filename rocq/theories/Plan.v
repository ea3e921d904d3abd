(** Plan.v -- what the executor does with a list of transactions: the schedule of its calls. *)
From Coq Require Import String.
From Verif Require Import Base U256Z SwapMath TickMath Pool PoolOps Prices Client Strategy Executor.
Ltac Zify.zify_post_hook ::= idtac.
Open Scope Z_scope.

(** what is done at one transaction, in this order: start the strategy, price snapshot, value snapshot,
    rebalance, execute the transaction *)
Record Block := mkBlock { bInit : bool; bPrice : bool; bSnapshot : bool; bRebalance : bool; bTx : Transaction }.

Fixpoint upTo (limit : Z) (txs : list Transaction) : list Transaction :=
  match txs with
  | [] => []
  | t :: txs => if limit <? txTime t then [] else t :: upTo limit txs
  end.
Definition count {A} (f : A -> bool) (l : list A) : Z := Z.of_nat (length (filter f l)).

(** The schedule, declaratively.  [planned c txs bl]: the blocks are the transactions up to the end time; the
    strategy starts at the first of them at or after the start time (at time [s]); with [n] snapshots (or
    rebalances) before, the next one is at a transaction at or after [s + (n+1) * interval]; price snapshots
    happen at a transaction later than [n * interval]. *)
Definition startedAt (c : Config) (before : list Block) (b : Block) (s : Z) : Prop :=
  exists t, find (fun t => cStart c <=? txTime t) (map bTx (before ++ [b])) = Some t /\ s = txTime t.
Definition planned (c : Config) (txs : list Transaction) (bl : list Block) : Prop :=
  map bTx bl = upTo (cEnd c) txs /\
  forall before b after, bl = before ++ b :: after ->
    (bInit b = true <-> cStart c <= txTime (bTx b) /\ forall b', In b' before -> txTime (bTx b') < cStart c) /\
    (bPrice b = true <-> count bPrice before * cPrice c < txTime (bTx b)) /\
    (bSnapshot b = true <-> exists s, startedAt c before b s /\ s + (count bSnapshot before + 1) * cSnapshot c <= txTime (bTx b)) /\
    (bRebalance b = true <-> exists s, startedAt c before b s /\ s + (count bRebalance before + 1) * cUpdate c <= txTime (bTx b)).

Section Exec.
  Variable S : Type.
  Variable strat : Strat S.

  (** carrying out a block; [vs] are the values recorded so far *)
  Definition execBlock (b : Block) (s : S) (vs : list Z) : M (S * list Z) :=
    act sv <-
      (if bInit b then
         act r <- doInit strat s;
         act v <- valueUSD (fst (snd r)) (snd (snd r));
         done (fst r, vs ++ [v])
       else done (s, vs));
    act s <- (if bPrice b then doSnapshot strat (fst sv) else done (fst sv));
    act vs <-
      (if bSnapshot b then
         act a <- doAmounts strat s;
         act v <- valueUSD (fst a) (snd a);
         done (snd sv ++ [v])
       else done (snd sv));
    act s <- (if bRebalance b then doRebalance strat s else done s);
    act _ <- execTx (bTx b);
    done (s, vs).
  Fixpoint execBlocks (bl : list Block) (s : S) (vs : list Z) : M (S * list Z) :=
    match bl with
    | [] => done (s, vs)
    | b :: bl => act sv <- execBlock b s vs; execBlocks bl (fst sv) (snd sv)
    end.
  Definition execPlan (bl : list Block) (s : S) : M (S * list Z) :=
    act sv <- execBlocks bl s [];
    act r <- doBurnAll strat (fst sv);
    act v <- valueUSD (fst (snd r)) (snd (snd r));
    done (fst r, snd sv ++ [v]).
End Exec.
Arguments execBlock {S}.
Arguments execBlocks {S}.
Arguments execPlan {S}.

(** two clients that do the same on every pool *)
Definition same {A} (m n : M A) : Prop := forall fuel p, runV fuel p m = runV fuel p n.
Lemma same_refl {A} (m : M A) : same m m.
Proof. intros fuel p. reflexivity. Qed.
Lemma same_trans {A} (m n o : M A) : same m n -> same n o -> same m o.
Proof. intros H K fuel p. now rewrite H. Qed.
Lemma same_sym {A} (m n : M A) : same m n -> same n m.
Proof. intros H fuel p. now rewrite H. Qed.
Lemma same_bind {A B} (m n : M A) (f g : A -> M B) : same m n -> (forall a, same (f a) (g a)) -> same (mbind m f) (mbind n g).
Proof.
  intros H K fuel p. rewrite !runV_bind, H. destruct (runV fuel p n) as [[[q t] a]| |]; cbn [bind]; try reflexivity. now rewrite K.
Qed.
Lemma same_assoc {A B C} (m : M A) (f : A -> M B) (g : B -> M C) : same (mbind (mbind m f) g) (mbind m (fun a => mbind (f a) g)).
Proof.
  induction m as [r|o k IH|k IH].
  - destruct r; apply same_refl.
  - intros fuel p. cbn [mbind runV]. destruct (apply fuel p o) as [[[q a] b]| |]; cbn [bind]; try reflexivity. now rewrite IH.
  - intros fuel p. cbn [mbind runV]. apply IH.
Qed.
Lemma same_done {A B} (a : A) (f : A -> M B) : same (mbind (done a) f) (f a).
Proof. apply same_refl. Qed.

(** ** the plan the loop follows *)
Definition blockOf (c : Config) (started : bool) (u sn pr : Z) (t : Transaction) : Block :=
  let i := negb started && (cStart c <=? txTime t) in
  let u := if i then iadd (txTime t) (cUpdate c) else u in
  let sn := if i then iadd (txTime t) (cSnapshot c) else sn in
  mkBlock i (pr <? txTime t) (sn <=? txTime t) (u <=? txTime t) t.
Definition nextStarted (b : Block) (started : bool) : bool := bInit b || started.
Definition nextTime (fired started : bool) (t interval next : Z) : Z :=
  let next := if started then iadd t interval else next in
  if fired then iadd next interval else next.

Fixpoint plan (c : Config) (started : bool) (u sn pr : Z) (txs : list Transaction) : list Block :=
  match txs with
  | [] => []
  | t :: txs =>
      if cEnd c <? txTime t then []
      else
        let b := blockOf c started u sn pr t in
        b :: plan c (nextStarted b started) (nextTime (bRebalance b) (bInit b) (txTime t) (cUpdate c) u)
               (nextTime (bSnapshot b) (bInit b) (txTime t) (cSnapshot c) sn)
               (if bPrice b then iadd pr (cPrice c) else pr) txs
  end.

Lemma runLoop_plan {S} (strat : Strat S) c txs : forall s l,
  same (act r <- runLoop strat c txs s l; done (fst r, lValues (snd r)))
       (execBlocks strat (plan c (lStarted l) (lUpdate l) (lSnapshot l) (lPrice l) txs) s (lValues l)).
Proof.
  induction txs as [|t txs IH]; intros s l; cbn [runLoop plan execBlocks]; [apply same_refl|].
  destruct (cEnd c <? txTime t); [apply same_refl|]. cbn [execBlocks].
  destruct l as [st u sn pr vs]. cbn [lStarted lUpdate lSnapshot lPrice lValues].
  unfold execBlock. set (b := blockOf c st u sn pr t).
  assert (forall (s' : S) (l' : Loop), bInit b = negb st && (cStart c <=? txTime t)) as _ by reflexivity.
  change (negb st && (cStart c <=? txTime t)) with (bInit b).
  (* the loop after the start *)
  assert (forall s vs, same
    (act r <-
      (act sl <- (if pr <? txTime t then act s <- doSnapshot strat s; done (s, mkLoop (nextStarted b st) (if bInit b then iadd (txTime t) (cUpdate c) else u) (if bInit b then iadd (txTime t) (cSnapshot c) else sn) (iadd pr (cPrice c)) vs)
                  else done (s, mkLoop (nextStarted b st) (if bInit b then iadd (txTime t) (cUpdate c) else u) (if bInit b then iadd (txTime t) (cSnapshot c) else sn) pr vs));
       let '(s, l) := sl in
       act l <-
         (if lSnapshot l <=? txTime t then
            act a <- doAmounts strat s;
            act v <- valueUSD (fst a) (snd a);
            done (mkLoop (lStarted l) (lUpdate l) (iadd (lSnapshot l) (cSnapshot c)) (lPrice l) (lValues l ++ [v]))
          else done l);
       act sl <-
         (if lUpdate l <=? txTime t then
            act s <- doRebalance strat s;
            done (s, mkLoop (lStarted l) (iadd (lUpdate l) (cUpdate c)) (lSnapshot l) (lPrice l) (lValues l))
          else done (s, l));
       let '(s, l) := sl in
       act _ <- execTx t;
       runLoop strat c txs s l);
     done (fst r, lValues (snd r)))
    (act sv <-
      (act s <- (if bPrice b then doSnapshot strat s else done s);
       act vs <-
         (if bSnapshot b then
            act a <- doAmounts strat s;
            act v <- valueUSD (fst a) (snd a);
            done (vs ++ [v])
          else done vs);
       act s <- (if bRebalance b then doRebalance strat s else done s);
       act _ <- execTx (bTx b);
       done (s, vs));
     execBlocks strat (plan c (nextStarted b st) (nextTime (bRebalance b) (bInit b) (txTime t) (cUpdate c) u)
               (nextTime (bSnapshot b) (bInit b) (txTime t) (cSnapshot c) sn)
               (if bPrice b then iadd pr (cPrice c) else pr) txs) (fst sv) (snd sv))) as Hmain.
  { intros s0 vs0. change (pr <? txTime t) with (bPrice b).
    set (u1 := if bInit b then iadd (txTime t) (cUpdate c) else u). set (sn1 := if bInit b then iadd (txTime t) (cSnapshot c) else sn).
    assert (bSnapshot b = (sn1 <=? txTime t)) as ES by reflexivity. assert (bRebalance b = (u1 <=? txTime t)) as ER by reflexivity.
    assert (nextTime (bRebalance b) (bInit b) (txTime t) (cUpdate c) u = if bRebalance b then iadd u1 (cUpdate c) else u1) as -> by reflexivity.
    assert (nextTime (bSnapshot b) (bInit b) (txTime t) (cSnapshot c) sn = if bSnapshot b then iadd sn1 (cSnapshot c) else sn1) as -> by reflexivity.
    set (pr1 := if bPrice b then iadd pr (cPrice c) else pr).
    (* the part after the price snapshot *)
    assert (forall s vs, same
      (act r <-
        (act l <-
          (if bSnapshot b then
             act a <- doAmounts strat s;
             act v <- valueUSD (fst a) (snd a);
             done (mkLoop (nextStarted b st) u1 (iadd sn1 (cSnapshot c)) pr1 (vs ++ [v]))
           else done (mkLoop (nextStarted b st) u1 sn1 pr1 vs));
         act sl <-
           (if lUpdate l <=? txTime t then
              act s <- doRebalance strat s;
              done (s, mkLoop (lStarted l) (iadd (lUpdate l) (cUpdate c)) (lSnapshot l) (lPrice l) (lValues l))
            else done (s, l));
         let '(s, l) := sl in
         act _ <- execTx t;
         runLoop strat c txs s l);
       done (fst r, lValues (snd r)))
      (act sv <-
        (act vs <-
           (if bSnapshot b then
              act a <- doAmounts strat s;
              act v <- valueUSD (fst a) (snd a);
              done (vs ++ [v])
            else done vs);
         act s <- (if bRebalance b then doRebalance strat s else done s);
         act _ <- execTx (bTx b);
         done (s, vs));
       execBlocks strat (plan c (nextStarted b st) (if bRebalance b then iadd u1 (cUpdate c) else u1)
          (if bSnapshot b then iadd sn1 (cSnapshot c) else sn1) pr1 txs) (fst sv) (snd sv))) as H2.
    { intros s1 vs1.
      (* the part after the value snapshot *)
      assert (forall s vs, same
        (act r <-
          (act sl <-
            (if bRebalance b then
               act s <- doRebalance strat s;
               done (s, mkLoop (nextStarted b st) (iadd u1 (cUpdate c)) (if bSnapshot b then iadd sn1 (cSnapshot c) else sn1) pr1 vs)
             else done (s, mkLoop (nextStarted b st) u1 (if bSnapshot b then iadd sn1 (cSnapshot c) else sn1) pr1 vs));
           let '(s, l) := sl in
           act _ <- execTx t;
           runLoop strat c txs s l);
         done (fst r, lValues (snd r)))
        (act sv <-
          (act s <- (if bRebalance b then doRebalance strat s else done s);
           act _ <- execTx (bTx b);
           done (s, vs));
         execBlocks strat (plan c (nextStarted b st) (if bRebalance b then iadd u1 (cUpdate c) else u1)
           (if bSnapshot b then iadd sn1 (cSnapshot c) else sn1) pr1 txs) (fst sv) (snd sv))) as H3.
      { intros s2 vs2.
        assert (forall s, same
          (act r <- (act _ <- execTx t; runLoop strat c txs s (mkLoop (nextStarted b st) (if bRebalance b then iadd u1 (cUpdate c) else u1) (if bSnapshot b then iadd sn1 (cSnapshot c) else sn1) pr1 vs2));
           done (fst r, lValues (snd r)))
          (act sv <- (act _ <- execTx (bTx b); done (s, vs2));
           execBlocks strat (plan c (nextStarted b st) (if bRebalance b then iadd u1 (cUpdate c) else u1)
             (if bSnapshot b then iadd sn1 (cSnapshot c) else sn1) pr1 txs) (fst sv) (snd sv))) as H4.
        { intros s3. eapply same_trans; [apply same_assoc|]. apply same_sym. eapply same_trans; [apply same_assoc|]. apply same_sym.
          apply same_bind; [apply same_refl|]. intros _. eapply same_trans; [apply IH|]. apply same_refl. }
        destruct (bRebalance b).
        - eapply same_trans; [apply same_assoc|]. eapply same_trans; [apply same_assoc|]. apply same_sym. eapply same_trans; [apply same_assoc|]. apply same_sym.
          apply same_bind; [apply same_refl|]. intros s3. apply H4.
        - apply H4. }
      revert H3. destruct (bSnapshot b); intros H3.
      - eapply same_trans; [apply same_assoc|]. eapply same_trans; [apply same_assoc|].
        apply same_sym. eapply same_trans; [apply same_assoc|]. eapply same_trans; [apply same_assoc|]. apply same_sym.
        apply same_bind; [apply same_refl|]. intros a.
        eapply same_trans; [apply same_assoc|]. apply same_sym. eapply same_trans; [apply same_assoc|]. apply same_sym.
        apply same_bind; [apply same_refl|]. intros v. exact (H3 s1 (vs1 ++ [v])).
      - exact (H3 s1 vs1). }
    subst pr1. revert H2. destruct (bPrice b); intros H2.
    - eapply same_trans; [apply same_assoc|]. eapply same_trans; [apply same_assoc|].
      apply same_sym. eapply same_trans; [apply same_assoc|]. apply same_sym.
      apply same_bind; [apply same_refl|]. intros s1. exact (H2 s1 vs0).
    - exact (H2 s0 vs0). }
  assert (nextStarted b st = if bInit b then true else st) as EN by (unfold nextStarted; destruct (bInit b); reflexivity).
  destruct (bInit b) eqn:EB.
  - eapply same_trans; [apply same_assoc|]. eapply same_trans; [apply same_assoc|].
    apply same_sym. eapply same_trans; [apply same_assoc|]. eapply same_trans; [apply same_assoc|]. apply same_sym.
    apply same_bind; [apply same_refl|]. intros [s1 [a0 a1]]. cbn [fst snd].
    eapply same_trans; [apply same_assoc|]. apply same_sym. eapply same_trans; [apply same_assoc|]. apply same_sym.
    apply same_bind; [apply same_refl|]. intros v. rewrite EN in Hmain |- *. exact (Hmain s1 (vs ++ [v])).
  - rewrite EN in Hmain |- *. exact (Hmain s vs).
Qed.

Lemma Run_plan {S} (strat : Strat S) c txs s :
  same (Run strat c txs s) (execPlan strat (plan c false MaxInt64 MaxInt64 0 txs) s).
Proof.
  unfold Run, execPlan.
  eapply same_trans;
    [|apply same_bind; [apply (runLoop_plan strat c txs s (mkLoop false MaxInt64 MaxInt64 0 []))|intros a; apply same_refl]].
  apply same_sym. eapply same_trans; [apply same_assoc|]. apply same_sym.
  apply same_bind; [apply same_refl|]. intros [s1 l]. cbn [fst snd].
  eapply same_trans; [|apply same_sym, same_done]. cbn [fst snd].
  apply same_bind; [apply same_refl|]. intros [s2 [a0 a1]]. cbn [fst snd]. apply same_refl.
Qed.

(** ** the loop's plan is the planned one *)
Definition cond (c : Config) (before : list Block) (b : Block) : Prop :=
    (bInit b = true <-> cStart c <= txTime (bTx b) /\ forall b', In b' before -> txTime (bTx b') < cStart c) /\
    (bPrice b = true <-> count bPrice before * cPrice c < txTime (bTx b)) /\
    (bSnapshot b = true <-> exists s, startedAt c before b s /\ s + (count bSnapshot before + 1) * cSnapshot c <= txTime (bTx b)) /\
    (bRebalance b = true <-> exists s, startedAt c before b s /\ s + (count bRebalance before + 1) * cUpdate c <= txTime (bTx b)).
Fixpoint conds (c : Config) (before bl : list Block) : Prop :=
  match bl with
  | [] => True
  | b :: bl => cond c before b /\ conds c (before ++ [b]) bl
  end.
Lemma conds_iff c bl : forall pre, conds c pre bl <-> forall before b after, bl = before ++ b :: after -> cond c (pre ++ before) b.
Proof.
  induction bl as [|b0 bl IH]; intros pre; cbn [conds].
  - split; [intros _ [|x before] b after E; discriminate|auto].
  - rewrite IH. split.
    + intros [H K] [|x before] b after E; cbn in E.
      * injection E as E1 E2. subst. now rewrite app_nil_r.
      * injection E as E1 E2. subst. specialize (K before b after eq_refl). now rewrite <- app_assoc in K.
    + intros H. split.
      * specialize (H [] b0 bl eq_refl). now rewrite app_nil_r in H.
      * intros before b after E. specialize (H (b0 :: before) b after). rewrite <- app_assoc. apply H. now rewrite E.
Qed.
Lemma planned_conds c txs bl : planned c txs bl <-> map bTx bl = upTo (cEnd c) txs /\ conds c [] bl.
Proof. unfold planned. rewrite conds_iff. reflexivity. Qed.

Lemma cond_det c pre b1 b2 : bTx b1 = bTx b2 -> cond c pre b1 -> cond c pre b2 -> b1 = b2.
Proof.
  intros E (A1 & A2 & A3 & A4) (B1 & B2 & B3 & B4).
  unfold startedAt in *. rewrite !map_app in *. cbn [map] in *. rewrite E in *.
  assert (forall x y : bool, (x = true <-> y = true) -> x = y) as T.
  { intros [] [] H; try reflexivity; exfalso; destruct H as [H1 H2]; [specialize (H1 eq_refl)|specialize (H2 eq_refl)]; discriminate. }
  rewrite <- B1 in A1. rewrite <- B2 in A2. rewrite <- B3 in A3. rewrite <- B4 in A4.
  apply T in A1, A2, A3, A4. destruct b1, b2; cbn in *; now subst.
Qed.
Lemma conds_det c bl1 : forall bl2 pre, map bTx bl1 = map bTx bl2 -> conds c pre bl1 -> conds c pre bl2 -> bl1 = bl2.
Proof.
  induction bl1 as [|b1 bl1 IH]; intros [|b2 bl2] pre E A B; try discriminate; [reflexivity|].
  cbn in E. injection E as E1 E2. cbn in A, B. destruct A as [A1 A2], B as [B1 B2].
  assert (b1 = b2) as <- by now apply (cond_det c pre). f_equal. now apply (IH bl2 (pre ++ [b1])).
Qed.
Lemma planned_unique c txs bl1 bl2 : planned c txs bl1 -> planned c txs bl2 -> bl1 = bl2.
Proof.
  rewrite !planned_conds. intros [A1 A2] [B1 B2]. apply (conds_det c bl1 bl2 []); [now rewrite A1, B1|assumption|assumption].
Qed.

(** the times and intervals of practice: nothing wraps *)
Definition regular (c : Config) (txs : list Transaction) : Prop :=
  0 <= cUpdate c < 2 ^ 62 /\ 0 <= cSnapshot c < 2 ^ 62 /\ 0 <= cPrice c < 2 ^ 62 /\
  Forall (fun t => - 2 ^ 62 < txTime t < 2 ^ 62) txs.

Lemma iadd_id a b : - 2 ^ 63 <= a + b < 2 ^ 63 -> iadd a b = a + b.
Proof. intros H. unfold iadd, int64. rewrite Z.mod_small; change (2 ^ 64) with (2 ^ 63 + 2 ^ 63); lia. Qed.

Definition next (found : option Transaction) (n interval u : Z) : Prop :=
  match found with
  | Some t0 => u = txTime t0 + (n + 1) * interval /\ u < 2 ^ 62 + interval /\ - 2 ^ 62 < u
  | None => u = MaxInt64 /\ n = 0
  end.
Definition isSome {A} (o : option A) : bool := match o with Some _ => true | None => false end.
Definition started0 (c : Config) (pre : list Block) : option Transaction := find (fun t => cStart c <=? txTime t) (map bTx pre).

Lemma count_snoc {A} (f : A -> bool) l x : count f (l ++ [x]) = count f l + if f x then 1 else 0.
Proof. unfold count. rewrite filter_app, app_length. cbn. destruct (f x); cbn; lia. Qed.
Lemma find_snoc {A} (f : A -> bool) l x : find f (l ++ [x]) = match find f l with Some y => Some y | None => if f x then Some x else None end.
Proof. induction l as [|y l IH]; cbn; [reflexivity|]. destruct (f y); [reflexivity|apply IH]. Qed.
Lemma map_snoc {A B} (f : A -> B) l x : map f (l ++ [x]) = map f l ++ [f x].
Proof. now rewrite map_app. Qed.

Lemma next_step (found : option Transaction) (n I u : Z) (fires : bool) (t : Transaction) :
  0 <= I < 2 ^ 62 -> - 2 ^ 62 < txTime t < 2 ^ 62 -> next found n I u ->
  (isSome found = true -> fires = (u <=? txTime t)) ->
  (found = None -> fires = false) ->
  next found (n + if fires then 1 else 0) I (if fires then iadd u I else u).
Proof.
  intros HI HT. unfold next. destruct found as [t0|].
  - intros (E & B1 & B2) HF _. specialize (HF eq_refl). destruct fires.
    + symmetry in HF. apply Z.leb_le in HF. change (2 ^ 62) with 4611686018427387904 in *.
      rewrite iadd_id by (change (2 ^ 63) with 9223372036854775808; lia). split; [|split]; [|lia|lia].
      rewrite E. ring.
    + split; [|split]; [|assumption|assumption]. rewrite E. ring.
  - intros [E1 E2] _ HF. rewrite (HF eq_refl). split; [assumption|lia].
Qed.

Lemma plan_conds c txs : forall pre u sn pr,
  0 <= cUpdate c < 2 ^ 62 -> 0 <= cSnapshot c < 2 ^ 62 -> 0 <= cPrice c < 2 ^ 62 ->
  Forall (fun t => - 2 ^ 62 < txTime t < 2 ^ 62) txs ->
  next (started0 c pre) (count bRebalance pre) (cUpdate c) u ->
  next (started0 c pre) (count bSnapshot pre) (cSnapshot c) sn ->
  pr = count bPrice pre * cPrice c -> 0 <= pr < 2 ^ 62 + cPrice c ->
  conds c pre (plan c (isSome (started0 c pre)) u sn pr txs).
Proof.
  induction txs as [|t txs IH]; intros pre u sn pr HU HS HP HT Nu Nsn Epr Bpr; cbn [plan]; [exact I|].
  destruct (cEnd c <? txTime t); [exact I|].
  set (b := blockOf c (isSome (started0 c pre)) u sn pr t).
  cbn [conds].
  assert (bTx b = t) as Et by reflexivity.
  assert (Ht := Forall_inv HT). assert (Htl := Forall_inv_tail HT). cbv beta in Ht.
  set (found := started0 c (pre ++ [b])).
  assert (found = match started0 c pre with Some y => Some y | None => if cStart c <=? txTime t then Some t else None end) as EF.
  { subst found. unfold started0. rewrite map_snoc, find_snoc. now rewrite Et. }
  assert (isSome found = nextStarted b (isSome (started0 c pre))) as EN.
  { rewrite EF. unfold nextStarted, b, blockOf. cbn [bInit]. destruct (started0 c pre); cbn; [reflexivity|]. now destruct (cStart c <=? txTime t). }
  assert (bInit b = true <-> cStart c <= txTime (bTx b) /\ forall b', In b' pre -> txTime (bTx b') < cStart c) as Cinit.
  { rewrite Et. unfold b, blockOf. cbn [bInit]. rewrite andb_true_iff, negb_true_iff, Z.leb_le. split.
    - intros [A B]. split; [assumption|]. intros b' Hb'. destruct (Z.lt_ge_cases (txTime (bTx b')) (cStart c)) as [K|K]; [assumption|].
      exfalso. unfold started0 in A. destruct (find _ _) eqn:F; [discriminate|].
      assert (In (bTx b') (map bTx pre)) as Hin by now apply in_map.
      apply (find_none _ _ F) in Hin. cbv beta in Hin. apply Z.leb_gt in Hin. lia.
    - intros [A B]. split; [|assumption]. unfold started0. destruct (find _ _) as [t0|] eqn:F; [|reflexivity].
      apply find_some in F. destruct F as [F1 F2]. apply in_map_iff in F1. destruct F1 as (b' & <- & F1). apply B in F1. apply Z.leb_le in F2. lia. }
  (* the counters after the start *)
  assert (forall n I u, 0 <= I < 2 ^ 62 -> next (started0 c pre) n I u -> next found n I (if bInit b then iadd (txTime t) I else u)) as Hnext.
  { intros n I u0 HI HN. rewrite EF. unfold b, blockOf in *. cbn [bInit] in *. destruct (started0 c pre) as [t0|]; cbn [isSome negb andb] in *; [assumption|].
    destruct (cStart c <=? txTime t) eqn:Es; [|assumption]. cbn [next] in *. destruct HN as [_ ->].
    change (2 ^ 62) with 4611686018427387904 in *.
    rewrite iadd_id by (change (2 ^ 63) with 9223372036854775808; lia). split; [lia|split; lia]. }
  (* when a counter fires *)
  assert (forall n I u, 0 <= I < 2 ^ 62 -> next found n I u ->
            (u <=? txTime t) = true <-> exists s, startedAt c pre b s /\ s + (n + 1) * I <= txTime (bTx b)) as Hfire.
  { intros n I u0 HI HN. unfold startedAt. change (find (fun t => cStart c <=? txTime t) (map bTx (pre ++ [b]))) with found. rewrite Et.
    unfold next in HN. destruct found as [t0|].
    - destruct HN as (E & _). rewrite Z.leb_le. split.
      + intros H. exists (txTime t0). split; [|lia]. exists t0. auto.
      + intros (s & (t1 & E1 & E2) & H). injection E1 as <-. subst s. lia.
    - destruct HN as [-> _]. split.
      + rewrite Z.leb_le. unfold MaxInt64. change (2 ^ 63 - 1) with 9223372036854775807. change (2 ^ 62) with 4611686018427387904 in *. lia.
      + intros (s & (t1 & E1 & E2) & H). discriminate. }
  assert (forall n I u, 0 <= I < 2 ^ 62 -> next found n I u -> found = None -> (u <=? txTime t) = false) as Hquiet.
  { intros n I u0 HI HN Hf. rewrite Hf in HN. destruct HN as [-> _]. apply Z.leb_gt. unfold MaxInt64.
    change (2 ^ 63 - 1) with 9223372036854775807. change (2 ^ 62) with 4611686018427387904 in *. lia. }
  assert (Nu' := Hnext _ _ _ HU Nu). assert (Nsn' := Hnext _ _ _ HS Nsn).
  set (u' := if bInit b then iadd (txTime t) (cUpdate c) else u) in *.
  set (sn' := if bInit b then iadd (txTime t) (cSnapshot c) else sn) in *.
  assert (bRebalance b = (u' <=? txTime t)) as ER by reflexivity.
  assert (bSnapshot b = (sn' <=? txTime t)) as ES by reflexivity.
  assert (bPrice b = (pr <? txTime t)) as EP by reflexivity.
  split.
  - split; [assumption|]. split; [|split].
    + rewrite EP, Et, Z.ltb_lt, Epr. reflexivity.
    + rewrite ES. now apply Hfire.
    + rewrite ER. now apply Hfire.
  - rewrite <- EN. apply IH; try assumption.
    + rewrite count_snoc. change (nextTime _ _ _ _ _) with (if bRebalance b then iadd u' (cUpdate c) else u').
      apply (next_step _ _ _ _ _ t); [assumption|assumption|assumption|intros _; exact ER|].
      intros Hf. rewrite ER. now apply (Hquiet _ _ _ HU Nu').
    + rewrite count_snoc. change (nextTime _ _ _ _ _) with (if bSnapshot b then iadd sn' (cSnapshot c) else sn').
      apply (next_step _ _ _ _ _ t); [assumption|assumption|assumption|intros _; exact ES|].
      intros Hf. rewrite ES. now apply (Hquiet _ _ _ HS Nsn').
    + rewrite count_snoc. rewrite EP. destruct (pr <? txTime t) eqn:E.
      * apply Z.ltb_lt in E. change (2 ^ 62) with 4611686018427387904 in *.
        rewrite iadd_id by (change (2 ^ 63) with 9223372036854775808; lia). rewrite Epr. ring.
      * rewrite Epr. ring.
    + rewrite EP. destruct (pr <? txTime t) eqn:E; [|assumption].
      apply Z.ltb_lt in E. change (2 ^ 62) with 4611686018427387904 in *.
      rewrite iadd_id by (change (2 ^ 63) with 9223372036854775808; lia). lia.
Qed.

Lemma plan_txs c txs : forall st u sn pr, map bTx (plan c st u sn pr txs) = upTo (cEnd c) txs.
Proof. induction txs as [|t txs IH]; intros st u sn pr; cbn [plan upTo]; [reflexivity|]. destruct (_ <? _); [reflexivity|]. cbn. now rewrite IH. Qed.

Lemma plan_planned c txs : regular c txs -> planned c txs (plan c false MaxInt64 MaxInt64 0 txs).
Proof.
  intros (HU & HS & HP & HT). apply planned_conds. split; [apply plan_txs|].
  apply (plan_conds c txs [] MaxInt64 MaxInt64 0); try assumption; try (split; reflexivity).
  change (2 ^ 62) with 4611686018427387904 in *. lia.
Qed.

(** ** C49: the executor carries out exactly the plan *)
Lemma Run_planned {S} (strat : Strat S) c txs bl s fuel p :
  regular c txs -> planned c txs bl -> runV fuel p (Run strat c txs s) = runV fuel p (execPlan strat bl s).
Proof.
  intros HR HP. rewrite (planned_unique c txs bl _ HP (plan_planned c txs HR)). apply Run_plan.
Qed.

(** ** the number of recorded values *)
Definition always {A} (P : A -> Prop) (m : M A) : Prop := forall fuel p q t a, runV fuel p m = Ok (q, t, a) -> P a.
Lemma always_bind {A B} (P : A -> Prop) (Q : B -> Prop) (m : M A) (f : A -> M B) :
  always P m -> (forall a, P a -> always Q (f a)) -> always Q (mbind m f).
Proof.
  intros H K fuel p q t b. rewrite runV_bind. destruct (runV fuel p m) as [[[q1 t1] a]| |] eqn:E; cbn [bind]; try discriminate.
  destruct (runV fuel q1 (f a)) as [[[q2 t2] b2]| |] eqn:E2; cbn [bind]; try discriminate.
  intros X. injection X as <- <- <-. apply (K a (H _ _ _ _ _ E) _ _ _ _ _ E2).
Qed.
Lemma always_done {A} (P : A -> Prop) a : P a -> always P (done a).
Proof. intros H fuel p q t b E. unfold done in E. cbn [runV bind] in E. injection E as _ _ <-. assumption. Qed.
Lemma always_true {A} (m : M A) : always (fun _ => True) m.
Proof. intros fuel p q t a _. exact I. Qed.
Lemma execBlock_values {S} (strat : Strat S) b s vs :
  always (fun r => Z.of_nat (length (snd r)) = Z.of_nat (length vs) + (if bInit b then 1 else 0) + (if bSnapshot b then 1 else 0)) (execBlock strat b s vs).
Proof.
  unfold execBlock.
  eapply (always_bind (fun r => Z.of_nat (length (snd r)) = Z.of_nat (length vs) + (if bInit b then 1 else 0))).
  { destruct (bInit b); [|apply always_done; cbn; lia].
    eapply always_bind; [apply always_true|]. intros r _. eapply always_bind; [apply always_true|]. intros v _.
    apply always_done. cbn [snd]. rewrite app_length. cbn. lia. }
  intros r Hr. eapply always_bind; [apply always_true|]. intros s1 _.
  eapply (always_bind (fun vs' => Z.of_nat (length vs') = Z.of_nat (length (snd r)) + (if bSnapshot b then 1 else 0))).
  { destruct (bSnapshot b); [|apply always_done; lia].
    eapply always_bind; [apply always_true|]. intros a _. eapply always_bind; [apply always_true|]. intros v _.
    apply always_done. rewrite app_length. cbn. lia. }
  intros vs1 H1. eapply always_bind; [apply always_true|]. intros s2 _. eapply always_bind; [apply always_true|]. intros _ _.
  apply always_done. cbn [snd]. lia.
Qed.
Lemma execBlocks_values {S} (strat : Strat S) bl : forall s vs,
  always (fun r => Z.of_nat (length (snd r)) = Z.of_nat (length vs) + count bInit bl + count bSnapshot bl) (execBlocks strat bl s vs).
Proof.
  induction bl as [|b bl IH]; intros s vs; cbn [execBlocks].
  - apply always_done. unfold count. cbn. lia.
  - eapply always_bind; [apply execBlock_values|]. intros r Hr fuel p q t a E. specialize (IH (fst r) (snd r) fuel p q t a E). cbv beta in Hr, IH.
    unfold count in *. cbn [filter]. destruct (bInit b), (bSnapshot b); cbn [length]; lia.
Qed.
Lemma execPlan_values {S} (strat : Strat S) bl s :
  always (fun r => Z.of_nat (length (snd r)) = count bInit bl + count bSnapshot bl + 1) (execPlan strat bl s).
Proof.
  unfold execPlan. eapply always_bind; [apply execBlocks_values|]. intros r Hr.
  eapply always_bind; [apply always_true|]. intros r2 _. eapply always_bind; [apply always_true|]. intros v _.
  apply always_done. cbn [snd length] in *. rewrite app_length. cbn. lia.
Qed.

(** ** consequences of being planned *)
Lemma planned_init_once c txs bl : planned c txs bl -> count bInit bl <= 1 /\
  (count bInit bl = 1 <-> exists t, In t (upTo (cEnd c) txs) /\ cStart c <= txTime t).
Proof.
  intros HP. assert (HP' := HP). rewrite planned_conds in HP'. destruct HP' as [HM HC].
  assert (forall pre bl, conds c pre bl ->
     ((exists b, In b pre /\ cStart c <= txTime (bTx b)) -> count bInit bl = 0) /\ count bInit bl <= 1 /\
     ((forall b, In b pre -> txTime (bTx b) < cStart c) -> (count bInit bl = 1 <-> exists b, In b bl /\ cStart c <= txTime (bTx b)))) as G.
  { clear. intros pre bl. revert pre. induction bl as [|b bl IH]; intros pre HC.
    - cbn. unfold count. cbn. split; [auto|]. split; [lia|]. intros _. split; [discriminate|]. intros (b & [] & _).
    - cbn [conds] in HC. destruct HC as [(C1 & _) HC]. specialize (IH _ HC). destruct IH as (I1 & I2 & I3).
      assert (count bInit (b :: bl) = (if bInit b then 1 else 0) + count bInit bl) as EC.
      { unfold count. cbn [filter]. destruct (bInit b); cbn [length]; lia. }
      assert (0 <= count bInit bl) as N by (unfold count; lia).
      rewrite EC. destruct (bInit b) eqn:EB.
      + destruct C1 as [C1 _]. destruct (C1 eq_refl) as [C2 C3].
        assert (count bInit bl = 0) as Z0. { apply I1. exists b. split; [|assumption]. apply in_or_app. right. now left. }
        split; [intros (b' & Hb' & Hc); apply C3 in Hb'; lia|]. split; [lia|]. intros _. split; [|lia]. intros _. exists b. split; [now left|assumption].
      + assert (cStart c <= txTime (bTx b) -> exists b', In b' pre /\ cStart c <= txTime (bTx b')) as C2.
        { intros Hs. destruct (find (fun b' => cStart c <=? txTime (bTx b')) pre) as [b'|] eqn:F.
          - apply find_some in F. destruct F as [F1 F2]. apply Z.leb_le in F2. eauto.
          - exfalso. destruct C1 as [_ C1]. assert (false = true) by (apply C1; split; [assumption|]; intros b' Hb'; apply (find_none _ _ F) in Hb'; apply Z.leb_gt in Hb'; lia). discriminate. }
        split; [|split].
        * intros (b' & Hb' & Hc). rewrite I1; [lia|]. exists b'. split; [apply in_or_app; now left|assumption].
        * lia.
        * intros Hpre. rewrite Z.add_0_l. rewrite I3.
          -- split; intros (b' & Hb' & Hc); [exists b'; split; [now right|assumption]|]. destruct Hb' as [<-|Hb']; [|eauto].
             exfalso. apply C2 in Hc. destruct Hc as (b1 & H1 & H2). apply Hpre in H1. lia.
          -- intros b' Hb'. apply in_app_or in Hb'. destruct Hb' as [Hb'|[<-|[]]]; [now apply Hpre|].
             destruct (Z.lt_ge_cases (txTime (bTx b)) (cStart c)) as [K|K]; [assumption|]. exfalso. apply C2 in K. destruct K as (b1 & H1 & H2). apply Hpre in H1. lia. }
  specialize (G [] bl HC). destruct G as (_ & G1 & G2). split; [assumption|]. rewrite G2 by (intros b []).
  rewrite <- HM. split.
  - intros (b & H1 & H2). exists (bTx b). split; [now apply in_map|assumption].
  - intros (t & H1 & H2). apply in_map_iff in H1. destruct H1 as (b & <- & H1). eauto.
Qed.

(** between two snapshots (rebalances) the due time moves on by one interval: no slot is used twice *)
Lemma planned_snapshot_times c txs bl before b after : planned c txs bl -> bl = before ++ b :: after -> bSnapshot b = true ->
  exists t0, find (fun t => cStart c <=? txTime t) (upTo (cEnd c) txs) = Some t0 /\
    txTime t0 + (count bSnapshot before + 1) * cSnapshot c <= txTime (bTx b).
Proof.
  intros [HM HC] E HB. destruct (HC _ _ _ E) as (_ & _ & C3 & _). apply C3 in HB. destruct HB as (s & (t & F & ->) & H).
  exists t. split; [|assumption]. rewrite <- HM, E. change (b :: after) with ([b] ++ after). rewrite app_assoc, map_app.
  clear - F. induction (map bTx (before ++ [b])) as [|x l IH]; cbn in *; [discriminate|]. destruct (cStart c <=? txTime x); [assumption|now apply IH].
Qed.
