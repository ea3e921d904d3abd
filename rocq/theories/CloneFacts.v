(** CloneFacts.v -- cloned pools: isolation, what stays shared, and the grid of runs. *)
From Coq Require Import String.
From Verif Require Import Base U256Z SwapMath TickMath TickData Pool PoolOps HeapProg TickHeap PoolHeap Prices Client Strategy Executor Grid.
Ltac Zify.zify_post_hook ::= idtac.
Open Scope Z_scope.

Lemma view_own t h h' l : valid t h l -> h' t = h t -> map (viewTick h') l = map (viewTick h) l.
Proof.
  intros [HF _] E. apply map_ext_in. intros x Hx.
  assert (forall a, In a (addrsOf x) -> get h' a = get h a) as G.
  { intros a Ha. rewrite Forall_forall in HF. destruct (HF a) as [Ea _]; [apply in_flat_map; eauto|]. unfold get. now rewrite Ea, E. }
  unfold viewTick. rewrite !G by (unfold addrsOf; cbn; tauto). reflexivity.
Qed.
Lemma viewP_own t h h' p : validP t h p -> h' t = h t -> viewP h' p = viewP h p.
Proof. intros V E. unfold viewP, view. now rewrite (view_own t h h' _ V E). Qed.

(** no ticks: nothing is shared *)
Definition noTicks (p : HPool) : Prop := hticks (hData p) = [].
Lemma noTicks_owned t p : noTicks p -> ownedP t p.
Proof. intros H. unfold ownedP, owned. rewrite H. constructor. Qed.
Lemma noTicks_valid t h p : noTicks p -> validP t h p.
Proof. intros H. unfold validP, valid. rewrite H. split; constructor. Qed.
Lemma noTicks_clone p : noTicks p -> noTicks (hPoolClone p).
Proof. intros H. exact H. Qed.
Lemma noTicks_view h h' p : noTicks p -> viewP h p = viewP h' p.
Proof. intros H. unfold viewP, view. rewrite H. reflexivity. Qed.
Lemma view_clone h p : viewP h (hPoolClone p) = PoolClone (viewP h p).
Proof. reflexivity. Qed.

(** the outcome of a client over memory against its outcome over values *)
Definition outcome {A} (h : heap) (r : res (HPool * trace * A)) : res (Pool * trace * A) :=
  match r with
  | Ok (p, tr, a) => Ok (viewP h p, tr, a)
  | Panic => Panic
  | OutOfFuel => OutOfFuel
  end.

Lemma compile_outcome {A} t fuel (m : M A) h p : noTicks p ->
  outcome (fst (exec t h (compile fuel p m))) (snd (exec t h (compile fuel p m))) = runV fuel (viewP h p) m /\
  (forall p' tr a, snd (exec t h (compile fuel p m)) = Ok (p', tr, a) -> validP t (fst (exec t h (compile fuel p m))) p').
Proof.
  intros H. pose proof (sim_compile t fuel m h p (noTicks_valid t h p H)) as S. unfold sim in S.
  destruct (exec t h (compile fuel p m)) as [h1 [[[p1 tr1] a1]| |]]; cbn [fst snd outcome];
    destruct (runV fuel (viewP h p) m) as [[[q tr] a]| |]; try contradiction; (split; [|intros p' tr' a' E; try discriminate E]); try reflexivity.
  - destruct S as (_ & E1 & E2 & E3). cbn [fst snd] in *. now subst.
  - injection E as <- <- <-. apply S.
Qed.

(** ** C46: goroutine 0 works on the pool, the others on clones of it *)
Lemma clones_isolated {A} fuel (hp : HPool) (cl : nat -> M A) schedule h h' ps' t r :
  noTicks hp ->
  interleave schedule h (fun t => compile fuel (if Nat.eqb t 0 then hp else hPoolClone hp) (cl t)) = (h', ps') ->
  ps' t = Done r ->
  outcome h' r = runV fuel (if Nat.eqb t 0 then viewP h hp else PoolClone (viewP h hp)) (cl t).
Proof.
  intros HN HI HD.
  assert (forall t, noTicks (if Nat.eqb t 0 then hp else hPoolClone hp)) as HNt by (intros u; destruct (Nat.eqb u 0); exact HN).
  destruct (interleave_done _ _ _ _ _ t r (fun u => local_compile u fuel (cl u) _ (noTicks_owned u _ (HNt u))) HI HD) as [E1 E2].
  cbv beta in E1, E2.
  destruct (compile_outcome t fuel (cl t) h _ (HNt t)) as [C1 C2]. rewrite E1 in C1.
  assert (viewP h (if Nat.eqb t 0 then hp else hPoolClone hp) = if Nat.eqb t 0 then viewP h hp else PoolClone (viewP h hp)) as EV by (destruct (Nat.eqb t 0); reflexivity).
  rewrite <- EV, <- C1. destruct r as [[[p1 tr1] a1]| |]; cbn [outcome]; try reflexivity.
  rewrite (viewP_own t _ h' p1 (C2 _ _ _ E1) E2). reflexivity.
Qed.

(** what Clone copies *)
Lemma InfoClone_id i : InfoClone i = i <-> pOwed0 i = pOwed1 i.
Proof.
  destruct i as [l x y a b]. unfold InfoClone. cbn. split; [intros E; injection E as E; congruence|intros ->; reflexivity].
Qed.
Lemma PoolClone_id p : PoolClone p = p <-> Forall (fun kv => pOwed0 (snd kv) = pOwed1 (snd kv)) (Pos p).
Proof.
  unfold PoolClone. assert (map (fun kv => (fst kv, InfoClone (snd kv))) (Pos p) = Pos p <-> Forall (fun kv => pOwed0 (snd kv) = pOwed1 (snd kv)) (Pos p)) as K.
  { induction (Pos p) as [|[k i] l IH]; cbn [map].
    - split; [constructor|reflexivity].
    - split.
      + intros E. injection E as E1 E2. constructor; [now apply InfoClone_id|now apply IH].
      + intros HF. inversion HF as [|? ? H1 H2 E1]; subst. f_equal; [|now apply IH]. f_equal. now apply InfoClone_id. }
  rewrite <- K. destruct p; unfold with_pos; cbn. split; [intros E; injection E as E; exact E|intros ->; reflexivity].
Qed.

(** ** with ticks the counters are shared *)
Definition sharedPool : prog HPool :=
  match hNewPool "A" "B" 500 (2 ^ 96) with
  | Ok p => hMint p (-10) 10 1000
  | Panic => Done Panic
  | OutOfFuel => Done OutOfFuel
  end.
Definition emptyHeap : heap := fun _ => [].
(** minting on the clone changes the original *)
Lemma clone_leaks : exists hp h, exec 0 emptyHeap sharedPool = (h, Ok hp) /\
  exists h' hp', exec 0 h (hMint (hPoolClone hp) (-10) 10 500) = (h', Ok hp') /\
  map tkGross (ticks (Data (viewP h hp))) = [1000; 1000] /\ map tkGross (ticks (Data (viewP h' hp))) = [1500; 1500].
Proof.
  eexists. eexists. split; [vm_compute; reflexivity|]. eexists. eexists. split; [vm_compute; reflexivity|]. split; vm_compute; reflexivity.
Qed.

(** ** C53: the grid *)
Section GridRuns.
  Variables A B : Type.
  Variable fuel : nat.
  Variable hp : HPool.
  Variable cl : nat -> M A.
  Variable post : nat -> A -> B.
  Variables n batch : nat.
  Hypothesis HN : noTicks hp.
  Definition prgOf (i : nat) : prog (HPool * trace * A) := compile fuel (hPoolClone hp) (cl i).
  Definition postOf (i : nat) (r : HPool * trace * A) : B := post i (snd r).
  Lemma prgOf_local i : local i (prgOf i).
  Proof. apply local_compile, noTicks_owned, HN. Qed.

  (** the sequential run: on the pool's clone, by itself *)
  Definition sequential (i : nat) : res A :=
    do r <- runV fuel (PoolClone (viewP emptyHeap hp)) (cl i); Ok (snd r).
  Lemma alone_sequential i : (do r <- alone _ prgOf emptyHeap i; Ok (snd r)) = sequential i.
  Proof.
    unfold alone, sequential, prgOf. destruct (compile_outcome i fuel (cl i) emptyHeap _ (noTicks_clone hp HN)) as [C _].
    rewrite view_clone in C. rewrite <- C. destruct (snd (exec i emptyHeap (compile fuel (hPoolClone hp) (cl i)))) as [[[p tr] a]| |]; reflexivity.
  Qed.
  Lemma alone_ok i r : alone _ prgOf emptyHeap i = Ok r -> sequential i = Ok (snd r).
  Proof. intros E. rewrite <- alone_sequential, E. reflexivity. Qed.
  Lemma alone_panic i : alone _ prgOf emptyHeap i = Panic -> sequential i = Panic.
  Proof. intros E. rewrite <- alone_sequential, E. reflexivity. Qed.
  Lemma sequential_ok i a : sequential i = Ok a -> exists r, alone _ prgOf emptyHeap i = Ok r /\ snd r = a.
  Proof.
    intros E. rewrite <- alone_sequential in E. destruct (alone _ prgOf emptyHeap i) as [r| |]; cbn [bind] in E; try discriminate.
    injection E as <-. eauto.
  Qed.

  Definition initial : state (HPool * trace * A) B := start _ _ emptyHeap.
  Definition schedule_run (l : list (option nat)) : state (HPool * trace * A) B := grun _ _ prgOf postOf n batch l initial.
  Lemma runs_results l i b : results _ _ (schedule_run l) i = Some b -> (i < n)%nat /\ exists a, sequential i = Ok a /\ b = post i a.
  Proof.
    intros H. destruct (grid_results _ _ prgOf postOf n batch emptyHeap prgOf_local l i b H) as (Hi & r & E & ->).
    split; [assumption|]. exists (snd r). split; [now apply alone_ok|reflexivity].
  Qed.
  Lemma runs_over l i : main _ _ (schedule_run l) = Over -> (i < n)%nat ->
    exists a, sequential i = Ok a /\ results _ _ (schedule_run l) i = Some (post i a).
  Proof.
    intros HM Hi. destruct (grid_over _ _ prgOf postOf n batch emptyHeap prgOf_local l i HM Hi) as (r & E & HR).
    exists (snd r). split; [now apply alone_ok|exact HR].
  Qed.
  Lemma runs_crash l : crashed _ _ (schedule_run l) = true -> exists i, (i < n)%nat /\ sequential i = Panic.
  Proof.
    intros H. destruct (grid_crash _ _ prgOf postOf n batch emptyHeap prgOf_local l H) as (i & Hi & E). exists i. split; [assumption|now apply alone_panic].
  Qed.
  Lemma runs_batch l js : NoDup js -> (forall i, In i js -> gors _ _ (schedule_run l) i <> NotStarted _ /\ gors _ _ (schedule_run l) i <> Gone _) -> (length js <= batch)%nat.
  Proof. exact (grid_batch _ _ prgOf postOf n batch emptyHeap prgOf_local l js). Qed.
  Lemma runs_extend l : (0 < batch)%nat -> (forall i, (i < n)%nat -> exists a, sequential i = Ok a) ->
    exists more, main _ _ (schedule_run (l ++ more)) = Over /\ crashed _ _ (schedule_run (l ++ more)) = false.
  Proof.
    intros HB HE. apply (grid_extend _ _ prgOf postOf n batch emptyHeap prgOf_local HB).
    intros i Hi. destruct (HE i Hi) as [a Ha]. destruct (sequential_ok i a Ha) as (r & E & _). eauto.
  Qed.
  Lemma runs_end : (0 < batch)%nat -> (forall i, (i < n)%nat -> exists a, sequential i = Ok a) ->
    exists bound, forall k s, steps _ _ prgOf postOf n batch k initial s ->
      (k <= bound)%nat /\ crashed _ _ s = false /\
      ((forall w, gstep _ _ prgOf postOf n batch w s = None) -> main _ _ s = Over /\
        forall i, (i < n)%nat -> exists a, sequential i = Ok a /\ results _ _ s i = Some (post i a)).
  Proof.
    intros HB HE. exists (measure _ B prgOf n emptyHeap initial). intros k s HS.
    assert (forall i, (i < n)%nat -> exists r, alone _ prgOf emptyHeap i = Ok r) as HA.
    { intros i Hi. destruct (HE i Hi) as [a Ha]. destruct (sequential_ok i a Ha) as (r & E & _). eauto. }
    destruct (grid_terminates _ _ prgOf postOf n batch emptyHeap prgOf_local HB HA k s HS) as (G1 & G0 & G2).
    split; [exact G1|]. split; [exact G0|]. intros Hs. destruct (G2 Hs) as [G3 G4]. split; [assumption|]. intros i Hi. destruct (G4 i Hi) as (r & E & HR).
    exists (snd r). split; [now apply alone_ok|exact HR].
  Qed.
End GridRuns.

Lemma NewPool_noTicks t0 t1 fee price hp : hNewPool t0 t1 fee price = Ok hp -> noTicks hp.
Proof. unfold hNewPool. destruct (NewPool t0 t1 fee price); cbn [bind]; try discriminate. intros E. injection E as <-. reflexivity. Qed.
Lemma NewPool_view h t0 t1 fee price hp : hNewPool t0 t1 fee price = Ok hp -> NewPool t0 t1 fee price = Ok (viewP h hp) /\ PoolClone (viewP h hp) = viewP h hp.
Proof.
  unfold hNewPool. destruct (NewPool t0 t1 fee price) as [p| |] eqn:E1; cbn [bind]; try discriminate. intros E. injection E as <-.
  unfold NewPool in E1. repeat match type of E1 with bind ?x _ = Ok _ => destruct x; cbn [bind] in E1; try discriminate end.
  injection E1 as <-. split; reflexivity.
Qed.
Lemma PoolClone_faithful p : PoolClone p = p <-> forall k i, In (k, i) (Pos p) -> pOwed0 i = pOwed1 i.
Proof.
  rewrite PoolClone_id, Forall_forall. split.
  - intros H k i HI. exact (H (k, i) HI).
  - intros H [k i] HI. exact (H k i HI).
Qed.
Lemma any_schedule A B fuel hp (job : nat -> M A) (post : nat -> A -> B) n batch schedule :
  noTicks hp ->
  (forall i b, results _ _ (schedule_run A B fuel hp job post n batch schedule) i = Some b -> (i < n)%nat /\ exists a, sequential A fuel hp job i = Ok a /\ b = post i a) /\
  (main _ _ (schedule_run A B fuel hp job post n batch schedule) = Over -> forall i, (i < n)%nat -> exists a, sequential A fuel hp job i = Ok a /\ results _ _ (schedule_run A B fuel hp job post n batch schedule) i = Some (post i a)) /\
  (crashed _ _ (schedule_run A B fuel hp job post n batch schedule) = true -> exists i, (i < n)%nat /\ sequential A fuel hp job i = Panic).
Proof.
  intros HN. split; [|split].
  - intros i b. apply (runs_results A B fuel hp job post n batch HN schedule).
  - intros HM i. apply (runs_over A B fuel hp job post n batch HN schedule i HM).
  - apply (runs_crash A B fuel hp job post n batch HN schedule).
Qed.
Lemma main_runs B fuel t0 t1 fee price hp p c txs (s0 : nat -> St) (post : nat -> list Z -> B) schedule :
  hNewPool t0 t1 fee price = Ok hp -> NewPool t0 t1 fee price = Ok p ->
  let job i := Run (strategyOf (BollingerBandsFillUp (Z.of_nat i + 1))) c txs (s0 i) in
  let s := schedule_run (St * list Z) B fuel hp job (fun i r => post i (snd r)) 65535 5000 schedule in
  main _ _ s = Over -> forall i, (i < 65535)%nat ->
    exists q tr st values, runV fuel p (job i) = Ok (q, tr, (st, values)) /\ results _ _ s i = Some (post i values).
Proof.
  intros H1 H2 job s HM i Hi. destruct (NewPool_view emptyHeap _ _ _ _ _ H1) as [E1 E2].
  destruct (runs_over (St * list Z) B fuel hp job (fun i r => post i (snd r)) 65535 5000 (NewPool_noTicks _ _ _ _ _ H1) schedule i HM Hi) as ([st vs] & Es & ER).
  unfold sequential in Es. rewrite E2 in Es. assert (viewP emptyHeap hp = p) as Ep by congruence. rewrite Ep in Es.
  destruct (runV fuel p (job i)) as [[[q tr] r]| |] eqn:E; cbn [bind] in Es; try discriminate. exists q, tr, st, vs. split; [|exact ER].
  cbn [snd] in Es. congruence.
Qed.
