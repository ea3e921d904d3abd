(** Prop_Clone.v -- cloned pools and concurrent runs: C46, C53. *)
From Coq Require Import String.
From Verif Require Import Base U256Z SwapMath TickMath Float64 TickData Pool PoolOps HeapProg TickHeap PoolHeap Prices Client Strategy Executor Grid CloneFacts.
Open Scope Z_scope.

(** Any number of clients, the first on a pool without initialised ticks, the others on clones of it, with
    their memory accesses interleaved in any way: each one that ends has done exactly what it does when run
    alone on a pool of its own. *)
Theorem C46_isolated A fuel (hp : HPool) (client : nat -> M A) schedule h h' ps' t r :
  hticks (hData hp) = [] ->
  interleave schedule h (fun t => compile fuel (if Nat.eqb t 0 then hp else hPoolClone hp) (client t)) = (h', ps') ->
  ps' t = Done r ->
  outcome h' r = runV fuel (if Nat.eqb t 0 then viewP h hp else PoolClone (viewP h hp)) (client t).
Proof. exact (clones_isolated fuel hp client schedule h h' ps' t r). Qed.
Print Assumptions C46_isolated.
(** what a clone holds: a copy, except that the owed amount of token 1 is copied into both owed fields; so it
    is a faithful copy exactly if the two agree in every position (as in a pool without positions) *)
Theorem C46_copy p : PoolClone p = p <-> forall k i, In (k, i) (Pos p) -> pOwed0 i = pOwed1 i.
Proof. exact (PoolClone_faithful p). Qed.
Print Assumptions C46_copy.
(** with initialised ticks the clone shares their counters: minting on the clone changes the original *)
Theorem C46_ticks_shared_refuted : exists hp h, exec 0 emptyHeap sharedPool = (h, Ok hp) /\
  exists h' hp', exec 0 h (hMint (hPoolClone hp) (-10) 10 500) = (h', Ok hp') /\
  map tkGross (ticks (Data (viewP h hp))) = [1000; 1000] /\ map tkGross (ticks (Data (viewP h' hp))) = [1500; 1500].
Proof. exact clone_leaks. Qed.
Print Assumptions C46_ticks_shared_refuted.
(** the memory model does what the model of Pool.v does *)
Theorem C46_memory_agrees A t fuel (m : M A) h p : hticks (hData p) = [] ->
  outcome (fst (exec t h (compile fuel p m))) (snd (exec t h (compile fuel p m))) = runV fuel (viewP h p) m.
Proof. exact (fun H => proj1 (compile_outcome t fuel m h p H)). Qed.
Print Assumptions C46_memory_agrees.

(** two clients that mint the same range, switching after every access *)
Definition minter (a : Z) : M (Z * Z) := act _ <- call (OMint (-10) 10 a); call (OMintStrategy (-10) 10 a).
Definition newPool : HPool := Eval vm_compute in match hNewPool "A" "B" 500 (2 ^ 96) with Ok p => p | _ => mkHPool (mkPool "" "" 0 0 0 0 0 0 0 (mkTickData [] 0) []) (mkHTickData [] 0) end.
Definition isDone {X} (p : prog X) : bool := match p with Done (Ok _) => true | _ => false end.
Definition alternating : list nat := concat (repeat [0; 1]%nat 40).
Example C46_case :
  isDone (snd (interleave alternating emptyHeap (fun t => compile 10 (if Nat.eqb t 0 then newPool else hPoolClone newPool) (minter (if Nat.eqb t 0 then 1000 else 77)))) 0%nat) = true /\
  isDone (snd (interleave alternating emptyHeap (fun t => compile 10 (if Nat.eqb t 0 then newPool else hPoolClone newPool) (minter (if Nat.eqb t 0 then 1000 else 77)))) 1%nat) = true.
Proof. split; vm_compute; reflexivity. Qed.
Example C46_case_ticks : hticks (hData newPool) = [].
Proof. vm_compute. reflexivity. Qed.
Example C46_case_copy : PoolClone (mkPool "A" "B" 500 (2 ^ 96) 0 0 0 10 0 (mkTickData [] 10) [([1], mkInfo 5 0 0 7 9)]) <>
  mkPool "A" "B" 500 (2 ^ 96) 0 0 0 10 0 (mkTickData [] 10) [([1], mkInfo 5 0 0 7 9)].
Proof. discriminate. Qed.

(** The grid: [n] runs in batches of [batch], run [i] on its own clone of the pool; [schedule] decides which
    goroutine (or main) makes each step.  Whatever the schedule: a slot of the result table, once written,
    holds what the sequential run gives; when main is past the last wait, every slot is written; the program
    panics only if a sequential run panics. *)
Theorem C53_any_schedule A B fuel hp (job : nat -> M A) (post : nat -> A -> B) n batch schedule :
  hticks (hData hp) = [] ->
  let s := grun _ _ (fun i => compile fuel (hPoolClone hp) (job i)) (fun i r => post i (snd r)) n batch schedule (start _ _ emptyHeap) in
  let alone i := do r <- runV fuel (PoolClone (viewP emptyHeap hp)) (job i); Ok (snd r) in
  (forall i b, results _ _ s i = Some b -> (i < n)%nat /\ exists a, alone i = Ok a /\ b = post i a) /\
  (main _ _ s = Over -> forall i, (i < n)%nat -> exists a, alone i = Ok a /\ results _ _ s i = Some (post i a)) /\
  (crashed _ _ s = true -> exists i, (i < n)%nat /\ alone i = Panic).
Proof. exact (any_schedule A B fuel hp job post n batch schedule). Qed.
Print Assumptions C53_any_schedule.
(** and it ends: if every sequential run ends, the number of steps is bounded whatever the scheduler does, and
    when nothing can move any more main is done and every slot is written *)
Theorem C53_no_deadlock A B fuel hp (job : nat -> M A) (post : nat -> A -> B) n batch :
  hticks (hData hp) = [] -> (0 < batch)%nat ->
  let alone i := do r <- runV fuel (PoolClone (viewP emptyHeap hp)) (job i); Ok (snd r) in
  (forall i, (i < n)%nat -> exists a, alone i = Ok a) ->
  exists bound, forall k s,
    steps _ _ (fun i => compile fuel (hPoolClone hp) (job i)) (fun i r => post i (snd r)) n batch k (start _ _ emptyHeap) s ->
    (k <= bound)%nat /\ crashed _ _ s = false /\
    ((forall w, gstep _ _ (fun i => compile fuel (hPoolClone hp) (job i)) (fun i r => post i (snd r)) n batch w s = None) ->
      main _ _ s = Over /\ forall i, (i < n)%nat -> exists a, alone i = Ok a /\ results _ _ s i = Some (post i a)).
Proof. exact (fun HN HB HE => runs_end A B fuel hp job post n batch HN HB HE). Qed.
Print Assumptions C53_no_deadlock.
(** at no time are more than [batch] goroutines at work *)
Theorem C53_batch A B fuel hp (job : nat -> M A) (post : nat -> A -> B) n batch schedule js :
  hticks (hData hp) = [] ->
  let s := grun _ _ (fun i => compile fuel (hPoolClone hp) (job i)) (fun i r => post i (snd r)) n batch schedule (start _ _ emptyHeap) in
  NoDup js -> (forall i, In i js -> gors _ _ s i <> NotStarted _ /\ gors _ _ s i <> Gone _) -> (length js <= batch)%nat.
Proof. exact (fun HN => runs_batch A B fuel hp job post n batch HN schedule js). Qed.
Print Assumptions C53_batch.
(** the runs of main.go: a new pool, one BollingerBandsFillUp strategy per multiplier, 65535 runs in batches of
    5000; [post] stands for the statistics computed from the recorded values *)
Theorem C53_main B fuel t0 t1 fee price hp p c txs (s0 : nat -> St) (post : nat -> list Z -> B) schedule :
  hNewPool t0 t1 fee price = Ok hp -> NewPool t0 t1 fee price = Ok p ->
  let job i := Run (strategyOf (BollingerBandsFillUp (Z.of_nat i + 1))) c txs (s0 i) in
  let s := grun _ _ (fun i => compile fuel (hPoolClone hp) (job i)) (fun i r => post i (snd (snd r))) 65535 5000 schedule (start _ _ emptyHeap) in
  main _ _ s = Over -> forall i, (i < 65535)%nat ->
    exists q tr st values, runV fuel p (job i) = Ok (q, tr, (st, values)) /\ results _ _ s i = Some (post i values).
Proof. exact (main_runs B fuel t0 t1 fee price hp p c txs s0 post schedule). Qed.
Print Assumptions C53_main.
(** two of three runs are at work at once *)
Example C53_case_batch : let s := grun _ _ (fun i => compile 10 (hPoolClone newPool) (minter (Z.of_nat i + 5))) (fun i r => snd r) 3 2 [None; None; None; None] (start _ _ emptyHeap) in
  forall i, In i [0; 1]%nat -> gors _ _ s i <> NotStarted _ /\ gors _ _ s i <> Gone _.
Proof.
  intros s i Hi. assert (activeG _ (gors _ _ s i) = true) as H by (destruct Hi as [<-|[<-|[]]]; vm_cast_no_check (eq_refl true)).
  split; intros K; rewrite K in H; discriminate H.
Qed.
(** three runs in batches of two, under a schedule that alternates between the goroutines *)
Definition schedule3 : list (option nat) := concat (repeat [None; Some 1; Some 0; Some 2]%nat 60).
Definition run3 (i : nat) : M (Z * Z) := minter (Z.of_nat i + 5).
Example C53_case : let s := grun _ _ (fun i => compile 10 (hPoolClone newPool) (run3 i)) (fun i r => snd r) 3 2 schedule3 (start _ _ emptyHeap) in
  main _ _ s = Over /\ results _ _ s 2%nat <> None.
Proof. split; [vm_compute; reflexivity|]. vm_compute. discriminate. Qed.
