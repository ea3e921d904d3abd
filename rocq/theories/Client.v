(** Client.v -- code that works on one pool through the pool's exported methods (strategies, the executor).

    Such code is a tree: it calls a method and gets its two amounts, or reads the exported fields of the pool.
    [runV] runs it on a pool of Pool.v and keeps the list of calls; [compile] turns it into the program that
    makes the memory accesses of PoolHeap.v. *)
From Coq Require Import String.
From Verif Require Import Base U256Z SwapMath TickMath TickData Pool PoolOps HeapProg TickHeap PoolHeap.
Ltac Zify.zify_post_hook ::= idtac.
Open Scope Z_scope.

(** the fields of Pool that callers read *)
Record Slot := mkSlot { slToken0 : string; slToken1 : string; slFee : Z; slPrice : Z; slTick : Z }.
Definition slot (p : Pool) : Slot := mkSlot (Token0 p) (Token1 p) (Fee p) (SqrtRatio p) (TickCurrent p).

Inductive M (A : Type) : Type :=
| MRet (r : res A)
| MOp (o : op) (k : Z * Z -> M A)
| MRead (k : Slot -> M A).
Arguments MRet {A} r.
Arguments MOp {A} o k.
Arguments MRead {A} k.

Fixpoint mbind {A B} (m : M A) (f : A -> M B) : M B :=
  match m with
  | MRet (Ok a) => f a
  | MRet Panic => MRet Panic
  | MRet OutOfFuel => MRet OutOfFuel
  | MOp o k => MOp o (fun r => mbind (k r) f)
  | MRead k => MRead (fun s => mbind (k s) f)
  end.
Notation "'act' x <- a ; b" := (mbind a (fun x => b))
  (at level 200, x pattern, a at level 100, b at level 200).
Definition done {A} (a : A) : M A := MRet (Ok a).
(** call a method of the pool *)
Definition call (o : op) : M (Z * Z) := MOp o (fun r => done r).
(** read the pool *)
Definition look : M Slot := MRead (fun s => done s).
(** a computation that may panic *)
Definition pure {A} (r : res A) : M A := MRet r.

(** one call; methods without results give (0, 0) *)
Definition apply (fuel : nat) (p : Pool) (o : op) : res (Pool * Z * Z) :=
  match o with
  | OMint l u a => do p <- Mint p l u a; Ok (p, 0, 0)
  | OBurn l u a => do p <- Burn p l u a; Ok (p, 0, 0)
  | OMintStrategy l u a => MintStrategy p l u a
  | OBurnStrategy l u a => BurnStrategy p l u a
  | OCollectStrategy l u => CollectStrategy p l u
  | OFlash a0 a1 => do p <- Flash p a0 a1; Ok (p, 0, 0)
  | OExactInput a t lim => ExactInputSwap fuel p a t lim
  | OExactOutput a t lim => ExactOutputSwap fuel p a t lim
  end.
Lemma apply_step fuel p o : step fuel p o = do r <- apply fuel p o; Ok (fst (fst r)).
Proof.
  destruct o; cbn [step apply]; try reflexivity.
  - destruct (Mint p lower upper amount); reflexivity.
  - destruct (Burn p lower upper amount); reflexivity.
  - destruct (Flash p amount0 amount1); reflexivity.
Qed.

Definition trace := list (op * (Z * Z)).
Fixpoint runV {A} (fuel : nat) (p : Pool) (m : M A) : res (Pool * trace * A) :=
  match m with
  | MRet r => do a <- r; Ok (p, [], a)
  | MRead k => runV fuel p (k (slot p))
  | MOp o k =>
      do r <- apply fuel p o;
      let '(p', a0, a1) := r in
      do q <- runV fuel p' (k (a0, a1));
      let '(p'', tr, a) := q in
      Ok (p'', (o, (a0, a1)) :: tr, a)
  end.

(** the same over memory *)
Definition happly (fuel : nat) (p : HPool) (o : op) : prog (HPool * Z * Z) :=
  match o with
  | OMint l u a => run p <- hMint p l u a; ret (p, 0, 0)
  | OBurn l u a => run p <- hBurn p l u a; ret (p, 0, 0)
  | OMintStrategy l u a => hMintStrategy p l u a
  | OBurnStrategy l u a => hBurnStrategy p l u a
  | OCollectStrategy l u => hCollectStrategy p l u
  | OFlash a0 a1 => run p <- hFlash p a0 a1; ret (p, 0, 0)
  | OExactInput a t lim => hExactInputSwap fuel p a t lim
  | OExactOutput a t lim => hExactOutputSwap fuel p a t lim
  end.
Fixpoint compile {A} (fuel : nat) (p : HPool) (m : M A) : prog (HPool * trace * A) :=
  match m with
  | MRet r => run a <- Done r; ret (p, [], a)
  | MRead k => compile fuel p (k (slot (hScalars p)))
  | MOp o k =>
      run r <- happly fuel p o;
      let '(p', a0, a1) := r in
      run q <- compile fuel p' (k (a0, a1));
      let '(p'', tr, a) := q in
      ret (p'', (o, (a0, a1)) :: tr, a)
  end.

(** ** composition *)
Lemma runV_bind {A B} fuel (m : M A) (f : A -> M B) : forall p,
  runV fuel p (mbind m f) =
    do q <- runV fuel p m;
    let '(p', tr, a) := q in
    do q' <- runV fuel p' (f a);
    let '(p'', tr', b) := q' in
    Ok (p'', tr ++ tr', b).
Proof.
  induction m as [r|o k IH|k IH]; intros p; cbn [mbind runV].
  - destruct r; cbn [bind]; [|reflexivity|reflexivity]. destruct (runV fuel p (f a)) as [[[q t] b]| |]; reflexivity.
  - destruct (apply fuel p o) as [[[p' a0] a1]| |]; cbn [bind]; try reflexivity. rewrite IH.
    destruct (runV fuel p' (k (a0, a1))) as [[[q t] a]| |]; cbn [bind]; try reflexivity.
    destruct (runV fuel q (f a)) as [[[q' t'] b]| |]; reflexivity.
  - apply IH.
Qed.

(** ** the memory version does what the value version does, and touches its own ticks only *)
Lemma sim_apply t h p fuel o : validP t h p -> sim t h (happly fuel p o) (apply fuel (viewP h p) o) (simR t).
Proof.
  intros V. destruct o; cbn [happly apply].
  - eapply sim_bind; [apply sim_Mint; exact V|]. intros h' a b [H1 H2]. unfold sim, simR. cbn [exec ret fst snd]. auto.
  - eapply sim_bind; [apply sim_Burn; exact V|]. intros h' a b [H1 H2]. unfold sim, simR. cbn [exec ret fst snd]. auto.
  - now apply sim_MintStrategy.
  - now apply sim_BurnStrategy.
  - now apply sim_CollectStrategy.
  - eapply sim_bind; [apply sim_Flash; exact V|]. intros h' a b [H1 H2]. unfold sim, simR. cbn [exec ret fst snd]. auto.
  - unfold hExactInputSwap, ExactInputSwap. now apply sim_swap.
  - unfold hExactOutputSwap, ExactOutputSwap. now apply sim_swap.
Qed.
Lemma local_apply t p fuel o : ownedP t p -> localp t (ownedR t) (happly fuel p o).
Proof.
  intros O. destruct o; cbn [happly].
  - eapply localp_bind; [apply local_Mint; exact O|]. intros q H. exact H.
  - eapply localp_bind; [apply local_modifyPosition; exact O|]. intros q H. exact H.
  - now apply local_MintStrategy.
  - now apply local_BurnStrategy.
  - now apply local_CollectStrategy.
  - eapply localp_bind; [apply local_Flash; exact O|]. intros q H. exact H.
  - now apply local_swap.
  - now apply local_swap.
Qed.

Definition simM {A} (t : nat) : heap -> HPool * trace * A -> Pool * trace * A -> Prop :=
  fun h' r v => validP t h' (fst (fst r)) /\ viewP h' (fst (fst r)) = fst (fst v) /\ snd (fst r) = snd (fst v) /\ snd r = snd v.

Lemma slot_view h p : slot (viewP h p) = slot (hScalars p).
Proof. reflexivity. Qed.

Lemma sim_compile {A} t fuel (m : M A) : forall h p, validP t h p ->
  sim t h (compile fuel p m) (runV fuel (viewP h p) m) (simM t).
Proof.
  induction m as [r|o k IH|k IH]; intros h p V; cbn [compile runV].
  - apply sim_bind_eq. intros a _. unfold sim, simM. cbn [exec ret fst snd]. auto.
  - eapply sim_bind; [apply sim_apply; exact V|]. intros h1 [[p1 a0] a1] [[v1 b0] b1] (V1 & E1 & E2 & E3). cbn [fst snd] in *. subst v1 b0 b1.
    eapply sim_bind; [apply IH; exact V1|]. intros h2 [[p2 t2] x] [[v2 t2'] x'] (V2 & E4 & E5 & E6). cbn [fst snd] in *. subst v2 t2' x'.
    unfold sim, simM. cbn [exec ret fst snd]. auto.
  - rewrite slot_view. now apply IH.
Qed.
Lemma local_compile {A} t fuel (m : M A) : forall p, ownedP t p -> local t (compile fuel p m).
Proof.
  intros p O. apply (localp_local t (fun _ => True)). revert p O.
  induction m as [r|o k IH|k IH]; intros p O; cbn [compile].
  - destruct r; exact I.
  - eapply localp_bind; [apply local_apply; exact O|]. intros [[p1 a0] a1] O1. 
    eapply localp_bind; [apply IH; exact O1|]. intros [[p2 t2] x] _. exact I.
  - now apply IH.
Qed.
