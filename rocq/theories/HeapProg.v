(** HeapProg.v -- programs over shared memory, and their interleavings.

    The cells hold the 256-bit integers that Go code reaches through [*ui.Int] pointers.  A program is the
    tree of its memory accesses; pure computation happens in between.  An address is a pair (owner, number):
    Go's allocator returns some address no pointer refers to yet, and the code never compares or prints
    addresses, so the model lets every goroutine allocate from a region of its own.  Any goroutine may
    dereference any address it holds. *)
From Verif Require Import Base.

Definition addr : Type := nat * nat.

Inductive prog (A : Type) : Type :=
| Done (r : res A)
| Rd (a : addr) (k : Z -> prog A)
| Wr (a : addr) (v : Z) (k : prog A)
| Al (v : Z) (k : addr -> prog A).
Arguments Done {A} r.
Arguments Rd {A} a k.
Arguments Wr {A} a v k.
Arguments Al {A} v k.

Fixpoint pbind {A B} (p : prog A) (f : A -> prog B) : prog B :=
  match p with
  | Done (Ok a) => f a
  | Done Panic => Done Panic
  | Done OutOfFuel => Done OutOfFuel
  | Rd a k => Rd a (fun v => pbind (k v) f)
  | Wr a v k => Wr a v (pbind k f)
  | Al v k => Al v (fun a => pbind (k a) f)
  end.
Notation "'run' x <- a ; b" := (pbind a (fun x => b))
  (at level 200, x pattern, a at level 100, b at level 200).
Definition ret {A} (a : A) : prog A := Done (Ok a).

(** one region per owner *)
Definition heap : Type := nat -> list Z.
Definition get (h : heap) (a : addr) : Z := nth (snd a) (h (fst a)) 0.
Fixpoint upd (l : list Z) (n : nat) (v : Z) : list Z :=
  match l, n with
  | [], _ => []
  | _ :: l, O => v :: l
  | x :: l, S n => x :: upd l n v
  end.
Definition setRegion (h : heap) (t : nat) (l : list Z) : heap := fun s => if Nat.eqb s t then l else h s.
Definition put (h : heap) (a : addr) (v : Z) : heap := setRegion h (fst a) (upd (h (fst a)) (snd a) v).

(** one access of goroutine [t] *)
Definition pstep {A} (t : nat) (h : heap) (p : prog A) : heap * prog A :=
  match p with
  | Done r => (h, Done r)
  | Rd a k => (h, k (get h a))
  | Wr a v k => (put h a v, k)
  | Al v k => (setRegion h t (h t ++ [v]), k (t, length (h t)))
  end.

(** running alone, to the end *)
Fixpoint exec {A} (t : nat) (h : heap) (p : prog A) : heap * res A :=
  match p with
  | Done r => (h, r)
  | Rd a k => exec t h (k (get h a))
  | Wr a v k => exec t (put h a v) k
  | Al v k => exec t (setRegion h t (h t ++ [v])) (k (t, length (h t)))
  end.

(** every address a program of owner [t] touches is in its own region *)
Fixpoint local {A} (t : nat) (p : prog A) : Prop :=
  match p with
  | Done _ => True
  | Rd a k => fst a = t /\ forall v, local t (k v)
  | Wr a v k => fst a = t /\ local t k
  | Al v k => forall n, local t (k (t, n))
  end.

Lemma exec_bind {A B} t (p : prog A) (f : A -> prog B) : forall h,
  exec t h (pbind p f) = match exec t h p with
                         | (h', Ok a) => exec t h' (f a)
                         | (h', Panic) => (h', Panic)
                         | (h', OutOfFuel) => (h', OutOfFuel)
                         end.
Proof.
  induction p as [r|a k IH|a v k IH|v k IH]; intros h; cbn [pbind exec].
  - destruct r; reflexivity.
  - apply IH.
  - apply IH.
  - apply IH.
Qed.

Lemma local_bind {A B} t (p : prog A) (f : A -> prog B) : local t p -> (forall a, local t (f a)) -> local t (pbind p f).
Proof.
  intros Hp Hf. induction p as [r|a k IH|a v k IH|v k IH]; cbn [pbind local] in *.
  - destruct r; [apply Hf|exact I|exact I].
  - destruct Hp as [E Hk]. split; [assumption|]. intros v. auto.
  - destruct Hp as [E Hk]. auto.
  - intros n. auto.
Qed.

Lemma setRegion_eq h t l : setRegion h t l t = l.
Proof. unfold setRegion. now rewrite Nat.eqb_refl. Qed.
Lemma setRegion_neq h t l s : s <> t -> setRegion h t l s = h s.
Proof. intros H. unfold setRegion. apply Nat.eqb_neq in H. now rewrite H. Qed.

(** a local access leaves the other regions alone, and depends on its own region only *)
Lemma pstep_frame {A} t h (p : prog A) s : local t p -> s <> t -> fst (pstep t h p) s = h s.
Proof.
  intros L N. destruct p as [r|a k|a v k|v k]; cbn [pstep fst]; try reflexivity.
  - destruct L as [E _]. unfold put. apply setRegion_neq. congruence.
  - now apply setRegion_neq.
Qed.
Lemma pstep_own {A} t h h' (p : prog A) : local t p -> h t = h' t ->
  fst (pstep t h p) t = fst (pstep t h' p) t /\ snd (pstep t h p) = snd (pstep t h' p) /\ local t (snd (pstep t h p)).
Proof.
  intros L E. destruct p as [r|a k|a v k|v k]; cbn [pstep fst snd local] in *.
  - auto.
  - destruct L as [Ea L]. unfold get. rewrite Ea, E. auto.
  - destruct L as [Ea L]. unfold put. rewrite Ea, !setRegion_eq, E. auto.
  - rewrite !setRegion_eq, E. auto.
Qed.

Lemma exec_own {A} t (p : prog A) : forall h h', local t p -> h t = h' t ->
  fst (exec t h p) t = fst (exec t h' p) t /\ snd (exec t h p) = snd (exec t h' p).
Proof.
  induction p as [r|a k IH|a v k IH|v k IH]; intros h h' L E; cbn [exec local fst snd] in *.
  - auto.
  - destruct L as [Ea L]. replace (get h' a) with (get h a) by (unfold get; now rewrite Ea, E). auto.
  - destruct L as [Ea L]. apply IH; [assumption|]. unfold put. now rewrite Ea, !setRegion_eq, E.
  - rewrite E. apply IH; [apply L|]. now rewrite !setRegion_eq.
Qed.
Lemma exec_frame {A} t (p : prog A) s : s <> t -> forall h, local t p -> fst (exec t h p) s = h s.
Proof.
  intros N. induction p as [r|a k IH|a v k IH|v k IH]; intros h L; cbn [exec local fst] in *.
  - reflexivity.
  - destruct L as [_ L]. auto.
  - destruct L as [E L]. rewrite IH by assumption. unfold put. apply setRegion_neq. congruence.
  - rewrite IH by auto. now apply setRegion_neq.
Qed.
Lemma exec_pstep {A} t h (p : prog A) : exec t (fst (pstep t h p)) (snd (pstep t h p)) = exec t h p.
Proof. destruct p; reflexivity. Qed.

(** ** many goroutines
    [threads t] is what goroutine [t] still has to do; a schedule lists who makes the next access. *)
Definition threads (A : Type) : Type := nat -> prog A.
Definition setThread {A} (ps : threads A) (t : nat) (p : prog A) : threads A := fun s => if Nat.eqb s t then p else ps s.

Fixpoint interleave {A} (schedule : list nat) (h : heap) (ps : threads A) : heap * threads A :=
  match schedule with
  | [] => (h, ps)
  | t :: schedule =>
      let '(h', p') := pstep t h (ps t) in
      interleave schedule h' (setThread ps t p')
  end.

(** whatever the others did, goroutine [t] has got somewhere on its way alone *)
Lemma interleave_alone {A} schedule : forall (h : heap) (ps : threads A),
  (forall t, local t (ps t)) ->
  let '(h', ps') := interleave schedule h ps in
  (forall t, local t (ps' t)) /\
  forall t, snd (exec t h' (ps' t)) = snd (exec t h (ps t)) /\ fst (exec t h' (ps' t)) t = fst (exec t h (ps t)) t.
Proof.
  induction schedule as [|u schedule IH]; intros h ps L; cbn [interleave].
  - auto.
  - destruct (pstep u h (ps u)) as [h1 p1] eqn:E.
    assert (forall t, local t (setThread ps u p1 t)) as L1.
    { intros t. unfold setThread. destruct (Nat.eqb_spec t u) as [->|N]; [|apply L].
      pose proof (pstep_own u h h (ps u) (L u) eq_refl) as (_ & _ & K). now rewrite E in K. }
    specialize (IH h1 (setThread ps u p1) L1). destruct (interleave schedule h1 (setThread ps u p1)) as [h' ps'].
    destruct IH as [IH1 IH2]. split; [assumption|]. intros t. destruct (IH2 t) as [E1 E2]. rewrite E1, E2. clear IH2 E1 E2.
    unfold setThread. destruct (Nat.eqb_spec t u) as [->|N].
    + pose proof (exec_pstep u h (ps u)) as K. rewrite E in K. cbn [fst snd] in K. now rewrite K.
    + pose proof (pstep_frame u h (ps u) t (L u) N) as F. rewrite E in F. cbn [fst] in F.
      destruct (exec_own t (ps t) h1 h (L t) F). auto.
Qed.

(** a finished goroutine has the result of its run alone, in the heap it left *)
Lemma interleave_done {A} schedule (h : heap) (ps : threads A) h' ps' t r :
  (forall t, local t (ps t)) -> interleave schedule h ps = (h', ps') -> ps' t = Done r ->
  snd (exec t h (ps t)) = r /\ h' t = fst (exec t h (ps t)) t.
Proof.
  intros L E D. pose proof (interleave_alone schedule h ps L) as K. rewrite E in K. destruct K as [_ K]. specialize (K t). rewrite D in K. cbn [exec fst snd] in K. destruct K as [K1 K2]. split; [symmetry; exact K1|exact K2].
Qed.

(** number of accesses a program makes when run alone *)
Fixpoint accesses {A} (t : nat) (h : heap) (p : prog A) : nat :=
  match p with
  | Done _ => O
  | Rd a k => S (accesses t h (k (get h a)))
  | Wr a v k => S (accesses t (put h a v) k)
  | Al v k => S (accesses t (setRegion h t (h t ++ [v])) (k (t, length (h t))))
  end.
Lemma accesses_own {A} t (p : prog A) : forall h h', local t p -> h t = h' t -> accesses t h p = accesses t h' p.
Proof.
  induction p as [r|a k IH|a v k IH|v k IH]; intros h h' L E; cbn [accesses local] in *.
  - reflexivity.
  - destruct L as [Ea L]. replace (get h' a) with (get h a) by (unfold get; now rewrite Ea, E). f_equal. auto.
  - destruct L as [Ea L]. f_equal. apply IH; [assumption|]. unfold put. now rewrite Ea, !setRegion_eq, E.
  - rewrite E. f_equal. apply IH; [apply L|]. now rewrite !setRegion_eq.
Qed.
Lemma accesses_pstep {A} t h (p : prog A) : accesses t (fst (pstep t h p)) (snd (pstep t h p)) = pred (accesses t h p).
Proof. destruct p; reflexivity. Qed.
Lemma accesses_0 {A} t h (p : prog A) : accesses t h p = O -> p = Done (snd (exec t h p)).
Proof. destruct p; cbn; [reflexivity|discriminate|discriminate|discriminate]. Qed.

(** a goroutine that got its turns has finished *)
Lemma interleave_finishes {A} schedule t : forall (h : heap) (ps : threads A), (forall t, local t (ps t)) ->
  (accesses t h (ps t) <= count_occ Nat.eq_dec schedule t)%nat ->
  snd (interleave schedule h ps) t = Done (snd (exec t h (ps t))).
Proof.
  induction schedule as [|u schedule IH]; intros h ps L H; cbn [interleave count_occ] in *.
  - cbn [snd]. apply accesses_0. lia.
  - destruct (pstep u h (ps u)) as [h1 p1] eqn:E.
    assert (forall t, local t (setThread ps u p1 t)) as L1.
    { intros s. unfold setThread. destruct (Nat.eqb_spec s u) as [->|N]; [|apply L].
      pose proof (pstep_own u h h (ps u) (L u) eq_refl) as (_ & _ & K). now rewrite E in K. }
    destruct (Nat.eq_dec u t) as [->|N].
    + pose proof (accesses_pstep t h (ps t)) as K. rewrite E in K. cbn [fst snd] in K.
      rewrite IH; [|assumption|unfold setThread; rewrite Nat.eqb_refl; lia]. unfold setThread. rewrite Nat.eqb_refl.
      pose proof (exec_pstep t h (ps t)) as X. rewrite E in X. cbn [fst snd] in X. now rewrite X.
    + assert (setThread ps u p1 t = ps t) as ET by (unfold setThread; destruct (Nat.eqb_spec t u); [congruence|reflexivity]).
      pose proof (pstep_frame u h (ps u) t (L u) ltac:(congruence)) as F. rewrite E in F. cbn [fst] in F.
      rewrite IH; [|assumption|rewrite ET, (accesses_own t (ps t) h1 h (L t) F); assumption]. rewrite ET. f_equal.
      apply (exec_own t (ps t) h1 h (L t) F).
Qed.
