(** Grid.v -- main.go: the runs of the parameter grid as goroutines in batches. *)
From Verif Require Import Base HeapProg.
Ltac Zify.zify_post_hook ::= idtac.

Section Grid.
  Variables A B : Type.
  (** what goroutine [i] runs (main.go:187 execution.Run), and what it makes of the outcome (main.go:189-213) *)
  Variable prg : nat -> prog A.
  Variable post : nat -> A -> B.
  (** main.go:73-74: [n] is mulUpperBound-1, [batch] is 5000 *)
  Variables n batch : nat.

  (** a goroutine: not started, in [execution.Run], with its result stored but [wg.Done] still to come, gone *)
  Inductive gor := NotStarted | Running (p : prog A) | Stored | Gone.
  (** main.go:77-88: in the inner loop ([mul-1] and [j]), at [wg.Wait], after the loops *)
  Inductive pc := Launch (i j : nat) | Wait (i : nat) | Over.
  Record state := mkState {
    gHeap : heap; gors : nat -> gor; wg : nat; results : nat -> option B; main : pc; crashed : bool }.
  Definition setGor (f : nat -> gor) (i : nat) (g : gor) : nat -> gor := fun k => if Nat.eqb k i then g else f k.
  Definition setResult (f : nat -> option B) (i : nat) (b : B) : nat -> option B := fun k => if Nat.eqb k i then Some b else f k.

  Definition start (h : heap) : state := mkState h (fun _ => NotStarted) 0 (fun _ => None) (Launch 0 0) false.

  (** main moves; [None] if it cannot *)
  Definition mainStep (s : state) : option state :=
    match main s with
    | Launch i j =>
        if (j <? batch)%nat && (i <? n)%nat then
          Some (mkState (gHeap s) (setGor (gors s) i (Running (prg i))) (S (wg s)) (results s) (Launch (S i) (S j)) (crashed s))
        else Some (mkState (gHeap s) (gors s) (wg s) (results s) (Wait i) (crashed s))
    | Wait i =>
        if Nat.eqb (wg s) 0 then
          Some (mkState (gHeap s) (gors s) (wg s) (results s) (if (i <? n)%nat then Launch i 0 else Over) (crashed s))
        else None
    | Over => None
    end.
  (** goroutine [i] moves: an access, the store of its result, [wg.Done], or a panic, which ends the whole
      program.  A run that does not end ([OutOfFuel]) never moves on. *)
  Definition gorStep (i : nat) (s : state) : option state :=
    match gors s i with
    | NotStarted | Gone => None
    | Running (Done (Ok a)) =>
        Some (mkState (gHeap s) (setGor (gors s) i Stored) (wg s) (setResult (results s) i (post i a)) (main s) (crashed s))
    | Running (Done Panic) => Some (mkState (gHeap s) (gors s) (wg s) (results s) (main s) true)
    | Running (Done OutOfFuel) => None
    | Running p =>
        let '(h', p') := pstep i (gHeap s) p in
        Some (mkState h' (setGor (gors s) i (Running p')) (wg s) (results s) (main s) (crashed s))
    | Stored =>
        match wg s with
        | O => Some (mkState (gHeap s) (gors s) 0 (results s) (main s) true)
        | S k => Some (mkState (gHeap s) (setGor (gors s) i Gone) k (results s) (main s) (crashed s))
        end
    end.
  (** one step: the scheduler picks main ([None]) or a goroutine; nothing moves once the program has crashed *)
  Definition gstep (who : option nat) (s : state) : option state :=
    if crashed s then None else match who with None => mainStep s | Some i => gorStep i s end.

  (** a run under a schedule: steps that are not possible are skipped *)
  Fixpoint grun (schedule : list (option nat)) (s : state) : state :=
    match schedule with
    | [] => s
    | w :: schedule => grun schedule (match gstep w s with Some s' => s' | None => s end)
    end.

  Variable h0 : heap.
  Hypothesis prg_local : forall i, local i (prg i).
  (** the run of [i] alone, from the initial memory *)
  Definition alone (i : nat) : res A := snd (exec i h0 (prg i)).

  Definition next (m : pc) : nat := match m with Launch i _ => i | Wait i => i | Over => n end.
  Definition activeG (g : gor) : bool := match g with Running _ | Stored => true | _ => false end.
  Definition active (s : state) : nat := length (filter (fun i => activeG (gors s i)) (seq 0 (next (main s)))).

  Definition gorOK (s : state) (i : nat) : Prop :=
    match gors s i with
    | NotStarted => (next (main s) <= i)%nat /\ gHeap s i = h0 i /\ results s i = None
    | Running p => (i < next (main s))%nat /\ local i p /\ results s i = None /\
                   snd (exec i (gHeap s) p) = alone i
    | Stored | Gone => (i < next (main s))%nat /\ exists a, alone i = Ok a /\ results s i = Some (post i a)
    end.
  Definition inv (s : state) : Prop :=
    (forall i, gorOK s i) /\ wg s = active s /\ (next (main s) <= n)%nat /\
    (main s = Over -> wg s = 0%nat) /\ (crashed s = true -> exists i, (i < n)%nat /\ alone i = Panic).

  Lemma setGor_eq f i g : setGor f i g i = g.
  Proof. unfold setGor. now rewrite Nat.eqb_refl. Qed.
  Lemma setGor_neq f i g k : k <> i -> setGor f i g k = f k.
  Proof. intros H. unfold setGor. apply Nat.eqb_neq in H. now rewrite H. Qed.

  Lemma filter_length_change {X} (f g : X -> bool) (l : list X) (x : X) : NoDup l -> In x l ->
    (forall y, y <> x -> f y = g y) -> f x = true -> g x = false -> length (filter f l) = S (length (filter g l)).
  Proof.
    intros ND HI HE Hf Hg. induction l as [|y l IH]; [destruct HI|]. inversion ND as [|? ? Hn ND' E1]; subst.
    cbn [filter]. destruct HI as [->|HI].
    - rewrite Hf, Hg. cbn [length]. f_equal. f_equal. apply filter_ext_in. intros z Hz. apply HE. intros ->. contradiction.
    - assert (y <> x) as Hne by (intros ->; contradiction). rewrite (HE y Hne). specialize (IH ND' HI). destruct (g y); cbn [length]; lia.
  Qed.
  Lemma active_same s i g : activeG (gors s i) = activeG g -> forall h w r c m, next m = next (main s) ->
    active (mkState h (setGor (gors s) i g) w r m c) = active s.
  Proof.
    intros H h w r c m Hm. unfold active. cbn [gors main]. rewrite Hm. f_equal. apply filter_ext. intros k. unfold setGor.
    destruct (Nat.eqb_spec k i) as [->|]; [now rewrite H|reflexivity].
  Qed.
  Lemma active_less s i h w r c : (i < next (main s))%nat -> activeG (gors s i) = true ->
    active s = S (active (mkState h (setGor (gors s) i Gone) w r (main s) c)).
  Proof.
    intros Hi Ha. unfold active. cbn [gors main]. apply filter_length_change with (x := i).
    - apply seq_NoDup.
    - apply in_seq. lia.
    - intros y Hy. now rewrite setGor_neq.
    - assumption.
    - now rewrite setGor_eq.
  Qed.
  Lemma active_more s i h w r c m p : next (main s) = i -> next m = S i ->
    active (mkState h (setGor (gors s) i (Running p)) w r m c) = S (active s).
  Proof.
    intros Hi Hm. unfold active. cbn [gors main]. rewrite Hi, Hm, seq_S, filter_app, app_length. cbn [filter plus Nat.add].
    rewrite setGor_eq. cbn [activeG length].
    assert (filter (fun k => activeG (setGor (gors s) i (Running p) k)) (seq 0 i) = filter (fun k => activeG (gors s k)) (seq 0 i)) as ->.
    { apply filter_ext_in. intros k Hk. apply in_seq in Hk. rewrite setGor_neq by lia. reflexivity. }
    lia.
  Qed.

  Lemma inv_start : inv (start h0).
  Proof.
    split; [|split; [|split; [|split]]].
    - intros i. unfold gorOK. cbn. split; [lia|auto].
    - reflexivity.
    - cbn. lia.
    - discriminate.
    - discriminate.
  Qed.

  Lemma inv_main s s' : inv s -> mainStep s = Some s' -> inv s'.
  Proof.
    intros (HG & HW & HN & HO & HC) E. unfold mainStep in E. destruct (main s) as [i j|i|] eqn:Em; [|destruct (Nat.eqb_spec (wg s) 0) as [Hw|]; [|discriminate]|discriminate].
    - destruct ((j <? batch)%nat && (i <? n)%nat) eqn:Eb; injection E as <-.
      + apply andb_true_iff in Eb. destruct Eb as [Eb1 Eb2]. apply Nat.ltb_lt in Eb1, Eb2.
        assert (gors s i = NotStarted) as Ei.
        { specialize (HG i). unfold gorOK in HG. rewrite Em in HG. cbn [next] in HG. destruct (gors s i); [reflexivity|destruct HG; lia|destruct HG; lia|destruct HG; lia]. }
        split; [|split; [|split; [|split]]].
        * intros k. assert (Hk := HG k). unfold gorOK in *. cbn [gors main gHeap results next]. rewrite Em in Hk. cbn [next] in Hk.
          destruct (Nat.eq_dec k i) as [->|Hne].
          -- rewrite setGor_eq. rewrite Ei in Hk. destruct Hk as (_ & Hh & Hr). split; [lia|]. split; [apply prg_local|]. split; [assumption|].
             unfold alone. apply (exec_own i (prg i) _ _ (prg_local i) Hh).
          -- rewrite setGor_neq by assumption. destruct (gors s k); [destruct Hk as (? & ? & ?); split; [lia|auto]|destruct Hk; split; [lia|assumption]|destruct Hk; split; [lia|assumption]|destruct Hk; split; [lia|assumption]].
        * cbn [wg]. rewrite (active_more s i) by (rewrite ?Em; reflexivity). now rewrite HW.
        * cbn. lia.
        * discriminate.
        * exact HC.
      + split; [|split; [|split; [|split]]].
        * intros k. specialize (HG k). unfold gorOK in *. rewrite Em in HG. exact HG.
        * cbn [wg]. rewrite HW. unfold active. rewrite Em. reflexivity.
        * cbn [main next] in *. exact HN.
        * discriminate.
        * exact HC.
    - injection E as <-. cbn [next] in HN.
      assert (next (if (i <? n)%nat then Launch i 0 else Over) = i) as En.
      { destruct (Nat.ltb_spec i n); cbn [next]; lia. }
      split; [|split; [|split; [|split]]].
      + intros k. specialize (HG k). unfold gorOK in *. cbn [gors main gHeap results]. rewrite Em in HG. rewrite En. exact HG.
      + cbn [wg]. rewrite HW. unfold active. cbn [main gors]. rewrite En, Em. reflexivity.
      + cbn [main]. rewrite En. assumption.
      + intros _. exact Hw.
      + exact HC.
  Qed.

  Lemma inv_gor i s s' : inv s -> gorStep i s = Some s' -> inv s'.
  Proof.
    intros (HG & HW & HN & HO & HC) E. unfold gorStep in E. assert (Hi := HG i). unfold gorOK in Hi.
    assert (forall h' g, activeG (gors s i) = activeG g -> (forall k, k <> i -> h' k = gHeap s k) -> forall r c, (forall k, k <> i -> r k = results s k) ->
       gorOK (mkState h' (setGor (gors s) i g) (wg s) r (main s) c) i ->
       (c = true -> exists i, (i < n)%nat /\ alone i = Panic) ->
       inv (mkState h' (setGor (gors s) i g) (wg s) r (main s) c)) as Hframe.
    { intros h' g Ha Hh r c Hr Hok Hc. split; [|split; [|split; [|split]]].
      - intros k. destruct (Nat.eq_dec k i) as [->|Hne]; [assumption|]. specialize (HG k). unfold gorOK in *. cbn [gors main gHeap results].
        rewrite setGor_neq by assumption. rewrite (Hr k Hne). destruct (gors s k) as [|p| |]; try assumption.
        + now rewrite (Hh k Hne).
        + destruct HG as (G1 & G2 & G3 & G4). split; [assumption|]. split; [assumption|]. split; [assumption|].
          rewrite <- G4. apply (exec_own k p _ _ G2 (Hh k Hne)).
      - cbn [wg]. rewrite (active_same s i g Ha) by reflexivity. assumption.
      - exact HN.
      - exact HO.
      - exact Hc. }
    destruct (gors s i) as [|p| |] eqn:Eg; try discriminate.
    - destruct Hi as (H1 & H2 & H3 & H4).
      assert (forall h' p', pstep i (gHeap s) p = (h', p') ->
         inv (mkState h' (setGor (gors s) i (Running p')) (wg s) (results s) (main s) (crashed s))) as Hstep.
      { intros h' p' Ep.
        assert (h' = fst (pstep i (gHeap s) p) /\ p' = snd (pstep i (gHeap s) p)) as [-> ->] by now rewrite Ep.
        apply Hframe; try reflexivity.
        - intros k Hk. now apply pstep_frame.
        - unfold gorOK. cbn [gors main gHeap results]. rewrite setGor_eq. split; [assumption|].
          split; [apply (pstep_own i (gHeap s) (gHeap s) p H2 eq_refl)|]. split; [assumption|]. now rewrite exec_pstep.
        - exact HC. }
      destruct p as [[a| |]|ad k|ad v k|v k]; try discriminate.
      + injection E as <-. cbn [exec snd] in H4. apply Hframe; try reflexivity.
        * intros k Hk. unfold setResult. apply Nat.eqb_neq in Hk. now rewrite Hk.
        * unfold gorOK. cbn [gors main gHeap results]. rewrite setGor_eq. split; [assumption|]. exists a. split; [now symmetry|].
          unfold setResult. now rewrite Nat.eqb_refl.
        * exact HC.
      + injection E as <-. cbn [exec snd] in H4. split; [|split; [|split; [|split]]]; try assumption.
        intros _. exists i. split; [lia|now symmetry].
      + cbn [pstep] in E. injection E as <-. now apply Hstep.
      + cbn [pstep] in E. injection E as <-. now apply Hstep.
      + cbn [pstep] in E. injection E as <-. now apply Hstep.
    - destruct Hi as (H1 & a & H2 & H3). destruct (wg s) as [|w] eqn:Ew.
      + exfalso. assert (active s = S (active (mkState (gHeap s) (setGor (gors s) i Gone) 0 (results s) (main s) (crashed s)))) as K.
        { apply active_less; [assumption|]. now rewrite Eg. }
        lia.
      + injection E as <-. split; [|split; [|split; [|split]]].
        * intros k. specialize (HG k). unfold gorOK in *. cbn [gors main gHeap results]. destruct (Nat.eq_dec k i) as [->|Hne].
          -- rewrite setGor_eq. eauto.
          -- rewrite setGor_neq by assumption. assumption.
        * cbn [wg]. assert (active s = S (active (mkState (gHeap s) (setGor (gors s) i Gone) w (results s) (main s) (crashed s)))) as K.
          { apply active_less; [assumption|]. now rewrite Eg. }
          lia.
        * exact HN.
        * cbn [main]. intros HM. specialize (HO HM). lia.
        * exact HC.
  Qed.

  Lemma inv_step w s s' : inv s -> gstep w s = Some s' -> inv s'.
  Proof.
    intros HI E. unfold gstep in E. destruct (crashed s); [discriminate|]. destruct w as [i|]; [now apply (inv_gor i s)|now apply (inv_main s)].
  Qed.
  Lemma inv_run schedule : forall s, inv s -> inv (grun schedule s).
  Proof.
    induction schedule as [|w l IH]; intros s HI; cbn [grun]; [assumption|]. apply IH. destruct (gstep w s) eqn:E; [now apply (inv_step w s)|assumption].
  Qed.

  (** whatever the schedule: a stored result is that of the run alone, all are stored when main goes on, and
      the program crashes only if one of the runs panics by itself *)
  Lemma grid_results schedule i b : results (grun schedule (start h0)) i = Some b -> (i < n)%nat /\ exists a, alone i = Ok a /\ b = post i a.
  Proof.
    intros H. destruct (inv_run schedule _ inv_start) as (HG & _ & HN & _). specialize (HG i). unfold gorOK in HG.
    destruct (gors _ i); [destruct HG as (_ & _ & K); congruence|destruct HG as (_ & _ & K & _); congruence| |];
      destruct HG as (K1 & a & K2 & K3); (split; [lia|]); exists a; (split; [assumption|congruence]).
  Qed.
  Lemma grid_over schedule i : main (grun schedule (start h0)) = Over -> (i < n)%nat ->
    exists a, alone i = Ok a /\ results (grun schedule (start h0)) i = Some (post i a).
  Proof.
    intros HM Hi. destruct (inv_run schedule _ inv_start) as (HG & HW & _ & HO & _). specialize (HO HM).
    set (s := grun schedule (start h0)) in *. assert (Hgi := HG i). unfold gorOK in Hgi. rewrite HM in Hgi. cbn [next] in Hgi.
    destruct (gors s i) as [|p| |] eqn:Eg.
    - destruct Hgi. lia.
    - exfalso. assert (active s = S (active (mkState (gHeap s) (setGor (gors s) i Gone) 0 (results s) (main s) (crashed s)))) as K; [|lia].
      apply active_less; [rewrite HM; exact Hi|now rewrite Eg].
    - exfalso. assert (active s = S (active (mkState (gHeap s) (setGor (gors s) i Gone) 0 (results s) (main s) (crashed s)))) as K; [|lia].
      apply active_less; [rewrite HM; exact Hi|now rewrite Eg].
    - destruct Hgi as (_ & K). exact K.
  Qed.
  Lemma grid_crash schedule : crashed (grun schedule (start h0)) = true -> exists i, (i < n)%nat /\ alone i = Panic.
  Proof. intros H. destruct (inv_run schedule _ inv_start) as (_ & _ & _ & _ & HC). now apply HC. Qed.

  (** ** no more than a batch at a time *)
  Definition batchInv (s : state) : Prop :=
    match main s with Launch _ j => (wg s <= j /\ j <= batch)%nat | _ => (wg s <= batch)%nat end.
  Lemma batchInv_step w s s' : batchInv s -> gstep w s = Some s' -> batchInv s'.
  Proof.
    intros HI E. unfold gstep in E. destruct (crashed s); [discriminate|]. destruct w as [i|].
    - unfold gorStep in E. unfold batchInv in *.
      destruct (gors s i) as [|p| |]; [discriminate| | |discriminate].
      + destruct p as [[a| |]|ad k|ad v k|v k]; cbn [pstep] in E; try discriminate E; injection E as <-; exact HI.
      + destruct (wg s) as [|x] eqn:Ew; injection E as <-; cbn [main wg] in *; destruct (main s); lia.
    - unfold mainStep in E. unfold batchInv in *. destruct (main s) as [i j|i|]; [| |discriminate].
      + destruct ((j <? batch)%nat && (i <? n)%nat) eqn:Eb; injection E as <-; cbn [main wg]; [|lia].
        apply andb_true_iff in Eb. destruct Eb as [Eb _]. apply Nat.ltb_lt in Eb. lia.
      + destruct (Nat.eqb_spec (wg s) 0) as [Hw|]; [|discriminate]. injection E as <-. cbn [main wg]. destruct (i <? n)%nat; lia.
  Qed.
  Lemma batchInv_run schedule : forall s, batchInv s -> batchInv (grun schedule s).
  Proof.
    induction schedule as [|w l IH]; intros s HI; cbn [grun]; [assumption|]. apply IH. destruct (gstep w s) eqn:E; [now apply (batchInv_step w s)|assumption].
  Qed.
  Lemma grid_batch schedule l : NoDup l -> (forall i, In i l -> gors (grun schedule (start h0)) i <> NotStarted /\ gors (grun schedule (start h0)) i <> Gone) ->
    (length l <= batch)%nat.
  Proof.
    intros HD HL. destruct (inv_run schedule _ inv_start) as (HG & HW & _).
    assert (batchInv (grun schedule (start h0))) as HB by (apply batchInv_run; cbn; lia).
    set (s := grun schedule (start h0)) in *.
    assert (length l <= active s)%nat as H1.
    { unfold active. apply NoDup_incl_length; [assumption|]. intros i Hi. destruct (HL i Hi) as [N1 N2]. specialize (HG i). unfold gorOK in HG.
      apply filter_In. rewrite in_seq. destruct (gors s i); try congruence; (split; [destruct HG; lia|reflexivity]). }
    rewrite <- HW in H1. unfold batchInv in HB. destruct (main s); lia.
  Qed.

  (** ** it ends: every step uses up some of a finite amount of work, and there is no deadlock *)
  Definition work (s : state) (i : nat) : nat :=
    match gors s i with
    | NotStarted => accesses i h0 (prg i) + 4
    | Running p => accesses i (gHeap s) p + 2
    | Stored => 1
    | Gone => 0
    end.
  Definition mainWork (m : pc) : nat :=
    match m with
    | Launch i j => 3 * (n - i) + (if Nat.eqb j 0 && (i <? n)%nat then 0 else 2)
    | Wait i => 3 * (n - i) + 1
    | Over => 0
    end.
  Definition sumTo (f : nat -> nat) (k : nat) : nat := list_sum (map f (seq 0 k)).
  Definition measure (s : state) : nat := mainWork (main s) + sumTo (work s) n.

  Lemma sumTo_change f g k i : (i < k)%nat -> (forall j, j <> i -> f j = g j) -> (sumTo f k + g i = sumTo g k + f i)%nat.
  Proof.
    unfold sumTo. intros Hi HE. induction k as [|k IH]; [lia|]. rewrite seq_S, !map_app, !list_sum_app. cbn [map list_sum plus Nat.add fold_right].
    destruct (Nat.eq_dec i k) as [->|Hne].
    - assert (map f (seq 0 k) = map g (seq 0 k)) as ->. { apply map_ext_in. intros j Hj. apply in_seq in Hj. apply HE. lia. } lia.
    - rewrite (HE k) by lia. specialize (IH ltac:(lia)). lia.
  Qed.
  Lemma sumTo_same f g k : (forall j, (j < k)%nat -> f j = g j) -> sumTo f k = sumTo g k.
  Proof. intros H. unfold sumTo. f_equal. apply map_ext_in. intros j Hj. apply in_seq in Hj. apply H. lia. Qed.

  Hypothesis batch_pos : (0 < batch)%nat.

  Lemma measure_main s s' : inv s -> mainStep s = Some s' -> (measure s' < measure s)%nat.
  Proof.
    intros (HG & HW & HN & HO & HC) E. unfold mainStep in E. destruct (main s) as [i j|i|] eqn:Em; [|destruct (Nat.eqb_spec (wg s) 0) as [Hw|]; [|discriminate]|discriminate].
    - destruct ((j <? batch)%nat && (i <? n)%nat) eqn:Eb; injection E as <-; unfold measure; cbn [main]; rewrite Em.
      + apply andb_true_iff in Eb. destruct Eb as [Eb1 Eb2]. apply Nat.ltb_lt in Eb1, Eb2.
        assert (gors s i = NotStarted /\ gHeap s i = h0 i) as [Ei Eh].
        { specialize (HG i). unfold gorOK in HG. rewrite Em in HG. cbn [next] in HG. destruct (gors s i); [tauto|destruct HG; lia|destruct HG; lia|destruct HG; lia]. }
        set (s1 := mkState _ _ _ _ _ _).
        pose proof (sumTo_change (work s1) (work s) n i Eb2) as K.
        assert (forall k, k <> i -> work s1 k = work s k) as Hk.
        { intros k Hne. unfold work, s1. cbn [gors gHeap]. now rewrite setGor_neq. }
        specialize (K Hk). assert (work s i = accesses i h0 (prg i) + 4)%nat as E1 by (unfold work; now rewrite Ei).
        assert (work s1 i = accesses i h0 (prg i) + 2)%nat as E2.
        { unfold work, s1. cbn [gors gHeap]. rewrite setGor_eq. now rewrite (accesses_own i (prg i) _ h0 (prg_local i) Eh). }
        cbn [mainWork]. destruct (Nat.eqb (S j) 0 && _), (Nat.eqb j 0 && _); lia.
      + cbn [mainWork]. assert (Nat.eqb j 0 && (i <? n)%nat = false) as ->.
        { apply andb_false_iff in Eb. apply andb_false_iff. destruct Eb as [Eb|Eb]; [left|now right]. apply Nat.ltb_ge in Eb. apply Nat.eqb_neq. lia. }
        rewrite (sumTo_same _ (work s)) by reflexivity. lia.
    - injection E as <-. unfold measure. cbn [main]. rewrite Em. rewrite (sumTo_same _ (work s)) by reflexivity.
      destruct (i <? n)%nat eqn:Ei; cbn [mainWork]; [|lia]. rewrite Ei. cbn [Nat.eqb andb]. lia.
  Qed.
  Lemma measure_gor i s s' : inv s -> gorStep i s = Some s' -> crashed s' = true \/ (measure s' < measure s)%nat.
  Proof.
    intros (HG & HW & HN & HO & HC) E. unfold gorStep in E. assert (Hi := HG i). unfold gorOK in Hi.
    assert (forall h' g w r c, (i < n)%nat -> (forall k, k <> i -> h' k = gHeap s k) ->
       (work (mkState h' (setGor (gors s) i g) w r (main s) c) i < work s i)%nat ->
       (measure (mkState h' (setGor (gors s) i g) w r (main s) c) < measure s)%nat) as Hless.
    { intros h' g w r c Hin Hh Hw. unfold measure. cbn [main]. pose (s1 := mkState h' (setGor (gors s) i g) w r (main s) c). fold s1 in Hw |- *.
      pose proof (sumTo_change (work s1) (work s) n i Hin) as K.
      assert (forall k, k <> i -> work s1 k = work s k) as Hk.
      { intros k Hne. specialize (HG k). unfold gorOK in HG. unfold work, s1. cbn [gors gHeap]. rewrite setGor_neq by assumption.
        destruct (gors s k) as [|p| |]; try reflexivity. destruct HG as (_ & HL & _). now rewrite (accesses_own k p _ _ HL (Hh k Hne)). }
      specialize (K Hk). lia. }
    destruct (gors s i) as [|p| |] eqn:Eg; try discriminate.
    - destruct Hi as (H1 & H2 & H3 & H4).
      assert (forall h' p', (match p with Done _ => False | _ => True end) -> pstep i (gHeap s) p = (h', p') ->
         (measure (mkState h' (setGor (gors s) i (Running p')) (wg s) (results s) (main s) (crashed s)) < measure s)%nat) as Hstep.
      { intros h' p' Hp Ep. apply Hless; [lia| |].
        - intros k Hk. pose proof (pstep_frame i (gHeap s) p k H2 Hk) as F. now rewrite Ep in F.
        - unfold work. cbn [gors gHeap]. rewrite setGor_eq, Eg. pose proof (accesses_pstep i (gHeap s) p) as K. rewrite Ep in K. cbn [fst snd] in K. rewrite K.
          destruct p; [contradiction| | |]; cbn [accesses]; lia. }
      destruct p as [[a| |]|ad k|ad v k|v k]; try discriminate.
      + injection E as <-. right. apply Hless; [lia|reflexivity|]. unfold work. cbn [gors gHeap]. rewrite setGor_eq, Eg. cbn [accesses]. lia.
      + injection E as <-. now left.
      + cbn [pstep] in E. injection E as <-. right. now apply Hstep.
      + cbn [pstep] in E. injection E as <-. right. now apply Hstep.
      + cbn [pstep] in E. injection E as <-. right. now apply Hstep.
    - destruct (wg s) as [|w]; injection E as <-; [now left|]. right. destruct Hi as (H1 & _).
      apply Hless; [lia|reflexivity|]. unfold work. cbn [gors gHeap]. rewrite setGor_eq, Eg. lia.
  Qed.

  (** [k] steps in a row *)
  Inductive steps : nat -> state -> state -> Prop :=
  | steps_0 s : steps 0 s s
  | steps_S k s w s1 s2 : gstep w s = Some s1 -> steps k s1 s2 -> steps (S k) s s2.

  Hypothesis all_end : forall i, (i < n)%nat -> exists a, alone i = Ok a.

  Lemma inv_no_crash s : inv s -> crashed s = false.
  Proof.
    intros (_ & _ & _ & _ & HC). destruct (crashed s); [|reflexivity]. destruct (HC eq_refl) as (i & Hi & Ha). destruct (all_end i Hi) as [a K]. congruence.
  Qed.
  Lemma steps_inv k s s' : steps k s s' -> inv s -> inv s' /\ (k + measure s' <= measure s)%nat.
  Proof.
    induction 1 as [s|k s w s1 s2 E _ IH]; intros HI; [split; [assumption|lia]|].
    assert (inv s1) as HI1 by now apply (inv_step w s). destruct (IH HI1) as [HI2 HM]. split; [assumption|].
    assert (measure s1 < measure s)%nat; [|lia].
    pose proof (inv_no_crash s1 HI1) as HC. unfold gstep in E. destruct (crashed s); [discriminate|]. destruct w as [i|].
    - destruct (measure_gor i s s1 HI E) as [K|K]; [congruence|assumption].
    - now apply measure_main.
  Qed.
  Lemma no_deadlock s : inv s -> (forall w, gstep w s = None) -> main s = Over.
  Proof.
    intros HI Hstuck. pose proof (inv_no_crash s HI) as HC. destruct HI as (HG & HW & HN & HO & _).
    pose proof (Hstuck None) as K. unfold gstep in K. rewrite HC in K. unfold mainStep in K. destruct (main s) as [i j|i|] eqn:Em; [destruct (_ && _); discriminate| |reflexivity].
    destruct (Nat.eqb_spec (wg s) 0) as [|Hw]; [discriminate|]. exfalso.
    unfold active in HW. rewrite Em in HW. cbn [next] in *. destruct (filter _ _) as [|k l] eqn:EF; [cbn in HW; lia|].
    assert (In k (filter (fun i => activeG (gors s i)) (seq 0 i))) as Hk by (rewrite EF; now left).
    apply filter_In in Hk. destruct Hk as [Hk1 Hk2]. apply in_seq in Hk1.
    pose proof (Hstuck (Some k)) as Kg. unfold gstep in Kg. rewrite HC in Kg. unfold gorStep in Kg. specialize (HG k). unfold gorOK in HG.
    destruct (gors s k) as [|p| |]; try discriminate Hk2.
    - destruct HG as (_ & _ & _ & HA). destruct (all_end k ltac:(lia)) as [a Ha]. rewrite Ha in HA.
      destruct p as [[a'| |]|ad q|ad v q|v q]; cbn [exec snd pstep] in *; congruence.
    - destruct (wg s); discriminate.
  Qed.
  (** every way of running the program ends, after a bounded number of steps, with all results stored *)
  Lemma grid_terminates k s : steps k (start h0) s ->
    (k <= measure (start h0))%nat /\ crashed s = false /\
    ((forall w, gstep w s = None) -> main s = Over /\ forall i, (i < n)%nat -> exists a, alone i = Ok a /\ results s i = Some (post i a)).
  Proof.
    intros HS. destruct (steps_inv k _ _ HS inv_start) as [HI HM]. split; [lia|]. split; [now apply inv_no_crash|]. intros Hstuck.
    pose proof (no_deadlock s HI Hstuck) as HO. split; [assumption|]. intros i Hi.
    destruct HI as (HG & HW & _ & HO' & _). specialize (HO' HO). assert (Hgi := HG i). unfold gorOK in Hgi. rewrite HO in Hgi. cbn [next] in Hgi.
    assert (activeG (gors s i) = true -> False) as Hact.
    { intros Ha. assert (active s = S (active (mkState (gHeap s) (setGor (gors s) i Gone) 0 (results s) (main s) (crashed s)))) as K; [|lia].
      apply active_less; [rewrite HO; exact Hi|assumption]. }
    destruct (gors s i) as [|p| |]; [destruct Hgi; lia|now destruct Hact|now destruct Hact|]. destruct Hgi as (_ & K). exact K.
  Qed.
  (** wherever a schedule has led, going on suitably finishes the program *)
  Lemma grun_app l l' : forall s, grun (l ++ l') s = grun l' (grun l s).
  Proof. induction l as [|w l IH]; intros s; [reflexivity|]. cbn [app grun]. apply IH. Qed.
  Lemma finish : forall m s, (measure s <= m)%nat -> inv s -> exists more, main (grun more s) = Over.
  Proof.
    induction m as [m IH] using lt_wf_ind. intros s Hm HI. pose proof (inv_no_crash s HI) as HC.
    destruct (existsb (fun w => match gstep w s with Some _ => true | None => false end) (None :: map Some (seq 0 n))) eqn:EX.
    - apply existsb_exists in EX. destruct EX as (w & _ & EW). destruct (gstep w s) as [s1|] eqn:ES; [|discriminate].
      pose proof (inv_step w s s1 HI ES) as HI1. destruct (steps_inv 1 s s1 (steps_S 0 s w s1 s1 ES (steps_0 s1)) HI) as [_ HM].
      destruct (IH (measure s1) ltac:(lia) s1 ltac:(lia) HI1) as [more E]. exists (w :: more). cbn [grun]. rewrite ES. exact E.
    - exists []. cbn [grun]. apply no_deadlock; [assumption|].
      assert (forall w, In w (None :: map Some (seq 0 n)) -> gstep w s = None) as HN.
      { intros w Hw. destruct (gstep w s) eqn:E; [|reflexivity]. assert (existsb (fun w => match gstep w s with Some _ => true | None => false end) (None :: map Some (seq 0 n)) = true) as K; [|congruence].
        apply existsb_exists. exists w. rewrite E. auto. }
      intros [i|]; [|apply HN; now left]. destruct (Nat.ltb_spec i n) as [Hi|Hi]; [apply HN; right; apply in_map, in_seq; lia|].
      unfold gstep. rewrite HC. unfold gorStep. destruct HI as (HG & _ & Hn & _). specialize (HG i). unfold gorOK in HG.
      destruct (gors s i); [reflexivity|lia|lia|reflexivity].
  Qed.
  Lemma grid_extend schedule : exists more, main (grun (schedule ++ more) (start h0)) = Over /\ crashed (grun (schedule ++ more) (start h0)) = false.
  Proof.
    destruct (finish (measure (grun schedule (start h0))) (grun schedule (start h0)) ltac:(lia) ltac:(apply inv_run, inv_start)) as [more E].
    exists more. rewrite grun_app. split; [exact E|]. apply inv_no_crash. apply inv_run, inv_run, inv_start.
  Qed.
End Grid.
