(** Prop_Ptr.v -- property C92: with pointers, a history of calls computes what it computes on values. *)
From Coq Require Import String.
From Verif Require Import Base U256Z SwapMath TickMath TickData Pool Ptr PtrFacts PtrPoolFacts.
Ltac Zify.zify_post_hook ::= idtac.
Open Scope Z_scope.

(** ** C92 *)
(** Any calls, in any order, with the client's variables as arguments and with in-place computations of the client in between:
    the outcome, the pool and the client's variables are those of the functions on values, and no other variable changes. *)
Theorem C92_calls_are_calls_on_values : forall fuel cs m P p xs vs,
  poolOk m P p -> client m P xs vs ->
  match callsP fuel cs P xs m, callsV fuel cs p vs with
  | Ok (r, m'), Ok s =>
      poolOk m' (fst r) (fst s) /\ client m' (fst r) (snd r) (snd s) /\
      (forall q v, ~ In q (written P) -> ~ In q xs -> nth_error m q = Some v -> nth_error m' q = Some v)
  | Panic, Panic => True
  | OutOfFuel, OutOfFuel => True
  | _, _ => False
  end.
Proof.
  intros fuel cs m P p xs vs H C. pose proof (ok_calls fuel cs m P p xs vs H C) as X. unfold ok in X.
  destruct (callsP fuel cs P xs m) as [[r m']| |], (callsV fuel cs p vs) as [s| |]; auto. destruct X as ([L K] & X1 & X2 & _).
  split; [exact X1|]. split; [exact X2|]. intros q v Nw Nx V. apply K; [unfold wr; tauto|eapply val_lt, V|exact V].
Qed.
Print Assumptions C92_calls_are_calls_on_values.

(** From the start of a program: the exported variables, one variable for the price, and the client's. *)
Theorem C92_a_program_from_its_start : forall t0 t1 fee price vs fuel cs,
  match (let* P := NewPoolP t0 t1 fee 9 in callsP fuel cs P (seq 10 (length vs))) (globals ++ price :: vs),
        (do p <- NewPool t0 t1 fee price; callsV fuel cs p vs) with
  | Ok (r, m'), Ok s =>
      poolIs m' (fst r) (fst s) /\ Forall2 (fun x v => nth_error m' x = Some v) (snd r) (snd s) /\
      (forall i v, nth_error globals i = Some v -> nth_error m' i = Some v) /\ nth_error m' 9 = Some price
  | Panic, Panic => True
  | OutOfFuel, OutOfFuel => True
  | _, _ => False
  end.
Proof.
  intros t0 t1 fee price vs fuel cs. set (m := globals ++ price :: vs).
  assert (Gl m) as G by (intros i v E; now apply val_app).
  assert (val m 9 price) as V by reflexivity.
  assert (length m = 10 + length vs)%nat as Lm by (unfold m; rewrite app_length; reflexivity).
  assert (forall l k, (forall i v, nth_error l i = Some v -> nth_error m (k + i) = Some v) -> Forall2 (val m) (seq k (length l)) l) as Sq.
  { induction l as [|x l IH]; intros k E; [constructor|]. cbn [length seq]. constructor.
    - unfold val. rewrite <- (Nat.add_0_r k). now apply E.
    - apply IH. intros i v Ei. replace (S k + i)%nat with (k + S i)%nat by lia. now apply E. }
  pose proof (ok_NewPool m t0 t1 fee 9%nat price G V) as X. unfold ok in X. unfold mbind.
  destruct (NewPoolP t0 t1 fee 9 m) as [[P m1]| |], (NewPool t0 t1 fee price) as [p| |]; try contradiction; cbn [bind]; auto.
  destruct X as (K & Ok1 & Wr & Ro).
  assert (client m1 P (seq 10 (length vs)) vs) as C.
  { split; [|split; [apply seq_NoDup|]].
    - eapply vals_keep; [|exact K|intros q _ []]. apply Sq. intros i v Ei. unfold m. rewrite nth_error_app2; [|cbn; lia]. cbn [globals length Nat.sub Nat.add].
      replace (10 + i - 9)%nat with (S i) by lia. exact Ei.
    - intros q Hq. apply in_seq in Hq. split; [lia|]. split; [intros Y; apply Wr in Y; lia|]. rewrite Ro. cbn [In]. lia. }
  pose proof (C92_calls_are_calls_on_values fuel cs m1 P p _ _ Ok1 C) as Y.
  destruct (callsP fuel cs P (seq 10 (length vs)) m1) as [[r m2]| |], (callsV fuel cs p vs) as [s| |]; auto.
  destruct Y as ((G2 & Is & _) & (F2 & _) & Kp). split; [exact Is|]. split; [exact F2|]. split; [exact G2|].
  apply Kp.
  - intros Y. apply Wr in Y. lia.
  - intros Y. apply in_seq in Y. lia.
  - apply (keeps_none m m1 9 price K V).
Qed.
Print Assumptions C92_a_program_from_its_start.

(** Another pool, with which it may share the price variable, is left alone. *)
Theorem C92_other_pools_are_left_alone : forall fuel cs m P p xs vs Q q r m',
  poolOk m P p -> client m P xs vs -> poolOk m Q q ->
  (forall c, In c (written P) \/ In c xs -> ~ In c (written Q) /\ ~ In c (readOnly Q)) ->
  callsP fuel cs P xs m = Ok (r, m') -> poolOk m' Q q.
Proof.
  intros fuel cs m P p xs vs Q q r m' H C HQ D E. pose proof (ok_calls fuel cs m P p xs vs H C) as X. unfold ok in X. rewrite E in X.
  destruct (callsV fuel cs p vs) as [s| |]; try contradiction. destruct X as (K & _). eapply poolOk_keeps; [exact HQ|exact K|].
  intros c Hc. destruct (D c Hc) as [D1 D2]. split; [exact D1|]. split; [exact D2|]. destruct Hc as [Hc|Hc]; [now apply (proj2 (proj2 H))|now apply C].
Qed.
Print Assumptions C92_other_pools_are_left_alone.

(** The one variable of the caller that a pool keeps is the price given to [NewPool], ... *)
Theorem C92_a_new_pool_keeps_the_price_variable : forall t0 t1 fee s m P m',
  Gl m -> (s < length m)%nat -> NewPoolP t0 t1 fee s m = Ok (P, m') ->
  zPrice P = s /\ readOnly P = [s] /\ (forall q, In q (written P) -> (length m <= q)%nat) /\
  forall w, nth_error (setM m' s w) (zPrice P) = Some w.
Proof.
  intros t0 t1 fee s m P m' G L E. destruct (val_ex m s L) as [v V]. pose proof (ok_NewPool m t0 t1 fee s v G V) as X. unfold ok in X. rewrite E in X.
  destruct (NewPool t0 t1 fee v) as [p| |]; try contradiction. destruct X as ([Lm K] & _ & Wr & Ro). pose proof Ro as Ro'. unfold readOnly in Ro'. injection Ro' as -> _.
  split; [reflexivity|]. split; [exact Ro|]. split; [exact Wr|]. intros w. apply setM_same. lia.
Qed.
Print Assumptions C92_a_new_pool_keeps_the_price_variable.
(** ... and from the first swap on it keeps none. *)
Theorem C92_a_swap_replaces_the_price_variable : forall fuel m P p z a l va vl r m',
  poolOk m P p -> nth_error m a = Some va -> nth_error m l = Some vl -> ~ In a (written P) ->
  swapP fuel P z a l m = Ok (r, m') -> (length m <= zPrice (fst (fst r)))%nat.
Proof.
  intros fuel m P p z a l va vl r m' H Va Vl Na E. pose proof (ok_swap_price fuel m P p z a l va vl H Va Vl Na) as X. unfold ok in X. rewrite E in X.
  destruct (swap fuel p z va vl) as [s| |]; try contradiction. apply X.
Qed.
Print Assumptions C92_a_swap_replaces_the_price_variable.

(** What [Clone] shares with the original are the ticks' variables, and nothing else. *)
Theorem C92_a_clone_shares_the_ticks : forall m P p,
  poolOk m P p ->
  exists P' m', PoolCloneP P m = Ok (P', m') /\ poolOk m' P' (PoolClone p) /\ poolOk m' P p /\ zData P' = zData P /\
    forall q, In q (written P') \/ In q (readOnly P') -> In q (tc (yTicks (zData P))) \/ (length m <= q)%nat.
Proof.
  intros m P p H. pose proof (ok_Clone m P p H) as X. unfold ok in X. destruct (PoolCloneP P m) as [[P' m']| |]; try contradiction.
  destruct X as (K & X1 & X2 & X3 & X4). exists P', m'. split; [reflexivity|]. split; [exact X1|]. split; [eapply poolOk_none; eassumption|]. split; [exact X2|].
  intros q [Hq|Hq]; [now apply X3|right; now apply X4].
Qed.
Print Assumptions C92_a_clone_shares_the_ticks.

(** ** non-vacuity *)
Definition exCalls : list call :=
  [KMintStrategy (-600) 600 0; KMint (-1200) 1200 0; KInput 1 "A" 3; KSet usub 1 5 4; KBurnStrategy (-600) 600 0; KCollect (-600) 600;
   KOutput 2 "B" 3; KFlash 1 1; KBurn (-1200) 1200 1; KNew 7].
Definition exPrice : Z := 101 * (Q96 / 100).
Definition exVals : list Z := [10 ^ 9; 10 ^ 6; uneg (10 ^ 5); 0].
(** the program runs to its end, in memory and on values *)
Example C92_ex_runs :
  match (let* P := NewPoolP "A" "B" 3000 9 in callsP 20 exCalls P (seq 10 4)) (globals ++ exPrice :: exVals),
        (do p <- NewPool "A" "B" 3000 exPrice; callsV 20 exCalls p exVals) with
  | Ok (r, m'), Ok s => (length (snd r), length (snd s), length (yTicks (zData (fst r))), map (fun x => nth_error m' x) (snd r)) = (15%nat, 15%nat, 2%nat, map Some (snd s))
  | _, _ => False
  end.
Proof. vm_compute. reflexivity. Qed.
Example C92_ex_hypotheses :
  exists P m p, NewPoolP "A" "B" 3000 9 (globals ++ exPrice :: exVals) = Ok (P, m) /\ NewPool "A" "B" 3000 exPrice = Ok p /\ poolOk m P p /\ client m P (seq 10 4) exVals.
Proof.
  set (m0 := globals ++ exPrice :: exVals).
  assert (Gl m0) as G by (intros i v E; now apply val_app).
  assert (val m0 9 exPrice) as V by reflexivity.
  pose proof (ok_NewPool m0 "A" "B" 3000 9%nat exPrice G V) as X. unfold ok in X.
  destruct (NewPoolP "A" "B" 3000 9 m0) as [[P m]| |] eqn:E; [|vm_compute in E; discriminate E|vm_compute in E; discriminate E].
  destruct (NewPool "A" "B" 3000 exPrice) as [p| |] eqn:E'; try contradiction. destruct X as (K & Ok1 & Wr & Ro).
  exists P, m, p. split; [reflexivity|]. split; [reflexivity|]. split; [exact Ok1|]. split; [|split; [apply seq_NoDup|]].
  - eapply vals_keep; [|exact K|intros q _ []]. repeat constructor.
  - intros q Hq. apply in_seq in Hq. split; [lia|]. split; [intros Y; apply Wr in Y; cbn in Y; lia|]. rewrite Ro. cbn [In]. lia.
Qed.
(** a caller that reuses the variable it gave to [NewPool] moves the pool's price and not its tick *)
Example C92_ex_shared_price :
  match NewPoolP "A" "B" 3000 9 (globals ++ [Q96]) with
  | Ok (P, m) => (zTick P, nth_error (setM m 9 (2 * Q96)) (zPrice P)) = (0, Some (2 * Q96))
  | _ => False
  end.
Proof. vm_compute. reflexivity. Qed.
