(** PtrPoolFacts.v -- the methods of the pool with pointers do what those of Pool.v do to values. *)
From Coq Require Import String Permutation.
From Verif Require Import Base U256Z SwapMath TickMath TickData Pool TickHeap Ptr PtrFacts.
Ltac Zify.zify_post_hook ::= idtac.
Open Scope Z_scope.

Definition posIs (m : Mem) (l : PositionsP) (k : Positions) : Prop :=
  Forall2 (fun a b => fst a = fst b /\ infoIs m (snd a) (snd b)) l k.
Definition poolIs (m : Mem) (P : PoolP) (p : Pool) : Prop :=
  zToken0 P = Token0 p /\ zToken1 P = Token1 p /\ zFee P = Fee p /\ zSpacing P = TickSpacing p /\ zTick P = TickCurrent p /\
  val m (zPrice P) (SqrtRatio p) /\ val m (zLiquidity P) (Liquidity p) /\ val m (zGrowth0 P) (FeeGrowth0 p) /\ val m (zGrowth1 P) (FeeGrowth1 p) /\
  tableIs m (zData P) (Data p) /\ posIs m (zPos P) (Pos p).

(** the variables the pool writes, and those it only reads *)
Definition owed (l : PositionsP) : list ptr := flat_map (fun kv => [iOwed0 (snd kv); iOwed1 (snd kv)]) l.
Definition kept (l : PositionsP) : list ptr := flat_map (fun kv => [iLiquidity (snd kv); iLast0 (snd kv); iLast1 (snd kv)]) l.
Definition written (P : PoolP) : list ptr := zLiquidity P :: zGrowth0 P :: zGrowth1 P :: tc (yTicks (zData P)) ++ owed (zPos P).
Definition readOnly (P : PoolP) : list ptr := zPrice P :: kept (zPos P).
(** no variable that is written has a second name inside the pool or is one of the exported ones *)
Definition separate (P : PoolP) : Prop :=
  NoDup (written P) /\ forall q, In q (written P) -> (9 <= q)%nat /\ ~ In q (readOnly P).
Definition poolOk (m : Mem) (P : PoolP) (p : Pool) : Prop := Gl m /\ poolIs m P p /\ separate P.

Lemma NoDup_app_iff {A} (l1 l2 : list A) : NoDup (l1 ++ l2) <-> NoDup l1 /\ NoDup l2 /\ (forall x, In x l1 -> ~ In x l2).
Proof.
  split.
  - intros N. split; [now apply nodup_l in N|]. split; [now apply nodup_r in N|]. intros x. now apply NoDup_app_not.
  - intros (N1 & N2 & D). induction l1 as [|x l1 IH]; [exact N2|]. cbn [app]. apply NoDup_cons_iff in N1. destruct N1 as [Nx N1].
    constructor; [|apply IH; [exact N1|intros y Iy; apply D; now right]]. intros K. apply in_app_or in K. destruct K as [K|K]; [auto|].
    apply (D x); [now left|exact K].
Qed.
(** the same, part by part *)
Definition parts (l g0 g1 : ptr) (T O I : list ptr) : Prop :=
  l <> g0 /\ l <> g1 /\ g0 <> g1 /\ NoDup T /\ NoDup O /\
  (forall q, In q T -> ~ In q O /\ q <> l /\ q <> g0 /\ q <> g1 /\ (9 <= q)%nat) /\
  (forall q, In q O -> q <> l /\ q <> g0 /\ q <> g1 /\ (9 <= q)%nat) /\
  (forall q, In q I -> ~ In q T /\ ~ In q O /\ q <> l /\ q <> g0 /\ q <> g1) /\
  (9 <= l)%nat /\ (9 <= g0)%nat /\ (9 <= g1)%nat.
Lemma separate_parts P : separate P <-> parts (zLiquidity P) (zGrowth0 P) (zGrowth1 P) (tc (yTicks (zData P))) (owed (zPos P)) (readOnly P).
Proof.
  unfold separate, written, parts. set (T := tc _). set (O := owed _). set (I := readOnly P). clearbody T O I. split.
  - intros [N D]. apply NoDup_cons_iff in N. destruct N as [N1 N]. apply NoDup_cons_iff in N. destruct N as [N2 N]. apply NoDup_cons_iff in N. destruct N as [N3 N].
    apply NoDup_app_iff in N. destruct N as (NT & NO & TO). cbn [In] in N1, N2, D. rewrite in_app_iff in N1, N2, N3.
    assert (forall q, In q T -> 9 <= q /\ ~ In q I)%nat as DT by (intros q Hq; apply D; do 3 right; apply in_or_app; now left).
    assert (forall q, In q O -> 9 <= q /\ ~ In q I)%nat as DO by (intros q Hq; apply D; do 3 right; apply in_or_app; now right).
    pose proof (D (zLiquidity P) (or_introl eq_refl)) as [L1 R1]. pose proof (D (zGrowth0 P) (or_intror (or_introl eq_refl))) as [L2 R2].
    pose proof (D (zGrowth1 P) (or_intror (or_intror (or_introl eq_refl)))) as [L3 R3].
    split; [intros E; apply N1; left; congruence|]. split; [intros E; apply N1; right; left; congruence|]. split; [intros E; apply N2; left; congruence|].
    split; [exact NT|]. split; [exact NO|]. split; [|split; [|split; [|auto]]].
    + intros q Hq. split; [now apply TO|]. split; [intros ->; tauto|]. split; [intros ->; tauto|]. split; [intros ->; tauto|]. now apply DT.
    + intros q Hq. split; [intros ->; tauto|]. split; [intros ->; tauto|]. split; [intros ->; tauto|]. now apply DO.
    + intros q Hq. split; [intros K; now apply DT in K|]. split; [intros K; now apply DO in K|]. repeat split; intros ->; tauto.
  - intros (E1 & E2 & E3 & NT & NO & TD & OD & ID & L1 & L2 & L3). split.
    + assert (NoDup (T ++ O)) as NTO by (apply NoDup_app_iff; split; [exact NT|]; split; [exact NO|]; intros q Hq; now apply TD).
      repeat (apply NoDup_cons; [cbn [In]; rewrite in_app_iff|]); [| | |exact NTO]; intros K; repeat (destruct K as [K|K]; [try congruence|]);
        try (apply TD in K; tauto); try (apply OD in K; tauto).
    + intros q Hq. split.
      * cbn [In] in Hq. rewrite in_app_iff in Hq. destruct Hq as [<-|[<-|[<-|[Hq|Hq]]]]; auto; [now apply TD|now apply OD].
      * intros K. apply ID in K. cbn [In] in Hq. rewrite in_app_iff in Hq. intuition.
Qed.

(** ** the table of positions *)
Lemma posGet_is m l k key : posIs m l k ->
  match posGetP l key, posGet k key with Some i, Some v => infoIs m i v | None, None => True | _, _ => False end.
Proof.
  intros F. induction F as [|[a i] [b v] l k [E H] F IH]; [exact I|]. cbn [fst snd posGetP posGet] in *. subst b. destruct (keyEq a key); auto.
Qed.
Lemma posGet_in l key i : posGetP l key = Some i -> incl [iOwed0 i; iOwed1 i] (owed l) /\ incl [iLiquidity i; iLast0 i; iLast1 i] (kept l).
Proof.
  induction l as [|[a j] l IH]; [discriminate|]. cbn [posGetP]. unfold owed, kept. cbn [flat_map snd]. destruct (keyEq a key).
  - intros [= ->]. split; apply incl_appl, incl_refl.
  - intros E. destruct (IH E). split; now apply incl_appr.
Qed.
Lemma posIs_frame m m1 l k : (forall q v, In q (owed l) \/ In q (kept l) -> val m q v -> val m1 q v) -> posIs m l k -> posIs m1 l k.
Proof.
  intros H F. induction F as [|[a i] [b v] l k [E T] F IH]; [constructor|]. unfold owed, kept in H. cbn [flat_map snd] in H. cbn [fst snd] in *. constructor.
  - split; [exact E|]. cbn [snd]. destruct T as (V1 & V2 & V3 & V4 & V5). repeat split; apply H; auto; cbn; auto 7.
  - apply IH. intros q w I. apply H. cbn [app In]. destruct I as [I|I]; [left|right]; auto.
Qed.
Lemma posPut_owed l key i j : posGetP l key = Some i -> iOwed0 j = iOwed0 i -> iOwed1 j = iOwed1 i -> owed (posPutP l key j) = owed l.
Proof.
  intros E E0 E1. revert E. induction l as [|[a x] l IH]; [discriminate|]. cbn [posGetP posPutP]. unfold owed in *. destruct (keyEq a key).
  - intros [= ->]. cbn [flat_map snd]. now rewrite E0, E1.
  - intros E. cbn [flat_map snd]. now rewrite IH.
Qed.
Lemma posPut_owed_new l key j : posGetP l key = None -> owed (posPutP l key j) = owed l ++ [iOwed0 j; iOwed1 j].
Proof.
  induction l as [|[a x] l IH]; [reflexivity|]. cbn [posGetP posPutP]. unfold owed in *. destruct (keyEq a key); [discriminate|].
  intros E. cbn [flat_map snd app]. now rewrite IH.
Qed.
Lemma posPut_kept l key j q : In q (kept (posPutP l key j)) -> In q (kept l) \/ In q [iLiquidity j; iLast0 j; iLast1 j].
Proof.
  induction l as [|[a x] l IH]; cbn [posPutP]; unfold kept in *; [cbn; tauto|]. destruct (keyEq a key); cbn [flat_map snd]; rewrite !in_app_iff; [tauto|].
  intros [H|H]; [tauto|]. apply IH in H. tauto.
Qed.
Lemma posPut_id l key i : posGetP l key = Some i -> posPutP l key i = l.
Proof.
  induction l as [|[a x] l IH]; [discriminate|]. cbn [posGetP posPutP]. destruct (keyEq a key); [intros [= ->]; reflexivity|]. intros E. now rewrite IH.
Qed.
Lemma posPut_get l key j : (forall a, keyEq a a = true) -> posGetP (posPutP l key j) key = Some j.
Proof.
  intros R. induction l as [|[a x] l IH]; cbn [posGetP posPutP]; [now rewrite R|]. destruct (keyEq a key) eqn:E; cbn [posGetP]; rewrite E; auto.
Qed.
(** one position was written *)
Lemma posPut_is m m1 l k key i j v : posIs m l k -> NoDup (owed l) -> (forall q, In q (kept l) -> ~ In q (owed l)) -> posGetP l key = Some i ->
  (forall q w, q <> iOwed0 i -> q <> iOwed1 i -> In q (owed l) \/ In q (kept l) -> val m q w -> val m1 q w) -> infoIs m1 j v ->
  posIs m1 (posPutP l key j) (posPut k key v).
Proof.
  intros F. induction F as [|[a x] [b y] l k [E T] F IH]; intros N D; [discriminate|]. cbn [posGetP posPutP posPut]. cbn [fst snd] in *. subst b.
  unfold owed, kept in N, D |- *. cbn [flat_map snd app] in N, D |- *. fold (owed l) in *. fold (kept l) in *.
  apply NoDup_cons_iff in N. destruct N as [N1 N]. apply NoDup_cons_iff in N. destruct N as [N2 N]. cbn [In] in N1, D.
  destruct (keyEq a key).
  - intros [= ->] H J. constructor; [split; [reflexivity|exact J]|]. eapply posIs_frame; [|exact F]. intros q w Hq. apply H; cbn [In].
    + intros ->. destruct Hq as [Hq|Hq]; [tauto|]. apply (D (iOwed0 i)); [tauto|now left].
    + intros ->. destruct Hq as [Hq|Hq]; [tauto|]. apply (D (iOwed1 i)); [tauto|auto].
    + tauto.
  - intros G H J. pose proof (posGet_in l key i G) as [I1 I2].
    assert (In (iOwed0 i) (owed l)) as O0 by (apply I1; now left). assert (In (iOwed1 i) (owed l)) as O1 by (apply I1; right; now left).
    constructor.
    + split; [reflexivity|]. cbn [snd]. destruct T as (V1 & V2 & V3 & V4 & V5). cbn [In] in H.
      assert (forall q, In q [iOwed0 x; iOwed1 x] -> q <> iOwed0 i /\ q <> iOwed1 i) as X.
      { cbn [In]. intros q [<-|[<-|[]]]; split; intros E; rewrite E in *; tauto. }
      assert (forall q, In q [iLiquidity x; iLast0 x; iLast1 x] -> q <> iOwed0 i /\ q <> iOwed1 i) as Y.
      { cbn [In]. intros q Hq. split; intros ->; [apply (D (iOwed0 i))|apply (D (iOwed1 i))]; tauto. }
      repeat split; (apply H; [solve [apply X; cbn [In]; tauto|apply Y; cbn [In]; tauto]|solve [apply X; cbn [In]; tauto|apply Y; cbn [In]; tauto]|tauto|assumption]).
    + apply IH; auto.
      * intros q Hq K. apply (D q); tauto.
      * intros q w E1 E2 Hq. apply H; auto. cbn [In]. tauto.
Qed.
Lemma posPut_is_new m l k key j v : posIs m l k -> posGetP l key = None -> infoIs m j v -> posIs m (posPutP l key j) (posPut k key v).
Proof.
  intros F. induction F as [|[a x] [b y] l k [E T] F IH]; [constructor; [split; [reflexivity|assumption]|constructor]|]. cbn [posGetP posPutP posPut]. cbn [fst snd] in *. subst b.
  destruct (keyEq a key); [discriminate|]. intros G J. constructor; [split; auto|]. now apply IH.
Qed.

Lemma posIs_keeps W m m1 l k : keeps W (length m) m m1 -> (forall q, In q (owed l) \/ In q (kept l) -> ~ W q) -> posIs m l k -> posIs m1 l k.
Proof. intros K D. apply posIs_frame. intros q v Hq V. eapply keeps_val; [exact K|now apply D|eapply val_lt, V|exact V]. Qed.
Lemma table_keeps W m m1 d t : keeps W (length m) m m1 -> (forall q, In q (tc (yTicks d)) -> ~ W q) -> tableIs m d t -> tableIs m1 d t.
Proof.
  intros K D [F E]. split; [|exact E]. eapply ticks_frame; [|exact F]. intros q v Hq V. eapply keeps_val; [exact K|now apply D|eapply val_lt, V|exact V].
Qed.
Lemma pos_live m l k q : posIs m l k -> In q (owed l) \/ In q (kept l) -> (q < length m)%nat.
Proof.
  intros F. induction F as [|[a i] [b v] l k [E T] F IH]; [intros [[]|[]]|]. unfold owed, kept. cbn [flat_map snd app In] in *.
  destruct T as (V1 & V2 & V3 & V4 & V5). apply val_lt in V1, V2, V3, V4, V5. fold (owed l). fold (kept l).
  intros [[<-|[<-|H]]|[<-|[<-|[<-|H]]]]; auto.
Qed.
Lemma parts_grow n l g0 g1 T O I T' O' I' : parts l g0 g1 T O I -> (l < n)%nat -> (g0 < n)%nat -> (g1 < n)%nat -> (9 <= n)%nat ->
  (forall q, In q T \/ In q O \/ In q I -> (q < n)%nat) -> NoDup T' -> NoDup O' ->
  (forall q, In q T' -> In q T \/ (n <= q)%nat) -> (forall q, In q O' -> In q O \/ (n <= q)%nat) -> (forall q, In q I' -> In q I \/ (n <= q)%nat) ->
  (forall q, (n <= q)%nat -> In q T' -> ~ In q O' /\ ~ In q I') -> (forall q, (n <= q)%nat -> In q O' -> ~ In q I') -> parts l g0 g1 T' O' I'.
Proof.
  intros (E1 & E2 & E3 & NT & NO & TD & OD & ID & L1 & L2 & L3) H1 H2 H3 H9 Old NT' NO' IT IO II X Y.
  assert (forall q, (n <= q)%nat -> q <> l /\ q <> g0 /\ q <> g1) as Z by (intros q Hq; lia).
  assert (forall q, (n <= q)%nat -> ~ In q T /\ ~ In q O /\ ~ In q I) as Nw by (intros q Hq; repeat split; intros K; specialize (Old q); assert (q < n)%nat by tauto; lia).
  unfold parts. do 3 (split; [assumption|]). split; [exact NT'|]. split; [exact NO'|]. split; [|split; [|split; [|auto]]].
  - intros q Hq. destruct (IT q Hq) as [K|K].
    + destruct (TD q K) as (D & A1 & A2 & A3 & A4). split; [|auto]. intros J. destruct (IO q J) as [J'|J']; [tauto|]. destruct (Nw q J'). tauto.
    + split; [now apply X|]. destruct (Z q K) as (? & ? & ?). repeat split; auto. lia.
  - intros q Hq. destruct (IO q Hq) as [K|K]; [now apply OD|]. destruct (Z q K) as (? & ? & ?). repeat split; auto. lia.
  - intros q Hq. destruct (II q Hq) as [K|K].
    + destruct (ID q K) as (D & D' & A). split; [|split; [|exact A]].
      * intros J. destruct (IT q J) as [J'|J']; [tauto|]. destruct (Nw q J') as (_ & _ & ?). tauto.
      * intros J. destruct (IO q J) as [J'|J']; [tauto|]. destruct (Nw q J') as (_ & _ & ?). tauto.
    + split; [|split; [|now apply Z]]; intros J; [destruct (X q K J); tauto|now apply (Y q K J)].
Qed.
Lemma pool_live m P p q : poolIs m P p -> In q (written P) \/ In q (readOnly P) -> (q < length m)%nat.
Proof.
  intros (_ & _ & _ & _ & _ & V1 & V2 & V3 & V4 & T & F). unfold written, readOnly. cbn [In]. rewrite in_app_iff.
  apply val_lt in V1, V2, V3, V4. intros [[<-|[<-|[<-|[H|H]]]]|[<-|H]]; auto; [|eapply pos_live; eauto|eapply pos_live; eauto].
  eapply tc_live; [exact (proj1 T)|exact H].
Qed.

(** the pool after a method: it holds what the function on values computes, and its variables are the old ones or new ones *)
Definition after (P : PoolP) (n : nat) : Mem -> PoolP -> Pool -> Prop := fun m P' p' =>
  poolOk m P' p' /\ (forall q, In q (written P') -> In q (written P) \/ (n <= q)%nat) /\ (forall q, In q (readOnly P') -> In q (readOnly P) \/ (n <= q)%nat).
Definition wr (P : PoolP) : ptr -> Prop := fun q => In q (written P).
(** a result: a new variable that the pool does not keep *)
Definition given (n : nat) (P' : PoolP) (m : Mem) (a : ptr) (v : Z) : Prop :=
  val m a v /\ (n <= a)%nat /\ ~ In a (written P') /\ ~ In a (readOnly P').

Lemma wr_t P q : tw (zData P) q -> wr P q.
Proof. unfold tw, wr, written. cbn [In]. rewrite in_app_iff. auto. Qed.
Lemma wr_o P q : In q (owed (zPos P)) -> wr P q.
Proof. unfold wr, written. cbn [In]. rewrite in_app_iff. auto. Qed.

Lemma ok_two m d t lo up cur a g0 g1 va v0 v1 : Gl m -> tableIs m d t -> NoDup (tc (yTicks d)) -> (forall q, tw d q -> (9 <= q)%nat) ->
  val m a va -> val m g0 v0 -> val m g1 v1 -> ~ tw d a -> ~ tw d g0 -> ~ tw d g1 ->
  ok (tw d) (length m) m
    (let* r := UpdateTickP d lo cur a g0 g1 false in let '(d, c1) := r in
     let* r := UpdateTickP d up cur a g0 g1 true in let '(d, c2) := r in mret (d, c1, c2))
    (do r <- UpdateTick t lo cur va v0 v1 false; let '(t, c1) := r in do r <- UpdateTick t up cur va v0 v1 true; let '(t, c2) := r in Ok (t, c1, c2))
    (fun m' r s => tableOk (yTicks d) (length m) m' (fst (fst r)) (fst (fst s)) /\ snd (fst r) = snd (fst s) /\ snd r = snd s).
Proof.
  intros G T N N9 Va V0 V1 Na N0 N1. eapply ok_bind; [eapply ok_UpdateTick; eassumption|lia|auto|].
  intros m1 [d1 c1] [t1 b1] K1 [(T1 & Nd1 & I1) E1]. cbn [fst snd] in *.
  pose proof (keeps_len _ _ _ _ K1). pose proof (val_lt _ _ _ Va).
  assert (Gl m1) as G1 by (eapply Gl_keeps; [exact G|exact K1|exact N9|now apply Gl_len]).
  assert (forall q v, ~ tw d q -> val m q v -> val m1 q v) as C by (intros q v D V; eapply keeps_val; [exact K1|exact D|eapply val_lt, V|exact V]).
  assert (tw d1 a -> False) as Na1 by (intros K; apply I1 in K; destruct K; [auto|lia]).
  eapply ok_bind; [eapply ok_UpdateTick; [exact G1|exact T1|exact Nd1|apply C; eassumption ..|exact Na1]|lia|exact I1|].
  intros m2 [d2 c2] [t2 b2] K2 [(T2 & Nd2 & I2) E2]. cbn [fst snd] in *. apply ok_ret. cbn [fst snd]. split; [|auto].
  split; [exact T2|]. split; [exact Nd2|]. intros q Hq. destruct (I2 q Hq) as [K|K]; [now apply I1|right; lia].
Qed.
Lemma keyEq_refl a : keyEq a a = true.
Proof. induction a as [|x a IH]; [reflexivity|]. cbn [keyEq]. now rewrite Z.eqb_refl, IH. Qed.

Lemma keeps_compose W W1 n n1 m m1 m2 : keeps W n m m1 -> keeps W1 n1 m1 m2 -> (n <= n1)%nat -> (forall q, W1 q -> W q \/ (n <= q)%nat) -> keeps W n m m2.
Proof. intros K K1 L S. eapply keeps_trans; [exact K|]. eapply keeps_weaken; eassumption. Qed.
Lemma keeps_none2 m m1 m2 : keeps none (length m) m m1 -> keeps none (length m1) m1 m2 -> keeps none (length m) m m2.
Proof. intros K1 K2. eapply keeps_compose; [exact K1|exact K2|now apply keeps_len in K1|no]. Qed.
Lemma ok_NewPosition {A B} W n m f (r : res B) (R : Mem -> A -> B -> Prop) :
  (forall m1 i, keeps none (length m) m m1 -> infoIs m1 i NewPosition -> NoDup [iOwed0 i; iOwed1 i; iLiquidity i; iLast0 i; iLast1 i] ->
     (forall q, In q [iOwed0 i; iOwed1 i; iLiquidity i; iLast0 i; iLast1 i] -> (length m <= q)%nat) -> ok W n m1 (f i) r R) ->
  ok W n m (mbind NewPositionP f) r R.
Proof.
  intros H. unfold NewPositionP. apply ok_assoc, ok_new. intros m1 p1 K1 L1 V1. apply ok_assoc, ok_new. intros m2 p2 K2 L2 V2.
  apply ok_assoc, ok_new. intros m3 p3 K3 L3 V3. apply ok_assoc, ok_new. intros m4 p4 K4 L4 V4. apply ok_assoc, ok_new. intros m5 p5 K5 L5 V5.
  apply ok_mret. carry1 K1. carry1 K2. carry1 K3. carry1 K4. carry1 K5. lens. apply H.
  - do 4 (eapply keeps_none2; [eassumption|]). exact K5.
  - now repeat split.
  - cbn [iLiquidity iLast0 iLast1 iOwed0 iOwed1]. repeat (apply NoDup_cons; [cbn [In]; lia|]). constructor.
  - cbn [iLiquidity iLast0 iLast1 iOwed0 iOwed1 In]. intros q Hq. lia.
Qed.

Lemma ok_updatePosition m P p lo up a va : poolOk m P p -> val m a va -> ~ wr P a ->
  ok (wr P) (length m) m (updatePositionP P lo up a) (updatePosition p lo up va)
    (fun m' r s => after P (length m) m' (fst r) (fst s) /\ posGetP (zPos (fst r)) (posKey lo up) = Some (snd r) /\
       zTick (fst r) = zTick P /\ zPrice (fst r) = zPrice P /\ zLiquidity (fst r) = zLiquidity P /\
       TickCurrent (fst s) = TickCurrent p /\ SqrtRatio (fst s) = SqrtRatio p /\ Liquidity (fst s) = Liquidity p).
Proof.
  intros (G & IsP & Sep) Va Na. pose proof (fun q => pool_live m P p q IsP) as Live.
  pose proof IsP as (Et0 & Et1 & Ef & Es & Et & Vp & Vl & V0 & V1 & T & F).
  apply separate_parts in Sep. pose proof Sep as (E1 & E2 & E3 & NT & NO & TD & OD & ID & L1 & L2 & L3).
  pose proof (Gl_len _ G) as L9. pose proof (val_lt _ _ _ Va) as La.
  assert (forall q, In q (kept (zPos P)) -> ~ In q (tc (yTicks (zData P)))) as KT by (intros q Hq; apply ID; now right).
  assert (forall q, In q (kept (zPos P)) -> ~ In q (owed (zPos P))) as KO by (intros q Hq; apply ID; now right).
  assert (forall q, tw (zData P) q -> (9 <= q)%nat) as T9 by (intros q Hq; now apply TD).
  assert (~ tw (zData P) a /\ ~ tw (zData P) (zGrowth0 P) /\ ~ tw (zData P) (zGrowth1 P)) as (Ta & T0 & T1).
  { split; [intros K; apply Na; now apply wr_t|]. split; intros K; apply TD in K; tauto. }
  unfold updatePositionP, updatePosition. apply (ok_ld _ _ _ _ va); [exact Va|]. rewrite Et.
  eapply (ok_bind (tw (zData P)) (wr P) (length m)) with
    (Q := fun m' r s => tableOk (yTicks (zData P)) (length m) m' (fst (fst r)) (fst (fst s)) /\ snd (fst r) = snd (fst s) /\ snd r = snd s);
    [|lia|intros q Hq; left; now apply wr_t|].
  { apply (ok_if _ _ _ (negb (va =? 0))); [now apply ok_two|]. apply ok_ret. cbn [fst snd]. split; [|auto]. split; [exact T|]. split; [exact NT|auto]. }
  intros m1 [[d c1] c2] [[t b1] b2] K1 ((T1' & Nd & Id) & Eb1 & Eb2). cbn [fst snd] in *. subst b1 b2.
  pose proof (keeps_len _ _ _ _ K1) as Lm1.
  assert (Gl m1) as G1 by (eapply Gl_keeps; [exact G|exact K1|exact T9|exact L9]).
  assert (forall q v, ~ tw (zData P) q -> val m q v -> val m1 q v) as C1 by (intros q v D V; eapply keeps_val; [exact K1|exact D|eapply val_lt, V|exact V]).
  assert (posIs m1 (zPos P) (Pos p)) as F1.
  { eapply posIs_keeps; [exact K1| |exact F]. intros q [Hq|Hq] K; [now apply TD in K|]. now apply (KT q). }
  assert (~ tw (zData P) (zPrice P)) as Tp by (apply ID; now left).
  assert (~ tw (zData P) (zLiquidity P)) as Tl by (intros K; apply TD in K; tauto).
  apply C1 in Va; [|exact Ta]. apply C1 in V0; [|exact T0]. apply C1 in V1; [|exact T1]. apply C1 in Vp; [|exact Tp]. apply C1 in Vl; [|exact Tl].
  eapply ok_bind; [eapply ok_Inside; eassumption|lia|no|]. intros m2 [x0 x1] [w0 w1] K2 ([Vx0 Lx0] & [Vx1 Lx1]). cbn [fst snd] in *.
  pose proof (keeps_len _ _ _ _ K2) as Lm2. pose proof (Gl_none _ _ G1 K2) as G2. carry1 K2.
  assert (posIs m2 (zPos P) (Pos p)) as F2 by (eapply posIs_keeps; [exact K2|intros q _ []|exact F1]).
  assert (tableIs m2 d t) as T2 by (eapply table_keeps; [exact K2|intros q _ []|exact T1']).
  pose proof (fun q => tc_live m1 _ _ q (proj1 T1')) as LvT.
  assert (forall q, In q (owed (zPos P)) -> ~ In q (kept (zPos P))) as OK by (intros q Hq Kq; now apply (KO q)).
  (* the position *)
  assert (forall m3 i v, keeps none (length m2) m2 m3 -> infoIs m3 i v ->
    posGet (Pos p) (posKey lo up) = Some v /\ posGetP (zPos P) (posKey lo up) = Some i \/
    posGet (Pos p) (posKey lo up) = None /\ v = NewPosition /\ posGetP (zPos P) (posKey lo up) = None /\ NoDup [iOwed0 i; iOwed1 i; iLiquidity i; iLast0 i; iLast1 i] /\
      (forall q, In q [iOwed0 i; iOwed1 i; iLiquidity i; iLast0 i; iLast1 i] -> (length m2 <= q)%nat) ->
    ok (wr P) (length m) m3
      (let* pos' := InfoUpdateP i a x0 x1 in
       let* va := ld a in
       let* d := lift (if usign va =? -1 then do d <- (if c1 then ClearTickP d lo else Ok d); (if c2 then ClearTickP d up else Ok d) else Ok d) in
       mret (with_zPos (with_zData P d) (posPutP (zPos P) (posKey lo up) pos'), pos'))
      (do pos' <- InfoUpdate v va w0 w1;
       do t <- (if usign va =? -1 then do t <- (if c1 then ClearTick t lo else Ok t); (if c2 then ClearTick t up else Ok t) else Ok t);
       Ok (with_pos (with_data p t) (posPut (Pos p) (posKey lo up) pos'), pos'))
      (fun m' r s => after P (length m) m' (fst r) (fst s) /\ posGetP (zPos (fst r)) (posKey lo up) = Some (snd r) /\
       zTick (fst r) = TickCurrent p /\ zPrice (fst r) = zPrice P /\ zLiquidity (fst r) = zLiquidity P /\
       TickCurrent (fst s) = TickCurrent p /\ SqrtRatio (fst s) = SqrtRatio p /\ Liquidity (fst s) = Liquidity p)) as Main.
  { intros m3 i v K3 Iv Cs. pose proof (keeps_len _ _ _ _ K3) as Lm3. pose proof (Gl_none _ _ G2 K3) as G3.
    assert (posIs m3 (zPos P) (Pos p)) as F3 by (eapply posIs_keeps; [exact K3|intros q _ []|exact F2]).
    assert (tableIs m3 d t) as T3 by (eapply table_keeps; [exact K3|intros q _ []|exact T2]).
    pose proof (val_lt _ _ _ Vx0) as Ux0. pose proof (val_lt _ _ _ Vx1) as Ux1. carry1 K3.
    assert (forall q, ow i q -> In q (owed (zPos P)) /\ (q < length m)%nat \/ (length m2 <= q)%nat) as Ow.
    { intros q Hq. destruct Cs as [(_ & Gi)|(_ & _ & _ & _ & Ni)].
      - left. assert (In q (owed (zPos P))) as X by (apply posGet_in in Gi; apply (proj1 Gi); destruct Hq as [->| ->]; cbn; auto).
        split; [exact X|]. apply Live. left. now apply wr_o.
      - right. apply Ni. destruct Hq as [->| ->]; cbn; auto. }
    assert (iOwed0 i <> iOwed1 i) as D01.
    { destruct Cs as [(_ & Gi)|(_ & _ & _ & Nd' & _)].
      - clear - Gi NO. revert Gi NO. generalize (zPos P) as l. induction l as [|[k x] l IH]; [discriminate|]. cbn [posGetP]. unfold owed. cbn [flat_map snd app].
        intros Gi N. apply NoDup_cons_iff in N. destruct N as [N1 N]. apply NoDup_cons_iff in N. destruct N as [_ N]. destruct (keyEq k (posKey lo up)).
        + injection Gi as ->. intros E. apply N1. left. congruence.
        + now apply IH.
      - apply NoDup_cons_iff in Nd'. destruct Nd' as [Nd' _]. intros E. apply Nd'. left. congruence. }
    assert (forall q, ow i q -> (9 <= q)%nat) as Ow9 by (intros q Hq; destruct (Ow q Hq) as [[Hq' _]|Hq']; [now apply OD in Hq'|lia]).
    assert (~ ow i x0 /\ ~ ow i x1) as [Nx0 Nx1].
    { split; intros K; apply Ow in K; destruct K as [[_ K]|K]; lia. }
    assert (~ ow i a) as Nai.
    { intros K. apply Ow in K. destruct K as [[K _]|K]; [|lia]. apply Na. now apply wr_o. }
    eapply ok_bind; [eapply ok_InfoUpdate; [exact G3|exact Iv|exact D01|apply Ow9; now left|apply Ow9; now right|exact Va|exact Vx0|exact Vx1|exact Nx0|exact Nx1]|lia| |].
    { intros q Hq. destruct (Ow q Hq) as [[Hq' _]|Hq']; [left; now apply wr_o|right; lia]. }
    intros m4 j w K4 (Ij & EO0 & EO1 & Lj & Ej0 & Ej1). pose proof (keeps_len _ _ _ _ K4) as Lm4.
    assert (forall q u, ~ ow i q -> val m3 q u -> val m4 q u) as C4 by (intros q u D V; eapply keeps_val; [exact K4|exact D|eapply val_lt, V|exact V]).
    assert (Gl m4) as G4 by (eapply Gl_keeps; [exact G3|exact K4|exact Ow9|now apply Gl_len]).
    assert (forall q, ow i q -> ~ In q (tc (yTicks d))) as OwT.
    { intros q Hq Kq. destruct (Ow q Hq) as [[Hq' Lq]|Hq']; [|apply LvT in Kq; lia]. destruct (Id q Kq) as [J|J]; [now apply TD in J|lia]. }
    assert (tableOk (yTicks (zData P)) (length m) m4 d t) as T4.
    { split; [eapply table_keeps; [exact K4| |exact T3]; intros q Hq K; now apply (OwT q)|]. split; [exact Nd|exact Id]. }
    apply (ok_ld _ _ _ _ va); [now apply C4|].
    eapply (ok_lift2 _ _ _ _ _ _ _ (fun d' t' => tableOk (yTicks (zData P)) (length m) m4 d' t' /\ incl (tc (yTicks d')) (tc (yTicks d)))).
    { destruct (usign va =? -1); [|split; [exact T4|apply incl_refl]].
      assert (match (if c1 then ClearTickP d lo else Ok d), (if c1 then ClearTick t lo else Ok t) with
        | Ok d', Ok t' => tableOk (yTicks (zData P)) (length m) m4 d' t' /\ incl (tc (yTicks d')) (tc (yTicks d)) | Panic, Panic => True | OutOfFuel, OutOfFuel => True | _, _ => False end) as X.
      { destruct c1; [now apply ClearTick_is|split; [exact T4|apply incl_refl]]. }
      destruct (if c1 then ClearTickP d lo else Ok d) as [d'| |], (if c1 then ClearTick t lo else Ok t) as [t'| |]; try contradiction; cbn [bind]; auto.
      destruct X as [X1 X2]. destruct c2; [|split; [exact X1|exact X2]].
      pose proof (ClearTick_is m4 d' t' up _ _ X1) as Y. destruct (ClearTickP d' up), (ClearTick t' up); try contradiction; auto.
      destruct Y as [Y1 Y2]. split; [exact Y1|]. eapply incl_tran; eassumption. }
    intros d' t' ((T' & Nd' & Id') & Inc). apply ok_ret. cbn [fst snd].
    split; [|split; [apply posPut_get, keyEq_refl|cbn; auto 9]].
    set (l' := posPutP (zPos P) (posKey lo up) j).
    assert (NoDup (owed l') /\ (forall q, In q (owed l') -> In q (owed (zPos P)) \/ (length m2 <= q < length m3)%nat) /\ posIs m4 l' (posPut (Pos p) (posKey lo up) w)) as (NO' & IO' & F').
    { destruct Cs as [(_ & Gi)|(_ & _ & Gi & Ni & Li)].
      - assert (owed l' = owed (zPos P)) as -> by (unfold l'; now apply posPut_owed with (i := i)).
        split; [exact NO|]. split; [auto|]. apply (posPut_is m3 m4 _ _ _ i); auto.
        intros q u A1 A2 _ Vq. apply C4; [unfold ow; tauto|exact Vq].
      - assert (owed l' = owed (zPos P) ++ [iOwed0 i; iOwed1 i]) as -> by (unfold l'; rewrite posPut_owed_new by exact Gi; now rewrite EO0, EO1).
        pose proof (val_lt _ _ _ (proj1 (proj2 (proj2 (proj2 Iv))))) as U0. pose proof (val_lt _ _ _ (proj2 (proj2 (proj2 (proj2 Iv))))) as U1.
        assert (length m2 <= iOwed0 i /\ length m2 <= iOwed1 i)%nat as [U2 U3] by (split; apply Li; cbn; auto).
        split; [|split].
        + apply NoDup_app_iff. split; [exact NO|]. split; [constructor; [cbn; intuition congruence|constructor; [cbn; tauto|constructor]]|].
          intros q Hq Kq. assert (q < length m)%nat by (apply Live; left; now apply wr_o). cbn [In] in Kq. destruct Kq as [<-|[<-|[]]]; lia.
        + intros q Hq. apply in_app_or in Hq. destruct Hq as [Hq|Hq]; [now left|right]. cbn [In] in Hq. destruct Hq as [<-|[<-|[]]]; lia.
        + apply posPut_is_new; [|exact Gi|exact Ij]. eapply posIs_keeps; [exact K4| |exact F3].
          intros q Hq Kq. assert (q < length m)%nat by (apply Live; destruct Hq; [left; now apply wr_o|right; now right]).
          assert (length m2 <= q)%nat by (apply Li; destruct Kq as [->| ->]; cbn; auto). lia. }
    assert (forall q, In q (kept l') -> In q (kept (zPos P)) \/ (length m <= q)%nat /\ ~ In q (tc (yTicks d')) /\ ~ (length m2 <= q < length m3)%nat) as KI.
    { intros q Hq. apply posPut_kept in Hq. destruct Hq as [Hq|Hq]; [now left|right]. cbn [In] in Hq. rewrite Ej0, Ej1 in Hq.
      assert (length m1 <= q /\ ~ (length m2 <= q < length m3))%nat as [U1 U2] by (destruct Hq as [<-|[<-|[<-|[]]]]; lia).
      split; [lia|]. split; [|exact U2]. intros Kq. apply Inc, LvT in Kq. lia. }
    assert (separate (with_zPos (with_zData P d') l')) as Sep'.
    { apply separate_parts. cbn [with_zPos with_zData zLiquidity zGrowth0 zGrowth1 zData zPos].
      eapply (parts_grow (length m)); [exact Sep| | | |exact L9| |exact Nd'|exact NO'|exact Id'| | | |].
      - apply Live. left. cbn. auto.
      - apply Live. left. cbn. auto.
      - apply Live. left. cbn. auto.
      - intros q Hq. apply Live. destruct Hq as [Hq|[Hq|Hq]]; [left; now apply wr_t|left; now apply wr_o|now right].
      - intros q Hq. apply IO' in Hq. destruct Hq; [now left|right; lia].
      - unfold readOnly. cbn [with_zPos with_zData zPrice zPos]. intros q [Hq|Hq]; [left; now left|]. apply KI in Hq. destruct Hq as [Hq|[Hq _]]; [left; now right|now right].
      - unfold readOnly. cbn [with_zPos with_zData zPrice zPos]. intros q Lq Hq. split.
        + intros Kq. apply IO' in Kq. apply Inc, LvT in Hq. destruct Kq as [Kq|Kq]; [|lia]. assert (q < length m)%nat by (apply Live; left; now apply wr_o). lia.
        + intros [<-|Kq]; [assert (zPrice P < length m)%nat by (apply Live; right; now left); lia|]. apply KI in Kq. destruct Kq as [Kq|(_ & Kq & _)]; [|auto].
          assert (q < length m)%nat by (apply Live; right; now right). lia.
      - unfold readOnly. cbn [with_zPos with_zData zPrice zPos]. intros q Lq Hq [<-|Kq]; [assert (zPrice P < length m)%nat by (apply Live; right; now left); lia|].
        apply IO' in Hq. apply KI in Kq. destruct Hq as [Hq|Hq]; [assert (q < length m)%nat by (apply Live; left; now apply wr_o); lia|].
        destruct Kq as [Kq|(_ & _ & Kq)]; [|auto]. assert (q < length m)%nat by (apply Live; right; now right). lia. }
    split; [split; [exact G4|split; [|exact Sep']]|split].
    - assert (forall q, In q (written P) \/ In q (readOnly P) -> ~ In q (owed (zPos P)) -> ~ ow i q) as Nw.
      { intros q Hq Nq Kq. apply Ow in Kq. apply Live in Hq. destruct Kq as [[Kq _]|Kq]; [auto|lia]. }
      assert (~ ow i (zPrice P) /\ ~ ow i (zLiquidity P) /\ ~ ow i (zGrowth0 P) /\ ~ ow i (zGrowth1 P)) as (Z1 & Z2 & Z3 & Z4).
      { repeat split; apply Nw; try (right; now left); try (left; cbn; now auto); try (intros Kq; apply OD in Kq; tauto). apply ID. now left. }
      unfold poolIs. cbn [with_zPos with_zData zToken0 zToken1 zFee zPrice zLiquidity zGrowth0 zGrowth1 zSpacing zTick zData zPos
        with_pos with_data Token0 Token1 Fee SqrtRatio Liquidity FeeGrowth0 FeeGrowth1 TickSpacing TickCurrent Data Pos].
      do 5 (split; [assumption|]). do 4 (split; [apply C4; assumption|]). split; [exact T'|exact F'].
    - unfold written. cbn [with_zPos with_zData zLiquidity zGrowth0 zGrowth1 zData zPos In]. intros q Hq. rewrite in_app_iff in *.
      destruct Hq as [Hq|[Hq|[Hq|[Hq|Hq]]]]; auto; [apply Id' in Hq; tauto|apply IO' in Hq]. destruct Hq as [Hq|Hq]; [tauto|right; lia].
    - unfold readOnly. cbn [with_zPos with_zData zPrice zPos In]. intros q [Hq|Hq]; auto. apply KI in Hq. tauto. }
  pose proof (posGet_is m2 _ _ (posKey lo up) F2) as Gi. cbv zeta.
  destruct (posGetP (zPos P) (posKey lo up)) as [i|] eqn:EP, (posGet (Pos p) (posKey lo up)) as [v|] eqn:Ev; try contradiction.
  - apply ok_mret. apply Main; [apply keeps_refl|exact Gi|left; auto].
  - apply ok_NewPosition. intros m3 i K3 Ii Ni Li. apply Main; auto. right. auto.
Qed.

Lemma poolOk_keeps W m m1 P p : poolOk m P p -> keeps W (length m) m m1 -> (forall q, W q -> ~ In q (written P) /\ ~ In q (readOnly P) /\ (9 <= q)%nat) -> poolOk m1 P p.
Proof.
  intros (G & (Et0 & Et1 & Ef & Es & Et & Vp & Vl & V0 & V1 & T & F) & Sep) K D. split; [|split; [|exact Sep]].
  - eapply Gl_keeps; [exact G|exact K|intros q Hq; now apply D|now apply Gl_len].
  - assert (forall q v, In q (written P) \/ In q (readOnly P) -> val m q v -> val m1 q v) as C.
    { intros q v Hq V. eapply keeps_val; [exact K| |eapply val_lt, V|exact V]. intros X. apply D in X. tauto. }
    do 5 (split; [assumption|]). split; [apply C; [right; now left|exact Vp]|]. do 3 (split; [apply C; [left; cbn; now auto|assumption]|]). split.
    + eapply table_keeps; [exact K| |exact T]. intros q Hq X. apply D in X. destruct X as [X _]. apply X. now apply wr_t.
    + eapply posIs_keeps; [exact K| |exact F]. intros q [Hq|Hq] X; apply D in X; destruct X as (X & Y & _); [apply X; now apply wr_o|apply Y; now right].
Qed.
Lemma poolOk_none m m1 P p : poolOk m P p -> keeps none (length m) m m1 -> poolOk m1 P p.
Proof. intros H K. eapply poolOk_keeps; [exact H|exact K|intros q []]. Qed.
Lemma after_none P n m m1 P' p' : after P n m P' p' -> keeps none (length m) m m1 -> after P n m1 P' p'.
Proof. intros [H I] K. split; [|exact I]. eapply poolOk_none; eassumption. Qed.
Lemma poolOk_fresh m P p n a : poolOk m P p -> (length m <= a)%nat -> (n <= length m)%nat -> (n <= a)%nat /\ ~ In a (written P) /\ ~ In a (readOnly P).
Proof. intros (_ & H & _) L Ln. split; [lia|]. split; intros K; assert (a < length m)%nat by (eapply pool_live; [exact H|auto]); lia. Qed.
Lemma poolOk_liq m m1 P p w : poolOk m P p -> wrote m (zLiquidity P) w m1 -> poolOk m1 P (with_liq p w).
Proof.
  intros (G & (Et0 & Et1 & Ef & Es & Et & Vp & Vl & V0 & V1 & T & F) & Sep) Wr. split; [|split; [|exact Sep]];
  apply separate_parts in Sep; destruct Sep as (E1 & E2 & E3 & NT & NO & TD & OD & ID & L1 & L2 & L3).
  - eapply Gl_wrote; eassumption.
  - destruct Wr as (_ & C & Vw). cbn [with_liq Token0 Token1 Fee SqrtRatio Liquidity FeeGrowth0 FeeGrowth1 TickSpacing TickCurrent Data Pos].
    unfold poolIs. cbn [with_liq Token0 Token1 Fee SqrtRatio Liquidity FeeGrowth0 FeeGrowth1 TickSpacing TickCurrent Data Pos].
    do 5 (split; [assumption|]). split; [apply C; [apply ID; now left|exact Vp]|]. split; [exact Vw|]. split; [apply C; [neq|assumption]|]. split; [apply C; [neq|assumption]|]. split.
    + split; [|exact (proj2 T)]. eapply ticks_frame; [|exact (proj1 T)]. intros q v Hq. apply C. now apply TD.
    + eapply posIs_frame; [|exact F]. intros q v [Hq|Hq]; apply C; [now apply OD|]. apply (ID q). now right.
Qed.

Definition res2 (P : PoolP) (n : nat) (m : Mem) (P' : PoolP) (p' : Pool) (a0 a1 : ptr) (v0 v1 : Z) : Prop :=
  after P n m P' p' /\ given n P' m a0 v0 /\ given n P' m a1 v1 /\ a0 <> a1.
Ltac kn := first [eassumption | eapply keeps_none2; [eassumption|kn]].
Ltac clv K := repeat match type of K with keeps ?W (length ?m) ?m ?m1 =>
  match goal with V : val m ?p ?v |- _ => apply (keeps_val W (length m) m m1 p v K) in V; [|first [tauto|assumption]|eapply val_lt, V] end end.
(** the variables are those of the memory so far *)
Ltac ub := match goal with |- ok _ _ ?m _ _ _ => repeat match goal with V : val m ?q _ |- _ =>
  lazymatch goal with _ : (q < length m)%nat |- _ => fail | _ => pose proof (val_lt m q _ V) end end end.
Lemma ok_modifyStrategy m P p lo up a va : poolOk m P p -> val m a va -> ~ wr P a ->
  ok (wr P) (length m) m (modifyPositionStrategyP P lo up a) (modifyPositionStrategy p lo up va)
    (fun m' r s => res2 P (length m) m' (fst (fst (fst r))) (fst (fst s)) (snd (fst r)) (snd r) (snd (fst s)) (snd s) /\
       posGetP (zPos (fst (fst (fst r)))) (posKey lo up) = Some (snd (fst (fst r)))).
Proof.
  intros H Va Na. unfold modifyPositionStrategyP, modifyPositionStrategy. apply ok_lift. intros _ _.
  eapply ok_bind; [eapply ok_updatePosition; eassumption|lia|auto|].
  intros m1 [P1 i] [p1 w] K1 (A1 & Gi & Et & Ep & El & Et' & Ep' & El'). cbn [fst snd] in *.
  pose proof (val_lt _ _ _ Va) as La. pose proof (keeps_len _ _ _ _ K1) as Lm1.
  apply (keeps_val _ _ _ _ _ _ K1 Na La) in Va.
  pose proof A1 as ((G & IsP & Sep) & I1 & I2). pose proof IsP as (_ & _ & _ & _ & Etk & Vp & Vl & _). rewrite Etk.
  pose proof (proj1 A1) as Ok1.
  assert (forall m2 a0 a1 v0 v1, keeps none (length m1) m1 m2 -> val m2 a0 v0 -> val m2 a1 v1 -> (length m1 <= a0)%nat -> (length m1 <= a1)%nat -> a0 <> a1 ->
    res2 P (length m) m2 P1 p1 a0 a1 v0 v1 /\ posGetP (zPos P1) (posKey lo up) = Some i) as Fin.
  { intros m2 a0 a1 v0 v1 K V0 V1 L0 L1 D. split; [|exact Gi]. split; [eapply after_none; eassumption|].
    split; [split; [exact V0|eapply poolOk_fresh; eassumption]|]. split; [split; [exact V1|eapply poolOk_fresh; eassumption]|exact D]. }
  apply (ok_ld _ _ _ _ va); [exact Va|]. destruct (va =? 0); [|destruct (TickCurrent p1 <? lo); [|destruct (TickCurrent p1 <? up)]].
  - pose proof (G gZero _ eq_refl). vn ok_clone G. vn ok_clone G. apply ok_ret. cbn [fst snd]. apply Fin; [kn|assumption|assumption|lia|lia|lia].
  - apply ok_lift. intros sa _. vn ok_new G. apply ok_lift. intros sb _. vn ok_new G. callb ok_Rounded0 G. ub. vn ok_new G. apply ok_ret. cbn [fst snd].
    apply Fin; [kn|assumption|assumption|lia|lia|lia].
  - apply ok_lift. intros sb _. vn ok_new G. callb ok_Rounded0 G. ub. apply ok_lift. intros sa _. vn ok_new G.
    callb ok_Rounded1 G.
    match goal with |- ok _ _ ?mm _ _ _ => set (m5 := mm) in * end. assert (keeps none (length m1) m1 m5) as K5 by kn. clearbody m5.
    assert (poolOk m5 P1 p1) as Ok5 by (eapply poolOk_none; eassumption).
    assert (zLiquidity P1 < length m1)%nat as Ll by (eapply pool_live; [exact IsP|left; now left]).
    eapply ok_op2; [eassumption|eassumption|lia| |].
    { destruct (I1 (zLiquidity P1)) as [X|X]; [now left|now left|right; exact X]. }
    intros m6 Wr. apply ok_ret. cbn [fst snd]. split; [|exact Gi].
    pose proof (poolOk_liq _ _ _ _ _ Ok5 Wr) as Ok6. destruct Wr as (L6 & C6 & W6).
    assert (forall q v, (length m1 <= q)%nat -> val m5 q v -> given (length m) P1 m6 q v) as Gv.
    { intros q vq Lq Vq. split; [apply C6; [lia|exact Vq]|]. now apply (poolOk_fresh m1 P1 p1). }
    split; [split; [exact Ok6|auto]|]. split; [apply Gv; [lia|assumption]|]. split; [apply Gv; [lia|assumption]|]. lia.
  - vn ok_new G. apply ok_lift. intros sa _. vn ok_new G. apply ok_lift. intros sb _. vn ok_new G. callb ok_Rounded1 G. ub. apply ok_ret. cbn [fst snd].
    apply Fin; [kn|assumption|assumption|lia|lia|lia].
Qed.

Lemma owed_distinct l key i : posGetP l key = Some i -> NoDup (owed l) -> iOwed0 i <> iOwed1 i.
Proof.
  induction l as [|[k x] l IH]; [discriminate|]. cbn [posGetP]. unfold owed. cbn [flat_map snd app].
  intros Gi N. apply NoDup_cons_iff in N. destruct N as [N1 N]. apply NoDup_cons_iff in N. destruct N as [_ N]. destruct (keyEq k key); [|now apply IH].
  injection Gi as ->. intros E. apply N1. left. congruence.
Qed.
Lemma poolOk_owed m m1 P p key i v o0 o1 : poolOk m P p -> posGetP (zPos P) key = Some i -> posGet (Pos p) key = Some v -> (length m <= length m1)%nat ->
  (forall q w, q <> iOwed0 i -> q <> iOwed1 i -> val m q w -> val m1 q w) -> val m1 (iOwed0 i) o0 -> val m1 (iOwed1 i) o1 ->
  poolOk m1 P (with_pos p (posPut (Pos p) key (mkInfo (pLiquidity v) (pLast0 v) (pLast1 v) o0 o1))).
Proof.
  intros (G & (Et0 & Et1 & Ef & Es & Et & Vp & Vl & V0 & V1 & T & F) & Sep) Gi Gv Lm C Vo0 Vo1. split; [|split; [|exact Sep]];
  apply separate_parts in Sep; destruct Sep as (E1 & E2 & E3 & NT & NO & TD & OD & ID & L1 & L2 & L3);
  pose proof (posGet_in _ _ _ Gi) as [I1 I2];
  assert (In (iOwed0 i) (owed (zPos P))) as O0 by (apply I1; now left); assert (In (iOwed1 i) (owed (zPos P))) as O1 by (apply I1; right; now left).
  - intros g w Hg. assert (g < 9)%nat by (change 9%nat with (length globals); apply nth_error_Some; rewrite Hg; discriminate).
    apply C; [| |now apply G]; [apply OD in O0|apply OD in O1]; lia.
  - assert (forall q w, ~ In q (owed (zPos P)) -> val m q w -> val m1 q w) as C' by (intros q w Nq; apply C; intros ->; auto).
    assert (forall q, In q (kept (zPos P)) -> ~ In q (owed (zPos P))) as KO by (intros q Hq; apply ID; now right).
    unfold poolIs. cbn [with_pos Token0 Token1 Fee SqrtRatio Liquidity FeeGrowth0 FeeGrowth1 TickSpacing TickCurrent Data Pos].
    do 5 (split; [assumption|]). split; [apply C'; [apply ID; now left|exact Vp]|]. do 3 (split; [apply C'; [intros X; apply OD in X; tauto|assumption]|]). split.
    + split; [|exact (proj2 T)]. eapply ticks_frame; [|exact (proj1 T)]. intros q w Hq. apply C'. now apply TD.
    + rewrite <- (posPut_id _ _ _ Gi). apply (posPut_is m m1 _ _ _ i); auto.
      pose proof (posGet_is m _ _ key F) as J. rewrite Gi, Gv in J. destruct J as (J1 & J2 & J3 & _).
      repeat split; cbn [pLiquidity pLast0 pLast1 pOwed0 pOwed1]; auto; (apply C'; [apply KO, I2; cbn; auto|assumption]).
Qed.
Lemma usgt_sign v : 0 <= v -> usgt v 0 = (usign v =? 1).
Proof. intros H. unfold usgt, usign. cbn. destruct (Z.eqb_spec v 0); [subst; reflexivity|]. destruct (Z.ltb_spec v T255); cbn; [|reflexivity]. destruct (Z.ltb_spec 0 v); [reflexivity|lia]. Qed.

(** ** the methods *)
Definition post (P : PoolP) (n : nat) : Mem -> PoolP * ptr * ptr -> Pool * Z * Z -> Prop := fun m r s =>
  res2 P n m (fst (fst r)) (fst (fst s)) (snd (fst r)) (snd r) (snd (fst s)) (snd s).
Lemma ok_MintStrategy m P p lo up a va : poolOk m P p -> val m a va -> 0 <= va -> ~ wr P a ->
  ok (wr P) (length m) m (MintStrategyP P lo up a) (MintStrategy p lo up va) (post P (length m)).
Proof.
  intros H Va H0 Na. unfold MintStrategyP, MintStrategy. eapply ok_ld; [exact Va|]. eapply ok_ld; [apply (proj1 H gZero); reflexivity|].
  rewrite usgt_sign by exact H0. apply ok_lift. intros _ _.
  assert (forall r : res (Pool * Z * Z), r = (do s <- r; Ok s)) as E by (intros [ | | ]; reflexivity). rewrite (E (modifyPositionStrategy p lo up va)).
  eapply ok_bind; [now apply ok_modifyStrategy|lia|auto|]. intros m1 [[[P1 i] a0] a1] [[p1 v0] v1] K1 [R _]. cbn [fst snd] in *. apply ok_ret. exact R.
Qed.
Lemma ok_BurnStrategy m P p lo up a va : poolOk m P p -> val m a va ->
  ok (wr P) (length m) m (BurnStrategyP P lo up a) (BurnStrategy p lo up va) (post P (length m)).
Proof.
  intros H Va. unfold BurnStrategyP, BurnStrategy. eapply ok_new1; [exact Va|]. intros m1 am K1 L1 Vm. pose proof (keeps_len _ _ _ _ K1).
  pose proof (poolOk_none _ _ _ _ H K1) as H1.
  assert (~ wr P am) as Nm by (intros K; assert (am < length m)%nat by (eapply pool_live; [apply H|now left]); lia).
  eapply ok_bind; [eapply ok_modifyStrategy; eassumption|lia|auto|]. intros m2 [[[P1 i] a0] a1] [[p1 v0] v1] K2 [(A & (V0 & L0 & _) & (V1 & L2 & _) & D) Gi]. cbn [fst snd] in *.
  pose proof A as (H2 & I1 & I2). pose proof H2 as (G2 & IsP & Sep). pose proof (keeps_len _ _ _ _ K2).
  vn ok_new1 G2. vn ok_new1 G2.
  match goal with |- ok _ _ ?mm _ _ _ => set (m4 := mm) in * end. assert (keeps none (length m2) m2 m4) as K4 by kn. clearbody m4.
  pose proof (poolOk_none _ _ _ _ H2 K4) as Ok4. pose proof Ok4 as (_ & (_ & _ & _ & _ & _ & _ & _ & _ & _ & _ & F4) & _).
  pose proof (posGet_is _ _ _ (posKey lo up) F4) as J. rewrite Gi in J. destruct (posGet (Pos p1) (posKey lo up)) as [w|] eqn:Ew; [|contradiction].
  pose proof J as (_ & _ & _ & Vo0 & Vo1). pose proof Sep as Sep'. apply separate_parts in Sep'. destruct Sep' as (_ & _ & _ & _ & NO & _).
  pose proof (owed_distinct _ _ _ Gi NO) as D01. pose proof (posGet_in _ _ _ Gi) as [Io _].
  assert (wr P1 (iOwed0 i) /\ wr P1 (iOwed1 i)) as [W0 W1] by (split; apply wr_o, Io; cbn; auto).
  assert (iOwed0 i < length m2 /\ iOwed1 i < length m2)%nat as [U0 U1] by (split; eapply pool_live; try exact IsP; now left).
  assert (forall q, wr P1 q -> wr P q \/ (length m <= q)%nat) as WW by (intros q Hq; destruct (I1 q Hq); [now left|right; lia]).
  eapply ok_op2; [exact Vo0|eassumption|lia|now apply WW|]. intros m5 (L5 & C5 & W5).
  eapply ok_op2; [apply C5; [neq|exact Vo1]|apply C5; [|eassumption]; lia|lia|now apply WW|]. intros m6 (L6 & C6 & W6).
  assert (forall q u, q <> iOwed0 i -> q <> iOwed1 i -> val m4 q u -> val m6 q u) as C by (intros q u N0 N1 Vq; apply C6; [exact N1|now apply C5]).
  apply ok_ret. split; cbn [fst snd].
  - split; [|split]; [|intros q Hq; now apply WW|intros q Hq; destruct (I2 q Hq); [now left|right; lia]].
    apply (poolOk_owed m4 m6 P1 p1 (posKey lo up) i); auto; lia.
  - assert (forall q u, (length m2 <= q)%nat -> val m4 q u -> given (length m) P1 m6 q u) as Gv.
    { intros q u Lq Vq. split; [apply C; [lia|lia|exact Vq]|]. apply (poolOk_fresh m2 P1 p1); [exact H2|exact Lq|lia]. }
    split; [apply Gv; [lia|assumption]|]. split; [apply Gv; [lia|assumption]|]. lia.
Qed.
Lemma ok_CollectStrategy m P p lo up : poolOk m P p ->
  ok (wr P) (length m) m (CollectStrategyP P lo up) (CollectStrategy p lo up) (post P (length m)).
Proof.
  intros H. unfold CollectStrategyP, CollectStrategy. pose proof H as (G & IsP & Sep). pose proof IsP as (_ & _ & _ & _ & _ & _ & _ & _ & _ & _ & F).
  pose proof (posGet_is _ _ _ (posKey lo up) F) as J.
  destruct (posGetP (zPos P) (posKey lo up)) as [i|] eqn:Gi, (posGet (Pos p) (posKey lo up)) as [w|] eqn:Ew; try contradiction; [|exact I].
  pose proof J as (_ & _ & _ & Vo0 & Vo1). pose proof Sep as Sep'. apply separate_parts in Sep'. destruct Sep' as (_ & _ & _ & _ & NO & _ & OD & _).
  pose proof (owed_distinct _ _ _ Gi NO) as D01. pose proof (posGet_in _ _ _ Gi) as [Io _].
  assert (wr P (iOwed0 i) /\ wr P (iOwed1 i)) as [W0 W1] by (split; apply wr_o, Io; cbn; auto).
  assert (iOwed0 i < length m /\ iOwed1 i < length m)%nat as [U0 U1] by (split; eapply pool_live; try exact IsP; now left).
  assert (9 <= iOwed0 i /\ 9 <= iOwed1 i)%nat as [N0 N1] by (split; apply OD, Io; cbn; auto).
  vn ok_clone G. vn ok_clone G.
  match goal with |- ok _ _ ?mm _ _ _ => set (m4 := mm) in * end. assert (keeps none (length m) m m4) as K4 by kn. clearbody m4.
  pose proof (G gZero _ eq_refl) as Vz.
  eapply ok_op1; [exact Vz|lia|now left|]. intros m5 (L5 & C5 & W5).
  eapply ok_op1; [apply C5; [unfold gZero; lia|exact Vz]|lia|now left|]. intros m6 (L6 & C6 & W6).
  assert (forall q u, q <> iOwed0 i -> q <> iOwed1 i -> val m4 q u -> val m6 q u) as C by (intros q u A0 A1 Vq; apply C6; [exact A1|now apply C5]).
  apply ok_ret. split; cbn [fst snd].
  - split; [|split; auto]. apply (poolOk_owed m4 m6 P p (posKey lo up) i); auto; [eapply poolOk_none; eassumption|lia].
  - assert (forall q u, (length m <= q)%nat -> val m4 q u -> given (length m) P m6 q u) as Gv.
    { intros q u Lq Vq. split; [apply C; [lia|lia|exact Vq]|]. now apply (poolOk_fresh m P p). }
    split; [apply Gv; [lia|assumption]|]. split; [apply Gv; [lia|assumption]|]. lia.
Qed.

Lemma after_data m m1 P p d t : poolOk m P p -> keeps (tw (zData P)) (length m) m m1 -> tableOk (yTicks (zData P)) (length m) m1 d t ->
  after P (length m) m1 (with_zData P d) (with_data p t).
Proof.
  intros H K (T' & Nd & Id). pose proof H as (G & IsP & Sep). pose proof (fun q => pool_live m P p q IsP) as Live.
  pose proof IsP as (Et0 & Et1 & Ef & Es & Et & Vp & Vl & V0 & V1 & T & F).
  apply separate_parts in Sep. pose proof Sep as (E1 & E2 & E3 & NT & NO & TD & OD & ID & L1 & L2 & L3). pose proof (Gl_len _ G) as L9.
  assert (forall q, tw (zData P) q -> (9 <= q)%nat) as T9 by (intros q Hq; now apply TD).
  split; [split; [|split]|split].
  - eapply Gl_keeps; eassumption.
  - assert (forall q v, ~ tw (zData P) q -> val m q v -> val m1 q v) as C by (intros q v D V; eapply keeps_val; [exact K|exact D|eapply val_lt, V|exact V]).
    unfold poolIs. cbn [with_zData zToken0 zToken1 zFee zPrice zLiquidity zGrowth0 zGrowth1 zSpacing zTick zData zPos
      with_data Token0 Token1 Fee SqrtRatio Liquidity FeeGrowth0 FeeGrowth1 TickSpacing TickCurrent Data Pos].
    do 5 (split; [assumption|]). split; [apply C; [apply ID; now left|exact Vp]|]. do 3 (split; [apply C; [intros X; apply TD in X; tauto|assumption]|]). split; [exact T'|].
    eapply posIs_keeps; [exact K| |exact F]. intros q [Hq|Hq] X; [apply TD in X; tauto|]. assert (In q (readOnly P)) as Y by now right. apply ID in Y. unfold tw in X. tauto.
  - apply separate_parts. cbn [with_zData zLiquidity zGrowth0 zGrowth1 zData zPos].
    assert (forall q, (length m <= q)%nat -> ~ In q (owed (zPos P)) /\ ~ In q (readOnly P)) as Nw.
    { intros q Lq. split; intros X; [apply wr_o in X|]; assert (q < length m)%nat by (apply Live; auto); lia. }
    eapply (parts_grow (length m)); [exact Sep|apply Live; left; cbn; now auto ..|exact L9| |exact Nd|exact NO|exact Id|auto|auto| |].
    + intros q Hq. apply Live. destruct Hq as [Hq|[Hq|Hq]]; [left; now apply wr_t|left; now apply wr_o|now right].
    + intros q Lq Hq. now apply Nw.
    + intros q Lq Hq. now apply Nw.
  - unfold written. cbn [with_zData zLiquidity zGrowth0 zGrowth1 zData zPos In]. intros q. rewrite !in_app_iff. specialize (Id q). tauto.
  - intros q Hq. now left.
Qed.
Lemma ok_modifyPosition m P p lo up a va : poolOk m P p -> val m a va -> ~ wr P a ->
  ok (wr P) (length m) m (modifyPositionP P lo up a) (modifyPosition p lo up va) (after P (length m)).
Proof.
  intros H Va Na. pose proof H as (G & IsP & Sep). pose proof IsP as (Et0 & Et1 & Ef & Es & Et & Vp & Vl & V0 & V1 & T & F).
  apply separate_parts in Sep. pose proof Sep as (E1 & E2 & E3 & NT & NO & TD & OD & ID & L1 & L2 & L3). pose proof (Gl_len _ G) as L9. pose proof (val_lt _ _ _ Va) as La.
  assert (forall q, tw (zData P) q -> (9 <= q)%nat) as T9 by (intros q Hq; now apply TD).
  assert (~ tw (zData P) a /\ ~ tw (zData P) (zGrowth0 P) /\ ~ tw (zData P) (zGrowth1 P)) as (Ta & T0 & T1).
  { split; [intros K; apply Na; now apply wr_t|]. split; intros K; apply TD in K; tauto. }
  unfold modifyPositionP, modifyPosition. rewrite Et. apply ok_lift. intros _ _.
  eapply ok_bind; [eapply ok_UpdateTick; eassumption|lia|intros q Hq; left; now apply wr_t|].
  intros m1 [d1 c1] [t1 b1] K1 [(T1' & Nd1 & I1) Eb1]. cbn [fst snd] in *. subst b1. pose proof (keeps_len _ _ _ _ K1).
  assert (Gl m1) as G1 by (eapply Gl_keeps; [exact G|exact K1|exact T9|exact L9]).
  assert (forall q v, ~ tw (zData P) q -> val m q v -> val m1 q v) as C by (intros q v D V; eapply keeps_val; [exact K1|exact D|eapply val_lt, V|exact V]).
  assert (tw d1 a -> False) as Na1 by (intros K; apply I1 in K; destruct K; [auto|lia]).
  eapply ok_bind; [eapply ok_UpdateTick; [exact G1|exact T1'|exact Nd1|apply C; eassumption ..|exact Na1]|lia| |].
  { intros q Hq. apply I1 in Hq. destruct Hq as [Hq|Hq]; [left; now apply wr_t|now right]. }
  intros m2 [d2 c2] [t2 b2] K2 [(T2 & Nd2 & I2) Eb2]. cbn [fst snd] in *. subst b2. pose proof (keeps_len _ _ _ _ K2).
  assert (keeps (tw (zData P)) (length m) m m2) as K by (eapply keeps_compose; [exact K1|exact K2|assumption|exact I1]).
  assert (tableOk (yTicks (zData P)) (length m) m2 d2 t2) as TO.
  { split; [exact T2|]. split; [exact Nd2|]. intros q Hq. destruct (I2 q Hq) as [X|X]; [now apply I1|right; lia]. }
  match goal with |- ok _ _ _ _ (do d <- ?x; do d' <- @?y d; @?z d') ?R =>
    assert (forall r, ok (wr P) (length m) m2 r (do d <- (do d <- x; y d); z d) R -> ok (wr P) (length m) m2 r (do d <- x; do d' <- y d; z d') R) as As
      by (intros r; destruct x as [dd| |]; cbn [bind]; auto) end.
  apply As. clear As.
  eapply (ok_lift2 _ _ _ _ _ _ _ (fun d' t' => tableOk (yTicks (zData P)) (length m) m2 d' t')).
  { assert (match (if c1 then ClearTickP d2 lo else Ok d2), (if c1 then ClearTick t2 lo else Ok t2) with
      | Ok d', Ok t' => tableOk (yTicks (zData P)) (length m) m2 d' t' | Panic, Panic => True | OutOfFuel, OutOfFuel => True | _, _ => False end) as X.
    { destruct c1; [|exact TO]. pose proof (ClearTick_is m2 d2 t2 lo _ _ TO) as Y. destruct (ClearTickP d2 lo), (ClearTick t2 lo); auto. now destruct Y. }
    destruct (if c1 then ClearTickP d2 lo else Ok d2) as [d'| |], (if c1 then ClearTick t2 lo else Ok t2) as [t'| |]; try contradiction; cbn [bind]; auto.
    destruct c2; [|exact X]. pose proof (ClearTick_is m2 d' t' up _ _ X) as Y. destruct (ClearTickP d' up), (ClearTick t' up); auto. now destruct Y. }
  intros d3 t3 TO3. pose proof (after_data _ _ _ _ _ _ H K TO3) as A. cbn [with_data TickCurrent].
  destruct ((lo <=? TickCurrent p) && (TickCurrent p <? up)); [|apply ok_mret, ok_ret; exact A].
  assert (~ tw (zData P) (zLiquidity P)) as Tl by (intros X; apply TD in X; tauto).
  assert (forall q v, ~ tw (zData P) q -> val m q v -> val m2 q v) as C2 by (intros q v D V; eapply keeps_val; [exact K|exact D|eapply val_lt, V|exact V]).
  eapply ok_op2; [apply C2; [exact Tl|exact Vl]|apply C2; [exact Ta|exact Va]|pose proof (val_lt _ _ _ Vl); lia|left; now left|].
  intros m3 Wr. apply ok_ret. destruct A as [A1 A2]. split; [|exact A2]. now apply (poolOk_liq m2 m3 (with_zData P d3)).
Qed.
Lemma ok_Mint m P p lo up a va : poolOk m P p -> val m a va -> 0 <= va -> ~ wr P a ->
  ok (wr P) (length m) m (MintP P lo up a) (Mint p lo up va) (after P (length m)).
Proof.
  intros H Va H0 Na. unfold MintP, Mint. eapply ok_ld; [exact Va|]. eapply ok_ld; [apply (proj1 H gZero); reflexivity|].
  rewrite usgt_sign by exact H0. apply ok_lift. intros _ _. now apply ok_modifyPosition.
Qed.
Lemma ok_Burn m P p lo up a va : poolOk m P p -> val m a va ->
  ok (wr P) (length m) m (BurnP P lo up a) (Burn p lo up va) (after P (length m)).
Proof.
  intros H Va. unfold BurnP, Burn. eapply ok_new1; [exact Va|]. intros m1 am K1 L1 Vm. pose proof (keeps_len _ _ _ _ K1).
  pose proof (poolOk_none _ _ _ _ H K1) as H1.
  assert (~ wr P am) as Nm by (intros K; assert (am < length m)%nat by (eapply pool_live; [apply H|now left]); lia).
  eapply ok_tail; [eapply ok_modifyPosition; eassumption|lia|auto|]. intros m2 P1 p1 _ (A1 & A2 & A3).
  split; [exact A1|]. split; intros q Hq; [apply A2 in Hq|apply A3 in Hq]; (destruct Hq; [now left|right; lia]).
Qed.
Lemma poolOk_growth m m1 P p w0 w1 : poolOk m P p -> (forall q v, q <> zGrowth0 P -> q <> zGrowth1 P -> val m q v -> val m1 q v) ->
  val m1 (zGrowth0 P) w0 -> val m1 (zGrowth1 P) w1 ->
  poolOk m1 P (mkPool (Token0 p) (Token1 p) (Fee p) (SqrtRatio p) (Liquidity p) w0 w1 (TickSpacing p) (TickCurrent p) (Data p) (Pos p)).
Proof.
  intros (G & (Et0 & Et1 & Ef & Es & Et & Vp & Vl & V0 & V1 & T & F) & Sep) C W0 W1. split; [|split; [|exact Sep]];
  apply separate_parts in Sep; destruct Sep as (E1 & E2 & E3 & NT & NO & TD & OD & ID & L1 & L2 & L3).
  - intros g w Hg. assert (g < 9)%nat by (change 9%nat with (length globals); apply nth_error_Some; rewrite Hg; discriminate).
    apply C; [lia|lia|now apply G].
  - unfold poolIs. cbn [Token0 Token1 Fee SqrtRatio Liquidity FeeGrowth0 FeeGrowth1 TickSpacing TickCurrent Data Pos].
    do 5 (split; [assumption|]). split; [apply C; [apply ID; now left|apply ID; now left|exact Vp]|]. split; [apply C; [neq|neq|exact Vl]|]. split; [exact W0|]. split; [exact W1|]. split.
    + split; [|exact (proj2 T)]. eapply ticks_frame; [|exact (proj1 T)]. intros q v Hq. apply C; now apply TD.
    + eapply posIs_frame; [|exact F]. intros q v [Hq|Hq]; apply C; try (now apply OD); apply (ID q); now right.
Qed.
Lemma ok_Flash m P p x y vx vy : poolOk m P p -> val m x vx -> val m y vy ->
  ok (wr P) (length m) m (FlashP P x y) (Flash p vx vy) (after P (length m)).
Proof.
  intros H Vx Vy. pose proof H as (G & IsP & Sep). pose proof IsP as (Et0 & Et1 & Ef & Es & Et & Vp & Vl & V0 & V1 & T & F).
  apply separate_parts in Sep. pose proof Sep as (E1 & E2 & E3 & _). pose proof (val_lt _ _ _ V0) as U0. pose proof (val_lt _ _ _ V1) as U1.
  unfold FlashP, Flash. eapply ok_ld; [exact Vl|]. apply ok_lift. intros _ _. rewrite Ef. pose proof (G gQ128 _ eq_refl) as Vq.
  vn ok_new G. vn ok_new G. callb ok_MulDivUp G. vn ok_new G. vn ok_new G. callb ok_MulDivUp G. callb ok_MulDiv G. callb ok_MulDiv G.
  match goal with |- ok _ _ ?mm _ _ _ => set (m9 := mm) in * end. assert (keeps none (length m) m m9) as K9 by kn. clearbody m9.
  pose proof (poolOk_none _ _ _ _ H K9) as Ok9.
  eapply ok_op2; [exact V0|eassumption|lia|left; right; now left|]. intros ma (La & Ca & Wa).
  eapply ok_op2; [apply Ca; [neq|exact V1]|apply Ca; [|eassumption]; lia|lia|left; right; right; now left|]. intros mb (Lb & Cb & Wb).
  apply ok_ret. split; [|split; auto]. apply (poolOk_growth m9 mb); auto.
Qed.

(** ** the swap *)
Definition cells (lim : ptr) (s : StateP) : list ptr := [lim; wRemaining s; wCalculated s; wPrice s; wGrowth s; wLiquidity s].
Definition otherP (P : PoolP) (z : bool) : ptr := if z then zGrowth1 P else zGrowth0 P.
Definition stateIs (n : nat) (P : PoolP) (lim : ptr) (vlim vother : Z) (z : bool) : Mem -> StateP -> State -> Prop := fun m s v =>
  (Gl m /\ (n <= length m)%nat /\ tableIs m (zData P) (sData v) /\ val m lim vlim /\ val m (otherP P z) vother) /\
  (wTick s = sTick v /\ val m (wRemaining s) (sRemaining v) /\ val m (wCalculated s) (sCalculated v) /\ val m (wPrice s) (sPrice v) /\
   val m (wGrowth s) (sGrowth v) /\ val m (wLiquidity s) (sLiquidity v)) /\
  NoDup (cells lim s) /\ (forall q, In q (cells lim s) -> (n <= q)%nat).
(** the part of the pool a swap uses in place *)
Definition swapSide (n : nat) (P : PoolP) (z : bool) : Prop :=
  NoDup (tc (yTicks (zData P))) /\ (forall q, tw (zData P) q -> (9 <= q < n)%nat) /\ (otherP P z < n)%nat /\ ~ tw (zData P) (otherP P z) /\ (9 <= n)%nat.
Lemma nodup6 {A} (a b c d e f : A) : NoDup [a; b; c; d; e; f] <->
  a <> b /\ a <> c /\ a <> d /\ a <> e /\ a <> f /\ b <> c /\ b <> d /\ b <> e /\ b <> f /\ c <> d /\ c <> e /\ c <> f /\ d <> e /\ d <> f /\ e <> f.
Proof.
  split.
  - intros H. repeat (apply NoDup_cons_iff in H; let N := fresh "N" in destruct H as [N H]; cbn [In] in N). intuition congruence.
  - intros H. repeat (apply NoDup_cons; [cbn [In]; intuition congruence|]). constructor.
Qed.
(** kept out of the sight of the arithmetic tactics *)
Definition ne (a b : ptr) : Prop := a <> b.
Ltac apart := try (match goal with |- ?a = ?b -> False => change (a <> b) end); match goal with
  | H : ne ?a ?b |- ?a <> ?b => exact H
  | H : ne ?b ?a |- ?a <> ?b => exact (not_eq_sym H)
  | |- _ <> _ => lia
  end.
Ltac away T9 := let X := fresh in cbv beta; first [apart | intros [X|X]; [first [contradiction|apply T9 in X; lia|revert X; apart]|revert X; apart] | intros X; apply T9 in X; lia].
Ltac frame T9 K := repeat match type of K with keeps ?W (length ?m) ?m ?m1 =>
  match goal with V : val m ?p ?v |- _ => let L := fresh in pose proof (val_lt m p v V) as L; apply (keeps_val W (length m) m m1 p v K) in V; [|away T9|exact L]; clear L end end.

Lemma ok_swapRound n m P z e lim vlim other fee s v : swapSide n P z -> zFee P = fee -> stateIs n P lim vlim other z m s v ->
  ok (tw (zData P)) n m (swapRoundP P z e lim s) (swapRound z e vlim fee other v) (stateIs n P lim vlim other z).
Proof.
  intros (NT & T9 & Lo & To & N9) <- ((G & Ln & T & Vlim & Vo) & (Et & Vr & Vc & Vp & Vg & Vl) & ND & LC).
  unfold cells in ND. pose proof ND as D. apply nodup6 in D. fold (ne lim (wRemaining s)) in D.
  repeat match type of D with ?a <> ?b /\ _ => fold (ne a b) in D | ne _ _ /\ _ => let N := fresh "D" in destruct D as [N D] | ?a <> ?b => fold (ne a b) in D end.
  assert (n <= lim /\ n <= wRemaining s /\ n <= wCalculated s /\ n <= wPrice s /\ n <= wGrowth s /\ n <= wLiquidity s)%nat as (Q1 & Q2 & Q3 & Q4 & Q5 & Q6).
  { repeat split; apply LC; unfold cells; cbn [In]; auto 7. }
  unfold swapRoundP, swapRound. rewrite (same_next _ _ (indices_same m _ _ T)), Et. apply ok_lift. intros [next ini] _.
  apply ok_lift. intros pn _. ub. vn ok_new G. rename p into pnp.
  eapply ok_ld; [eassumption|]. eapply ok_ld; [exact Vlim|]. cbv zeta.
  set (target := if z then _ else _). set (vt := if z then (if pn <? vlim then vlim else pn) else _).
  assert (val m0 target vt) as Vt by (unfold target, vt; destruct z; [destruct (pn <? vlim)|destruct (vlim <? pn)]; assumption).
  clearbody target vt.
  assert (tableIs m0 (zData P) (sData v)) as T0 by (eapply table_keeps; [exact K|intros q _ []|exact T]).
  ub.
  eapply ok_bind; [eapply ok_step; eassumption|lia|no|]. intros m1 x sx K1 ((Vn & Ln') & (Vi & Li) & (Vu & Lu) & (Vf & Lf)).
  carry1 K1. gcarry G K1. lens.
  assert (tableIs m1 (zData P) (sData v)) as T1 by (eapply table_keeps; [exact K1|intros q _ []|exact T0]).
  ub.
  assert (~ In (xNext x) [lim; wRemaining s; wCalculated s; wGrowth s; wLiquidity s]) as Dx.
  { destruct Ln' as [Ln'| ->].
    - intros X. assert (xNext x < length m0)%nat by (cbn [In] in X; destruct X as [<-|[<-|[<-|[<-|[<-|[]]]]]]; assumption). lia.
    - cbn [In]. intros X. repeat match type of X with _ \/ _ => destruct X as [X|X]; [revert X; apart|] end. exact X. }
  assert (ne (xNext x) lim /\ ne (xNext x) (wRemaining s) /\ ne (xNext x) (wCalculated s) /\ ne (xNext x) (wGrowth s) /\ ne (xNext x) (wLiquidity s)) as (X1 & X2 & X3 & X4 & X5).
  { cbn [In] in Dx. repeat split; intros X; apply Dx; rewrite X; tauto. }
  clear Dx.
  eapply (ok_let (fun q => q = wRemaining s \/ q = wCalculated s) _ (length m1)) with
    (b := (if e then usub (sRemaining v) (uadd (stIn sx) (stFee sx)) else uadd (sRemaining v) (stOut sx),
           if e then usub (sCalculated v) (stOut sx) else uadd (sCalculated v) (uadd (stIn sx) (stFee sx))))
    (Q := fun m' r w => val m' (fst r) (fst w) /\ val m' (snd r) (snd w) /\ (r = (wRemaining s, wCalculated s) \/ (length m1 <= fst r /\ length m1 <= snd r /\ fst r <> snd r)%nat));
    [|lia|intros q [->| ->]; now right|].
  { destruct e.
    - eapply ok_new2; [exact Vi|exact Vf|]. intros m2 t K2 L2 Vt2. carry1 K2. lens.
      eapply ok_op2; [exact Vr|exact Vt2|lia|left; now left|]. intros m3 (L3 & C3 & W3).
      eapply ok_op2; [apply C3; [apart|exact Vc]|apply C3; [lia|exact Vu]|lia|left; now right|]. intros m4 (L4 & C4 & W4).
      apply ok_ret. cbn [fst snd]. split; [apply C4; [apart|exact W3]|]. split; [exact W4|now left].
    - eapply ok_new2; [exact Vr|exact Vu|]. intros m2 r K2 L2 Vr2. carry1 K2. lens.
      eapply ok_new2; [exact Vi|exact Vf|]. intros m3 t K3 L3 Vt3. carry1 K3. lens.
      eapply ok_new2; [exact Vc|exact Vt3|]. intros m4 c K4 L4 Vc4. carry1 K4. lens.
      apply ok_ret. cbn [fst snd]. split; [assumption|]. split; [assumption|]. right. lia. }
  intros m2 [rem calc] K2 (Vrem & Vcalc & Rc). cbn [fst snd] in *.
  clear Vr Vc. frame T9 K2. lens.
  assert (Gl m2) as G2 by (eapply Gl_keeps; [exact G|exact K2|intros q [->| ->]; lia|lia]).
  assert (tableIs m2 (zData P) (sData v)) as T2 by (eapply table_keeps; [exact K2|intros q Hq [->| ->]; apply T9 in Hq; lia|exact T1]).
  assert (forall q, (q < length m1)%nat -> ne q (wRemaining s) -> ne q (wCalculated s) -> ne q rem /\ ne q calc) as RC.
  { intros q Lq N1 N2. destruct Rc as [[= -> ->]|(R1 & R2 & _)]; [now split|]. unfold ne. lia. }
  assert (n <= rem /\ n <= calc /\ ne rem calc)%nat as (R1 & R2 & R3).
  { destruct Rc as [[= -> ->]|(R1 & R2 & R3)]; [now split|]. split; [lia|]. split; [lia|exact R3]. }
  assert (ne lim rem /\ ne lim calc) as [? ?] by (apply RC; assumption).
  assert (ne (wGrowth s) rem /\ ne (wGrowth s) calc) as [? ?] by (apply RC; [lia| |]; unfold ne; apart).
  assert (ne (wLiquidity s) rem /\ ne (wLiquidity s) calc) as [? ?] by (apply RC; [lia| |]; unfold ne; apart).
  assert (ne (xNext x) rem /\ ne (xNext x) calc) as [? ?] by (apply RC; assumption).
  clear RC Rc.
  eapply ok_ld; [exact Vl|].
  eapply (ok_bind (eq (wGrowth s)) _ (length m2)) with (Q := fun m' _ g => val m' (wGrowth s) g); [|lia|intros q <-; now right|].
  { destruct (0 <? usign (sLiquidity v)); [|apply ok_ret; exact Vg]. pose proof (G2 gQ128 _ eq_refl) as Vq.
    eapply ok_bind; [eapply ok_MulDiv; eassumption|lia|no|]. intros m3 f vf K3 [Vf3 Lf3]. carry1 K3. lens.
    assert (forall c : cm unit, ok (eq (wGrowth s)) (length m2) m3 (mbind c (fun _ => mret tt)) (Ok (uadd (sGrowth v) vf)) (fun m' _ g => val m' (wGrowth s) g) ->
      ok (eq (wGrowth s)) (length m2) m3 c (Ok (uadd (sGrowth v) vf)) (fun m' _ g => val m' (wGrowth s) g)) as Un.
    { intros c. unfold ok, mbind, mret. destruct (c m3) as [[[] mm]| |]; auto. }
    apply Un. eapply ok_op2; [exact Vg|exact Vf3|pose proof (val_lt _ _ _ Vg); lia|now left|]. intros m4 (_ & _ & W4). apply ok_ret. exact W4. }
  intros m3 [] g K3 Vg3. clear Vg. frame T9 K3. lens.
  assert (Gl m3) as G3 by (eapply Gl_keeps; [exact G2|exact K3|intros q <-; lia|lia]).
  assert (tableIs m3 (zData P) (sData v)) as T3 by (eapply table_keeps; [exact K3|intros q Hq <-; apply T9 in Hq; lia|exact T2]).
  eapply ok_ld; [exact Vn|]. eapply ok_ld; [eassumption|].
  assert (n <= xNext x)%nat as Qx by (destruct Ln' as [Ln'| ->]; lia).
  assert (forall (m' : Mem) tk t liq, Gl m' -> (n <= length m')%nat -> tableIs m' (zData P) t -> val m' lim vlim -> val m' (otherP P z) other ->
    val m' rem (if e then usub (sRemaining v) (uadd (stIn sx) (stFee sx)) else uadd (sRemaining v) (stOut sx)) ->
    val m' calc (if e then usub (sCalculated v) (stOut sx) else uadd (sCalculated v) (uadd (stIn sx) (stFee sx))) ->
    val m' (xNext x) (stNext sx) -> val m' (wGrowth s) g -> val m' (wLiquidity s) liq ->
    stateIs n P lim vlim other z m' (mkStateP rem calc (xNext x) tk (wGrowth s) (wLiquidity s))
      (mkState (if e then usub (sRemaining v) (uadd (stIn sx) (stFee sx)) else uadd (sRemaining v) (stOut sx))
         (if e then usub (sCalculated v) (stOut sx) else uadd (sCalculated v) (uadd (stIn sx) (stFee sx))) (stNext sx) tk g liq t)) as Fin.
  { intros m' tk t liq. intros. split; [auto|]. split; [cbn; auto 9|]. unfold cells. cbn [wRemaining wCalculated wPrice wGrowth wLiquidity]. split.
    - apply nodup6. repeat match goal with |- _ /\ _ => split end; apart.
    - cbn [In]. intros q X. repeat (destruct X as [<-|X]; [assumption|]). destruct X. }
  destruct (stNext sx =? pn); [|].
  - eapply (ok_bind (fun q => tw (zData P) q \/ q = wLiquidity s) _ (length m3)) with
      (Q := fun m' _ w => tableIs m' (zData P) (fst w) /\ val m' (wLiquidity s) (snd w)); [|lia|intros q [X|X]; [now left|right; lia]|].
    { destruct ini; [|apply ok_ret; now split].
      assert (forall c (r : res (TickData * Z)), ok (fun q => tw (zData P) q \/ q = wLiquidity s) (length m3) m3 (mbind c (fun _ : unit => mret tt)) r (fun m' _ w => tableIs m' (zData P) (fst w) /\ val m' (wLiquidity s) (snd w)) ->
        ok (fun q => tw (zData P) q \/ q = wLiquidity s) (length m3) m3 c r (fun m' _ w => tableIs m' (zData P) (fst w) /\ val m' (wLiquidity s) (snd w))) as Un.
      { intros c r. unfold ok, mbind, mret. destruct (c m3) as [[[] mm]| |], r; auto. }
      apply Un. apply ok_assoc.
      eapply ok_bind with (W1 := tw (zData P)) (n1 := length m3) (Q := fun m' p' r => tableIs m' (zData P) (fst r) /\ val m' p' (snd r) /\ In p' (tc (yTicks (zData P)))); [|lia|intros q X; left; now left|].
      { assert (~ tw (zData P) (wGrowth s)) as Ng by (intros X; apply T9 in X; lia).
        destruct z; eapply ok_Cross; eassumption. }
      intros m4 net [t vnet] K4 (T4 & Vnet & Inet). cbn [fst snd] in *.
      assert (val m4 (wLiquidity s) (sLiquidity v)) as Vl4 by (eapply keeps_val; [exact K4|intros X; apply T9 in X; lia|eapply val_lt, Vl|exact Vl]).
      pose proof (val_lt _ _ _ Vl4). eapply ok_op2; [exact Vl4|exact Vnet|assumption|left; now right|]. intros m5 (L5 & C5 & W5). apply ok_ret. cbn [fst snd].
      split; [|destruct z; exact W5]. split; [|exact (proj2 T4)]. eapply ticks_frame; [|exact (proj1 T4)]. intros q w Hq. apply C5. intros ->. apply T9 in Hq. lia. }
    intros m4 [] [t liq] K4 [T4 Vl4]. cbn [fst snd] in *. clear Vl. frame T9 K4. lens. apply ok_ret.
    assert (Gl m4) as G4 by (eapply Gl_keeps; [exact G3|exact K4|intros q [X|X]; [now apply T9|lia]|lia]).
    apply Fin; try assumption; lia.
  - eapply ok_ld; [exact Vp|]. destruct (negb (stNext sx =? sPrice v)).
    + apply ok_lift. intros tk _. apply ok_ret. apply Fin; try assumption; lia.
    + apply ok_ret. apply Fin; try assumption; lia.
Qed.

Lemma ok_swapLoop n P z e lim vlim other fee : swapSide n P z -> zFee P = fee -> forall fuel m s v, stateIs n P lim vlim other z m s v ->
  ok (tw (zData P)) n m (swapLoopP fuel P z e lim s) (swapLoop fuel z e vlim fee other v) (stateIs n P lim vlim other z).
Proof.
  intros S E fuel. induction fuel as [|fuel IH]; intros m s v H; pose proof H as ((_ & _ & _ & Vlim & _) & (_ & Vr & _ & Vp & _) & _);
  cbn [swapLoopP swapLoop]; (eapply ok_ld; [exact Vr|]); (eapply ok_ld; [exact Vp|]); (eapply ok_ld; [exact Vlim|]);
  (destruct (negb (sRemaining v =? 0) && negb (sPrice v =? vlim)); [|now apply ok_ret]).
  - exact I.
  - eapply ok_bind; [now apply (ok_swapRound n m P z e lim vlim other fee s v)|lia|auto|]. intros m1 s1 v1 _ H1. now apply IH.
Qed.

Lemma ok_limit W n m (z : bool) lim vl : Gl m -> val m lim vl -> (n <= lim)%nat -> (9 <= lim)%nat ->
  ok W n m (if vl =? 0 then (if z then op2 uadd lim gMinSqrtRatio gOne else op2 usub lim gMaxSqrtRatio gOne) else mret tt)
    (Ok (effectiveLimit z vl)) (fun m' _ w => (forall q v, q <> lim -> val m q v -> val m' q v) /\ val m' lim w /\ (length m <= length m')%nat).
Proof.
  intros G V L L9. unfold effectiveLimit. destruct (vl =? 0); [|apply ok_ret; auto]. pose proof (val_lt _ _ _ V) as Lt.
  pose proof (G gMinSqrtRatio _ eq_refl) as V1. pose proof (G gMaxSqrtRatio _ eq_refl) as V2. pose proof (G gOne _ eq_refl) as V3.
  assert (forall g x y a b, val m x a -> val m y b -> ok W n m (op2 g lim x y) (Ok (g a b)) (fun m' _ w => (forall q v, q <> lim -> val m q v -> val m' q v) /\ val m' lim w /\ (length m <= length m')%nat)) as H.
  { intros g x y a b Vx Vy. unfold op2, ok, mbind, ld, st. unfold val in Vx, Vy. rewrite Vx, Vy. destruct (Nat.ltb_spec lim (length m)); [|lia].
    split; [split; [rewrite setM_len; lia|intros; apply setM_other; auto; lia]|]. split; [intros; now apply setM_other|]. split; [now apply setM_same|rewrite setM_len; lia]. }
  destruct z; apply H; assumption.
Qed.

Lemma ok_swap_price fuel m P p z a l va vl : poolOk m P p -> val m a va -> val m l vl -> ~ wr P a ->
  ok (wr P) (length m) m (swapP fuel P z a l) (swap fuel p z va vl) (fun m' r s => post P (length m) m' r s /\ (length m <= zPrice (fst (fst r)))%nat).
Proof.
  intros H Va Vl0 Na. pose proof H as (G & IsP & Sep). pose proof (fun q => pool_live m P p q IsP) as Live.
  pose proof IsP as (Et0 & Et1 & Ef & Es & Et & Vp & Vl & V0 & V1 & T & F).
  apply separate_parts in Sep. pose proof Sep as (E1 & E2 & E3 & NT & NO & TD & OD & ID & L1 & L2 & L3). pose proof (Gl_len _ G) as L9. pose proof (val_lt _ _ _ Va) as La.
  unfold swapP, swap. eapply ok_ld; [exact Va|]. apply ok_lift. intros _ _.
  eapply ok_clone; [exact Vl0|]. intros m1 lim K1 Ll Vlim. carry1 K1. pose proof (Gl_none _ _ G K1) as G1. lens.
  eapply ok_ld; [exact Vlim|].
  eapply (ok_let none _ (length m) (length m)) with (b := effectiveLimit z vl) (Q := fun m' _ w => (forall q v, q <> lim -> val m1 q v -> val m' q v) /\ val m' lim w /\ (length m1 <= length m')%nat); [apply ok_limit; [exact G1|exact Vlim|lia|lia]|lia|no|].
  intros m2 [] _ (C2 & Vlim2 & Lm2). clear Vlim. cbv zeta.
  assert (Gl m2) as G2.
  { intros g w Hg. assert (g < 9)%nat by (change 9%nat with (length globals); apply nth_error_Some; rewrite Hg; discriminate). apply C2; [lia|now apply G1]. }
  assert (forall q v, (q < length m)%nat -> val m q v -> val m2 q v) as Cm by (intros q v Lq Vq; apply C2; [lia|eapply keeps_none; eassumption]).
  assert (tableIs m2 (zData P) (Data p)) as T2.
  { split; [|exact (proj2 T)]. eapply ticks_frame; [|exact (proj1 T)]. intros q v Hq. apply Cm. apply Live. left. now apply wr_t. }
  assert (posIs m2 (zPos P) (Pos p)) as F2.
  { eapply posIs_frame; [|exact F]. intros q v Hq. apply Cm. apply Live. destruct Hq; [left; now apply wr_o|right; now right]. }
  assert (zPrice P < length m /\ zLiquidity P < length m /\ zGrowth0 P < length m /\ zGrowth1 P < length m)%nat as (U1 & U2 & U3 & U4).
  { repeat split; apply Live; unfold written, readOnly; cbn [In]; auto. }
  apply C2 in Va; [|lia]. apply C2 in Vp; [|lia]. apply C2 in Vl; [|lia]. apply C2 in V0; [|lia]. apply C2 in V1; [|lia].
  set (n := length m) in *. set (vlim := effectiveLimit z vl) in *. clearbody vlim.
  eapply ok_ld; [exact Vlim2|]. eapply ok_ld; [exact Vp|]. eapply ok_ld; [apply (G2 gMinSqrtRatio); reflexivity|]. eapply ok_ld; [apply (G2 gMaxSqrtRatio); reflexivity|].
  apply ok_lift. intros _ _. clear Vl0 C2 K1 G1.
  pose proof (val_lt _ _ _ Vlim2) as Ulim.
  assert (val m2 (if z then zGrowth0 P else zGrowth1 P) (if z then FeeGrowth0 p else FeeGrowth1 p)) as Vgr by (destruct z; assumption).
  assert (val m2 (otherP P z) (if z then FeeGrowth1 p else FeeGrowth0 p)) as Voth by (unfold otherP; destruct z; assumption).
  set (gsrc := if z then zGrowth0 P else zGrowth1 P) in *.
  assert (gsrc < n)%nat as Ug by (unfold gsrc; destruct z; assumption). clearbody gsrc.
  vn ok_clone G2. rename p0 into rem. vn ok_new G2. rename p0 into calc. vn ok_clone G2. rename p0 into price.
  vn ok_clone G2. rename p0 into growth. vn ok_clone G2. rename p0 into liq.
  match goal with |- ok _ _ ?mm _ _ _ => set (m7 := mm) in * end. assert (keeps none (length m2) m2 m7) as K7 by kn.
  assert (swapSide n P z) as SS.
  { split; [exact NT|]. split; [intros q Hq; split; [now apply TD|apply Live; left; now apply wr_t]|]. unfold otherP, tw.
    split; [destruct z; assumption|]. split; [|exact L9]. intros X. apply TD in X. destruct z; tauto. }
  assert (stateIs n P lim vlim (if z then FeeGrowth1 p else FeeGrowth0 p) z m7 (mkStateP rem calc price (zTick P) growth liq)
     (mkState va 0 (SqrtRatio p) (TickCurrent p) (if z then FeeGrowth0 p else FeeGrowth1 p) (Liquidity p) (Data p))) as S0.
  { split; [split; [exact G2|]; split; [lia|]; split; [eapply table_keeps; [exact K7|intros q _ []|exact T2]|auto]|].
    split; [cbn; auto 9|]. unfold cells. cbn [wRemaining wCalculated wPrice wGrowth wLiquidity]. split.
    - apply nodup6. lia.
    - cbn [In]. intros q X. lia. }
  eapply ok_bind; [eapply (ok_swapLoop n P z (0 <=? usign va) lim vlim _ (Fee p) SS Ef fuel m7); exact S0|lia|intros q Hq; left; now apply wr_t|].
  intros m8 s v K8 ((G8 & Ln8 & T8 & _ & Voth8) & (Etk & Vr & Vc & Vpr & Vg & Vli) & ND & LC).
  assert (forall q w, (q < n)%nat -> ~ tw (zData P) q -> val m q w -> val m8 q w) as C8.
  { intros q w Lq Nq Vq. eapply keeps_val; [exact K8|exact Nq|lia|]. eapply keeps_none; [exact K7|]. now apply Cm. }
  assert (val m8 a va) as Va8 by (eapply keeps_val; [exact K8|intros X; apply Na; now apply wr_t|lia|assumption]).
  unfold cells in ND, LC. apply nodup6 in ND. destruct ND as (_ & _ & _ & _ & _ & Drc & _ & _ & _ & _ & _ & _ & Dpg & Dpl & Dgl).
  assert (n <= wRemaining s /\ n <= wCalculated s /\ n <= wPrice s /\ n <= wGrowth s /\ n <= wLiquidity s)%nat as (Q1 & Q2 & Q3 & Q4 & Q5) by (repeat split; apply LC; cbn [In]; auto 7).
  set (P' := mkPoolP _ _ _ _ _ _ _ _ _ _ _). set (p' := mkPool _ _ _ _ _ _ _ _ _ _ _).
  assert (after P n m8 P' p') as A.
  { assert (forall q, In q (tc (yTicks (zData P))) -> (q < n)%nat) as LT by (intros q Hq; apply Live; left; now apply wr_t).
    assert (forall q, In q (owed (zPos P)) -> (q < n)%nat) as LO by (intros q Hq; apply Live; left; now apply wr_o).
    assert (forall q, In q (kept (zPos P)) -> (q < n)%nat) as LK by (intros q Hq; apply Live; right; now right).
    assert (forall q, In q (kept (zPos P)) -> ~ In q (tc (yTicks (zData P))) /\ ~ In q (owed (zPos P)) /\ q <> zLiquidity P /\ q <> zGrowth0 P /\ q <> zGrowth1 P) as KK by (intros q Hq; apply ID; now right).
    split; [split; [exact G8|split]|split].
    - unfold poolIs, P', p'. cbn [zToken0 zToken1 zFee zPrice zLiquidity zGrowth0 zGrowth1 zSpacing zTick zData zPos Token0 Token1 Fee SqrtRatio Liquidity FeeGrowth0 FeeGrowth1 TickSpacing TickCurrent Data Pos].
      do 5 (split; [assumption|]). split; [exact Vpr|]. split; [exact Vli|]. unfold otherP in Voth8. split; [destruct z; assumption|]. split; [destruct z; assumption|]. split; [exact T8|].
      eapply posIs_frame; [|exact F]. intros q w Hq. apply C8; [destruct Hq; auto|]. intros X. destruct Hq as [Hq|Hq]; [apply TD in X; tauto|]. apply KK in Hq. unfold tw in X. tauto.
    - apply separate_parts. unfold P'. cbn [zLiquidity zGrowth0 zGrowth1 zData zPos]. unfold parts, readOnly. cbn [zPrice zPos].
      split; [destruct z; lia|]. split; [destruct z; lia|]. split; [destruct z; lia|]. split; [exact NT|]. split; [exact NO|].
      split; [|split; [|split; [|destruct z; repeat split; lia]]].
      + intros q Hq. pose proof (LT q Hq). apply TD in Hq. destruct Hq as (X1 & X2 & X3 & X4 & X5). split; [exact X1|]. destruct z; repeat split; lia.
      + intros q Hq. pose proof (LO q Hq). apply OD in Hq. destruct Hq as (X2 & X3 & X4 & X5). destruct z; repeat split; lia.
      + intros q [<-|Hq].
        * split; [intros X; apply LT in X; lia|]. split; [intros X; apply LO in X; lia|]. destruct z; repeat split; lia.
        * pose proof (LK q Hq). apply KK in Hq. destruct Hq as (X1 & X2 & X3 & X4 & X5). split; [exact X1|]. split; [exact X2|]. destruct z; repeat split; lia.
    - unfold written, P'. cbn [zLiquidity zGrowth0 zGrowth1 zData zPos In]. intros q Hq. destruct z; intuition (subst; auto).
    - unfold readOnly, P'. cbn [zPrice zPos In]. intros q Hq. intuition (subst; auto). }
  assert (n <= zPrice P')%nat as Qp by exact Q3.
  clearbody P' p'. pose proof (proj1 A) as Ok8.
  pose proof (val_lt _ _ _ Vr). pose proof (val_lt _ _ _ Vc).
  eapply ok_new. intros m9 a0 K9 L0' Va0. carry1 K9. lens. eapply ok_new. intros m10 a1 K10 L1' Va1. carry1 K10. lens.
  assert (keeps none (length m8) m8 m10) as K810 by kn.
  assert (forall (m' : Mem) x y, (length m10 <= length m')%nat -> (forall q w, q <> a0 -> q <> a1 -> val m10 q w -> val m' q w) -> val m' a0 x -> val m' a1 y -> post P n m' (P', a0, a1) (p', x, y) /\ (n <= zPrice (fst (fst (P', a0, a1))))%nat) as Fin.
  { intros m' x y L' C' X Y. split; [|exact Qp]. assert (keeps none (length m8) m8 m') as K'.
    { split; [lia|]. intros q w _ Lq Vq. apply C'; [lia|lia|]. eapply keeps_none; eassumption. }
    split; [|split; [|split]]; cbn [fst snd].
    - eapply after_none; eassumption.
    - split; [exact X|]. apply (poolOk_fresh m8 P' p'); [exact Ok8|lia|lia].
    - split; [exact Y|]. apply (poolOk_fresh m8 P' p'); [exact Ok8|lia|lia].
    - lia. }
  destruct (Bool.eqb z (0 <=? usign va)).
  - apply ok_assoc. eapply ok_op2; [exact Va8|exact Vr|lia|right; lia|]. intros m11 (L11 & C11 & W11).
    eapply ok_op1; [apply C11; [lia|exact Vc]|lia|right; lia|]. intros m12 (L12 & C12 & W12).
    apply ok_ret. apply Fin; [lia|intros q w N0 N1 Vq; apply C12; [exact N1|now apply C11]|apply C12; [lia|exact W11]|exact W12].
  - apply ok_assoc. eapply ok_op1; [exact Vc|lia|right; lia|]. intros m11 (L11 & C11 & W11).
    eapply ok_op2; [apply C11; [lia|exact Va8]|apply C11; [lia|exact Vr]|lia|right; lia|]. intros m12 (L12 & C12 & W12).
    apply ok_ret. apply Fin; [lia|intros q w N0 N1 Vq; apply C12; [exact N1|now apply C11]|apply C12; [lia|exact W11]|exact W12].
Qed.
Lemma ok_swap fuel m P p z a l va vl : poolOk m P p -> val m a va -> val m l vl -> ~ wr P a ->
  ok (wr P) (length m) m (swapP fuel P z a l) (swap fuel p z va vl) (post P (length m)).
Proof. intros H Va Vl Na. eapply ok_tail; [eapply ok_swap_price; eassumption|lia|auto|]. intros m1 r s _ [X _]. exact X. Qed.

(** ** NewPool and Clone *)
Lemma ok_NewPool m t0 t1 fee s vs : Gl m -> val m s vs ->
  ok none (length m) m (NewPoolP t0 t1 fee s) (NewPool t0 t1 fee vs)
    (fun m' P p => poolOk m' P p /\ (forall q, In q (written P) -> (length m <= q)%nat) /\ readOnly P = [s]).
Proof.
  intros G V. unfold NewPoolP, NewPool. pose proof (Gl_len _ G) as L9. pose proof (val_lt _ _ _ V) as Ls. apply ok_lift. intros _ _. vn ok_new G. eapply ok_ld; [exact V|]. apply ok_lift. intros tk _.
  pose proof (G gZero _ eq_refl) as Vz. vn ok_clone G. vn ok_clone G. apply ok_ret.
  split; [split; [exact G|split]|split; [|reflexivity]].
  - unfold poolIs. cbn [zToken0 zToken1 zFee zPrice zLiquidity zGrowth0 zGrowth1 zSpacing zTick zData zPos Token0 Token1 Fee SqrtRatio Liquidity FeeGrowth0 FeeGrowth1 TickSpacing TickCurrent Data Pos].
    do 5 (split; [reflexivity|]). do 4 (split; [assumption|]). split; [split; [constructor|reflexivity]|constructor].
  - apply separate_parts. unfold parts, readOnly. cbn [zLiquidity zGrowth0 zGrowth1 zData zPos zPrice yTicks tc owed kept flat_map].
    do 3 (split; [lia|]). split; [constructor|]. split; [constructor|]. split; [intros q []|]. split; [intros q []|]. split; [|lia].
    intros q [<-|[]]. split; [intros []|]. split; [intros []|]. lia.
  - unfold written. cbn [zLiquidity zGrowth0 zGrowth1 zData zPos yTicks tc owed flat_map app In]. intros q Hq. lia.
Qed.
Definition cloned (n : nat) : Mem -> PositionsP -> Positions -> Prop := fun m l k =>
  posIs m l k /\ NoDup (owed l) /\ (forall q, In q (owed l) -> (n <= q)%nat /\ ~ In q (kept l)) /\ (forall q, In q (kept l) -> (n <= q)%nat).
Lemma ok_clonePositions m l k : Gl m -> posIs m l k ->
  ok none (length m) m (clonePositionsP l) (Ok (map (fun kv => (fst kv, InfoClone (snd kv))) k)) (cloned (length m)).
Proof.
  intros G F. revert m G F. revert k. induction l as [|[a i] l IH]; intros k m G F.
  - inversion F. apply ok_ret. split; [constructor|]. split; [constructor|]. split; intros q [].
  - inversion F as [|x [b v] y k' [E T] F']; subst. cbn [fst snd] in E, T. subst b. destruct T as (V1 & V2 & V3 & V4 & V5). cbn [clonePositionsP map fst snd]. unfold InfoCloneP.
    apply ok_assoc. vn ok_clone G. apply ok_assoc. vn ok_clone G. apply ok_assoc. vn ok_clone G. apply ok_assoc. vn ok_clone G. apply ok_assoc. vn ok_clone G.
    apply ok_mret. match goal with |- ok _ _ ?mm _ _ _ => set (m5 := mm) in * end. assert (keeps none (length m) m m5) as K5 by kn.
    assert (posIs m5 l k') as F5 by (eapply posIs_keeps; [exact K5|intros q _ []|exact F']).
    eapply ok_let; [exact (IH k' m5 G F5)|lia|no|]. intros m6 l' K6 (F6 & N6 & D6 & L6). carry1 K6. apply ok_ret. unfold cloned.
    assert (forall q, In q (owed l') -> (length m5 <= q)%nat) as O6 by (intros q Hq; now apply D6).
    unfold owed, kept. cbn [flat_map snd iLiquidity iLast0 iLast1 iOwed0 iOwed1 app]. fold (owed l'). fold (kept l').
    split; [|split; [|split]].
    + constructor; [|exact F6]. split; [reflexivity|]. cbn [snd]. unfold InfoClone. repeat split; assumption.
    + apply NoDup_cons; [|apply NoDup_cons; [|exact N6]]; cbn [In]; intros X; [destruct X as [X|X]; [lia|]|]; apply O6 in X; lia.
    + intros q Hq. cbn [In] in *. destruct Hq as [<-|[<-|Hq]].
      * split; [lia|]. intros [X|[X|[X|X]]]; try lia. apply L6 in X. lia.
      * split; [lia|]. intros [X|[X|[X|X]]]; try lia. apply L6 in X. lia.
      * pose proof (O6 q Hq). split; [lia|]. intros [X|[X|[X|X]]]; try lia. apply D6 in Hq. tauto.
    + cbn [In]. intros q [<-|[<-|[<-|Hq]]]; try lia. apply L6 in Hq. lia.
Qed.
Lemma ok_Clone m P p : poolOk m P p ->
  ok none (length m) m (PoolCloneP P) (Ok (PoolClone p))
    (fun m' P' p' => poolOk m' P' p' /\ zData P' = zData P /\
       (forall q, In q (written P') -> In q (tc (yTicks (zData P))) \/ (length m <= q)%nat) /\ (forall q, In q (readOnly P') -> (length m <= q)%nat)).
Proof.
  intros H. pose proof H as (G & IsP & Sep). pose proof (fun q => pool_live m P p q IsP) as Live.
  pose proof IsP as (Et0 & Et1 & Ef & Es & Et & Vp & Vl & V0 & V1 & T & F).
  apply separate_parts in Sep. pose proof Sep as (E1 & E2 & E3 & NT & NO & TD & OD & ID & L1 & L2 & L3). pose proof (Gl_len _ G) as L9.
  unfold PoolCloneP, PoolClone. eapply ok_let; [exact (ok_clonePositions m _ _ G F)|lia|no|]. intros m1 l K1 (Fl & Nl & Dl & Ll). carry1 K1. gcarry G K1. lens.
  assert (forall q, In q (owed l) \/ In q (kept l) -> (length m <= q < length m1)%nat) as Ol.
  { intros q Hq. split; [destruct Hq as [Hq|Hq]; [now apply Dl|now apply Ll]|]. eapply pos_live; eassumption. }
  vn ok_clone G. vn ok_clone G. vn ok_clone G. vn ok_clone G. rename p0 into price, p1 into liq, p2 into g0, p3 into g1.
  match goal with |- ok _ _ ?mm _ _ _ => set (m5 := mm) in * end. assert (keeps none (length m1) m1 m5) as K5 by kn. assert (keeps none (length m) m m5) as K05 by kn.
  assert (forall q, In q (tc (yTicks (zData P))) -> (q < length m)%nat) as LT by (intros q Hq; apply Live; left; now apply wr_t).
  apply ok_ret. split; [split; [exact G|split]|split; [reflexivity|split]].
  - unfold poolIs. cbn [zToken0 zToken1 zFee zPrice zLiquidity zGrowth0 zGrowth1 zSpacing zTick zData zPos with_pos Token0 Token1 Fee SqrtRatio Liquidity FeeGrowth0 FeeGrowth1 TickSpacing TickCurrent Data Pos].
    do 5 (split; [assumption|]). do 4 (split; [assumption|]). split; [eapply table_keeps; [exact K05|intros q _ []|exact T]|]. eapply posIs_keeps; [exact K5|intros q _ []|exact Fl].
  - apply separate_parts. unfold parts, readOnly. cbn [zLiquidity zGrowth0 zGrowth1 zData zPos zPrice].
    do 3 (split; [lia|]). split; [exact NT|]. split; [exact Nl|]. split; [|split; [|split; [|lia]]].
    + intros q Hq. pose proof (LT q Hq). apply TD in Hq. destruct Hq as (_ & _ & _ & _ & Hq). split; [|lia]. intros X. assert (length m <= q < length m1)%nat by (apply Ol; now left). lia.
    + intros q Hq. assert (length m <= q < length m1)%nat by (apply Ol; now left). lia.
    + intros q [<-|Hq].
      * split; [intros X; apply LT in X; lia|]. split; [|lia]. intros X. assert (length m <= price < length m1)%nat by (apply Ol; now left). lia.
      * assert (length m <= q < length m1)%nat by (apply Ol; now right). split; [intros X; apply LT in X; lia|]. split; [|lia]. intros X. apply Dl in X. tauto.
  - unfold written. cbn [zLiquidity zGrowth0 zGrowth1 zData zPos In]. intros q Hq. rewrite in_app_iff in Hq. destruct Hq as [<-|[<-|[<-|[Hq|Hq]]]]; try (right; lia); [now left|].
    right. apply Dl in Hq. tauto.
  - unfold readOnly. cbn [zPrice zPos In]. intros q [<-|Hq]; [lia|now apply Ll].
Qed.

(** ** a client *)
Definition client (m : Mem) (P : PoolP) (xs : list ptr) (vs : list Z) : Prop :=
  Forall2 (val m) xs vs /\ NoDup xs /\ forall q, In q xs -> (9 <= q)%nat /\ ~ In q (written P) /\ ~ In q (readOnly P).
Lemma client_live m P xs vs q : client m P xs vs -> In q xs -> (q < length m)%nat.
Proof. intros (F & _) Hq. induction F as [|x v xs vs V F IH]; [destruct Hq|]. destruct Hq as [<-|Hq]; [eapply val_lt, V|auto]. Qed.
Lemma geti_is m xs vs : Forall2 (val m) xs vs -> forall i,
  match geti xs i, geti vs i with Ok x, Ok v => val m x v /\ In x xs | Panic, Panic => True | OutOfFuel, OutOfFuel => True | _, _ => False end.
Proof.
  intros F. induction F as [|x v xs vs V F IH]; intros [|i]; [exact I|exact I|split; [exact V|now left]|].
  specialize (IH i). unfold geti in *. cbn [nth_error]. destruct (nth_error xs i), (nth_error vs i); auto. destruct IH. split; [assumption|now right].
Qed.
Lemma vals_keep W m m1 xs vs : Forall2 (val m) xs vs -> keeps W (length m) m m1 -> (forall q, In q xs -> ~ W q) -> Forall2 (val m1) xs vs.
Proof.
  intros F K. induction F as [|x v xs vs V F IH]; intros D; constructor.
  - eapply keeps_val; [exact K|apply D; now left|eapply val_lt, V|exact V].
  - apply IH. intros q Hq. apply D. now right.
Qed.
Lemma client_after m m1 P P' p' xs vs : client m P xs vs -> keeps (wr P) (length m) m m1 -> after P (length m) m1 P' p' -> client m1 P' xs vs.
Proof.
  intros C K (_ & I1 & I2). pose proof C as (F & N & D). split; [|split; [exact N|]].
  - eapply vals_keep; [exact F|exact K|intros q Hq; now apply D].
  - intros q Hq. pose proof (client_live _ _ _ _ _ C Hq). apply D in Hq. destruct Hq as (H9 & Dw & Dr).
    split; [exact H9|]. split; intros X; [apply I1 in X|apply I2 in X]; (destruct X; [auto|lia]).
Qed.
Lemma client_own m n P xs vs a v : client m P xs vs -> (forall q, In q xs -> (q < n)%nat) -> (9 <= n)%nat -> given n P m a v -> client m P (xs ++ [a]) (vs ++ [v]).
Proof.
  intros (F & N & D) L L9 (V & La & Dw & Dr). split; [apply Forall2_app; [exact F|constructor; [exact V|constructor]]|]. split.
  - apply NoDup_app_iff. split; [exact N|]. split; [constructor; [intros []|constructor]|]. intros q Hq [<-|[]]. apply L in Hq. lia.
  - intros q Hq. apply in_app_or in Hq. destruct Hq as [Hq|[<-|[]]]; [now apply D|]. split; [lia|now split].
Qed.
Lemma vals_set m m1 z w : wrote m z w m1 -> forall xs vs, Forall2 (val m) xs vs -> NoDup xs -> forall k, geti xs k = Ok z -> Forall2 (val m1) xs (setM vs k w).
Proof.
  intros (_ & C & W) xs vs F. induction F as [|x v xs vs V F IH]; intros N k E; [constructor|].
  apply NoDup_cons_iff in N. destruct N as [Nx N]. destruct k as [|k].
  - cbn in E. injection E as ->. cbn [setM]. constructor; [exact W|].
    clear IH N. induction F as [|y u xs vs U F IH]; constructor; [apply C; [intros ->; apply Nx; now left|exact U]|apply IH; intros X; apply Nx; now right].
  - cbn [setM]. constructor; [|apply IH; [exact N|exact E]]. apply C; [|exact V]. intros ->. apply Nx. unfold geti in E. cbn [nth_error] in E.
    destruct (nth_error xs k) eqn:Ek; [|discriminate]. injection E as ->. eapply nth_error_In, Ek.
Qed.

Definition histPost (P : PoolP) (n : nat) (xs : list ptr) : Mem -> PoolP * list ptr -> Pool * list Z -> Prop := fun m r s =>
  poolOk m (fst r) (fst s) /\ client m (fst r) (snd r) (snd s) /\
  (forall q, wr (fst r) q -> wr P q \/ (n <= q)%nat) /\ (forall q, In q (snd r) -> In q xs \/ (n <= q)%nat).
Lemma ok_call fuel c m P p xs vs : poolOk m P p -> client m P xs vs ->
  ok (fun q => wr P q \/ In q xs) (length m) m (callP fuel c P xs) (callV fuel c p vs) (histPost P (length m) xs).
Proof.
  intros H C. pose proof C as (F & N & D). pose proof (geti_is m xs vs F) as Gt. pose proof (fun q => client_live m P xs vs q C) as Lv.
  pose proof (Gl_len _ (proj1 H)) as L9.
  assert (forall c r, (ok (wr P) (length m) m c r (after P (length m))) ->
    ok (fun q => wr P q \/ In q xs) (length m) m (let* P' := c in mret (P', xs)) (do p' <- r; Ok (p', vs)) (histPost P (length m) xs)) as R1.
  { intros c0 r X. eapply ok_bind; [exact X|lia|auto|]. intros m1 P1 p1 K1 A. apply ok_ret. unfold histPost. cbn [fst snd].
    split; [apply A|]. split; [eapply client_after; eassumption|]. split; [apply A|auto]. }
  assert (forall c r, (ok (wr P) (length m) m c r (post P (length m))) ->
    ok (fun q => wr P q \/ In q xs) (length m) m (let* x := c in mret (own2 xs x)) (do s <- r; Ok (own2V vs s)) (histPost P (length m) xs)) as R2.
  { intros c0 r X. eapply ok_bind; [exact X|lia|auto|]. intros m1 [[P1 a0] a1] [[p1 v0] v1] K1 (A & G0 & G1 & Da). cbn [fst snd] in *. apply ok_ret. unfold histPost, own2, own2V. cbn [fst snd].
    split; [apply A|]. split; [|split; [apply A|]].
    - pose proof (client_after _ _ _ _ _ _ _ C K1 A) as (F1 & N1 & D1). destruct G0 as (V0 & L0 & W0 & X0), G1 as (V1 & L1 & W1 & X1).
      split; [apply Forall2_app; [exact F1|constructor; [exact V0|constructor; [exact V1|constructor]]]|]. split.
      + apply NoDup_app_iff. split; [exact N|]. split; [constructor; [cbn; intuition congruence|constructor; [intros []|constructor]]|].
        intros q Hq Kq. apply Lv in Hq. destruct Kq as [<-|[<-|[]]]; lia.
      + intros q Hq. apply in_app_or in Hq. destruct Hq as [Hq|[<-|[<-|[]]]]; [now apply D1|split; [lia|now split]|split; [lia|now split]].
    - intros q Hq. apply in_app_or in Hq. destruct G0 as (_ & L0 & _), G1 as (_ & L1 & _). destruct Hq as [Hq|[<-|[<-|[]]]]; auto. }
  destruct c; cbn [callP callV].
  - eapply ok_new. intros m1 x K1 L1 V1. apply ok_ret. unfold histPost. cbn [fst snd]. pose proof (keeps_len _ _ _ _ K1).
    pose proof (poolOk_none _ _ _ _ H K1) as H1. split; [exact H1|]. split; [|split; [auto|intros q Hq; apply in_app_or in Hq; destruct Hq as [Hq|[<-|[]]]; [now left|right; lia]]].
    apply (client_own m1 (length m)); [|exact Lv|exact L9|].
    + split; [eapply vals_keep; [exact F|exact K1|intros q _ []]|]. split; [exact N|exact D].
    + split; [exact V1|]. apply (poolOk_fresh m P p); [exact H|lia|lia].
  - pose proof (geti_is m xs vs F z) as Gz. destruct (geti xs z) as [pz| |] eqn:Ez, (geti vs z) as [vz| |]; try contradiction; [|exact I|exact I]. cbn [bind lift]. apply ok_mret. destruct Gz as [Vz Iz].
    eapply ok_lift2; [apply Gt|]. intros px vx [Vx Ix]. eapply ok_lift2; [apply Gt|]. intros py vy [Vy Iy].
    eapply ok_op2; [exact Vx|exact Vy|eapply val_lt, Vz|left; now right|]. intros m1 Wr. apply ok_ret. unfold histPost. cbn [fst snd].
    pose proof (D pz Iz) as (Z9 & Zw & Zr).
    split; [|split; [|split; auto]].
    + destruct Wr as (L1 & C1 & W1). apply (poolOk_keeps (eq pz) m); [exact H| |intros q <-; auto].
      split; [lia|]. intros q v Nq Lq Vq. apply C1; [congruence|exact Vq].
    + split; [eapply vals_set; eassumption|]. split; [exact N|exact D].
  - eapply ok_lift2; [apply Gt|]. intros x v [V Ix]. eapply ok_ld; [exact V|]. unfold nonneg, invariant. destruct (Z.leb_spec 0 v); [|exact I].
    apply ok_lift. intros _ _. apply R1. apply ok_Mint; auto. now apply D.
  - eapply ok_lift2; [apply Gt|]. intros x v [V Ix]. apply R1. now apply ok_Burn.
  - eapply ok_lift2; [apply Gt|]. intros x v [V Ix]. eapply ok_ld; [exact V|]. unfold nonneg, invariant. destruct (Z.leb_spec 0 v); [|exact I].
    apply ok_lift. intros _ _. apply R2. apply ok_MintStrategy; auto. now apply D.
  - eapply ok_lift2; [apply Gt|]. intros x v [V Ix]. apply R2. now apply ok_BurnStrategy.
  - apply R2. now apply ok_CollectStrategy.
  - eapply ok_lift2; [apply Gt|]. intros x v [V Ix]. eapply ok_lift2; [apply Gt|]. intros y w [W' Iy]. apply R1. now apply ok_Flash.
  - eapply ok_lift2; [apply Gt|]. intros x v [V Ix]. eapply ok_lift2; [apply Gt|]. intros y w [W' Iy]. apply R2. unfold ExactInputSwapP, ExactInputSwap.
    destruct H as (G & IsP & Sep). rewrite (proj1 IsP). apply ok_swap; [now split|assumption|assumption|now apply D].
  - eapply ok_lift2; [apply Gt|]. intros x v [V Ix]. eapply ok_lift2; [apply Gt|]. intros y w [W' Iy]. apply R2. unfold ExactOutputSwapP, ExactOutputSwap.
    destruct H as (G & IsP & Sep). rewrite (proj1 (proj2 IsP)). apply ok_swap; [now split|assumption|assumption|now apply D].
Qed.
Lemma ok_calls fuel cs : forall m P p xs vs, poolOk m P p -> client m P xs vs ->
  ok (fun q => wr P q \/ In q xs) (length m) m (callsP fuel cs P xs) (callsV fuel cs p vs) (histPost P (length m) xs).
Proof.
  induction cs as [|c cs IH]; intros m P p xs vs H C; cbn [callsP callsV].
  - apply ok_ret. split; [exact H|]. split; [exact C|]. cbn [fst snd]. auto.
  - eapply ok_bind; [now apply ok_call|lia|auto|]. intros m1 [P1 xs1] [p1 vs1] K1 (H1 & C1 & I1 & J1). cbn [fst snd] in *. pose proof (keeps_len _ _ _ _ K1).
    eapply ok_tail; [now apply IH|lia| |].
    + intros q [Hq|Hq]; [apply I1 in Hq|apply J1 in Hq]; tauto.
    + intros m2 [P2 xs2] [p2 vs2] K2 (H2 & C2 & I2 & J2). cbn [fst snd] in *. split; [exact H2|]. split; [exact C2|]. cbn [fst snd]. split; intros q Hq.
      * apply I2 in Hq. destruct Hq as [Hq|Hq]; [now apply I1|right; lia].
      * apply J2 in Hq. destruct Hq as [Hq|Hq]; [now apply J1|right; lia].
Qed.
