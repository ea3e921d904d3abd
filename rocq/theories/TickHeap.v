(** TickHeap.v -- /repo/lib/tickdata/tickdata.go with its pointers.

    The same functions as in TickData.v, but a tick holds the addresses of its four integers and the methods
    read and write them one access at a time.  The slices themselves are values: [Clone] makes a new backing
    array and every method writes to the backing array of its receiver only.  The searches read indices only;
    they run on the table [shadow], whose integers are all zero. *)
From Coq Require Import Permutation.
From Verif Require Import Base U256Z TickData HeapProg.
Ltac Zify.zify_post_hook ::= idtac.

(** tickdata.go:10-16 *)
Record HTick := mkHTick { hIndex : Z; aNet : addr; aGross : addr; aOut0 : addr; aOut1 : addr }.
(** tickdata.go:18-21 *)
Record HTickData := mkHTickData { hticks : list HTick; hSpacing : Z }.
Definition with_hticks (t : HTickData) (l : list HTick) : HTickData := mkHTickData l (hSpacing t).

Definition shadow (t : HTickData) : TickData :=
  mkTickData (map (fun x => mkTick (hIndex x) 0 0 0 0) (hticks t)) (hSpacing t).

(** t.ticks[i] *)
Definition hTickAt (t : HTickData) (i : Z) : res HTick :=
  if i <? 0 then Panic else geti (hticks t) (Z.to_nat i).

(** tickdata.go:23-30: a new slice of the same pointers *)
Definition hClone (t : HTickData) : HTickData := mkHTickData (hticks t) (hSpacing t).

(** tickdata.go:60-64 *)
Definition hGetTick (t : HTickData) (index : Z) : res HTick :=
  do i <- binarySearch (shadow t) index;
  do tick <- hTickAt t i;
  do _ <- invariant (hIndex tick =? index);
  Ok tick.

(** tickdata.go:66-73; the caller reads LiquidityNet through the returned pointer *)
Definition hCross (t : HTickData) (tick feeGrowthGlobal0 feeGrowthGlobal1 : Z) : prog Z :=
  run info <- Done (hGetTick t tick);
  Rd (aOut0 info) (fun o0 =>
  Wr (aOut0 info) (usub feeGrowthGlobal0 o0) (
  Rd (aOut1 info) (fun o1 =>
  Wr (aOut1 info) (usub feeGrowthGlobal1 o1) (
  Rd (aNet info) (fun net => ret net))))).

(** tickdata.go:75-94 *)
Definition hMakeTick (tick tickCurrent liquidityNet liquidityGross out0 out1 : Z) : prog HTick :=
  Al liquidityNet (fun an => Al liquidityGross (fun ag =>
  Al (if tick <=? tickCurrent then out0 else 0) (fun a0 =>
  Al (if tick <=? tickCurrent then out1 else 0) (fun a1 =>
  ret (mkHTick tick an ag a0 a1))))).

(** tickdata.go:96-103 *)
Definition hClearTick (t : HTickData) (index : Z) : res HTickData :=
  do r <- binarySearch2 (shadow t) index;
  let '(i, found) := r in
  if found then Ok (with_hticks t (firstn (Z.to_nat i) (hticks t) ++ skipn (Z.to_nat i + 1) (hticks t)))
  else Ok t.

(** tickdata.go:105-139 *)
Definition hUpdateTick (t : HTickData) (index tickCurrent liquidityDelta feeGrowthGlobal0 feeGrowthGlobal1 : Z)
    (upper : bool) : prog (HTickData * bool) :=
  run r <- Done (binarySearch2 (shadow t) index);
  let '(i, found) := r in
  let z := if upper then uneg liquidityDelta else liquidityDelta in
  if found then
    run tick <- Done (hTickAt t i);
    Rd (aNet tick) (fun net =>
    Wr (aNet tick) (if upper then usub net liquidityDelta else uadd net liquidityDelta) (
    Rd (aGross tick) (fun gross =>
    Wr (aGross tick) (uadd gross liquidityDelta) (
    Rd (aGross tick) (fun gross =>
    ret (t, gross =? 0))))))
  else
    run tick <- hMakeTick index tickCurrent z liquidityDelta feeGrowthGlobal0 feeGrowthGlobal1;
    if i =? -2 then ret (with_hticks t (hticks t ++ [tick]), false)
    else if i =? -1 then ret (with_hticks t (tick :: hticks t), false)
    else ret (with_hticks t (firstn (Z.to_nat i) (hticks t) ++ tick :: skipn (Z.to_nat i) (hticks t)), false).

(** tickdata.go:141-165 *)
Definition hGetFeeGrowthInside (t : HTickData) (tickLower tickUpper tickCurrent global0 global1 : Z) : prog (Z * Z) :=
  run lower <- Done (hGetTick t tickLower);
  run upper <- Done (hGetTick t tickUpper);
  Rd (aOut0 lower) (fun lo0 => Rd (aOut1 lower) (fun lo1 =>
  let '(below0, below1) :=
    if tickLower <=? tickCurrent then (lo0, lo1) else (usub global0 lo0, usub global1 lo1) in
  Rd (aOut0 upper) (fun up0 => Rd (aOut1 upper) (fun up1 =>
  let '(above0, above1) :=
    if tickCurrent <? tickUpper then (up0, up1) else (usub global0 up0, usub global1 up1) in
  ret (usub (usub global0 below0) above0, usub (usub global1 below1) above1))))).

(** ** the searches see indices only *)
Definition sameIndex (t1 t2 : TickData) : Prop :=
  map tkIndex (ticks t1) = map tkIndex (ticks t2) /\ tickSpacing t1 = tickSpacing t2.

Definition resMap {A B} (f : A -> B) (r : res A) : res B :=
  match r with Ok a => Ok (f a) | Panic => Panic | OutOfFuel => OutOfFuel end.

Section Same.
  Variables t1 t2 : TickData.
  Hypothesis SI : sameIndex t1 t2.

  Lemma same_len : length (ticks t1) = length (ticks t2).
  Proof. destruct SI as [H _]. rewrite <- (map_length tkIndex (ticks t1)), H. apply map_length. Qed.
  Lemma same_lenT : lenT t1 = lenT t2.
  Proof. unfold lenT. now rewrite same_len. Qed.
  Lemma same_at i : resMap tkIndex (tickAt t1 i) = resMap tkIndex (tickAt t2 i).
  Proof.
    unfold tickAt. destruct (i <? 0); [reflexivity|]. destruct SI as [H _]. unfold geti.
    pose proof (nth_error_map tkIndex (Z.to_nat i) (ticks t1)) as N1. rewrite H, nth_error_map in N1.
    destruct (nth_error (ticks t1) (Z.to_nat i)), (nth_error (ticks t2) (Z.to_nat i)); cbn in N1; try discriminate; cbn; congruence.
  Qed.
  Ltac at_ i := let H := fresh "A" in pose proof (same_at i) as H;
    destruct (tickAt t1 i), (tickAt t2 i); cbn [resMap bind] in H |- *; try discriminate H; try reflexivity;
    try (injection H as H; rewrite ?H).
  Lemma same_below x : isBelowSmallest t1 x = isBelowSmallest t2 x.
  Proof. unfold isBelowSmallest. rewrite same_lenT. destruct (invariant _); cbn [bind]; try reflexivity. at_ 0. reflexivity. Qed.
  Lemma same_atabove x : isAtOrAboveLargest t1 x = isAtOrAboveLargest t2 x.
  Proof. unfold isAtOrAboveLargest. rewrite same_lenT. destruct (invariant _); cbn [bind]; try reflexivity. at_ (lenT t2 - 1). reflexivity. Qed.
  Lemma same_above x : isAboveLargest t1 x = isAboveLargest t2 x.
  Proof. unfold isAboveLargest. rewrite same_lenT. at_ (lenT t2 - 1). reflexivity. Qed.
  Lemma same_bsLoop x fuel : forall l r, bsLoop fuel t1 x l r = bsLoop fuel t2 x l r.
  Proof.
    induction fuel as [|fuel IH]; intros l r; [reflexivity|]. cbn [bsLoop]. at_ ((l + r) ÷ 2). rewrite same_lenT.
    destruct (_ <=? x); [|cbn [bind]; now rewrite !IH]. destruct (_ =? _); [reflexivity|].
    at_ ((l + r) ÷ 2 + 1). now rewrite !IH.
  Qed.
  Lemma same_bs x : binarySearch t1 x = binarySearch t2 x.
  Proof.
    unfold binarySearch. rewrite same_below. destruct (isBelowSmallest t2 x); cbn [bind]; try reflexivity.
    destruct (invariant _); cbn [bind]; try reflexivity. rewrite same_len, same_lenT. apply same_bsLoop.
  Qed.
  Lemma same_bs2Loop x fuel : forall l r, bs2Loop fuel t1 x l r = bs2Loop fuel t2 x l r.
  Proof.
    induction fuel as [|fuel IH]; intros l r; [reflexivity|]. cbn [bs2Loop]. destruct (l <? r).
    - at_ (l + (r - l) ÷ 2). now rewrite !IH.
    - at_ l. reflexivity.
  Qed.
  Lemma same_bs2 x : binarySearch2 t1 x = binarySearch2 t2 x.
  Proof.
    unfold binarySearch2. rewrite same_lenT. destruct (_ =? _); [reflexivity|]. rewrite same_below.
    destruct (isBelowSmallest t2 x) as [[|]| |]; cbn [bind]; try reflexivity. rewrite same_above.
    destruct (isAboveLargest t2 x) as [[|]| |]; cbn [bind]; try reflexivity. rewrite same_len. apply same_bs2Loop.
  Qed.
  Lemma same_nextTick x lte : resMap tkIndex (nextInitializedTick t1 x lte) = resMap tkIndex (nextInitializedTick t2 x lte).
  Proof.
    unfold nextInitializedTick. rewrite same_below, same_atabove, same_bs, same_lenT.
    destruct lte.
    - destruct (isBelowSmallest t2 x); cbn [bind]; try reflexivity. destruct (invariant _); cbn [bind]; try reflexivity.
      destruct (isAtOrAboveLargest t2 x) as [[|]| |]; cbn [bind]; try reflexivity; [apply same_at|].
      destruct (binarySearch t2 x); cbn [bind]; try reflexivity. apply same_at.
    - destruct (isAtOrAboveLargest t2 x); cbn [bind]; try reflexivity. destruct (invariant _); cbn [bind]; try reflexivity.
      destruct (isBelowSmallest t2 x) as [[|]| |]; cbn [bind]; try reflexivity; [apply same_at|].
      destruct (binarySearch t2 x); cbn [bind]; try reflexivity. apply same_at.
  Qed.
  Lemma same_next x lte : NextInitializedTickWithinOneWord t1 x lte = NextInitializedTickWithinOneWord t2 x lte.
  Proof.
    unfold NextInitializedTickWithinOneWord. rewrite (proj2 SI). destruct (invariant _); cbn [bind]; try reflexivity.
    rewrite same_below, same_atabove. pose proof (same_nextTick x lte) as H.
    destruct lte.
    - destruct (isBelowSmallest t2 x) as [[|]| |]; cbn [bind]; try reflexivity.
      destruct (nextInitializedTick t1 x true), (nextInitializedTick t2 x true); cbn [resMap bind] in *; try discriminate; try reflexivity.
      injection H as ->. reflexivity.
    - destruct (isAtOrAboveLargest t2 x) as [[|]| |]; cbn [bind]; try reflexivity.
      destruct (nextInitializedTick t1 x false), (nextInitializedTick t2 x false); cbn [resMap bind] in *; try discriminate; try reflexivity.
      injection H as ->. reflexivity.
  Qed.
End Same.

(** ** what the pointers show *)
Definition viewTick (h : heap) (x : HTick) : Tick :=
  mkTick (hIndex x) (get h (aNet x)) (get h (aGross x)) (get h (aOut0 x)) (get h (aOut1 x)).
Definition view (h : heap) (t : HTickData) : TickData := mkTickData (map (viewTick h) (hticks t)) (hSpacing t).

Definition addrsOf (x : HTick) : list addr := [aNet x; aGross x; aOut0 x; aOut1 x].
Definition addrs (l : list HTick) : list addr := flat_map addrsOf l.

(** every pointer is in the region of [t] and belongs to one tick only *)
Definition valid (t : nat) (h : heap) (l : list HTick) : Prop :=
  Forall (fun a => fst a = t /\ (snd a < length (h t))%nat) (addrs l) /\ NoDup (addrs l).

Lemma shadow_view h t : sameIndex (shadow t) (view h t).
Proof. split; [|reflexivity]. cbn [shadow view ticks]. now rewrite !map_map. Qed.

(** ** simulation: a program on the heap does what the function on values does *)
Definition sim {A B} (t : nat) (h : heap) (p : prog A) (r : res B) (R : heap -> A -> B -> Prop) : Prop :=
  match exec t h p, r with
  | (h', Ok a), Ok b => R h' a b
  | (_, Panic), Panic => True
  | (_, OutOfFuel), OutOfFuel => True
  | _, _ => False
  end.

Lemma sim_bind {A B C D} t h (p : prog A) (r : res B) (f : A -> prog C) (g : B -> res D) R S :
  sim t h p r R -> (forall h' a b, R h' a b -> sim t h' (f a) (g b) S) -> sim t h (pbind p f) (bind r g) S.
Proof.
  unfold sim. intros H K. rewrite exec_bind. destruct (exec t h p) as [h' [a| |]], r as [b| |]; cbn [bind]; try contradiction; auto.
  exact (K h' a b H).
Qed.
Lemma sim_done {A B} t h (r : res A) (s : res B) R :
  match r, s with Ok a, Ok b => R h a b | Panic, Panic => True | OutOfFuel, OutOfFuel => True | _, _ => False end ->
  sim t h (Done r) s R.
Proof. unfold sim. cbn [exec]. destruct r, s; auto. Qed.
Lemma sim_eq {A} t h (r : res A) : sim t h (Done r) r (fun h' a b => h' = h /\ a = b).
Proof. apply sim_done. destruct r; auto. Qed.
Lemma sim_weaken {A B} t h (p : prog A) (r : res B) (R S : heap -> A -> B -> Prop) :
  sim t h p r R -> (forall h' a b, R h' a b -> S h' a b) -> sim t h p r S.
Proof. unfold sim. intros H K. destruct (exec t h p) as [h' [a| |]], r; auto. Qed.

(** ** frame facts *)
Lemma upd_length l : forall n v, length (upd l n v) = length l.
Proof. induction l as [|x l IH]; intros [|n] v; cbn; congruence. Qed.
Lemma upd_same l : forall n v, (n < length l)%nat -> nth n (upd l n v) 0 = v.
Proof. induction l as [|x l IH]; intros [|n] v H; cbn in *; try lia; auto. apply IH. lia. Qed.
Lemma upd_other l : forall n m v, n <> m -> nth m (upd l n v) 0 = nth m l 0.
Proof. induction l as [|x l IH]; intros [|n] [|m] v H; cbn; try congruence; auto. Qed.
Lemma put_len h a v t : length (put h a v t) = length (h t).
Proof.
  unfold put. destruct (Nat.eq_dec t (fst a)) as [->|N].
  - now rewrite setRegion_eq, upd_length.
  - now rewrite setRegion_neq.
Qed.
Lemma get_put_same h a v : (snd a < length (h (fst a)))%nat -> get (put h a v) a = v.
Proof. intros H. unfold get, put. rewrite setRegion_eq. now apply upd_same. Qed.
Lemma get_put_other h a b v : a <> b -> get (put h a v) b = get h b.
Proof.
  intros H. unfold get, put. destruct (Nat.eq_dec (fst b) (fst a)) as [E|N].
  - rewrite E, setRegion_eq. apply upd_other. intros E'. apply H. destruct a, b; cbn in *; congruence.
  - now rewrite setRegion_neq.
Qed.

Lemma valid_put t h a v l : valid t h l -> valid t (put h a v) l.
Proof. intros [F N]. split; [|assumption]. eapply Forall_impl; [|exact F]. intros b [E L]. now rewrite put_len. Qed.

Lemma view_put_notin h a v l : ~ In a (addrs l) -> map (viewTick (put h a v)) l = map (viewTick h) l.
Proof.
  induction l as [|x l IH]; intros H; [reflexivity|]. cbn [map]. cbn [addrs flat_map addrsOf app] in H.
  change (flat_map addrsOf l) with (addrs l) in H. cbn [In] in H. rewrite IH by tauto.
  unfold viewTick. rewrite !get_put_other by (intros ->; tauto). reflexivity.
Qed.

Lemma addrs_app l1 l2 : addrs (l1 ++ l2) = addrs l1 ++ addrs l2.
Proof. apply flat_map_app. Qed.
Lemma addrs_in x l a : In x l -> In a (addrsOf x) -> In a (addrs l).
Proof. intros Hx Ha. apply in_flat_map. eauto. Qed.

(** the i-th tick, split off *)
Lemma hTickAt_split t i x : hTickAt t i = Ok x ->
  0 <= i /\ hticks t = firstn (Z.to_nat i) (hticks t) ++ x :: skipn (Z.to_nat i + 1) (hticks t).
Proof.
  unfold hTickAt, geti. destruct (Z.ltb_spec i 0) as [L|L]; [discriminate|].
  destruct (nth_error (hticks t) (Z.to_nat i)) eqn:E; [|discriminate]. intros [= <-]. split; [assumption|].
  apply nth_error_split in E. destruct E as (l1 & l2 & E & Len). rewrite E, <- Len.
  rewrite firstn_app, firstn_all, Nat.sub_diag, skipn_app, skipn_all2 by lia.
  replace (length l1 + 1 - length l1)%nat with 1%nat by lia. cbn [firstn skipn app]. now rewrite app_nil_r.
Qed.
Lemma hTickAt_view h t i : resMap (viewTick h) (hTickAt t i) = tickAt (view h t) i.
Proof.
  unfold hTickAt, tickAt. destruct (i <? 0); [reflexivity|]. unfold geti. cbn [view ticks]. rewrite nth_error_map.
  now destruct (nth_error (hticks t) (Z.to_nat i)).
Qed.

Lemma nodup_r {A} (l1 l2 : list A) : NoDup (l1 ++ l2) -> NoDup l2.
Proof. induction l1 as [|x l1 IH]; cbn; [auto|]. intros H. apply NoDup_cons_iff in H. apply IH. tauto. Qed.
Lemma nodup_l {A} (l1 l2 : list A) : NoDup (l1 ++ l2) -> NoDup l1.
Proof.
  induction l1 as [|x l1 IH]; cbn; intros H; [constructor|]. apply NoDup_cons_iff in H. destruct H as [H1 H2].
  constructor; [|auto]. intros K. apply H1. apply in_or_app. now left.
Qed.
Lemma NoDup_app_not {A} (l1 l2 : list A) a : NoDup (l1 ++ l2) -> In a l1 -> ~ In a l2.
Proof.
  induction l1 as [|x l1 IH]; intros H; cbn; [tauto|]. cbn in H. apply NoDup_cons_iff in H. destruct H as [H1 H2].
  intros [->|I] K; [|now apply IH]. apply H1. apply in_or_app. now right.
Qed.

(** writing to a pointer of the i-th tick changes that tick only *)
Lemma view_put_at t h d i x a v : valid t h (hticks d) -> hTickAt d i = Ok x -> In a (addrsOf x) ->
  view (put h a v) d = with_ticks (view h d) (setAt (ticks (view h d)) i (viewTick (put h a v) x)).
Proof.
  intros [F N] E I. destruct (hTickAt_split d i x E) as [Hi S]. unfold view, with_ticks, setAt. cbn [ticks tickSpacing]. f_equal.
  rewrite S in N. rewrite addrs_app in N. change (addrs (x :: ?l)) with (addrsOf x ++ addrs l) in N.
  assert (~ In a (addrs (firstn (Z.to_nat i) (hticks d)))) as N1.
  { intros K. eapply NoDup_app_not in K; [|exact N]. apply K. apply in_or_app. now left. }
  assert (~ In a (addrs (skipn (Z.to_nat i + 1) (hticks d)))) as N2.
  { apply nodup_r in N. eapply NoDup_app_not; [exact N|assumption]. }
  rewrite S at 1. rewrite map_app. cbn [map]. rewrite !view_put_notin by assumption. now rewrite firstn_map, skipn_map.
Qed.
Lemma hTickAt_in d i x : hTickAt d i = Ok x -> In x (hticks d).
Proof. intros E. destruct (hTickAt_split d i x E) as [_ S]. rewrite S. apply in_or_app. right. now left. Qed.
Lemma valid_addr t h l x a : valid t h l -> In x l -> In a (addrsOf x) -> fst a = t /\ (snd a < length (h t))%nat.
Proof. intros [F _] Hx Ha. rewrite Forall_forall in F. apply F. eapply addrs_in; eassumption. Qed.
Lemma valid_distinct t h l x : valid t h l -> In x l -> NoDup (addrsOf x).
Proof.
  intros [_ N] Hx. apply in_split in Hx. destruct Hx as (l1 & l2 & ->). rewrite addrs_app in N.
  apply nodup_r in N. change (addrs (x :: l2)) with (addrsOf x ++ addrs l2) in N. now apply nodup_l in N.
Qed.

(** ** each method *)
Lemma hGetTick_view h d x :
  match hGetTick d x, binarySearch (view h d) x with
  | Ok ht, Ok i => hTickAt d i = Ok ht /\ tickAt (view h d) i = Ok (viewTick h ht) /\ hIndex ht = x /\ GetTick (view h d) x = Ok (viewTick h ht)
  | Panic, _ => GetTick (view h d) x = Panic
  | OutOfFuel, _ => GetTick (view h d) x = OutOfFuel
  | Ok _, _ => False
  end.
Proof.
  unfold hGetTick, GetTick. rewrite (same_bs _ _ (shadow_view h d)). destruct (binarySearch (view h d) x) as [i| |]; cbn [bind]; auto.
  rewrite <- hTickAt_view. destruct (hTickAt d i) as [ht| |] eqn:E; cbn [bind resMap]; auto.
  cbn [viewTick tkIndex]. unfold invariant. destruct (Z.eqb_spec (hIndex ht) x); cbn [bind]; auto.
Qed.

Lemma setAt_setAt l i x y : 0 <= i -> (Z.to_nat i < length l)%nat -> setAt (setAt l i x) i y = setAt l i y.
Proof.
  intros Hi Hl. unfold setAt. assert (length (firstn (Z.to_nat i) l) = Z.to_nat i) as E by (rewrite firstn_length; lia).
  rewrite firstn_app, firstn_firstn, Nat.min_id, E, Nat.sub_diag. cbn [firstn]. rewrite app_nil_r. f_equal. f_equal.
  rewrite skipn_app, E. replace (Z.to_nat i + 1 - Z.to_nat i)%nat with 1%nat by lia. cbn [skipn].
  rewrite skipn_all2 by (rewrite E; lia). reflexivity.
Qed.
Lemma hTickAt_lt d i x : hTickAt d i = Ok x -> (Z.to_nat i < length (hticks d))%nat.
Proof. unfold hTickAt, geti. destruct (i <? 0); [discriminate|]. destruct (nth_error _ _) eqn:E; [|discriminate]. intros _. apply nth_error_Some. congruence. Qed.

(** two writes to the i-th tick *)
Lemma view_put2_at t h d i x a v b w : valid t h (hticks d) -> hTickAt d i = Ok x -> In a (addrsOf x) -> In b (addrsOf x) ->
  view (put (put h a v) b w) d = with_ticks (view h d) (setAt (ticks (view h d)) i (viewTick (put (put h a v) b w) x)).
Proof.
  intros V E Ia Ib. rewrite (view_put_at t (put h a v) d i x b w (valid_put t h a v _ V) E Ib).
  rewrite (view_put_at t h d i x a v V E Ia). unfold with_ticks. cbn [ticks tickSpacing view]. f_equal.
  apply setAt_setAt.
  - now destruct (hTickAt_split d i x E).
  - rewrite map_length. eapply hTickAt_lt; eassumption.
Qed.

Lemma sim_Cross t h d x g0 g1 : valid t h (hticks d) ->
  sim t h (hCross d x g0 g1) (Cross (view h d) x g0 g1)
    (fun h' net r => valid t h' (hticks d) /\ view h' d = fst r /\ net = snd r).
Proof.
  intros V. unfold hCross. pose proof (hGetTick_view h d x) as G. unfold sim. rewrite exec_bind. cbn [exec].
  unfold Cross. unfold GetTick in G.
  destruct (hGetTick d x) as [ht| |].
  - destruct (binarySearch (view h d) x) as [i| |]; try contradiction. destruct G as (E & E' & Ei & _). cbn [bind].
    rewrite E'. cbn [bind viewTick tkIndex tkOut0 tkOut1 tkNet tkGross]. rewrite Ei. unfold invariant. rewrite Z.eqb_refl. cbn [bind exec ret].
    assert (In ht (hticks d)) as I by (eapply hTickAt_in; eassumption).
    pose proof (valid_distinct t h _ ht V I) as ND. unfold addrsOf in ND.
    assert (forall a, In a (addrsOf ht) -> fst a = t /\ (snd a < length (h t))%nat) as VA by (intros a; eapply valid_addr; eassumption).
    assert (aOut0 ht <> aOut1 ht /\ aOut0 ht <> aNet ht /\ aOut1 ht <> aNet ht /\ aOut0 ht <> aGross ht /\ aOut1 ht <> aGross ht) as (D1 & D2 & D3 & D4 & D5).
    { repeat match goal with H : NoDup (_ :: _) |- _ => apply NoDup_cons_iff in H; destruct H end. cbn [In] in *. repeat split; intros K; rewrite K in *; intuition. }
    destruct (VA (aOut0 ht)) as [F0 L0]; [cbn; auto|]. destruct (VA (aOut1 ht)) as [F1 L1]; [cbn; auto|].
    rewrite (get_put_other h (aOut0 ht) (aOut1 ht)) by assumption.
    set (v0 := usub g0 (get h (aOut0 ht))). set (v1 := usub g1 (get h (aOut1 ht))).
    split; [now apply valid_put, valid_put|]. cbn [fst snd]. split.
    + rewrite (view_put2_at t h d i ht) by (try assumption; cbn; auto). unfold with_ticks. f_equal. f_equal.
      unfold viewTick. rewrite Ei.
      rewrite (get_put_other _ (aOut1 ht) (aNet ht)), (get_put_other _ (aOut0 ht) (aNet ht)) by assumption.
      rewrite (get_put_other _ (aOut1 ht) (aGross ht)), (get_put_other _ (aOut0 ht) (aGross ht)) by assumption.
      rewrite (get_put_other _ (aOut1 ht) (aOut0 ht)) by congruence. rewrite get_put_same by (rewrite F0; assumption).
      rewrite get_put_same by (rewrite F1, put_len; assumption). reflexivity.
    + now rewrite !get_put_other.
  - destruct (binarySearch (view h d) x) as [i| |]; cbn [bind] in *; try discriminate G; auto.
    destruct (tickAt (view h d) i); cbn [bind] in *; try discriminate G; auto.
    destruct (invariant _); cbn [bind] in *; try discriminate G; auto.
  - destruct (binarySearch (view h d) x) as [i| |]; cbn [bind] in *; try discriminate G; auto.
    destruct (tickAt (view h d) i); cbn [bind] in *; try discriminate G; auto.
    destruct (invariant _); cbn [bind] in *; try discriminate G; auto.
Qed.

(** allocation *)
Lemma get_alloc_old t h v a : (snd a < length (h (fst a)))%nat -> get (setRegion h t (h t ++ [v])) a = get h a.
Proof.
  intros H. unfold get. destruct (Nat.eq_dec (fst a) t) as [E|N].
  - rewrite E, setRegion_eq. apply app_nth1. now rewrite <- E.
  - now rewrite setRegion_neq.
Qed.
Lemma get_alloc_new t h v : get (setRegion h t (h t ++ [v])) (t, length (h t)) = v.
Proof. unfold get. cbn [fst snd]. rewrite setRegion_eq, app_nth2, Nat.sub_diag by lia. reflexivity. Qed.

(** a heap that only grew in region [t] *)
Definition grown (t : nat) (h h' : heap) (vs : list Z) : Prop := h' t = h t ++ vs.
Lemma grown_old t h h' vs a : grown t h h' vs -> fst a = t -> (snd a < length (h t))%nat -> get h' a = get h a.
Proof. intros G E L. unfold get. rewrite E, G. now apply app_nth1. Qed.
Lemma grown_valid t h h' vs l : grown t h h' vs -> valid t h l -> valid t h' l.
Proof. intros G [F N]. split; [|assumption]. eapply Forall_impl; [|exact F]. intros a [E L]. rewrite G, app_length. split; [assumption|lia]. Qed.
Lemma grown_view t h h' vs l : grown t h h' vs -> valid t h l -> map (viewTick h') l = map (viewTick h) l.
Proof.
  intros G [F N]. clear N. induction l as [|x l IH]; [reflexivity|]. cbn [addrs flat_map addrsOf app] in F.
  pose proof (Forall_inv F) as [E1 L1]. apply Forall_inv_tail in F. pose proof (Forall_inv F) as [E2 L2]. apply Forall_inv_tail in F.
  pose proof (Forall_inv F) as [E3 L3]. apply Forall_inv_tail in F. pose proof (Forall_inv F) as [E4 L4]. apply Forall_inv_tail in F.
  cbn [map]. rewrite IH by assumption. unfold viewTick. rewrite !(grown_old t h h' vs) by assumption. reflexivity.
Qed.

Lemma exec_makeTick t h i cur net gross o0 o1 :
  exists h', exec t h (hMakeTick i cur net gross o0 o1) =
    (h', Ok (mkHTick i (t, length (h t)) (t, length (h t) + 1)%nat (t, length (h t) + 2)%nat (t, length (h t) + 3)%nat)) /\
    grown t h h' [net; gross; if i <=? cur then o0 else 0; if i <=? cur then o1 else 0].
Proof.
  unfold hMakeTick, ret. cbn [exec]. eexists. rewrite !setRegion_eq, !app_length. cbn [length]. split.
  - do 3 f_equal; f_equal; lia.
  - unfold grown. rewrite !setRegion_eq, <- !app_assoc. reflexivity.
Qed.

Lemma new_tick_valid t h h' vs l1 l2 i : grown t h h' vs -> length vs = 4%nat -> valid t h (l1 ++ l2) ->
  valid t h' (l1 ++ mkHTick i (t, length (h t)) (t, length (h t) + 1)%nat (t, length (h t) + 2)%nat (t, length (h t) + 3)%nat :: l2).
Proof.
  intros G L [F N]. set (x := mkHTick _ _ _ _ _). rewrite addrs_app in F, N. apply Forall_app in F. destruct F as [F1 F2].
  assert (forall a, In a (addrsOf x) -> fst a = t /\ (length (h t) <= snd a < length (h' t))%nat) as X.
  { intros a. cbn [addrsOf x aNet aGross aOut0 aOut1 In]. rewrite G, app_length, L. intros [<-|[<-|[<-|[<-|[]]]]]; cbn [fst snd]; split; (reflexivity || lia). }
  assert (forall a, fst a = t /\ (snd a < length (h t))%nat -> fst a = t /\ (snd a < length (h' t))%nat) as Y.
  { intros a [E K]. rewrite G, app_length. split; [assumption|lia]. }
  split; rewrite addrs_app; change (addrs (x :: l2)) with (addrsOf x ++ addrs l2).
  - apply Forall_app. split; [eapply Forall_impl; [|exact F1]; auto|]. apply Forall_app. split; [|eapply Forall_impl; [|exact F2]; auto].
    apply Forall_forall. intros a I. destruct (X a I). split; [assumption|lia].
  - assert (NoDup (addrsOf x ++ addrs l1 ++ addrs l2)) as ND.
    { assert (forall a, In a (addrsOf x) -> ~ In a (addrs l1 ++ addrs l2)) as Z0.
      { intros a I K. destruct (X a I) as [_ K1]. rewrite Forall_forall in F1, F2. apply in_app_or in K.
        destruct K as [K|K]; [destruct (F1 a K)|destruct (F2 a K)]; lia. }
      cbn [addrsOf x aNet aGross aOut0 aOut1 app In] in *.
      repeat (apply NoDup_cons; [cbn [In]; let K := fresh in intros K; repeat (destruct K as [K|K]; [injection K; lia|]); revert K; apply Z0; tauto|]).
      assumption. }
    rewrite app_assoc in ND |- *. apply (Permutation_NoDup (l := (addrsOf x ++ addrs l1) ++ addrs l2)); [|assumption].
    apply Permutation_app_tail. apply Permutation_app_comm.
Qed.

Definition tickOf (h : heap) (d : HTickData) (h' : heap) (d' : HTickData) (t : nat) (v : TickData) : Prop :=
  valid t h' (hticks d') /\ view h' d' = v.

Lemma valid_remove t h l1 l2 l3 : valid t h (l1 ++ l2 ++ l3) -> valid t h (l1 ++ l3).
Proof.
  intros [F N]. rewrite !addrs_app in F, N. apply Forall_app in F. destruct F as [F1 F]. apply Forall_app in F. destruct F as [_ F3].
  split; rewrite addrs_app; [now apply Forall_app|].
  assert (Permutation (addrs l1 ++ addrs l2 ++ addrs l3) (addrs l2 ++ addrs l1 ++ addrs l3)) as P by (rewrite !app_assoc; apply Permutation_app_tail, Permutation_app_comm).
  apply (Permutation_NoDup P) in N. now apply nodup_r in N.
Qed.

Lemma skipn_skipn' {A} n : forall m (l : list A), skipn m (skipn n l) = skipn (m + n) l.
Proof.
  induction n as [|n IH]; intros m l; [now rewrite Nat.add_0_r|]. rewrite Nat.add_succ_r. destruct l; [now rewrite !skipn_nil|]. apply IH.
Qed.

Lemma sim_ClearTick t h d x : valid t h (hticks d) ->
  sim t h (Done (hClearTick d x)) (ClearTick (view h d) x)
    (fun h' d' v => h' = h /\ valid t h (hticks d') /\ view h d' = v).
Proof.
  intros V. apply sim_done. unfold hClearTick, ClearTick. rewrite (same_bs2 _ _ (shadow_view h d)).
  destruct (binarySearch2 (view h d) x) as [[i [|]]| |]; cbn [bind]; auto. cbn [with_hticks hticks]. split; [reflexivity|]. split.
  - apply (valid_remove t h _ (firstn 1 (skipn (Z.to_nat i) (hticks d)))).
    replace (firstn (Z.to_nat i) (hticks d) ++ firstn 1 (skipn (Z.to_nat i) (hticks d)) ++ skipn (Z.to_nat i + 1) (hticks d)) with (hticks d); [assumption|].
    rewrite <- (firstn_skipn (Z.to_nat i) (hticks d)) at 1. f_equal.
    rewrite <- (firstn_skipn 1 (skipn (Z.to_nat i) (hticks d))) at 1. now rewrite skipn_skipn', (Nat.add_comm 1 (Z.to_nat i)).
  - unfold view, with_ticks, with_hticks. cbn [hticks hSpacing ticks tickSpacing]. f_equal. now rewrite map_app, firstn_map, skipn_map.
Qed.

Lemma sim_UpdateTick t h d x cur liq g0 g1 up : valid t h (hticks d) ->
  sim t h (hUpdateTick d x cur liq g0 g1 up) (UpdateTick (view h d) x cur liq g0 g1 up)
    (fun h' r v => valid t h' (hticks (fst r)) /\ view h' (fst r) = fst v /\ snd r = snd v).
Proof.
  intros V. unfold hUpdateTick, UpdateTick. rewrite (same_bs2 _ _ (shadow_view h d)).
  destruct (binarySearch2 (view h d) x) as [[i [|]]| |]; cbn [bind pbind]; [| |exact I|exact I].
  - rewrite <- hTickAt_view. destruct (hTickAt d i) as [ht| |] eqn:E; cbn [pbind resMap bind]; [|exact I|exact I].
    unfold sim, ret. cbn [exec viewTick tkNet tkGross tkIndex tkOut0 tkOut1 fst snd].
    assert (In ht (hticks d)) as I by (eapply hTickAt_in; eassumption).
    pose proof (valid_distinct t h _ ht V I) as ND. unfold addrsOf in ND.
    assert (forall a, In a (addrsOf ht) -> fst a = t /\ (snd a < length (h t))%nat) as VA by (intros a; eapply valid_addr; eassumption).
    assert (aNet ht <> aGross ht /\ aNet ht <> aOut0 ht /\ aNet ht <> aOut1 ht /\ aGross ht <> aOut0 ht /\ aGross ht <> aOut1 ht) as (D1 & D2 & D3 & D4 & D5).
    { repeat match goal with H : NoDup (_ :: _) |- _ => apply NoDup_cons_iff in H; destruct H end. cbn [In] in *. repeat split; intros K; rewrite K in *; intuition. }
    destruct (VA (aNet ht)) as [F0 L0]; [cbn; auto|]. destruct (VA (aGross ht)) as [F1 L1]; [cbn; auto|].
    rewrite (get_put_other h (aNet ht) (aGross ht)) by assumption.
    set (v0 := if up then _ else _). set (v1 := uadd (get h (aGross ht)) liq).
    rewrite (get_put_same (put h (aNet ht) v0) (aGross ht) v1) by (rewrite F1, put_len; assumption).
    split; [now apply valid_put, valid_put|]. split; [|reflexivity].
    rewrite (view_put2_at t h d i ht) by (try assumption; cbn; auto). unfold with_ticks. f_equal. f_equal.
    unfold viewTick.
    rewrite (get_put_other _ (aGross ht) (aNet ht)) by congruence. rewrite get_put_same by (rewrite F0; assumption).
    rewrite get_put_same by (rewrite F1, put_len; assumption). now rewrite !get_put_other.
  - unfold sim. rewrite exec_bind.
    destruct (exec_makeTick t h x cur (if up then uneg liq else liq) liq g0 g1) as (h' & -> & G).
    set (ht := mkHTick x _ _ _ _).
    assert (viewTick h' ht = makeTick x cur (if up then uneg liq else liq) liq g0 g1) as VT.
    { unfold viewTick, get, ht. cbn [hIndex aNet aGross aOut0 aOut1 fst snd]. rewrite G. unfold makeTick.
      rewrite !app_nth2 by lia. rewrite Nat.sub_diag. do 3 rewrite (Nat.add_comm (length (h t))), Nat.add_sub. cbn [nth].
      destruct (x <=? cur); reflexivity. }
    rewrite <- VT.
    destruct (i =? -2); [|destruct (i =? -1)]; cbn [exec ret fst snd with_hticks hticks].
    + split; [|split; [|reflexivity]].
      * pose proof (new_tick_valid t h h' _ (hticks d) [] x G eq_refl) as K. rewrite app_nil_r in K. exact (K V).
      * unfold view, with_ticks, with_hticks. cbn [hticks hSpacing ticks tickSpacing]. f_equal. rewrite map_app, (grown_view t h h' _ _ G V). reflexivity.
    + split; [|split; [|reflexivity]].
      * exact (new_tick_valid t h h' _ [] (hticks d) x G eq_refl V).
      * unfold view, with_ticks, with_hticks. cbn [hticks hSpacing ticks tickSpacing map]. f_equal. now rewrite (grown_view t h h' _ _ G V).
    + split; [|split; [|reflexivity]].
      * apply (new_tick_valid t h h' _ (firstn (Z.to_nat i) (hticks d)) (skipn (Z.to_nat i) (hticks d)) x G eq_refl). now rewrite firstn_skipn.
      * unfold view, with_ticks, with_hticks. cbn [hticks hSpacing ticks tickSpacing]. f_equal. rewrite map_app. cbn [map].
        rewrite <- (grown_view t h h' _ _ G V), firstn_map, skipn_map. reflexivity.
Qed.

Lemma sim_Inside t h d lo up cur g0 g1 :
  sim t h (hGetFeeGrowthInside d lo up cur g0 g1) (GetFeeGrowthInside (view h d) lo up cur g0 g1)
    (fun h' a b => h' = h /\ a = b).
Proof.
  unfold hGetFeeGrowthInside, GetFeeGrowthInside.
  pose proof (hGetTick_view h d lo) as G1. pose proof (hGetTick_view h d up) as G2.
  destruct (hGetTick d lo) as [l| |]; [|now rewrite G1|now rewrite G1].
  destruct (binarySearch (view h d) lo); try contradiction. destruct G1 as (_ & _ & _ & ->). cbn [bind pbind].
  destruct (hGetTick d up) as [u| |]; [|now rewrite G2|now rewrite G2].
  destruct (binarySearch (view h d) up); try contradiction. destruct G2 as (_ & _ & _ & ->). cbn [bind pbind].
  unfold sim. cbn [exec viewTick tkOut0 tkOut1].
  destruct (lo <=? cur), (cur <? up); cbn [exec ret]; auto.
Qed.

(** ** every access of a method is through a pointer of its receiver *)
Definition owned (t : nat) (l : list HTick) : Prop := Forall (fun a => fst a = t) (addrs l).

(** [local], with what is known about the result *)
Fixpoint localp {A} (t : nat) (Q : A -> Prop) (p : prog A) : Prop :=
  match p with
  | Done (Ok a) => Q a
  | Done _ => True
  | Rd a k => fst a = t /\ forall v, localp t Q (k v)
  | Wr a v k => fst a = t /\ localp t Q k
  | Al v k => forall n, localp t Q (k (t, n))
  end.
Lemma localp_local {A} t (Q : A -> Prop) p : localp t Q p -> local t p.
Proof.
  induction p as [r|a k IH|a v k IH|v k IH]; cbn [localp local]; auto.
  - intros [E H]. auto.
  - intros [E H]. auto.
Qed.
Lemma localp_bind {A B} t (p : prog A) (f : A -> prog B) Q R :
  localp t Q p -> (forall a, Q a -> localp t R (f a)) -> localp t R (pbind p f).
Proof.
  intros H K. induction p as [r|a k IH|a v k IH|v k IH]; cbn [pbind localp] in *.
  - destruct r; [auto|exact I|exact I].
  - destruct H. split; auto.
  - destruct H. split; auto.
  - auto.
Qed.
Lemma localp_done {A} t (Q : A -> Prop) r : (forall a, r = Ok a -> Q a) -> localp t Q (Done r).
Proof. intros H. destruct r; cbn [localp]; auto. Qed.
Lemma localp_weaken {A} t (Q R : A -> Prop) p : localp t Q p -> (forall a, Q a -> R a) -> localp t R p.
Proof.
  intros H K. induction p as [r|a k IH|a v k IH|v k IH]; cbn [localp] in *; auto.
  - destruct r; auto.
  - destruct H; split; auto.
  - destruct H; split; auto.
Qed.

Lemma valid_owned t h l : valid t h l -> owned t l.
Proof. intros [F _]. eapply Forall_impl; [|exact F]. now intros a []. Qed.
Lemma owned_at t d i x : owned t (hticks d) -> hTickAt d i = Ok x ->
  fst (aNet x) = t /\ fst (aGross x) = t /\ fst (aOut0 x) = t /\ fst (aOut1 x) = t.
Proof.
  intros O E. apply hTickAt_in in E. unfold owned in O. rewrite Forall_forall in O.
  repeat split; apply O; (eapply addrs_in; [exact E|cbn; auto]).
Qed.
Lemma owned_get t d x ht : owned t (hticks d) -> hGetTick d x = Ok ht ->
  fst (aNet ht) = t /\ fst (aGross ht) = t /\ fst (aOut0 ht) = t /\ fst (aOut1 ht) = t.
Proof.
  intros O. unfold hGetTick. destruct (binarySearch _ _); cbn [bind]; try discriminate.
  destruct (hTickAt d a) as [y| |] eqn:E; cbn [bind]; try discriminate. destruct (invariant _); cbn [bind]; try discriminate.
  intros [= <-]. eapply owned_at; eassumption.
Qed.

Lemma local_Cross t d x g0 g1 : owned t (hticks d) -> localp t (fun _ => True) (hCross d x g0 g1).
Proof.
  intros O. unfold hCross. apply (localp_bind t _ _ (fun ht => hGetTick d x = Ok ht)); [now apply localp_done|].
  intros ht E. destruct (owned_get t d x ht O E) as (E1 & E2 & E3 & E4). cbn [localp ret]. repeat split; auto.
Qed.
Lemma local_Inside t d lo up cur g0 g1 : owned t (hticks d) -> localp t (fun _ => True) (hGetFeeGrowthInside d lo up cur g0 g1).
Proof.
  intros O. unfold hGetFeeGrowthInside. apply (localp_bind t _ _ (fun ht => hGetTick d lo = Ok ht)); [now apply localp_done|].
  intros l El. apply (localp_bind t _ _ (fun ht => hGetTick d up = Ok ht)); [now apply localp_done|].
  intros u Eu. destruct (owned_get t d lo l O El) as (_ & _ & E3 & E4). destruct (owned_get t d up u O Eu) as (_ & _ & E5 & E6).
  cbn [localp ret]. split; [assumption|]. intros v1. split; [assumption|]. intros v2.
  destruct (lo <=? cur), (cur <? up); cbn [localp]; repeat split; auto.
Qed.
Lemma owned_app t l1 l2 : owned t (l1 ++ l2) <-> owned t l1 /\ owned t l2.
Proof. unfold owned. rewrite addrs_app. apply Forall_app. Qed.
Lemma owned_split t l n : owned t l -> owned t (firstn n l) /\ owned t (skipn n l).
Proof. intros O. apply owned_app. now rewrite firstn_skipn. Qed.
Lemma owned_Clear t d x d' : owned t (hticks d) -> hClearTick d x = Ok d' -> owned t (hticks d').
Proof.
  intros O. unfold hClearTick. destruct (binarySearch2 _ _) as [[i [|]]| |]; cbn [bind]; try discriminate; intros [= <-]; [|assumption].
  cbn [with_hticks hticks]. apply owned_app. split; [now apply (owned_split t (hticks d))|now apply (owned_split t (hticks d))].
Qed.
Lemma local_UpdateTick t d x cur liq g0 g1 up : owned t (hticks d) ->
  localp t (fun r => owned t (hticks (fst r))) (hUpdateTick d x cur liq g0 g1 up).
Proof.
  intros O. unfold hUpdateTick. destruct (binarySearch2 _ _) as [[i [|]]| |]; cbn [pbind]; [| |exact I|exact I].
  - destruct (hTickAt d i) as [ht| |] eqn:E; [|exact I|exact I]. destruct (owned_at t d i ht O E) as (E1 & E2 & E3 & E4). cbn [localp ret fst]. repeat split; auto.
  - unfold hMakeTick. cbn [pbind localp]. intros n1 n2 n3 n4. unfold ret. cbn [pbind].
    assert (forall l1 l2, owned t l1 -> owned t l2 -> owned t (l1 ++ mkHTick x (t, n1) (t, n2) (t, n3) (t, n4) :: l2)) as K.
    { intros l1 l2 O1 O2. apply owned_app. split; [assumption|]. unfold owned. cbn [addrs flat_map addrsOf app aNet aGross aOut0 aOut1].
      repeat (apply Forall_cons; [reflexivity|]). exact O2. }
    destruct (i =? -2); [|destruct (i =? -1)]; cbn [localp fst with_hticks hticks].
    + apply K; [assumption|constructor].
    + apply (K [] (hticks d)); [constructor|assumption].
    + apply K; now apply (owned_split t (hticks d)).
Qed.
