(** TickDataFacts.v -- the sorted tick list as a finite map: both binary searches terminate and are right,
    and every operation is described through [lookup]. *)
From Coq Require Import Sorting.Sorted ZifyBool.
From Verif Require Import Base U256Z TickData.
Ltac Zify.zify_post_hook ::= idtac.

Lemma bind_inv {A B} (x : res A) (f : A -> res B) b : bind x f = Ok b -> exists a, x = Ok a /\ f a = Ok b.
Proof. destruct x; cbn; intros H; [eauto|discriminate..]. Qed.

(** strictly increasing indices *)
Definition sortedL (l : list Tick) : Prop := StronglySorted (fun a b => tkIndex a < tkIndex b) l.
Definition sortedT (t : TickData) : Prop := sortedL (ticks t).

Definition lookup (l : list Tick) (i : Z) : option Tick := find (fun x => tkIndex x =? i) l.

Definition noTick : Tick := mkTick 0 0 0 0 0.
(** the index of the i-th tick *)
Definition idx (l : list Tick) (i : Z) : Z := tkIndex (nth (Z.to_nat i) l noTick).
Definition len (l : list Tick) : Z := Z.of_nat (length l).

Lemma tickAt_ok t i : 0 <= i < lenT t -> tickAt t i = Ok (nth (Z.to_nat i) (ticks t) noTick).
Proof.
  unfold tickAt, lenT, geti. intros H. replace (i <? 0) with false by lia.
  rewrite (nth_error_nth' _ noTick) by lia. reflexivity.
Qed.

Lemma tickAt_inv t i x : tickAt t i = Ok x -> 0 <= i < lenT t /\ x = nth (Z.to_nat i) (ticks t) noTick.
Proof.
  unfold tickAt, geti, lenT. destruct (i <? 0) eqn:C; [discriminate|].
  destruct (nth_error (ticks t) (Z.to_nat i)) eqn:E; [|discriminate]. intros [= <-]. split.
  - assert (nth_error (ticks t) (Z.to_nat i) <> None) as H by congruence. apply nth_error_Some in H. lia.
  - symmetry. now apply nth_error_nth.
Qed.

(** number of leading ticks with [p] *)
Definition cnt (p : Z -> bool) (l : list Tick) : Z := len (filter (fun x => p (tkIndex x)) l).
(** [p] holds on an initial part of the integers *)
Definition downward (p : Z -> bool) : Prop := forall a b, a <= b -> p b = true -> p a = true.

Lemma cnt_nil p : cnt p [] = 0.
Proof. reflexivity. Qed.
Lemma cnt_cons p a l : cnt p (a :: l) = (if p (tkIndex a) then 1 else 0) + cnt p l.
Proof. unfold cnt, len. cbn [filter]. destruct (p (tkIndex a)); cbn [length]; lia. Qed.
Lemma cnt_bound p l : 0 <= cnt p l <= len l.
Proof. induction l as [|a l IH]; [rewrite cnt_nil; unfold len; cbn; lia|]. rewrite cnt_cons. unfold len in *. cbn [length]. destruct (p _); lia. Qed.

Lemma cnt_false p l : (forall x, In x l -> p (tkIndex x) = false) -> cnt p l = 0.
Proof.
  induction l as [|a l IH]; intros H; [reflexivity|]. rewrite cnt_cons, H by (now left).
  rewrite IH; [lia|]. intros x Hx. apply H. now right.
Qed.

Lemma cnt_spec p l : sortedL l -> downward p -> forall i, 0 <= i < len l -> p (idx l i) = (i <? cnt p l).
Proof.
  intros Hs Hp. induction Hs as [|a l Hs IH Ha]; intros i Hi; [unfold len in Hi; cbn in Hi; lia|].
  rewrite cnt_cons. destruct (p (tkIndex a)) eqn:E.
  - unfold len in Hi. cbn [length] in Hi. destruct (Z.eq_dec i 0) as [->|C].
    + unfold idx. cbn [Z.to_nat nth]. rewrite E. pose proof (cnt_bound p l). symmetry. apply Z.ltb_lt. lia.
    + replace (idx (a :: l) i) with (idx l (i - 1)).
      2:{ unfold idx. replace (Z.to_nat i) with (S (Z.to_nat (i - 1))) by lia. reflexivity. }
      rewrite IH by (unfold len; lia). lia.
  - rewrite cnt_false.
    + replace (i <? 0 + 0) with false by lia. apply not_true_is_false. intros C.
      apply (Hp (tkIndex a)) in C; [congruence|]. unfold idx. destruct (Z.to_nat i) as [|n] eqn:En; [cbn; lia|].
      cbn [nth]. rewrite Forall_forall in Ha. apply Z.lt_le_incl, Ha, nth_In. unfold len in Hi. cbn [length] in Hi. lia.
    + intros x Hx. apply not_true_is_false. intros C. apply (Hp (tkIndex a)) in C; [congruence|].
      rewrite Forall_forall in Ha. specialize (Ha x Hx). lia.
Qed.

Definition below (k : Z) : Z -> bool := fun x => x <? k.
Definition upto (k : Z) : Z -> bool := fun x => x <=? k.
Lemma below_down k : downward (below k). Proof. unfold downward, below. lia. Qed.
Lemma upto_down k : downward (upto k). Proof. unfold downward, upto. lia. Qed.

Lemma idx_lt l k i : sortedL l -> 0 <= i < len l -> (idx l i <? k) = (i <? cnt (below k) l).
Proof. intros H. apply (cnt_spec (below k)); [exact H|apply below_down]. Qed.
Lemma idx_le l k i : sortedL l -> 0 <= i < len l -> (idx l i <=? k) = (i <? cnt (upto k) l).
Proof. intros H. apply (cnt_spec (upto k)); [exact H|apply upto_down]. Qed.

Lemma idx_cons a l i : 0 < i -> idx (a :: l) i = idx l (i - 1).
Proof. intros H. unfold idx. replace (Z.to_nat i) with (S (Z.to_nat (i - 1))) by lia. reflexivity. Qed.

Lemma idx_mono l i j : sortedL l -> 0 <= i -> i < j -> j < len l -> idx l i < idx l j.
Proof.
  intros H. revert i j. induction H as [|a l H IH Ha]; intros i j H1 H2 H3; unfold len in *; cbn [length] in *; [lia|].
  rewrite (idx_cons a l j) by lia. destruct (Z.eq_dec i 0) as [->|Ci].
  - rewrite Forall_forall in Ha. unfold idx at 1. cbn [Z.to_nat nth]. apply Ha, nth_In. lia.
  - rewrite idx_cons by lia. apply IH; lia.
Qed.

Lemma idx_inj l i j : sortedL l -> 0 <= i < len l -> 0 <= j < len l -> idx l i = idx l j -> i = j.
Proof.
  intros H Hi Hj E. destruct (Z.lt_trichotomy i j) as [C|[C|C]]; [|assumption|]; exfalso.
  - pose proof (idx_mono l i j H). lia.
  - pose proof (idx_mono l j i H). lia.
Qed.

(** ** The searches *)
Lemma bsLoop_spec t tick : sortedT t -> 0 < cnt (upto tick) (ticks t) -> forall fuel l r,
  0 <= l -> r < lenT t -> l <= cnt (upto tick) (ticks t) - 1 <= r -> r - l < Z.of_nat fuel ->
  bsLoop fuel t tick l r = Ok (cnt (upto tick) (ticks t) - 1).
Proof.
  intros Hs Hc. pose proof (fun i => idx_le (ticks t) tick i Hs) as HL. change (len (ticks t)) with (lenT t) in HL.
  pose proof (cnt_bound (upto tick) (ticks t)) as HB. change (len (ticks t)) with (lenT t) in HB.
  set (c := cnt (upto tick) (ticks t)) in *. clearbody c.
  induction fuel as [|fuel IH]; intros l r H0 H1 H2 H3; [lia|]. cbn [bsLoop]. cbv zeta.
  rewrite Z.quot_div_nonneg by lia.
  assert (l <= (l + r) / 2 <= r) as Hi by (split; [apply Z.div_le_lower_bound|apply Z.div_le_upper_bound]; lia).
  set (i := (l + r) / 2) in *. clearbody i.
  rewrite tickAt_ok by lia. cbn [bind]. fold (idx (ticks t) i).
  pose proof (HL i ltac:(lia)) as Ei. rewrite Ei. destruct (i <? c) eqn:C1.
  - destruct (i =? lenT t - 1) eqn:C2; cbn [bind].
    + f_equal. lia.
    + rewrite tickAt_ok by lia. cbn [bind]. fold (idx (ticks t) (i + 1)).
      pose proof (HL (i + 1) ltac:(lia)) as Ei1. destruct (tick <? idx (ticks t) (i + 1)) eqn:C3.
      * f_equal. lia.
      * assert (idx (ticks t) i < idx (ticks t) (i + 1)) by (apply (idx_mono _ _ _ Hs); fold (len (ticks t)); change (len (ticks t)) with (lenT t); lia).
        replace (idx (ticks t) i <? tick) with true by lia. apply IH; lia.
  - cbn [bind]. replace (idx (ticks t) i <? tick) with false by lia. apply IH; lia.
Qed.

Lemma bs2Loop_spec t tick : sortedT t -> cnt (below tick) (ticks t) < lenT t -> forall fuel l r,
  0 <= l -> r < lenT t -> l <= cnt (below tick) (ticks t) <= r -> r - l < Z.of_nat fuel ->
  bs2Loop fuel t tick l r = Ok (cnt (below tick) (ticks t), tick =? idx (ticks t) (cnt (below tick) (ticks t))).
Proof.
  intros Hs Hc. pose proof (fun i => idx_lt (ticks t) tick i Hs) as HL. change (len (ticks t)) with (lenT t) in HL.
  set (c := cnt (below tick) (ticks t)) in *. clearbody c.
  induction fuel as [|fuel IH]; intros l r H0 H1 H2 H3; [lia|]. cbn [bs2Loop]. cbv zeta.
  destruct (l <? r) eqn:Clr.
  - rewrite Z.quot_div_nonneg by lia.
    assert (0 <= (r - l) / 2 < r - l) as Hi by (split; [apply Z.div_pos|apply Z.div_lt_upper_bound]; lia).
    set (i := l + (r - l) / 2). assert (l <= i < r) as Hi' by lia. clearbody i.
    rewrite tickAt_ok by lia. cbn [bind]. fold (idx (ticks t) i). rewrite HL by lia.
    destruct (tick =? idx (ticks t) i) eqn:C1.
    + pose proof (HL i ltac:(lia)) as E1.
      assert (i = c) as <-.
      { destruct (Z.eq_dec i c) as [|N]; [assumption|]. pose proof (HL c ltac:(lia)).
        assert (c < i) by lia. pose proof (idx_mono (ticks t) c i Hs). change (len (ticks t)) with (lenT t) in *. lia. }
      now rewrite C1.
    + destruct (i <? c) eqn:C2; apply IH; try lia.
  - assert (l = c) as -> by lia. rewrite tickAt_ok by lia. reflexivity.
Qed.

(** ** The list as a map *)
Lemma lookup_index l i x : lookup l i = Some x -> tkIndex x = i.
Proof. unfold lookup. intros H. apply find_some in H. lia. Qed.
Lemma lookup_in l i x : lookup l i = Some x -> In x l.
Proof. unfold lookup. intros H. now apply find_some in H. Qed.

Lemma lookup_app a b i : lookup (a ++ b) i = match lookup a i with Some x => Some x | None => lookup b i end.
Proof. induction a as [|x a IH]; [reflexivity|]. unfold lookup in *. cbn. destruct (tkIndex x =? i); [reflexivity|exact IH]. Qed.

Lemma lookup_none l i : lookup l i = None <-> (forall x, In x l -> tkIndex x <> i).
Proof.
  split.
  - intros H x Hx E. unfold lookup in H. eapply find_none in H; [|exact Hx]. cbn in H. lia.
  - intros H. destruct (lookup l i) eqn:E; [|reflexivity]. exfalso. eapply H; [eapply lookup_in, E|eapply lookup_index, E].
Qed.

Lemma sorted_app a b : sortedL (a ++ b) <->
  sortedL a /\ sortedL b /\ forall x y, In x a -> In y b -> tkIndex x < tkIndex y.
Proof.
  unfold sortedL. induction a as [|x a IH]; cbn [app].
  - split; [intros H; repeat split; [constructor|assumption|intros ? ? []]|tauto].
  - split.
    + intros H. apply StronglySorted_inv in H as [H1 H2]. apply IH in H1 as (H3 & H4 & H5).
      rewrite Forall_app in H2. destruct H2 as [H2 H2']. repeat split; [constructor; assumption|assumption|].
      intros u v [->|Hu] Hv; [|auto]. rewrite Forall_forall in H2'. auto.
    + intros (H1 & H2 & H3). apply StronglySorted_inv in H1 as [H1 H4]. constructor.
      * apply IH. repeat split; [assumption..|]. intros u v Hu Hv. apply H3; [now right|assumption].
      * rewrite Forall_app. split; [assumption|]. rewrite Forall_forall. intros v Hv. apply H3; [now left|assumption].
Qed.

Lemma sorted_cons a l : sortedL (a :: l) <-> sortedL l /\ forall y, In y l -> tkIndex a < tkIndex y.
Proof.
  unfold sortedL. split; [intros H; apply StronglySorted_inv in H as [H1 H2]; rewrite Forall_forall in H2; auto|].
  intros [H1 H2]. constructor; [assumption|]. rewrite Forall_forall. exact H2.
Qed.

Lemma lookup_in_iff l x : sortedL l -> In x l <-> lookup l (tkIndex x) = Some x.
Proof.
  intros H. split; [|apply lookup_in]. induction H as [|a l H IH Ha]; [intros []|].
  rewrite Forall_forall in Ha. intros [->|Hx]; unfold lookup; cbn.
  - now rewrite Z.eqb_refl.
  - specialize (Ha x Hx). replace (tkIndex a =? tkIndex x) with false by lia. now apply IH.
Qed.

(** a sorted list is determined by its lookups *)
Lemma lookup_ext a b : sortedL a -> sortedL b -> (forall i, lookup a i = lookup b i) -> a = b.
Proof.
  intros Ha. revert b. induction Ha as [|x a Ha IH Hx]; intros b Hb E.
  - destruct b as [|y b]; [reflexivity|]. specialize (E (tkIndex y)). unfold lookup in E. cbn in E. rewrite Z.eqb_refl in E. discriminate.
  - destruct b as [|y b]; [specialize (E (tkIndex x)); unfold lookup in E; cbn in E; rewrite Z.eqb_refl in E; discriminate|].
    rewrite Forall_forall in Hx. apply sorted_cons in Hb as [Hb Hy].
    assert (x = y) as <-.
    { destruct (Z.eq_dec (tkIndex x) (tkIndex y)) as [C|C].
      - specialize (E (tkIndex x)). unfold lookup in E. cbn in E. rewrite <- C, !Z.eqb_refl in E. congruence.
      - exfalso. pose proof (E (tkIndex x)) as Ex. pose proof (E (tkIndex y)) as Ey. unfold lookup in Ex, Ey. cbn in Ex, Ey.
        rewrite Z.eqb_refl in Ex, Ey. replace (tkIndex y =? tkIndex x) with false in Ex by lia. replace (tkIndex x =? tkIndex y) with false in Ey by lia.
        symmetry in Ex. apply find_some in Ex as [Ex _]. apply find_some in Ey as [Ey _]. specialize (Hx y Ey). specialize (Hy x Ex). lia. }
    f_equal. apply IH; [assumption|]. intros i. specialize (E i). unfold lookup in *. cbn in E. destruct (tkIndex x =? i) eqn:C; [|assumption].
    transitivity (@None Tick); [|symmetry]; apply lookup_none; intros z Hz Ez; [specialize (Hx z Hz)|specialize (Hy z Hz)]; lia.
Qed.

Lemma nth_split_at l i : 0 <= i < len l ->
  l = firstn (Z.to_nat i) l ++ nth (Z.to_nat i) l noTick :: skipn (Z.to_nat i + 1) l.
Proof.
  intros H. unfold len in H. rewrite <- (firstn_skipn (Z.to_nat i) l) at 1. f_equal.
  assert (Z.to_nat i < length l)%nat as Hn by lia. revert Hn. generalize (Z.to_nat i) as n. clear H.
  induction l as [|a l IH]; intros n Hn; [cbn in Hn; lia|]. destruct n as [|n]; [reflexivity|]. cbn [skipn nth Nat.add]. apply IH. cbn in Hn. lia.
Qed.

(** membership in the part before / from position c *)
Lemma in_firstn l c x : sortedL l -> 0 <= c <= len l -> In x (firstn (Z.to_nat c) l) -> exists i, 0 <= i < c /\ x = nth (Z.to_nat i) l noTick.
Proof.
  intros Hs Hc Hx. unfold len in Hc. apply (In_nth _ _ noTick) in Hx as (n & Hn & <-). rewrite firstn_length_le in Hn by lia.
  exists (Z.of_nat n). split; [lia|]. rewrite Nat2Z.id. rewrite <- (firstn_skipn (Z.to_nat c) l) at 2.
  rewrite app_nth1; [reflexivity|]. rewrite firstn_length_le; lia.
Qed.
Lemma in_skipn l c x : sortedL l -> 0 <= c <= len l -> In x (skipn (Z.to_nat c) l) -> exists i, c <= i < len l /\ x = nth (Z.to_nat i) l noTick.
Proof.
  intros Hs Hc Hx. unfold len in *. apply (In_nth _ _ noTick) in Hx as (n & Hn & <-). rewrite skipn_length in Hn.
  exists (c + Z.of_nat n). split; [lia|]. rewrite <- (firstn_skipn (Z.to_nat c) l) at 2.
  rewrite app_nth2; rewrite firstn_length_le by lia; [|lia]. f_equal. lia.
Qed.

Lemma firstn_below l k x : sortedL l -> In x (firstn (Z.to_nat (cnt (below k) l)) l) -> tkIndex x < k.
Proof.
  intros Hs Hx. pose proof (cnt_bound (below k) l). apply in_firstn in Hx as (i & Hi & ->); [|assumption..].
  fold (idx l i). pose proof (idx_lt l k i Hs). lia.
Qed.
Lemma skipn_below l k x : sortedL l -> In x (skipn (Z.to_nat (cnt (below k) l)) l) -> k <= tkIndex x.
Proof.
  intros Hs Hx. pose proof (cnt_bound (below k) l). apply in_skipn in Hx as (i & Hi & ->); [|assumption..].
  fold (idx l i). pose proof (idx_lt l k i Hs). lia.
Qed.

(** lookup through the count of smaller ticks *)
Lemma lookup_at l k : sortedL l -> let c := cnt (below k) l in
  lookup l k = if (c <? len l) && (k =? idx l c) then Some (nth (Z.to_nat c) l noTick) else None.
Proof.
  intros Hs c. pose proof (cnt_bound (below k) l) as HB. fold c in HB.
  destruct (c <? len l) eqn:C; [destruct (k =? idx l c) eqn:C2|]; cbn [andb].
  - assert (k = tkIndex (nth (Z.to_nat c) l noTick)) as Ek by (fold (idx l c); lia). rewrite Ek at 1. apply lookup_in_iff; [assumption|].
    apply nth_In. unfold len in C. lia.
  - apply lookup_none. intros x Hx Ex. apply (In_nth _ _ noTick) in Hx as (n & Hn & <-).
    pose proof (idx_lt l k (Z.of_nat n) Hs) as E. fold c in E. unfold idx, len in E. rewrite Nat2Z.id in E. specialize (E ltac:(lia)).
    pose proof (idx_lt l k c Hs). fold c in H.
    destruct (Z.eq_dec c (Z.of_nat n)) as [D|D].
    + unfold idx in C2. replace (Z.to_nat c) with n in C2 by lia. lia.
    + assert (idx l c < idx l (Z.of_nat n)) as K by (apply idx_mono; unfold len in *; (assumption || lia)).
      unfold idx in K at 2. rewrite Nat2Z.id in K. unfold len in *. lia.
  - apply lookup_none. intros x Hx Ex. apply (In_nth _ _ noTick) in Hx as (n & Hn & <-).
    pose proof (idx_lt l k (Z.of_nat n) Hs) as E. fold c in E. unfold idx, len in *. rewrite Nat2Z.id in E. lia.
Qed.

(** lookup through the count of smaller-or-equal ticks *)
Lemma lookup_at_le l k : sortedL l -> let c := cnt (upto k) l in
  lookup l k = if (0 <? c) && (k =? idx l (c - 1)) then Some (nth (Z.to_nat (c - 1)) l noTick) else None.
Proof.
  intros Hs c. pose proof (cnt_bound (upto k) l) as HB. fold c in HB. destruct (lookup l k) as [x|] eqn:E.
  - pose proof (lookup_index _ _ _ E) as Ei. pose proof (lookup_in _ _ _ E) as Hi. apply (In_nth _ _ noTick) in Hi as (n & Hn & En).
    assert (Z.of_nat n = c - 1) as D.
    { assert (idx l (Z.of_nat n) = k) as En' by (unfold idx; rewrite Nat2Z.id; congruence).
      pose proof (idx_le l k (Z.of_nat n) Hs ltac:(unfold len; lia)) as E1. fold c in E1.
      destruct (Z.eq_dec (Z.of_nat n) (c - 1)) as [|N]; [assumption|]. exfalso.
      pose proof (idx_le l k (c - 1) Hs ltac:(lia)) as E2. fold c in E2.
      pose proof (idx_mono l (Z.of_nat n) (c - 1) Hs ltac:(lia) ltac:(lia) ltac:(lia)). lia. }
    rewrite <- D. unfold idx. rewrite Nat2Z.id, En. replace (0 <? c) with true by lia. replace (k =? tkIndex x) with true by lia. reflexivity.
  - destruct ((0 <? c) && (k =? idx l (c - 1))) eqn:C; [|reflexivity]. exfalso. rewrite lookup_none in E.
    apply (E (nth (Z.to_nat (c - 1)) l noTick)); [apply nth_In; unfold len in *; lia|]. fold (idx l (c - 1)). lia.
Qed.

Lemma binarySearch2_spec t k : sortedT t ->
  exists i, binarySearch2 t k = Ok (i, match lookup (ticks t) k with Some _ => true | None => false end) /\
   (match lookup (ticks t) k with
    | Some x => 0 <= i < lenT t /\ x = nth (Z.to_nat i) (ticks t) noTick
    | None => (i = -2 /\ cnt (below k) (ticks t) = lenT t) \/ (i = -1 /\ cnt (below k) (ticks t) = 0) \/
              (0 <= i /\ i = cnt (below k) (ticks t)) end).
Proof.
  intros Hs. pose proof (lookup_at (ticks t) k Hs) as HL. cbv zeta in HL. change (len (ticks t)) with (lenT t) in HL.
  pose proof (cnt_bound (below k) (ticks t)) as HB. change (len (ticks t)) with (lenT t) in HB.
  unfold binarySearch2. destruct (lenT t =? 0) eqn:C0.
  - replace (cnt (below k) (ticks t) <? lenT t) with false in HL by lia. cbn [andb] in HL. rewrite HL. exists (-2). split; [reflexivity|]. left. lia.
  - unfold isBelowSmallest, isAboveLargest. replace (0 <? lenT t) with true by lia. cbn [invariant bind]. rewrite !tickAt_ok by lia. cbn [bind].
    fold (idx (ticks t) 0) (idx (ticks t) (lenT t - 1)).
    pose proof (idx_lt (ticks t) k 0 Hs) as E0. pose proof (idx_lt (ticks t) k (lenT t - 1) Hs) as E1. change (len (ticks t)) with (lenT t) in *.
    destruct (k <? idx (ticks t) 0) eqn:C1.
    + assert (cnt (below k) (ticks t) = 0) as Ec by lia. rewrite Ec in HL. replace (k =? idx (ticks t) 0) with false in HL by lia.
      rewrite andb_false_r in HL. rewrite HL. exists (-1). split; [reflexivity|]. right. left. lia.
    + destruct (idx (ticks t) (lenT t - 1) <? k) eqn:C2.
      * replace (cnt (below k) (ticks t) <? lenT t) with false in HL by lia. cbn [andb] in HL. rewrite HL. exists (-2). split; [reflexivity|]. left. lia.
      * assert (cnt (below k) (ticks t) < lenT t) as Hc by lia. replace (cnt (below k) (ticks t) <? lenT t) with true in HL by lia. cbn [andb] in HL.
        exists (cnt (below k) (ticks t)). rewrite bs2Loop_spec by (try assumption; unfold lenT in *; lia). rewrite HL.
        destruct (k =? idx (ticks t) (cnt (below k) (ticks t))); split; try reflexivity; [split; [lia|reflexivity]|right; right; lia].
Qed.

Lemma binarySearch_spec t k : sortedT t ->
  binarySearch t k = if 0 <? cnt (upto k) (ticks t) then Ok (cnt (upto k) (ticks t) - 1) else Panic.
Proof.
  intros Hs. pose proof (cnt_bound (upto k) (ticks t)) as HB. change (len (ticks t)) with (lenT t) in HB.
  unfold binarySearch, isBelowSmallest. destruct (0 <? lenT t) eqn:C; cbn [invariant bind].
  - rewrite tickAt_ok by lia. cbn [bind]. fold (idx (ticks t) 0). pose proof (idx_le (ticks t) k 0 Hs) as E0. change (len (ticks t)) with (lenT t) in *.
    replace (negb (k <? idx (ticks t) 0)) with (0 <? cnt (upto k) (ticks t)) by lia.
    destruct (0 <? cnt (upto k) (ticks t)) eqn:C1; [|reflexivity]. cbn [invariant bind]. apply bsLoop_spec; try assumption; unfold lenT in *; lia.
  - replace (0 <? cnt (upto k) (ticks t)) with false by lia. reflexivity.
Qed.

Lemma binarySearch_tick t k x : sortedT t -> lookup (ticks t) k = Some x ->
  exists i, binarySearch t k = Ok i /\ 0 <= i < lenT t /\ tickAt t i = Ok x /\ nth (Z.to_nat i) (ticks t) noTick = x /\ tkIndex x = k.
Proof.
  intros Hs E. pose proof (lookup_index _ _ _ E) as Ex. pose proof (lookup_at_le (ticks t) k Hs) as HL. cbv zeta in HL. rewrite E in HL.
  pose proof (cnt_bound (upto k) (ticks t)) as HB. change (len (ticks t)) with (lenT t) in HB.
  rewrite binarySearch_spec by assumption. destruct ((0 <? cnt (upto k) (ticks t)) && (k =? idx (ticks t) (cnt (upto k) (ticks t) - 1))) eqn:C; [|discriminate].
  injection HL as ->. apply andb_prop in C as [C1 C2]. rewrite C1. eexists. split; [reflexivity|]. rewrite tickAt_ok by lia. repeat split; (lia || assumption).
Qed.

Lemma GetTick_spec t k : sortedT t -> GetTick t k = match lookup (ticks t) k with Some x => Ok x | None => Panic end.
Proof.
  intros Hs. destruct (lookup (ticks t) k) as [x|] eqn:E.
  - destruct (binarySearch_tick t k x Hs E) as (i & E1 & _ & E2 & _ & E3). unfold GetTick. rewrite E1. cbn [bind]. rewrite E2. cbn [bind].
    replace (tkIndex x =? k) with true by lia. reflexivity.
  - unfold GetTick. rewrite binarySearch_spec by assumption. destruct (0 <? cnt (upto k) (ticks t)) eqn:C; [|reflexivity]. cbn [bind].
    pose proof (cnt_bound (upto k) (ticks t)) as HB. change (len (ticks t)) with (lenT t) in HB. rewrite tickAt_ok by lia. cbn [bind].
    rewrite lookup_none in E. replace (tkIndex _ =? k) with false; [reflexivity|]. symmetry. apply Z.eqb_neq. apply E, nth_In. unfold lenT in HB. lia.
Qed.

(** ** The operations through [lookup] *)
Lemma setAt_spec l i y : sortedL l -> 0 <= i < len l -> tkIndex y = idx l i ->
  sortedL (setAt l i y) /\ (forall j, lookup (setAt l i y) j = if j =? tkIndex y then Some y else lookup l j).
Proof.
  intros Hs Hi Ey. unfold setAt. pose proof (nth_split_at l i Hi) as E. unfold idx in Ey.
  set (a := firstn (Z.to_nat i) l) in *. set (b := skipn (Z.to_nat i + 1) l) in *. set (x := nth (Z.to_nat i) l noTick) in *. clearbody a b x.
  subst l. apply sorted_app in Hs as (Ha & Hxb & Hab). apply sorted_cons in Hxb as [Hb Hx]. split.
  - apply sorted_app. split; [assumption|]. split; [apply sorted_cons; split; [assumption|]; intros v Hv; rewrite Ey; auto|].
    intros u v Hu [<-|Hv]; [rewrite Ey; apply Hab; [assumption|now left]|apply Hab; [assumption|now right]].
  - intros j. rewrite !lookup_app. unfold lookup at 2 4. cbn [find]. fold (lookup b j). rewrite Ey.
    destruct (lookup a j) as [z|] eqn:Ez.
    + replace (j =? tkIndex x) with false; [reflexivity|]. symmetry. apply Z.eqb_neq. intros ->.
      pose proof (lookup_index _ _ _ Ez). specialize (Hab z x (lookup_in _ _ _ Ez) (or_introl eq_refl)). lia.
    + rewrite (Z.eqb_sym (tkIndex x)). destruct (j =? tkIndex x); reflexivity.
Qed.

Lemma insert_spec l y : sortedL l -> lookup l (tkIndex y) = None ->
  let c := cnt (below (tkIndex y)) l in let l' := firstn (Z.to_nat c) l ++ y :: skipn (Z.to_nat c) l in
  sortedL l' /\ (forall j, lookup l' j = if j =? tkIndex y then Some y else lookup l j).
Proof.
  intros Hs Hn c l'.
  assert (forall x, In x (firstn (Z.to_nat c) l) -> tkIndex x < tkIndex y) as H1 by (intros x; apply firstn_below, Hs).
  assert (forall x, In x (skipn (Z.to_nat c) l) -> tkIndex y < tkIndex x) as H2.
  { intros x Hx. pose proof (skipn_below l (tkIndex y) x Hs Hx). rewrite lookup_none in Hn.
    specialize (Hn x). assert (In x l) by (rewrite <- (firstn_skipn (Z.to_nat c) l); apply in_or_app; now right). specialize (Hn H0). lia. }
  unfold l'. clear l'. pose proof (firstn_skipn (Z.to_nat c) l) as E.
  set (a := firstn (Z.to_nat c) l) in *. set (b := skipn (Z.to_nat c) l) in *. clearbody a b. subst l.
  apply sorted_app in Hs as (Ha & Hb & Hab). split.
  - apply sorted_app. split; [assumption|]. split; [apply sorted_cons; auto|]. intros u v Hu [<-|Hv]; auto.
  - intros j. rewrite !lookup_app. unfold lookup at 2. cbn [find]. fold (lookup b j). destruct (lookup a j) as [z|] eqn:Ez.
    + replace (j =? tkIndex y) with false; [reflexivity|]. symmetry. apply Z.eqb_neq. intros ->.
      pose proof (lookup_index _ _ _ Ez). specialize (H1 z (lookup_in _ _ _ Ez)). lia.
    + rewrite (Z.eqb_sym (tkIndex y)). destruct (j =? tkIndex y); reflexivity.
Qed.

Lemma remove_spec l i : sortedL l -> 0 <= i < len l ->
  let l' := firstn (Z.to_nat i) l ++ skipn (Z.to_nat i + 1) l in
  sortedL l' /\ (forall j, lookup l' j = if j =? idx l i then None else lookup l j).
Proof.
  intros Hs Hi l'. pose proof (nth_split_at l i Hi) as E. unfold l', idx. clear l'.
  set (a := firstn (Z.to_nat i) l) in *. set (b := skipn (Z.to_nat i + 1) l) in *. set (x := nth (Z.to_nat i) l noTick) in *. clearbody a b x.
  subst l. apply sorted_app in Hs as (Ha & Hxb & Hab). apply sorted_cons in Hxb as [Hb Hx]. split.
  - apply sorted_app. split; [assumption|]. split; [assumption|]. intros u v Hu Hv. apply Hab; [assumption|now right].
  - intros j. rewrite !lookup_app. unfold lookup at 4. cbn [find]. fold (lookup b j). rewrite (Z.eqb_sym (tkIndex x)).
    destruct (j =? tkIndex x) eqn:C; [|reflexivity]. assert (j = tkIndex x) as -> by lia.
    replace (lookup a (tkIndex x)) with (@None Tick). 2:{ symmetry. apply lookup_none. intros z Hz Ez. specialize (Hab z x Hz (or_introl eq_refl)). lia. }
    apply lookup_none. intros z Hz Ez. specialize (Hx z Hz). lia.
Qed.

(** The tick that UpdateTick leaves at its index. *)
Definition updated (old : option Tick) (index cur delta g0 g1 : Z) (upper : bool) : Tick :=
  match old with
  | Some x => mkTick index (if upper then usub (tkNet x) delta else uadd (tkNet x) delta) (uadd (tkGross x) delta) (tkOut0 x) (tkOut1 x)
  | None => mkTick index (if upper then uneg delta else delta) delta
              (if index <=? cur then g0 else 0) (if index <=? cur then g1 else 0)
  end.

Lemma UpdateTick_spec t index cur delta g0 g1 upper : sortedT t ->
  exists t', UpdateTick t index cur delta g0 g1 upper =
     Ok (t', match lookup (ticks t) index with Some x => uadd (tkGross x) delta =? 0 | None => false end) /\
   sortedT t' /\ tickSpacing t' = tickSpacing t /\
   (forall j, lookup (ticks t') j = if j =? index then Some (updated (lookup (ticks t) index) index cur delta g0 g1 upper)
                                    else lookup (ticks t) j).
Proof.
  intros Hs. unfold UpdateTick. destruct (binarySearch2_spec t index Hs) as (i & E & Hi). rewrite E. cbn [bind].
  destruct (lookup (ticks t) index) as [x|] eqn:EL.
  - destruct Hi as [Hi Ex]. rewrite tickAt_ok by lia. cbn [bind]. rewrite <- Ex. pose proof (lookup_index _ _ _ EL) as Exi.
    eexists. split; [reflexivity|].
    match goal with |- context [setAt (ticks t) i ?y] => pose proof (setAt_spec (ticks t) i y Hs Hi) as H end.
    cbn [tkIndex] in H. unfold idx in H. rewrite <- Ex in H. specialize (H eq_refl). destruct H as [H1 H2].
    unfold sortedT, with_ticks. cbn [ticks tickSpacing]. split; [exact H1|]. split; [reflexivity|].
    intros j. rewrite H2. unfold updated. rewrite Exi. reflexivity.
  - set (y := makeTick index cur (if upper then uneg delta else delta) delta g0 g1).
    assert (y = updated None index cur delta g0 g1 upper) as Ey by (unfold y, makeTick, updated; destruct (index <=? cur); reflexivity).
    assert (tkIndex y = index) as Eyi by (rewrite Ey; reflexivity).
    rewrite <- Eyi in EL. pose proof (insert_spec (ticks t) y Hs EL) as H. cbv zeta in H. rewrite Eyi in H. destruct H as [H1 H2].
    rewrite <- Ey. clear Ey. clearbody y.
    destruct Hi as [[-> Hc]|[[-> Hc]|[Hi0 Hc]]].
    + cbn [Z.eqb Pos.eqb]. eexists. split; [reflexivity|]. unfold sortedT, with_ticks. cbn [ticks tickSpacing]. rewrite Hc in H1, H2. unfold lenT in H1, H2.
      rewrite Nat2Z.id, firstn_all, skipn_all in H1, H2. auto.
    + cbn [Z.eqb Pos.eqb]. eexists. split; [reflexivity|]. unfold sortedT, with_ticks. cbn [ticks tickSpacing]. rewrite Hc in H1, H2. cbn [Z.to_nat firstn skipn app] in H1, H2. auto.
    + replace (i =? -2) with false by lia. replace (i =? -1) with false by lia. eexists. split; [reflexivity|]. unfold sortedT, with_ticks. cbn [ticks tickSpacing]. rewrite <- Hc in H1, H2. auto.
Qed.

Lemma ClearTick_spec t index : sortedT t ->
  exists t', ClearTick t index = Ok t' /\ sortedT t' /\ tickSpacing t' = tickSpacing t /\
   (forall j, lookup (ticks t') j = if j =? index then None else lookup (ticks t) j).
Proof.
  intros Hs. unfold ClearTick. destruct (binarySearch2_spec t index Hs) as (i & E & Hi). rewrite E. cbn [bind].
  destruct (lookup (ticks t) index) as [x|] eqn:EL.
  - destruct Hi as [Hi Ex]. eexists. split; [reflexivity|]. pose proof (remove_spec (ticks t) i Hs Hi) as H. cbv zeta in H.
    pose proof (lookup_index _ _ _ EL) as Exi. assert (idx (ticks t) i = index) as Ei by (unfold idx; rewrite <- Ex; exact Exi). rewrite Ei in H.
    unfold sortedT, with_ticks. cbn [ticks tickSpacing]. tauto.
  - exists t. split; [reflexivity|]. split; [assumption|]. split; [reflexivity|]. intros j. destruct (j =? index) eqn:C; [|reflexivity].
    assert (j = index) as -> by lia. exact EL.
Qed.

Lemma Cross_spec t k g0 g1 : sortedT t ->
  match lookup (ticks t) k with
  | Some x => exists t', Cross t k g0 g1 = Ok (t', tkNet x) /\ sortedT t' /\ tickSpacing t' = tickSpacing t /\
      (forall j, lookup (ticks t') j =
         if j =? k then Some (mkTick k (tkNet x) (tkGross x) (usub g0 (tkOut0 x)) (usub g1 (tkOut1 x))) else lookup (ticks t) j)
  | None => Cross t k g0 g1 = Panic
  end.
Proof.
  intros Hs. destruct (lookup (ticks t) k) as [x|] eqn:E.
  - destruct (binarySearch_tick t k x Hs E) as (i & E1 & Hi & E2 & E3 & E4). unfold Cross. rewrite E1. cbn [bind]. rewrite E2. cbn [bind].
    replace (tkIndex x =? k) with true by lia. cbn [invariant bind]. eexists. split; [reflexivity|].
    match goal with |- context [setAt (ticks t) i ?y] => pose proof (setAt_spec (ticks t) i y Hs Hi) as H end.
    cbn [tkIndex] in H. unfold idx in H. rewrite E3 in H. specialize (H eq_refl). destruct H as [H1 H2].
    unfold sortedT, with_ticks. cbn [ticks tickSpacing]. split; [exact H1|]. split; [reflexivity|]. intros j. rewrite H2. rewrite E4. reflexivity.
  - pose proof (GetTick_spec t k Hs) as G. rewrite E in G. unfold GetTick in G. unfold Cross.
    destruct (binarySearch t k); cbn [bind] in *; [|reflexivity|discriminate]. destruct (tickAt t a); cbn [bind] in *; [|reflexivity|discriminate].
    destruct (tkIndex a0 =? k); [discriminate|reflexivity].
Qed.
