(** PtrFacts.v -- the functions of Ptr.v do to memory what those of SwapMath.v and Pool.v do to values. *)
From Coq Require Import String Permutation.
From Verif Require Import Base U256Z SwapMath TickMath TickData Pool TickHeap Ptr.
Ltac Zify.zify_post_hook ::= idtac.
Open Scope Z_scope.

Definition val (m : Mem) (p : ptr) (v : Z) : Prop := nth_error m p = Some v.
(** the variables below [n] that are not in [W] keep their numbers *)
Definition keeps (W : ptr -> Prop) (n : nat) (m m' : Mem) : Prop :=
  (length m <= length m')%nat /\ forall p v, ~ W p -> (p < n)%nat -> val m p v -> val m' p v.
(** the program does what the function on values does, and writes below [n] only in [W] *)
Definition ok {A B} (W : ptr -> Prop) (n : nat) (m : Mem) (c : cm A) (r : res B) (Q : Mem -> A -> B -> Prop) : Prop :=
  match c m, r with
  | Ok (a, m'), Ok b => keeps W n m m' /\ Q m' a b
  | Panic, Panic => True
  | OutOfFuel, OutOfFuel => True
  | _, _ => False
  end.
Definition none : ptr -> Prop := fun _ => False.

Lemma val_lt m p v : val m p v -> (p < length m)%nat.
Proof. intros H. apply nth_error_Some. unfold val in H. congruence. Qed.
Lemma val_fun m p v w : val m p v -> val m p w -> v = w.
Proof. unfold val. congruence. Qed.
Lemma val_ex m p : (p < length m)%nat -> exists v, val m p v.
Proof. intros H. unfold val. destruct (nth_error m p) eqn:E; [eauto|]. apply nth_error_None in E. lia. Qed.
Lemma setM_len m : forall p v, length (setM m p v) = length m.
Proof. induction m as [|x m IH]; intros [|p] v; cbn; auto. Qed.
Lemma setM_same m : forall p v, (p < length m)%nat -> val (setM m p v) p v.
Proof. induction m as [|x m IH]; intros [|p] v H; cbn in *; try lia; [reflexivity|]. apply IH. lia. Qed.
Lemma setM_other m : forall p v q w, q <> p -> val m q w -> val (setM m p v) q w.
Proof. induction m as [|x m IH]; intros [|p] v [|q] w N H; cbn in *; try congruence; auto. apply IH; auto. Qed.
Lemma val_app m l p v : val m p v -> val (m ++ l) p v.
Proof. intros H. unfold val. rewrite nth_error_app1; [exact H|]. eapply val_lt, H. Qed.
Lemma val_new m v : val (m ++ [v]) (length m) v.
Proof. unfold val. rewrite nth_error_app2, Nat.sub_diag by lia. reflexivity. Qed.
Lemma setM_new m v w : setM (m ++ [v]) (length m) w = m ++ [w].
Proof. induction m as [|x m IH]; cbn; congruence. Qed.

Lemma keeps_refl W n m : keeps W n m m.
Proof. split; auto. Qed.
Lemma keeps_trans W n m1 m2 m3 : keeps W n m1 m2 -> keeps W n m2 m3 -> keeps W n m1 m3.
Proof. intros [L1 K1] [L2 K2]. split; [lia|]. auto. Qed.
Lemma keeps_weaken (W1 W : ptr -> Prop) n1 n m m' : (n <= n1)%nat -> (forall q, W1 q -> W q \/ (n <= q)%nat) -> keeps W1 n1 m m' -> keeps W n m m'.
Proof.
  intros L S [E K]. split; [exact E|]. intros p v N P V. apply K; [|lia|exact V]. intros H. destruct (S p H); [tauto|lia].
Qed.
Lemma keeps_val W n m m' p v : keeps W n m m' -> ~ W p -> (p < n)%nat -> val m p v -> val m' p v.
Proof. intros [_ K]. auto. Qed.
Lemma keeps_none m m' p v : keeps none (length m) m m' -> val m p v -> val m' p v.
Proof. intros [_ K] V. apply K; [tauto| |exact V]. eapply val_lt, V. Qed.
Lemma keeps_len W n m m' : keeps W n m m' -> (length m <= length m')%nat.
Proof. now intros []. Qed.
Lemma keeps_app W n m l : keeps W n m (m ++ l).
Proof. split; [rewrite app_length; lia|]. intros. now apply val_app. Qed.

Section Rules.
  Context {A B : Type} (W : ptr -> Prop) (n : nat) (m : Mem).
  Implicit Types (r : res B) (R : Mem -> A -> B -> Prop).
  Lemma ok_ret (a : A) (b : B) R : R m a b -> ok W n m (mret a) (Ok b) R.
  Proof. intros H. split; [apply keeps_refl|exact H]. Qed.
  Lemma ok_from c r R m0 : (length m <= length m0)%nat -> (forall p v, ~ W p -> (p < n)%nat -> val m p v -> val m0 p v) ->
    ok W n m0 c r R -> match c m0, r with Ok (a, m'), Ok b => keeps W n m m' /\ R m' a b | Panic, Panic => True | OutOfFuel, OutOfFuel => True | _, _ => False end.
  Proof.
    intros L K H. unfold ok in H. destruct (c m0) as [[a m']| |], r; auto. destruct H as [[L' K'] H]. split; [|exact H]. split; [lia|]. auto.
  Qed.
  Lemma ok_ld x a f r R : val m x a -> ok W n m (f a) r R -> ok W n m (mbind (ld x) f) r R.
  Proof. intros V H. unfold ok, mbind, ld. unfold val in V. rewrite V. exact H. Qed.
  Lemma ok_new v f r R : (forall m1 p, keeps none (length m) m m1 -> (length m <= p < length m1)%nat -> val m1 p v -> ok W n m1 (f p) r R) ->
    ok W n m (mbind (new v) f) r R.
  Proof.
    intros H. unfold ok at 1, mbind, new. eapply ok_from; [| |apply H].
    - rewrite app_length. lia.
    - intros. now apply val_app.
    - apply keeps_app.
    - rewrite app_length. cbn. lia.
    - apply val_new.
  Qed.
  Lemma ok_clone x v f r R : val m x v -> (forall m1 p, keeps none (length m) m m1 -> (length m <= p < length m1)%nat -> val m1 p v -> ok W n m1 (f p) r R) ->
    ok W n m (mbind (clone x) f) r R.
  Proof. intros V H. apply (ok_new v) in H. unfold ok, mbind, clone, new, ld in *. unfold mbind, val in *. rewrite V. exact H. Qed.
  Lemma new1_eq g x a : val m x a -> new1 g x m = Ok (length m, m ++ [g a]).
  Proof.
    intros V. unfold new1, mbind, new, op1, ld, st, mret. unfold mbind. apply (val_app _ [0]) in V. unfold val in V. rewrite V, app_length.
    cbn [length]. destruct (Nat.ltb_spec (length m) (length m + 1)); [|lia]. now rewrite setM_new.
  Qed.
  Lemma new2_eq g x y a b : val m x a -> val m y b -> new2 g x y m = Ok (length m, m ++ [g a b]).
  Proof.
    intros V V'. unfold new2, mbind, new, op2, ld, st, mret. unfold mbind. apply (val_app _ [0]) in V, V'. unfold val in V, V'. rewrite V, V', app_length.
    cbn [length]. destruct (Nat.ltb_spec (length m) (length m + 1)); [|lia]. now rewrite setM_new.
  Qed.
  Lemma ok_new1 g x a f r R : val m x a -> (forall m1 p, keeps none (length m) m m1 -> (length m <= p < length m1)%nat -> val m1 p (g a) -> ok W n m1 (f p) r R) ->
    ok W n m (mbind (new1 g x) f) r R.
  Proof. intros V H. apply (ok_new (g a)) in H. unfold ok, mbind in *. rewrite (new1_eq g x a V). exact H. Qed.
  Lemma ok_new2 g x y a b f r R : val m x a -> val m y b ->
    (forall m1 p, keeps none (length m) m m1 -> (length m <= p < length m1)%nat -> val m1 p (g a b) -> ok W n m1 (f p) r R) ->
    ok W n m (mbind (new2 g x y) f) r R.
  Proof. intros V V' H. apply (ok_new (g a b)) in H. unfold ok, mbind in *. rewrite (new2_eq g x y a b V V'). exact H. Qed.
  (** a write through a pointer *)
  Definition wrote (z : ptr) (w : Z) (m1 : Mem) : Prop :=
    length m1 = length m /\ (forall p v, p <> z -> val m p v -> val m1 p v) /\ val m1 z w.
  Lemma ok_st z w f r R : (z < length m)%nat -> W z \/ (n <= z)%nat ->
    (forall m1, wrote z w m1 -> ok W n m1 (f tt) r R) -> ok W n m (mbind (st z w) f) r R.
  Proof.
    intros L F H. unfold ok at 1, mbind, st. destruct (Nat.ltb_spec z (length m)); [|lia].
    eapply ok_from; [| |apply H].
    - rewrite setM_len. lia.
    - intros p v N P V. apply setM_other; [|exact V]. intros ->. destruct F; [tauto|lia].
    - split; [apply setM_len|]. split; [intros; now apply setM_other|now apply setM_same].
  Qed.
  Lemma ok_op2 g z x y a b f r R : val m x a -> val m y b -> (z < length m)%nat -> W z \/ (n <= z)%nat ->
    (forall m1, wrote z (g a b) m1 -> ok W n m1 (f tt) r R) -> ok W n m (mbind (op2 g z x y) f) r R.
  Proof.
    intros V V' L F H. apply (ok_st z (g a b) f r R L F) in H. unfold ok, mbind, op2, ld in *. unfold mbind, val in *. rewrite V, V'. exact H.
  Qed.
  Lemma ok_op1 g z x a f r R : val m x a -> (z < length m)%nat -> W z \/ (n <= z)%nat ->
    (forall m1, wrote z (g a) m1 -> ok W n m1 (f tt) r R) -> ok W n m (mbind (op1 g z x) f) r R.
  Proof.
    intros V L F H. apply (ok_st z (g a) f r R L F) in H. unfold ok, mbind, op1, ld in *. unfold mbind, val in *. rewrite V. exact H.
  Qed.
  Lemma ok_assoc {C D} (c : cm C) (f : C -> cm D) (g : D -> cm A) r R :
    ok W n m (mbind c (fun x => mbind (f x) g)) r R -> ok W n m (mbind (mbind c f) g) r R.
  Proof. unfold ok, mbind. destruct (c m) as [[x m']| |]; auto. Qed.
  Lemma ok_mret {C} (x : C) (f : C -> cm A) r R : ok W n m (f x) r R -> ok W n m (mbind (mret x) f) r R.
  Proof. auto. Qed.
End Rules.

Lemma ok_bind {A B C D} W1 W n1 n m (c : cm A) (r : res B) (f : A -> cm C) (g : B -> res D) Q R :
  ok W1 n1 m c r Q -> (n <= n1)%nat -> (forall q, W1 q -> W q \/ (n <= q)%nat) ->
  (forall m1 a b, keeps W1 n1 m m1 -> Q m1 a b -> ok W n m1 (f a) (g b) R) -> ok W n m (mbind c f) (bind r g) R.
Proof.
  unfold ok at 1 3, mbind. intros H L S K. destruct (c m) as [[a m1]| |], r as [b| |]; cbn [bind]; try contradiction; auto.
  destruct H as [Kp HQ]. specialize (K m1 a b Kp HQ). apply (keeps_weaken W1 W n1 n m m1 L S) in Kp. destruct Kp as [L1 K1].
  eapply (ok_from W n m (f a) (g b) R m1); auto.
Qed.

Lemma ok_tail {A B} W1 W n1 n m (c : cm A) (r : res B) (Q R : Mem -> A -> B -> Prop) :
  ok W1 n1 m c r Q -> (n <= n1)%nat -> (forall q, W1 q -> W q \/ (n <= q)%nat) ->
  (forall m1 a b, keeps W1 n1 m m1 -> Q m1 a b -> R m1 a b) -> ok W n m c r R.
Proof.
  unfold ok. intros H L S K. destruct (c m) as [[a m1]| |], r as [b| |]; auto. destruct H as [Kp HQ].
  split; [eapply keeps_weaken; eassumption|auto].
Qed.
Lemma ok_lift {A C D} W n m (r : res A) (f : A -> cm C) (g : A -> res D) R :
  (forall a, r = Ok a -> ok W n m (f a) (g a) R) -> ok W n m (mbind (lift r) f) (bind r g) R.
Proof. intros H. unfold ok, mbind, lift. destruct r; cbn [bind]; auto. apply (H a eq_refl). Qed.
Lemma ok_lift2 {A B C D} W n m (r : res A) (s : res B) (f : A -> cm C) (g : B -> res D) (S : A -> B -> Prop) R :
  match r, s with Ok a, Ok b => S a b | Panic, Panic => True | OutOfFuel, OutOfFuel => True | _, _ => False end ->
  (forall a b, S a b -> ok W n m (f a) (g b) R) -> ok W n m (mbind (lift r) f) (bind s g) R.
Proof. intros H K. unfold ok, mbind, lift. destruct r, s; cbn [bind]; auto; try contradiction. apply (K a a0 H). Qed.

(** the values the pointers hold, carried over a step *)
Ltac carry1 K := repeat match type of K with keeps none (length ?m) ?m ?m1 =>
  match goal with V : val m ?p ?v |- _ => apply (keeps_none m m1 p v K) in V end end.
Ltac neq := solve [assumption | apply not_eq_sym; assumption | lia].
Ltac carryw K := let L := fresh "Lw" in let N := fresh "Nw" in let V := fresh "Vw" in
  destruct K as (L & N & V);
  match type of N with forall p v, p <> ?z -> val ?m p v -> _ =>
    repeat match goal with
    | U : val m z _ |- _ => clear U
    | U : val m ?p ?v |- _ => apply (N p v) in U; [|neq]
    end end; clear N.
Ltac vlt := match goal with V : val ?m ?p _ |- (?p < length ?m)%nat => exact (val_lt m p _ V) end.
Ltac lens := repeat match goal with K : keeps _ _ ?m ?m1 |- _ =>
  lazymatch goal with _ : (length m <= length m1)%nat |- _ => fail | _ => pose proof (keeps_len _ _ _ _ K) end end.
Ltac no := let H := fresh in intros ? H; destruct H.

(** ** fullmath *)
Definition isNew (n : nat) : Mem -> ptr -> Z -> Prop := fun m p v => val m p v /\ (n <= p)%nat.
Definition Gl (m : Mem) : Prop := forall i v, nth_error globals i = Some v -> val m i v.
Lemma Gl_keeps (W : ptr -> Prop) n m m1 : Gl m -> keeps W n m m1 -> (forall p, W p -> (9 <= p)%nat) -> (9 <= n)%nat -> Gl m1.
Proof.
  intros G [_ K] HW Hn i v E. assert (i < 9)%nat as L by (change 9%nat with (length globals); apply nth_error_Some; congruence).
  apply K; [|lia|auto]. intros H. apply HW in H. lia.
Qed.
Lemma Gl_len m : Gl m -> (9 <= length m)%nat.
Proof. intros G. assert (val m gMaxSqrtRatio MaxSqrtRatio) as V by now apply G. apply val_lt in V. unfold gMaxSqrtRatio in V. lia. Qed.
Lemma Gl_none m m1 : Gl m -> keeps none (length m) m m1 -> Gl m1.
Proof. intros G K. eapply Gl_keeps; [exact G|exact K|intros p []|now apply Gl_len]. Qed.
Lemma Gl_wrote m m1 z w : Gl m -> wrote m z w m1 -> (9 <= z)%nat -> Gl m1.
Proof.
  intros G (_ & N & _) L i v E. assert (i < 9)%nat by (change 9%nat with (length globals); apply nth_error_Some; congruence).
  apply N; [lia|]. now apply G.
Qed.
Ltac glob G := pose proof (G gZero _ eq_refl); pose proof (G gOne _ eq_refl); pose proof (G gQ96 _ eq_refl); pose proof (G gQ128 _ eq_refl);
  pose proof (G gMaxUint256 _ eq_refl); pose proof (G gMaxUint160 _ eq_refl); pose proof (G gMaxFee _ eq_refl);
  pose proof (G gMinSqrtRatio _ eq_refl); pose proof (G gMaxSqrtRatio _ eq_refl).

Lemma ok_new_end W m v : ok W (length m) m (new v) (Ok v) (isNew (length m)).
Proof. unfold ok, new. split; [apply keeps_app|]. split; [apply val_new|lia]. Qed.
Lemma ok_new2_end W m g x y a b : val m x a -> val m y b -> ok W (length m) m (new2 g x y) (Ok (g a b)) (isNew (length m)).
Proof. intros V V'. unfold ok. rewrite (new2_eq m g x y a b V V'). split; [apply keeps_app|]. split; [apply val_new|lia]. Qed.
Lemma ok_new1_end W m g x a : val m x a -> ok W (length m) m (new1 g x) (Ok (g a)) (isNew (length m)).
Proof. intros V. unfold ok. rewrite (new1_eq m g x a V). split; [apply keeps_app|]. split; [apply val_new|lia]. Qed.
Lemma ok_clone_end W m x a : val m x a -> ok W (length m) m (clone x) (Ok a) (isNew (length m)).
Proof. intros V. unfold ok, clone, mbind, ld, new. unfold val in V. rewrite V. split; [apply keeps_app|]. split; [apply val_new|lia]. Qed.

Lemma ok_MulDiv m a b d va vb vd : val m a va -> val m b vb -> val m d vd ->
  ok none (length m) m (MulDivP a b d) (MulDiv va vb vd) (isNew (length m)).
Proof.
  intros Va Vb Vd. unfold MulDivP. apply (ok_ld _ _ _ _ va); [exact Va|]. apply (ok_ld _ _ _ _ vb); [exact Vb|].
  unfold MulDiv at 2. destruct ((va =? 0) || (vb =? 0)) eqn:E; [now apply ok_new_end|].
  apply (ok_ld _ _ _ _ vd); [exact Vd|]. unfold MulDiv. rewrite E. destruct (udivrem5_ok _ _); [|exact I].
  unfold ok, mbind, lift, new. split; [apply keeps_app|]. split; [apply val_new|lia].
Qed.
Lemma ok_MulDivUp m a b d va vb vd : Gl m -> val m a va -> val m b vb -> val m d vd ->
  ok none (length m) m (MulDivRoundingUpP a b d) (MulDivRoundingUp va vb vd) (isNew (length m)).
Proof.
  intros G Va Vb Vd. unfold MulDivRoundingUpP. apply (ok_ld _ _ _ _ va); [exact Va|]. apply (ok_ld _ _ _ _ vb); [exact Vb|].
  unfold MulDivRoundingUp. destruct ((va =? 0) || (vb =? 0)) eqn:E; [now apply ok_new_end|].
  apply (ok_ld _ _ _ _ vd); [exact Vd|]. unfold MulDiv. rewrite E. destruct (udivrem5_ok _ _); [|exact I].
  set (q := (va * vb / vd) mod T256). unfold ok, mbind at 1, lift. unfold mbind at 1, new. unfold mbind at 1.
  destruct (negb _).
  - unfold op2, mbind, ld, st. rewrite (val_new m q). assert (val (m ++ [q]) gOne 1) as V1 by (apply val_app; now apply G).
    unfold val in V1. rewrite V1, app_length. cbn [length]. destruct (Nat.ltb_spec (length m) (length m + 1)); [|lia].
    rewrite setM_new. unfold mret. split; [apply keeps_app|]. split; [apply val_new|lia].
  - unfold mret. split; [apply keeps_app|]. split; [apply val_new|lia].
Qed.

(** ** sqrtprice_math *)
Ltac gcarry G K := let G1 := fresh "G" in pose proof (Gl_none _ _ G K) as G1; clear G; rename G1 into G.
Tactic Notation "vn" uconstr(rule) ident(G) := eapply rule; [eassumption ..|]; let m1 := fresh "m" in let p := fresh "p" in let K := fresh "K" in
  let L := fresh "L" in let V := fresh "V" in intros m1 p K L V; carry1 K; gcarry G K; lens.
Tactic Notation "ends" uconstr(rule) := eapply ok_tail; [eapply rule; eassumption|lia|no|intros ? ? ? _ [? ?]; split; [assumption|lia]].

Lemma ok_ordered {A B} W n m a b va vb f (r : res B) (R : Mem -> A -> B -> Prop) : val m a va -> val m b vb ->
  (forall x y vx vy, ordered va vb = (vx, vy) -> val m x vx -> val m y vy -> ok W n m (f (x, y)) r R) ->
  ok W n m (mbind (orderedP a b) f) r R.
Proof.
  intros Va Vb H. unfold orderedP. apply ok_assoc, (ok_ld _ _ _ _ va); [exact Va|]. apply ok_assoc, (ok_ld _ _ _ _ vb); [exact Vb|].
  apply ok_mret. unfold ordered in H. destruct (vb <? va); eapply H; eauto.
Qed.
Lemma ok_Amount0 m a b l va vb vl up : Gl m -> val m a va -> val m b vb -> val m l vl ->
  ok none (length m) m (GetAmount0DeltaP a b l up) (GetAmount0Delta va vb vl up) (isNew (length m)).
Proof.
  intros G Va Vb Vl. unfold GetAmount0DeltaP, GetAmount0Delta. eapply ok_ordered; [exact Va|exact Vb|].
  intros x y vx vy E Vx Vy. rewrite E. clear a b va vb Va Vb E.
  vn ok_new1 G. vn ok_new2 G. destruct up.
  - eapply ok_bind; [eapply ok_MulDivUp; eassumption|lia|no|]. intros m2 q vq K2 [Vq Lq]. carry1 K2. gcarry G K2. lens. glob G.
    ends ok_MulDivUp.
  - eapply ok_bind; [eapply ok_MulDiv; eassumption|lia|no|]. intros m2 q vq K2 [Vq Lq]. carry1 K2. lens.
    eapply ok_op2; [eassumption|eassumption|vlt|right; lia|]. intros m3 K3. destruct K3 as (L3 & _ & V3).
    apply ok_ret. split; [exact V3|lia].
Qed.
Lemma ok_Amount1 m a b l va vb vl up : Gl m -> val m a va -> val m b vb -> val m l vl ->
  ok none (length m) m (GetAmount1DeltaP a b l up) (GetAmount1Delta va vb vl up) (isNew (length m)).
Proof.
  intros G Va Vb Vl. unfold GetAmount1DeltaP, GetAmount1Delta. eapply ok_ordered; [exact Va|exact Vb|].
  intros x y vx vy E Vx Vy. rewrite E. clear a b va vb Va Vb E.
  vn ok_new2 G. glob G. destruct up; [ends ok_MulDivUp|ends ok_MulDiv].
Qed.
Lemma ok_mulIn m x y a b : Gl m -> val m x a -> val m y b -> ok none (length m) m (multiplyIn256P x y) (Ok (multiplyIn256 a b)) (isNew (length m)).
Proof. intros G Va Vb. unfold multiplyIn256P, multiplyIn256. vn ok_new2 G. glob G. ends (ok_new2_end none). Qed.
Lemma ok_addIn m x y a b : Gl m -> val m x a -> val m y b -> ok none (length m) m (addIn256P x y) (Ok (addIn256 a b)) (isNew (length m)).
Proof. intros G Va Vb. unfold addIn256P, addIn256. vn ok_new2 G. glob G. ends (ok_new2_end none). Qed.
(** a call whose result on values is known *)
Lemma ok_let {A B C D} (W1 W : ptr -> Prop) n1 n m (c : cm A) (b : B) (f : A -> cm C) (r : res D) Q R :
  ok W1 n1 m c (Ok b) Q -> (n <= n1)%nat -> (forall q, W1 q -> W q \/ (n <= q)%nat) ->
  (forall m1 a, keeps W1 n1 m m1 -> Q m1 a b -> ok W n m1 (f a) r R) -> ok W n m (mbind c f) r R.
Proof.
  unfold ok at 1 3, mbind. intros H L S K. destruct (c m) as [[a m1]| |]; try contradiction.
  destruct H as [Kp HQ]. specialize (K m1 a Kp HQ). apply (keeps_weaken W1 W n1 n m m1 L S) in Kp. destruct Kp as [L1 K1].
  eapply (ok_from W n m (f a) r R m1); auto.
Qed.
Tactic Notation "call" uconstr(rule) ident(G) := eapply ok_let; [eapply rule; eassumption|lia|no|]; let m1 := fresh "m" in let p := fresh "p" in let K := fresh "K" in
  let L := fresh "L" in let V := fresh "V" in intros m1 p K [V L]; carry1 K; gcarry G K; lens.
Tactic Notation "callb" uconstr(rule) ident(G) := eapply ok_bind; [eapply rule; eassumption|lia|no|]; let m1 := fresh "m" in let p := fresh "p" in let v := fresh "v" in let K := fresh "K" in
  let L := fresh "L" in let V := fresh "V" in intros m1 p v K [V L]; carry1 K; gcarry G K; lens.

(** the new price is a new variable or the old one *)
Definition isNewOr (n : nat) (q : ptr) : Mem -> ptr -> Z -> Prop := fun m p v => val m p v /\ ((n <= p)%nat \/ p = q).
Tactic Notation "endo" uconstr(rule) := eapply ok_tail; [eapply rule; eassumption|lia|no|intros ? ? ? _ [? ?]; split; [assumption|left; lia]].
Lemma ok_next0 m s l x vs vl vx add : Gl m -> val m s vs -> val m l vl -> val m x vx ->
  ok none (length m) m (getNextSqrtPriceFromAmount0RoundingUpP s l x add) (getNextSqrtPriceFromAmount0RoundingUp vs vl vx add) (isNewOr (length m) s).
Proof.
  intros G Vs Vl Vx. unfold getNextSqrtPriceFromAmount0RoundingUpP, getNextSqrtPriceFromAmount0RoundingUp.
  apply (ok_ld _ _ _ _ vx); [exact Vx|]. destruct (vx =? 0); [apply ok_ret; split; [exact Vs|now right]|].
  vn ok_new1 G. destruct add.
  - call ok_mulIn G. vn ok_new2 G. eapply ok_ld; [eassumption|]. eapply ok_ld; [exact Vs|].
    destruct (_ =? vs); cbn [andb].
    + call ok_addIn G. eapply ok_ld; [eassumption|]. eapply ok_ld; [eassumption|]. destruct (_ <=? _); [endo ok_MulDivUp|].
      vn ok_new2 G. vn ok_new2 G. glob G. endo ok_MulDivUp.
    + vn ok_new2 G. vn ok_new2 G. glob G. endo ok_MulDivUp.
  - call ok_mulIn G. vn ok_new2 G. endo ok_MulDivUp.
Qed.
Lemma ok_next1 m s l x vs vl vx add : Gl m -> val m s vs -> val m l vl -> val m x vx ->
  ok none (length m) m (getNextSqrtPriceFromAmount1RoundingDownP s l x add) (getNextSqrtPriceFromAmount1RoundingDown vs vl vx add) (isNewOr (length m) s).
Proof.
  intros G Vs Vl Vx. unfold getNextSqrtPriceFromAmount1RoundingDownP, getNextSqrtPriceFromAmount1RoundingDown. destruct add.
  - glob G. eapply ok_ld; [exact Vx|]. eapply ok_ld; [eassumption|]. destruct (_ <=? _).
    + vn ok_new1 G. vn ok_new2 G. endo (ok_new2_end none).
    + vn ok_new2 G. vn ok_new2 G. endo (ok_new2_end none).
  - glob G. callb ok_MulDivUp G. endo (ok_new2_end none).
Qed.
Lemma ok_nextIn m s l x vs vl vx z : Gl m -> val m s vs -> val m l vl -> val m x vx ->
  ok none (length m) m (GetNextSqrtPriceFromInputP s l x z) (GetNextSqrtPriceFromInput vs vl vx z) (isNewOr (length m) s).
Proof.
  intros G Vs Vl Vx. unfold GetNextSqrtPriceFromInputP, GetNextSqrtPriceFromInput. eapply ok_ld; [exact Vs|]. apply ok_lift. intros _ _.
  eapply ok_ld; [exact Vl|]. apply ok_lift. intros _ _. destruct z; [now apply ok_next0|now apply ok_next1].
Qed.
Lemma ok_nextOut m s l x vs vl vx z : Gl m -> val m s vs -> val m l vl -> val m x vx ->
  ok none (length m) m (GetNextSqrtPriceFromOutputP s l x z) (GetNextSqrtPriceFromOutput vs vl vx z) (isNewOr (length m) s).
Proof.
  intros G Vs Vl Vx. unfold GetNextSqrtPriceFromOutputP, GetNextSqrtPriceFromOutput. eapply ok_ld; [exact Vs|]. apply ok_lift. intros _ _.
  eapply ok_ld; [exact Vl|]. apply ok_lift. intros _ _. destruct z; [now apply ok_next1|now apply ok_next0].
Qed.
Lemma ok_Rounded0 m a b l va vb vl : Gl m -> val m a va -> val m b vb -> val m l vl ->
  ok none (length m) m (GetAmount0DeltaRoundedP a b l) (GetAmount0DeltaRounded va vb vl) (isNew (length m)).
Proof.
  intros G Va Vb Vl. unfold GetAmount0DeltaRoundedP, GetAmount0DeltaRounded. eapply ok_ld; [exact Vl|]. destruct (_ =? -1); [|now apply ok_Amount0].
  vn ok_new1 G. callb ok_Amount0 G. ends (ok_new1_end none).
Qed.
Lemma ok_Rounded1 m a b l va vb vl : Gl m -> val m a va -> val m b vb -> val m l vl ->
  ok none (length m) m (GetAmount1DeltaRoundedP a b l) (GetAmount1DeltaRounded va vb vl) (isNew (length m)).
Proof.
  intros G Va Vb Vl. unfold GetAmount1DeltaRoundedP, GetAmount1DeltaRounded. eapply ok_ld; [exact Vl|]. destruct (_ =? -1); [|now apply ok_Amount1].
  vn ok_new1 G. callb ok_Amount1 G. ends (ok_new1_end none).
Qed.

(** ** swapmath *)
Definition stepIs (n : nat) (cur : ptr) : Mem -> StepP -> StepResult -> Prop := fun m x s =>
  isNewOr n cur m (xNext x) (stNext s) /\ isNew n m (xIn x) (stIn s) /\ isNew n m (xOut x) (stOut s) /\ isNew n m (xFee x) (stFee s).
Lemma ok_if {A B} W n m (b : bool) (c1 c2 : cm A) (r1 r2 : res B) R :
  ok W n m c1 r1 R -> ok W n m c2 r2 R -> ok W n m (if b then c1 else c2) (if b then r1 else r2) R.
Proof. destruct b; auto. Qed.
Ltac if4 := first [now apply ok_Amount0 | now apply ok_Amount1].
Ltac bind2 Q := eapply (ok_bind none none _ _ _ _ _ _ _ Q); [|lia|no|].
Ltac ent := let m1 := fresh "m" in let p := fresh "p" in let v := fresh "v" in let K := fresh "K" in
  let L := fresh "L" in let V := fresh "V" in intros m1 p v K [V L]; carry1 K; lens.

Lemma ok_step m cur tgt liq rem vc vt vl vr fee : Gl m -> val m cur vc -> val m tgt vt -> val m liq vl -> val m rem vr ->
  ok none (length m) m (ComputeSwapStepP cur tgt liq rem fee) (ComputeSwapStep vc vt vl vr fee) (stepIs (length m) cur).
Proof.
  intros G Vc Vt Vl Vr. unfold ComputeSwapStepP, ComputeSwapStep. eapply ok_ld; [exact Vc|]. eapply ok_ld; [exact Vt|]. eapply ok_ld; [exact Vr|].
  set (z := vt <=? vc). set (e := 0 <=? usign vr). clearbody z.
  vn ok_new1 G. assert (length m <= length m)%nat as Lm by lia. remember (length m) as n0 eqn:En0 in |- *.
  assert (n0 <= length m)%nat as Ln0 by lia. clear Lm.
  set (first := fun m1 (a : ptr * option ptr * option ptr) (b : Z * Z * Z) =>
    isNewOr n0 cur m1 (fst (fst a)) (fst (fst b)) /\
    (if e then exists q, snd (fst a) = Some q /\ isNew n0 m1 q (snd (fst b)) else exists q, snd a = Some q /\ isNew n0 m1 q (snd b))).
  eapply (ok_bind none none (length m0) _ _ _ _ _ _ first); [|lia|no|].
  { destruct e.
    - vn ok_new G. glob G. vn ok_new2 G. vn ok_new2 G. vn ok_new2 G.
      eapply ok_bind; [apply (ok_if none (length m4)); if4|lia|no|]. ent. gcarry G K4.
      eapply ok_ld; [eassumption|]. eapply ok_ld; [eassumption|].
      eapply ok_bind; [apply (ok_if none (length m5) m5 _ _ _ _ _ (isNewOr (length m5) cur))|lia|no|].
      + endo (ok_clone_end none).
      + now apply ok_nextIn.
      + ent. apply ok_ret. split; cbn [fst snd]; [split; [assumption|destruct L5; [left; lia|now right]]|].
        eexists. split; [reflexivity|]. split; [eassumption|lia].
    - eapply ok_bind; [apply (ok_if none (length m0)); if4|lia|no|]. ent. gcarry G K0.
      eapply ok_ld; [eassumption|]. eapply ok_ld; [eassumption|].
      eapply ok_bind; [apply (ok_if none (length m1) m1 _ _ _ _ _ (isNewOr (length m1) cur))|lia|no|].
      + endo (ok_clone_end none).
      + now apply ok_nextOut.
      + ent. apply ok_ret. split; cbn [fst snd]; [split; [assumption|destruct L1; [left; lia|now right]]|].
        eexists. split; [reflexivity|]. split; [eassumption|lia]. }
  intros m1 [[nx oi] oo] [[vx vi] vo] K1 [[Vx Lx] F]. cbn [fst snd] in *. carry1 K1. gcarry G K1. lens.
  eapply ok_ld; [exact Vt|]. eapply ok_ld; [exact Vx|].
  eapply (ok_bind none none (length m1) _ _ _ _ _ _ (fun m' a b => (exists q, a = Some q /\ isNew n0 m' q b))); [|lia|no|].
  { destruct ((vt =? vx) && e) eqn:Ee.
    - apply andb_prop in Ee. destruct Ee as [_ Ee]. rewrite Ee in F. apply ok_ret. exact F.
    - assert (forall r : res Z, r = bind r (fun x => Ok x)) as Er by (intros []; reflexivity).
      rewrite (Er (if z then _ else _)). eapply ok_bind; [apply (ok_if none (length m1)); if4|lia|no|].
      ent. apply ok_ret. eexists. split; [reflexivity|]. split; [assumption|lia]. }
  intros m2 oi' vi' K2 (qi & -> & Vi & Li). carry1 K2. gcarry G K2. lens.
  assert (if e then True else exists q, oo = Some q /\ isNew n0 m2 q vo) as F'.
  { destruct e; [exact I|]. destruct F as (q & E & V' & L'). carry1 K2. exists q. split; [exact E|]. now split. }
  clear F. eapply (ok_bind none none (length m2) _ _ _ _ _ _ (fun m' a b => (exists q, a = Some q /\ isNew n0 m' q b))); [|lia|no|].
  { destruct ((vt =? vx) && negb e) eqn:Ee.
    - apply andb_prop in Ee. destruct Ee as [_ Ee]. apply negb_true_iff in Ee. rewrite Ee in F'. apply ok_ret. exact F'.
    - assert (forall r : res Z, r = bind r (fun x => Ok x)) as Er by (intros []; reflexivity).
      rewrite (Er (if z then _ else _)). eapply ok_bind; [apply (ok_if none (length m2)); if4|lia|no|].
      ent. apply ok_ret. eexists. split; [reflexivity|]. split; [assumption|lia]. }
  intros m3 oo' vo' K3 (qo & -> & Vo & Lo). carry1 K3. gcarry G K3. lens. clear F'.
  unfold deref. apply ok_mret, ok_mret.
  eapply (ok_let none none (length m3) _ _ _ (if negb e && (uneg vr <? vo') then uneg vr else vo') _ _ (isNew n0)); [|lia|no|].
  { destruct e; cbn [negb andb]; [apply ok_ret; now split|].
    eapply ok_ld; [exact Vo|]. vn ok_new1 G. eapply ok_ld; [eassumption|]. destruct (_ <? _); [|apply ok_ret; split; [assumption|lia]].
    ends (ok_clone_end none). }
  intros m4 qo' K4 [Vo' Lo']. carry1 K4. gcarry G K4. lens.
  eapply ok_ld; [exact Vx|]. eapply ok_ld; [exact Vt|].
  eapply (ok_bind none none (length m4) _ _ _ _ _ _ (isNew n0)); [|lia|no|].
  { destruct (e && _); [ends (ok_new2_end none)|]. vn ok_new G. vn ok_new G. glob G. vn ok_new2 G. ends ok_MulDivUp. }
  intros m5 qf vf K5 [Vf Lf]. carry1 K5. apply ok_ret. repeat split; cbn [xNext xIn xOut xFee stNext stIn stOut stFee]; assumption.
Qed.

(** ** tickdata *)
Definition tickIs (m : Mem) (x : TickP) (t : Tick) : Prop :=
  yIndex x = tkIndex t /\ val m (yNet x) (tkNet t) /\ val m (yGross x) (tkGross t) /\ val m (yOut0 x) (tkOut0 t) /\ val m (yOut1 x) (tkOut1 t).
Definition tableIs (m : Mem) (d : TableP) (t : TickData) : Prop :=
  Forall2 (tickIs m) (yTicks d) (ticks t) /\ ySpacing d = tickSpacing t.
Definition tcells (x : TickP) : list ptr := [yNet x; yGross x; yOut0 x; yOut1 x].
Definition tc (l : list TickP) : list ptr := flat_map tcells l.

Lemma Forall2_length {A B} (P : A -> B -> Prop) l k : Forall2 P l k -> length l = length k.
Proof. induction 1; cbn; congruence. Qed.
Lemma indices_same m d t : tableIs m d t -> sameIndex (indices d) t.
Proof.
  intros [F E]. split; [|exact E]. cbn [indices ticks]. rewrite map_map. cbn [tkIndex].
  induction F as [|x y l k H F IH]; [reflexivity|]. cbn [map]. rewrite IH. f_equal. apply H.
Qed.
Lemma ticks_frame m m1 l k : (forall q v, In q (tc l) -> val m q v -> val m1 q v) -> Forall2 (tickIs m) l k -> Forall2 (tickIs m1) l k.
Proof.
  intros H F. induction F as [|x y l k T F IH]; [constructor|]. cbn [tc flat_map] in H. constructor.
  - destruct T as (E & V1 & V2 & V3 & V4). split; [exact E|]. repeat split; apply H; auto; apply in_or_app; left; cbn; auto.
  - apply IH. intros q v I. apply H. apply in_or_app. now right.
Qed.
Lemma tc_live m l k q : Forall2 (tickIs m) l k -> In q (tc l) -> (q < length m)%nat.
Proof.
  intros F. induction F as [|x y l k T F IH]; [intros []|]. cbn [tc flat_map]. intros I. apply in_app_or in I. destruct I as [I|I]; [|auto].
  destruct T as (_ & V1 & V2 & V3 & V4). cbn in I. destruct I as [<-|[<-|[<-|[<-|[]]]]]; eapply val_lt; eassumption.
Qed.
Lemma tc_app l1 l2 : tc (l1 ++ l2) = tc l1 ++ tc l2.
Proof. apply flat_map_app. Qed.
Lemma tickAt_split m d t i : tableIs m d t ->
  match tickAtP d i, tickAt t i with
  | Ok x, Ok y => tickIs m x y /\ exists l1 l2 k1 k2, yTicks d = l1 ++ x :: l2 /\ ticks t = k1 ++ y :: k2 /\ length l1 = Z.to_nat i /\ 0 <= i /\
      Forall2 (tickIs m) l1 k1 /\ Forall2 (tickIs m) l2 k2 /\ forall y', setAt (ticks t) i y' = k1 ++ y' :: k2
  | Panic, Panic => True
  | _, _ => False
  end.
Proof.
  intros [F _]. unfold tickAtP, tickAt. destruct (Z.ltb_spec i 0); [exact I|]. unfold geti.
  destruct (nth_error (yTicks d) (Z.to_nat i)) as [x|] eqn:E.
  - apply nth_error_split in E. destruct E as (l1 & l2 & E & Len). rewrite E in F. apply Forall2_app_inv_l in F.
    destruct F as (k1 & k2' & F1 & F2 & Ek). inversion F2 as [|? y ? k2 T F3]; subst. rewrite Ek.
    assert (length k1 = Z.to_nat i) as Lk by (rewrite <- Len; symmetry; eapply Forall2_length; eassumption).
    rewrite nth_error_app2, Lk, Nat.sub_diag by lia. cbn [nth_error]. split; [exact T|]. exists l1, l2, k1, k2.
    repeat split; auto. intros y'. unfold setAt. rewrite firstn_app, Lk, Nat.sub_diag. cbn [firstn]. rewrite app_nil_r.
    rewrite <- Lk, firstn_all. f_equal. f_equal. rewrite skipn_app. rewrite skipn_all2 by lia.
    replace (length k1 + 1 - length k1)%nat with 1%nat by lia. reflexivity.
  - destruct (nth_error (ticks t) (Z.to_nat i)) eqn:E'; [|exact I]. apply nth_error_None in E. apply Forall2_length in F.
    assert (Z.to_nat i < length (ticks t))%nat by (apply nth_error_Some; congruence). lia.
Qed.
(** only the variables of one tick were written *)
Lemma table_write m m1 d t i x y y' l1 l2 k1 k2 : tableIs m d t -> NoDup (tc (yTicks d)) ->
  yTicks d = l1 ++ x :: l2 -> Forall2 (tickIs m) l1 k1 -> Forall2 (tickIs m) l2 k2 ->
  setAt (ticks t) i y' = k1 ++ y' :: k2 -> tickIs m x y ->
  (forall q v, ~ In q (tcells x) -> val m q v -> val m1 q v) -> tickIs m1 x y' ->
  tableIs m1 d (with_ticks t (setAt (ticks t) i y')).
Proof.
  intros T N El F1 F2 Es Tx H Tx'. split; [|exact (proj2 T)]. unfold with_ticks. cbn [ticks]. rewrite Es, El.
  rewrite El, tc_app in N. change (tc (x :: l2)) with (tcells x ++ tc l2) in N.
  apply Forall2_app; [|constructor; [exact Tx'|]].
  - eapply ticks_frame; [|exact F1]. intros q v Iq. apply H. intros K. eapply NoDup_app_not in Iq; [|exact N]. apply Iq. apply in_or_app. now left.
  - eapply ticks_frame; [|exact F2]. intros q v Iq. apply H. intros K. apply nodup_r in N. now apply (NoDup_app_not _ _ q N K).
Qed.
Lemma tcells_nodup l1 x l2 : NoDup (tc (l1 ++ x :: l2)) -> NoDup (tcells x).
Proof. rewrite tc_app. intros N. apply nodup_r in N. change (tc (x :: l2)) with (tcells x ++ tc l2) in N. now apply nodup_l in N. Qed.
Lemma tcells_in x l q : In x l -> In q (tcells x) -> In q (tc l).
Proof. intros Hx Hq. apply in_flat_map. eauto. Qed.

(** the table after a method: its variables are old ones of the table or new *)
Definition tableOk (l : list TickP) (n : nat) (m : Mem) (d : TableP) (t : TickData) : Prop :=
  tableIs m d t /\ NoDup (tc (yTicks d)) /\ forall q, In q (tc (yTicks d)) -> In q (tc l) \/ (n <= q)%nat.

Lemma GetTick_is m d t i : tableIs m d t ->
  match GetTickP d i, GetTick t i with
  | Ok x, Ok y => tickIs m x y /\ In x (yTicks d) | Panic, Panic => True | OutOfFuel, OutOfFuel => True | _, _ => False end.
Proof.
  intros T. unfold GetTickP, GetTick. rewrite (same_bs _ _ (indices_same m d t T)). destruct (binarySearch t i) as [j| |]; cbn [bind]; auto.
  pose proof (tickAt_split m d t j T) as S. destruct (tickAtP d j) as [x| |], (tickAt t j) as [y| |]; cbn [bind]; try contradiction; auto.
  destruct S as [S (l1 & l2 & _ & _ & E & _)]. rewrite (proj1 S). destruct (invariant _); cbn [bind]; auto. split; [exact S|]. rewrite E. apply in_or_app. right. now left.
Qed.
Lemma ndup4 {A} (a b c d : A) : NoDup [a; b; c; d] -> a <> b /\ a <> c /\ a <> d /\ b <> c /\ b <> d /\ c <> d.
Proof.
  intros N. repeat match goal with H : NoDup (_ :: _) |- _ => apply NoDup_cons_iff in H; destruct H end. cbn [In] in *.
  repeat split; intros ->; tauto.
Qed.
Lemma ok_Cross m d t i g0 g1 v0 v1 : Gl m -> tableIs m d t -> NoDup (tc (yTicks d)) -> val m g0 v0 -> val m g1 v1 ->
  ~ In g0 (tc (yTicks d)) -> ~ In g1 (tc (yTicks d)) ->
  ok (fun q => In q (tc (yTicks d))) (length m) m (CrossP d i g0 g1) (Cross t i v0 v1)
    (fun m' p r => tableIs m' d (fst r) /\ val m' p (snd r) /\ In p (tc (yTicks d))).
Proof.
  intros G T N V0 V1 N0 N1. unfold CrossP, Cross.
  unfold GetTickP. rewrite (same_bs _ _ (indices_same m d t T)). destruct (binarySearch t i) as [j| |]; [|exact I|exact I]. cbn [bind].
  pose proof (tickAt_split m d t j T) as S. destruct (tickAtP d j) as [x| |], (tickAt t j) as [y| |]; try contradiction; [|exact I]. cbn [bind].
  destruct S as (Tx & l1 & l2 & k1 & k2 & El & Ek & _ & _ & F1 & F2 & Es).
  pose proof Tx as (Ei & Vn & Vg & Vo0 & Vo1). rewrite Ei. unfold invariant. destruct (tkIndex y =? i); [|exact I]. cbn [bind].
  unfold lift. apply ok_mret.
  assert (In x (yTicks d)) as Ix by (rewrite El; apply in_or_app; right; now left).
  assert (NoDup (tcells x)) as Nx by (rewrite El in N; now apply tcells_nodup in N).
  pose proof (ndup4 _ _ _ _ Nx) as (D1 & D2 & D3 & D4 & D5 & D6).
  assert (forall q, In q (tcells x) -> In q (tc (yTicks d))) as Iq by (intros q; now apply tcells_in).
  assert (forall q, In q (tcells x) -> g0 <> q /\ g1 <> q) as Ng by (intros q Hq; split; intros ->; auto).
  assert (In (yOut0 x) (tcells x)) as Io0 by (cbn; auto). assert (In (yOut1 x) (tcells x)) as Io1 by (cbn; auto).
  pose proof (Ng _ Io0) as [? ?]. pose proof (Ng _ Io1) as [? ?].
  eapply ok_op2; [exact V0|exact Vo0|vlt|left; auto|]. intros m1 (L1 & N1' & W1).
  assert (forall q v, q <> yOut0 x -> val m q v -> val m1 q v) as C1 by exact N1'.
  eapply (ok_op2 _ _ _ _ _ _ _ v1 (tkOut1 y)); [apply C1; assumption|apply C1; [neq|assumption]|rewrite L1; vlt|left; auto|]. intros m2 (L2 & N2' & W2).
  apply ok_ret. cbn [fst snd].
  assert (forall q v, q <> yOut0 x -> q <> yOut1 x -> val m q v -> val m2 q v) as C2 by (intros; apply N2'; auto).
  split; [|split; [apply C2; assumption|apply Iq; cbn; auto]].
  eapply table_write; try eassumption; [apply Es| |].
  - intros q v Hq. apply C2; intros ->; auto.
  - split; [cbn; congruence|]. cbn [tkNet tkGross tkOut0 tkOut1]. split; [apply C2; assumption|]. split; [apply C2; assumption|].
    split; [apply N2'; assumption|exact W2].
Qed.

Lemma ok_makeTick m i cur pn pg p0 p1 n g v0 v1 : Gl m -> val m pn n -> val m pg g -> val m p0 v0 -> val m p1 v1 ->
  ok none (length m) m (makeTickP i cur pn pg p0 p1) (Ok (makeTick i cur n g v0 v1))
    (fun m' x t => tickIs m' x t /\ NoDup (tcells x) /\ forall q, In q (tcells x) -> (length m <= q)%nat).
Proof.
  intros G Vn Vg V0 V1. unfold makeTickP.
  vn ok_clone G. vn ok_clone G.
  assert (val m1 (if i <=? cur then p0 else gZero) (if i <=? cur then v0 else 0)) as Va by (destruct (i <=? cur); [assumption|now apply G]).
  assert (val m1 (if i <=? cur then p1 else gZero) (if i <=? cur then v1 else 0)) as Vb by (destruct (i <=? cur); [assumption|now apply G]).
  vn ok_clone G. vn ok_clone G. apply ok_ret. split; [|split].
  - unfold makeTick, tickIs. destruct (i <=? cur); cbn [yIndex yNet yGross yOut0 yOut1 tkIndex tkNet tkGross tkOut0 tkOut1]; auto 6.
  - cbv [tcells yNet yGross yOut0 yOut1]. clear - L L0 L1 L2. repeat (apply NoDup_cons; [cbn [In]; lia|]). constructor.
  - cbv [tcells yNet yGross yOut0 yOut1 In]. intros q [<-|[<-|[<-|[<-|[]]]]]; lia.
Qed.
Lemma nodup_insert (l1 l2 : list TickP) x : NoDup (tc (l1 ++ l2)) -> NoDup (tcells x) -> (forall q, In q (tcells x) -> ~ In q (tc (l1 ++ l2))) ->
  NoDup (tc (l1 ++ x :: l2)).
Proof.
  intros N Nx D. rewrite tc_app in *. change (tc (x :: l2)) with (tcells x ++ tc l2).
  assert (NoDup (tcells x ++ tc l1 ++ tc l2)) as ND.
  { revert Nx D. generalize (tcells x). induction l as [|a l IH]; intros Nx D; [exact N|]. cbn [app]. apply NoDup_cons_iff in Nx. destruct Nx as [Na Nl].
    constructor; [|apply IH; [exact Nl|]; intros q Hq; apply D; now right]. intros K. apply in_app_or in K. destruct K as [K|K]; [auto|]. eapply D; [left; reflexivity|exact K]. }
  rewrite app_assoc in ND |- *. apply (Permutation_NoDup (l := (tcells x ++ tc l1) ++ tc l2)); [|exact ND].
  apply Permutation_app_tail, Permutation_app_comm.
Qed.
Lemma table_insert m d t l1 l2 k1 k2 x y n : yTicks d = l1 ++ l2 -> NoDup (tc (yTicks d)) -> ySpacing d = tickSpacing t ->
  Forall2 (tickIs m) l1 k1 -> Forall2 (tickIs m) l2 k2 -> tickIs m x y -> NoDup (tcells x) -> (forall q, In q (tcells x) -> (n <= q)%nat) ->
  (forall q, In q (tc (yTicks d)) -> (q < n)%nat) ->
  tableOk (yTicks d) n m (with_yTicks d (l1 ++ x :: l2)) (with_ticks t (k1 ++ y :: k2)).
Proof.
  intros El N Es F1 F2 Tx Nx Fx Fd. split; [|split].
  - split; [|exact Es]. cbn [with_yTicks yTicks with_ticks ticks]. apply Forall2_app; [exact F1|]. constructor; assumption.
  - cbn [with_yTicks yTicks]. apply nodup_insert; [now rewrite <- El|exact Nx|]. intros q Hq K. rewrite <- El in K. apply Fd in K. apply Fx in Hq. lia.
  - cbn [with_yTicks yTicks]. intros q. rewrite El, !tc_app. change (tc (x :: l2)) with (tcells x ++ tc l2). intros H.
    apply in_app_or in H. destruct H as [H|H]; [left; apply in_or_app; now left|]. apply in_app_or in H.
    destruct H as [H|H]; [right; auto|left; apply in_or_app; now right].
Qed.
Lemma Forall2_firstn {A B} (P : A -> B -> Prop) n : forall l k, Forall2 P l k -> Forall2 P (firstn n l) (firstn n k).
Proof. induction n as [|n IH]; intros l k F; [constructor|]. destruct F; cbn; constructor; auto. Qed.
Lemma Forall2_skipn {A B} (P : A -> B -> Prop) n : forall l k, Forall2 P l k -> Forall2 P (skipn n l) (skipn n k).
Proof. induction n as [|n IH]; intros l k F; [exact F|]. destruct F; cbn; auto. Qed.

Definition tw (d : TableP) : ptr -> Prop := fun q => In q (tc (yTicks d)).
Lemma ok_UpdateTick m d t i cur a g0 g1 va v0 v1 up : Gl m -> tableIs m d t -> NoDup (tc (yTicks d)) ->
  val m a va -> val m g0 v0 -> val m g1 v1 -> ~ tw d a ->
  ok (tw d) (length m) m (UpdateTickP d i cur a g0 g1 up) (UpdateTick t i cur va v0 v1 up)
    (fun m' r s => tableOk (yTicks d) (length m) m' (fst r) (fst s) /\ snd r = snd s).
Proof.
  intros G T N Va V0 V1 Na. unfold UpdateTickP, UpdateTick. rewrite (same_bs2 _ _ (indices_same m d t T)).
  apply ok_lift. intros [j found] _.
  eapply ok_new1; [exact Va|]. intros m1 z K1 L1 Vz. pose proof (keeps_len _ _ _ _ K1).
  assert (tableIs m1 d t) as T1.
  { split; [|exact (proj2 T)]. eapply ticks_frame; [|exact (proj1 T)]. intros q v _ Hv. eapply keeps_none; eassumption. }
  pose proof (fun q => tc_live m _ _ q (proj1 T)) as Lv.
  assert (tw d z -> False) as Nz by (intros Iz; apply Lv in Iz; lia).
  pose proof (Gl_none _ _ G K1) as G1. carry1 K1.
  destruct found.
  - pose proof (tickAt_split m1 d t j T1) as S. destruct (tickAtP d j) as [x| |], (tickAt t j) as [y| |]; try contradiction; [|exact I].
    cbn [bind]. unfold lift. apply ok_mret. destruct S as (Tx & l1 & l2 & k1 & k2 & El & Ek & _ & _ & F1 & F2 & Es).
    pose proof Tx as (Ei & Vn & Vg & Vo0 & Vo1).
    assert (In x (yTicks d)) as Ix by (rewrite El; apply in_or_app; right; now left).
    assert (NoDup (tcells x)) as Nx by (rewrite El in N; now apply tcells_nodup in N).
    pose proof (ndup4 _ _ _ _ Nx) as (D1 & D2 & D3 & D4 & D5 & D6).
    assert (forall q, In q (tcells x) -> In q (tc (yTicks d))) as Iq by (intros q; now apply tcells_in).
    assert (forall q, In q (tcells x) -> a <> q) as Ng by (intros q Hq ->; apply Na; now apply Iq).
    assert (In (yNet x) (tcells x)) as In0 by (cbn; auto). assert (In (yGross x) (tcells x)) as Ig by (cbn; auto).
    pose proof (Ng _ In0). pose proof (Ng _ Ig).
    eapply ok_op2; [exact Vn|exact Va|vlt|left; apply Iq; auto|]. intros m2 (L2 & N2 & W2).
    eapply (ok_op2 _ _ _ _ _ _ _ (tkGross y) va); [apply N2; [neq|assumption]|apply N2; assumption|rewrite L2; vlt|left; apply Iq; auto|].
    intros m3 (L3 & N3 & W3). eapply ok_ld; [exact W3|]. apply ok_ret. cbn [fst snd].
    assert (forall q v, q <> yNet x -> q <> yGross x -> val m1 q v -> val m3 q v) as C2 by (intros; apply N3; auto).
    split; [|reflexivity]. split; [|split; [exact N|auto]].
    eapply table_write; try eassumption; [apply Es| |].
    + intros q v Hq. apply C2; intros ->; auto.
    + split; [cbn; congruence|]. cbn [tkNet tkGross tkOut0 tkOut1].
      split; [apply N3; [exact D1|destruct up; exact W2]|]. split; [exact W3|]. split; apply C2; auto.
  - eapply (ok_let none (tw d) (length m1) (length m)); [eapply ok_makeTick; eassumption|lia|no|].
    intros m2 x K2 (Tx & Nx & Fx). pose proof (keeps_len _ _ _ _ K2).
    assert (Forall2 (tickIs m2) (yTicks d) (ticks t)) as F2.
    { eapply ticks_frame; [|exact (proj1 T1)]. intros q v _ Hv. eapply keeps_none; eassumption. }
    assert (forall q, In q (tcells x) -> (length m <= q)%nat) as Fx' by (intros q Hq; apply Fx in Hq; lia).
    destruct (j =? -2); [|destruct (j =? -1)].
    + apply ok_ret. split; [|reflexivity]. cbn [fst]. apply table_insert; auto; try (now rewrite app_nil_r); exact (proj2 T).
    + apply ok_ret. split; [|reflexivity]. cbn [fst]. apply (table_insert m2 d t [] (yTicks d) [] (ticks t)); auto. exact (proj2 T).
    + apply ok_ret. split; [|reflexivity]. cbn [fst]. apply table_insert; auto.
      * now rewrite firstn_skipn.
      * exact (proj2 T).
      * now apply Forall2_firstn.
      * now apply Forall2_skipn.
Qed.
Lemma ClearTick_is m d t i l n : tableOk l n m d t ->
  match ClearTickP d i, ClearTick t i with
  | Ok d', Ok t' => tableOk l n m d' t' /\ incl (tc (yTicks d')) (tc (yTicks d)) | Panic, Panic => True | OutOfFuel, OutOfFuel => True | _, _ => False end.
Proof.
  intros (T & N & I). unfold ClearTickP, ClearTick. rewrite (same_bs2 _ _ (indices_same m d t T)).
  destruct (binarySearch2 t i) as [[j found]| |]; cbn [bind]; auto. destruct found; [|split; [now split|apply incl_refl]].
  set (l1 := firstn (Z.to_nat j) (yTicks d)). set (l2 := skipn (Z.to_nat j + 1) (yTicks d)).
  assert (exists l0, yTicks d = l1 ++ l0 ++ l2) as (l0 & E).
  { exists (firstn 1 (skipn (Z.to_nat j) (yTicks d))). unfold l1, l2. rewrite <- (firstn_skipn (Z.to_nat j) (yTicks d)) at 1. f_equal.
    rewrite <- (firstn_skipn 1 (skipn (Z.to_nat j) (yTicks d))) at 1. f_equal.
    generalize (yTicks d). generalize (Z.to_nat j). induction n0 as [|n0 IH]; intros k; [reflexivity|]. destruct k; [reflexivity|]. cbn [skipn Nat.add]. apply IH. }
  assert (incl (tc (l1 ++ l2)) (tc (yTicks d))) as Inc.
  { intros q Hq. rewrite E, !tc_app. rewrite tc_app in Hq. apply in_app_or in Hq. apply in_or_app. destruct Hq; [now left|]. right. apply in_or_app. now right. }
  split; [|exact Inc]. split; [|split].
  - split; [|exact (proj2 T)]. cbn [with_yTicks yTicks with_ticks ticks]. apply Forall2_app; [apply Forall2_firstn|apply Forall2_skipn]; exact (proj1 T).
  - cbn [with_yTicks yTicks]. rewrite E, !tc_app in N. rewrite tc_app.
    apply (Permutation_NoDup (l := tc l1 ++ tc l0 ++ tc l2)) with (l' := tc l0 ++ tc l1 ++ tc l2) in N; [now apply nodup_r in N|].
    rewrite !app_assoc. apply Permutation_app_tail, Permutation_app_comm.
  - cbn [with_yTicks yTicks]. intros q Hq. apply I. now apply Inc.
Qed.
(** a new variable, changed in place *)
Lemma ok_new2op {A B} W n m g h x y w a b c f (r : res B) (R : Mem -> A -> B -> Prop) : val m x a -> val m y b -> val m w c ->
  (forall m1 p, keeps none (length m) m m1 -> (length m <= p < length m1)%nat -> val m1 p (h (g a b) c) -> ok W n m1 (f p) r R) ->
  ok W n m (mbind (new2 g x y) (fun p => mbind (op2 h p p w) (fun _ => f p))) r R.
Proof.
  intros V V' V'' H. apply (ok_new W n m (h (g a b) c)) in H. unfold ok, mbind in *. rewrite (new2_eq m g x y a b V V').
  unfold op2, mbind, ld, st. rewrite (val_new m (g a b)). apply (val_app m [g a b]) in V''. unfold val in V''. rewrite V'', app_length. cbn [length].
  destruct (Nat.ltb_spec (length m) (length m + 1)); [|lia]. rewrite setM_new. exact H.
Qed.
Lemma ok_Inside m d t lo up cur g0 g1 v0 v1 : Gl m -> tableIs m d t -> val m g0 v0 -> val m g1 v1 ->
  ok none (length m) m (GetFeeGrowthInsideP d lo up cur g0 g1) (GetFeeGrowthInside t lo up cur v0 v1)
    (fun m' r s => isNew (length m) m' (fst r) (fst s) /\ isNew (length m) m' (snd r) (snd s)).
Proof.
  intros G T V0 V1. unfold GetFeeGrowthInsideP, GetFeeGrowthInside.
  eapply ok_lift2; [apply (GetTick_is m d t lo T)|]. intros xl tl [(_ & _ & _ & L0 & L1) _].
  eapply ok_lift2; [apply (GetTick_is m d t up T)|]. intros xu tu [(_ & _ & _ & U0 & U1) _].
  assert (length m <= length m)%nat as Lm by lia. remember (length m) as n0 eqn:En0 in |- *. assert (n0 <= length m)%nat as Ln0 by lia. clear Lm.
  assert (forall (W : ptr -> Prop) n m' (b : bool) x g vx vg f (r : res (Z * Z)) (R : Mem -> ptr * ptr -> Z * Z -> Prop), val m' x vx -> val m' g vg ->
    (forall m1 p, keeps none (length m') m' m1 -> (length m' <= p < length m1)%nat -> val m1 p (if b then vx else usub vg vx) -> ok W n m1 (f p) r R) ->
    ok W n m' (mbind (if b then new1 (fun x => x) x else new2 usub g x) f) r R) as Hif.
  { intros W n m' b x g vx vg f r R Vx Vg H. destruct b; [eapply ok_new1; eassumption|eapply ok_new2; eassumption]. }
  vn Hif G. vn Hif G. vn Hif G. vn Hif G. vn ok_new2op G. vn ok_new2op G.
  destruct (lo <=? cur), (cur <? up); apply ok_ret; cbn [fst snd]; repeat split; solve [assumption|lia].
Qed.

(** ** position *)
Definition infoIs (m : Mem) (i : InfoP) (v : Info) : Prop :=
  val m (iLiquidity i) (pLiquidity v) /\ val m (iLast0 i) (pLast0 v) /\ val m (iLast1 i) (pLast1 v) /\ val m (iOwed0 i) (pOwed0 v) /\ val m (iOwed1 i) (pOwed1 v).
Definition ow (i : InfoP) : ptr -> Prop := fun q => q = iOwed0 i \/ q = iOwed1 i.
Lemma ok_InfoUpdate m i v a x0 x1 va v0 v1 : Gl m -> infoIs m i v -> iOwed0 i <> iOwed1 i -> (9 <= iOwed0 i)%nat -> (9 <= iOwed1 i)%nat ->
  val m a va -> val m x0 v0 -> val m x1 v1 -> ~ ow i x0 -> ~ ow i x1 ->
  ok (ow i) (length m) m (InfoUpdateP i a x0 x1) (InfoUpdate v va v0 v1)
    (fun m' j w => infoIs m' j w /\ iOwed0 j = iOwed0 i /\ iOwed1 j = iOwed1 i /\ (length m <= iLiquidity j)%nat /\ iLast0 j = x0 /\ iLast1 j = x1).
Proof.
  intros G (Vl & Va0 & Va1 & Vo0 & Vo1) D N0 N1 Va Vx0 Vx1 D0 D1. unfold InfoUpdateP, InfoUpdate.
  pose proof (val_lt _ _ _ Vo0) as Lo0. pose proof (val_lt _ _ _ Vo1) as Lo1.
  vn ok_new2 G. vn ok_new2 G. vn ok_new2 G. glob G.
  callb ok_MulDiv G. callb ok_MulDiv G. remember (length m) as n0 eqn:En.
  assert (x0 <> iOwed0 i /\ x0 <> iOwed1 i /\ x1 <> iOwed0 i /\ x1 <> iOwed1 i) as (? & ? & ? & ?) by (unfold ow in *; tauto).
  assert (p <> iOwed0 i /\ p <> iOwed1 i) as (? & ?) by (clear - L Lo0 Lo1; lia).
  assert (p3 <> iOwed0 i) as ? by (clear - L3 Lo0 H H0 H1 H11 En; lia).
  eapply ok_op2; [exact Vo0|eassumption|vlt|left; now left|]. intros m5 (L5 & N5 & W5).
  eapply ok_op2; [apply N5; [neq|exact Vo1]|apply N5; [assumption|eassumption]|rewrite L5; vlt|left; now right|]. intros m6 (L6 & N6 & W6).
  assert (forall q w, q <> iOwed0 i -> q <> iOwed1 i -> val m4 q w -> val m6 q w) as C by (intros; apply N6; auto).
  apply ok_ret. cbn [iLiquidity iLast0 iLast1 iOwed0 iOwed1]. split; [|repeat split; clear - L En; lia].
  unfold infoIs. cbn [iLiquidity iLast0 iLast1 iOwed0 iOwed1 pLiquidity pLast0 pLast1 pOwed0 pOwed1].
  split; [apply C; assumption|]. split; [apply C; assumption|]. split; [apply C; assumption|]. split; [apply N6; assumption|exact W6].
Qed.
