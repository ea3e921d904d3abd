(** PtrRunFacts.v -- the programs of PtrRun.v do to memory what the strategies and the executor do to values. *)
From Coq Require Import String Permutation.
From Verif Require Import Base U256Z SwapMath TickMath Float64 TickData Pool PoolOps Prices Client Strategy Executor.
From Verif Require Import Ptr PtrFacts PtrPoolFacts PtrRun.
Ltac Zify.zify_post_hook ::= idtac.
Open Scope Z_scope.

(** ** liquidity_amounts *)
Lemma ok_liq0 m a b x va vb vx : Gl m -> val m a va -> val m b vb -> val m x vx ->
  ok none (length m) m (getLiquidityForAmount0P a b x) (getLiquidityForAmount0 va vb vx) (isNew (length m)).
Proof.
  intros G Va Vb Vx. unfold getLiquidityForAmount0P, getLiquidityForAmount0. eapply ok_ordered; [exact Va|exact Vb|].
  intros y z vy vz E Vy Vz. rewrite E. clear a b va vb Va Vb E. glob G. callb ok_MulDiv G. vn ok_new2 G. ends ok_MulDiv.
Qed.
Lemma ok_liq1 m a b x va vb vx : Gl m -> val m a va -> val m b vb -> val m x vx ->
  ok none (length m) m (getLiquidityForAmount1P a b x) (getLiquidityForAmount1 va vb vx) (isNew (length m)).
Proof.
  intros G Va Vb Vx. unfold getLiquidityForAmount1P, getLiquidityForAmount1. eapply ok_ordered; [exact Va|exact Vb|].
  intros y z vy vz E Vy Vz. rewrite E. clear a b va vb Va Vb E. vn ok_new2 G. glob G. ends ok_MulDiv.
Qed.
Lemma ok_liq m s a b x y vs va vb vx vy : Gl m -> val m s vs -> val m a va -> val m b vb -> val m x vx -> val m y vy ->
  ok none (length m) m (GetLiquidityForAmountP s a b x y) (GetLiquidityForAmount vs va vb vx vy) (isNew (length m)).
Proof.
  intros G Vs Va Vb Vx Vy. unfold GetLiquidityForAmountP, GetLiquidityForAmount. eapply ok_ordered; [exact Va|exact Vb|].
  intros c d vc vd E Vc Vd. rewrite E. clear a b va vb Va Vb E. do 3 (eapply ok_ld; [eassumption|]). destruct (_ <=? _); [ends ok_liq0|]. destruct (_ <? _); [|ends ok_liq1].
  callb ok_liq0 G. callb ok_liq1 G. do 2 (eapply ok_ld; [eassumption|]). apply ok_ret. destruct (_ <? _); split; (assumption || lia).
Qed.
Lemma ok_am0 m a b x va vb vx : Gl m -> val m a va -> val m b vb -> val m x vx ->
  ok none (length m) m (getAmount0ForLiquidityP a b x) (getAmount0ForLiquidity va vb vx) (isNew (length m)).
Proof.
  intros G Va Vb Vx. unfold getAmount0ForLiquidityP, getAmount0ForLiquidity. eapply ok_ordered; [exact Va|exact Vb|].
  intros y z vy vz E Vy Vz. rewrite E. clear a b va vb Va Vb E. vn ok_new1 G. vn ok_new2 G. callb ok_MulDiv G. ends (ok_new2_end none).
Qed.
Lemma ok_am1 m a b x va vb vx : Gl m -> val m a va -> val m b vb -> val m x vx ->
  ok none (length m) m (getAmount1ForLiquidityP a b x) (getAmount1ForLiquidity va vb vx) (isNew (length m)).
Proof.
  intros G Va Vb Vx. unfold getAmount1ForLiquidityP, getAmount1ForLiquidity. eapply ok_ordered; [exact Va|exact Vb|].
  intros y z vy vz E Vy Vz. rewrite E. clear a b va vb Va Vb E. vn ok_new2 G. glob G. ends ok_MulDiv.
Qed.
Definition isNew2 (n : nat) : Mem -> ptr * ptr -> Z * Z -> Prop := fun m r s =>
  val m (fst r) (fst s) /\ val m (snd r) (snd s) /\ (n <= fst r)%nat /\ (n <= snd r)%nat.
Lemma ok_amounts m s a b x vs va vb vx : Gl m -> val m s vs -> val m a va -> val m b vb -> val m x vx ->
  ok none (length m) m (GetAmountsForLiquidityP s a b x) (GetAmountsForLiquidity vs va vb vx) (isNew2 (length m)).
Proof.
  intros G Vs Va Vb Vx. unfold GetAmountsForLiquidityP, GetAmountsForLiquidity. eapply ok_ordered; [exact Va|exact Vb|].
  intros c d vc vd E Vc Vd. rewrite E. clear a b va vb Va Vb E. vn ok_new G. vn ok_new G. do 3 (eapply ok_ld; [eassumption|]).
  destruct (_ <=? _); [|destruct (_ <? _)].
  - callb ok_am0 G. apply ok_ret. unfold isNew2. cbn [fst snd]. repeat split; (assumption || lia).
  - callb ok_am0 G. callb ok_am1 G. apply ok_ret. unfold isNew2. cbn [fst snd]. repeat split; (assumption || lia).
  - callb ok_am1 G. apply ok_ret. unfold isNew2. cbn [fst snd]. repeat split; (assumption || lia).
Qed.
Lemma MulDiv_nonneg a b d v : MulDiv a b d = Ok v -> 0 <= v.
Proof.
  unfold MulDiv. destruct (_ || _); [intros [= <-]; lia|]. destruct (udivrem5_ok _ _); [|discriminate]. intros [= <-]. apply Z.mod_pos_bound. reflexivity.
Qed.
Lemma liq_nonneg s a b x y v : GetLiquidityForAmount s a b x y = Ok v -> 0 <= v.
Proof.
  unfold GetLiquidityForAmount, getLiquidityForAmount0, getLiquidityForAmount1. destruct (ordered a b) as [c d].
  destruct (_ <=? _); [|destruct (_ <? _)].
  - destruct (ordered c d). destruct (MulDiv _ _ Q96); cbn [bind]; try discriminate. apply MulDiv_nonneg.
  - destruct (ordered s d) as [c' d']. destruct (MulDiv c' d' Q96); cbn [bind]; try discriminate. destruct (MulDiv x _ _) eqn:E0; cbn [bind]; try discriminate.
    destruct (ordered c s) as [e f]. destruct (MulDiv y _ _) eqn:E1; cbn [bind]; try discriminate. intros [= <-]. apply MulDiv_nonneg in E0, E1. destruct (_ <? _); assumption.
  - destruct (ordered c d). apply MulDiv_nonneg.
Qed.

(** ** prices *)
Lemma ok_zeros n : forall m, Gl m -> ok none (length m) m (zerosP n) (Ok (repeat 0 n))
  (fun m' l v => Forall2 (val m') l v /\ forall q, In q l -> (length m <= q)%nat).
Proof.
  induction n as [|n IH]; intros m G; cbn [zerosP repeat].
  - apply ok_ret. split; [constructor|intros q []].
  - vn ok_new G. eapply ok_let; [apply (IH m0 G)|lia|no|]. intros m2 l K2 [F I]. carry1 K2. apply ok_ret. split; [constructor; assumption|].
    intros q [<-|Hq]; [lia|]. apply I in Hq. lia.
Qed.
Lemma ok_sumP n m0 sum l vl : Forall2 (val m0) l vl -> forall m acc, keeps (eq sum) n m0 m -> (forall q, In q l -> (q < n)%nat /\ q <> sum) -> val m sum acc -> (n <= sum)%nat ->
  ok none n m (sumP l sum) (Ok (fold_left uadd vl acc)) (fun m' _ v => val m' sum v).
Proof.
  induction 1 as [|x v l vl V F IH]; intros m acc K D Vs L; cbn [sumP fold_left].
  - apply ok_ret. exact Vs.
  - assert (val m x v) as Vx. { destruct (D x) as [D1 D2]; [now left|]. eapply keeps_val; [exact K|congruence|exact D1|exact V]. }
    eapply ok_op2; [exact Vs|exact Vx|vlt|now right|]. intros m1 (L1 & C1 & W1). apply IH; [|intros q Hq; apply D; now right|exact W1|exact L].
    eapply keeps_trans; [exact K|]. split; [lia|]. intros q w Nq _ Vq. apply C1; [congruence|exact Vq].
Qed.
Definition histIs (m : Mem) (H : PricesP) (h : Prices) : Prop :=
  Forall2 (val m) (qPrices H) (prPrices h) /\ qIndex H = prIndex h /\ qLength H = prLength h.
Lemma forall_lt m l vl q : Forall2 (val m) l vl -> In q l -> (q < length m)%nat.
Proof. induction 1 as [|x v l vl V F IH]; [intros []|]. intros [<-|Hq]; [eapply val_lt, V|auto]. Qed.
Lemma ok_Average m H h : Gl m -> histIs m H h -> ok none (length m) m (AverageP H) (Ok (Average h)) (isNew (length m)).
Proof.
  intros G (F & _ & E). unfold AverageP, Average. rewrite E. pose proof (fun q => forall_lt _ _ _ q F) as Lt. vn ok_new G.
  eapply (ok_let none none (length m)); [eapply (ok_sumP (length m) m p _ _ F m0 0)|lia|no|].
  - eapply keeps_weaken; [| |exact K]; [lia|no].
  - intros q Hq. apply Lt in Hq. lia.
  - exact V.
  - lia.
  - intros m2 [] K2 Vs. assert (length m0 <= length m2)%nat by (eapply keeps_len, K2). eapply ok_new. intros m3 x K3 L3 V3. carry1 K3. lens. ends (ok_new2_end none).
Qed.
Lemma vals_none m m1 l vl : Forall2 (val m) l vl -> keeps none (length m) m m1 -> Forall2 (val m1) l vl.
Proof. intros F K. eapply vals_keep; [exact F|exact K|intros q _ []]. Qed.
Lemma ok_squares n l vl avg va : forall m s, Gl m -> Forall2 (val m) l vl -> val m avg va -> (n <= length m)%nat ->
  ok none n m (squaresP l avg s) (Ok (fold_left (fun s price => let diff := uabs (usub price va) in s + diff * diff) vl s)) (fun _ a b => a = b).
Proof.
  revert vl. induction l as [|x l IH]; intros vl m s G F Va L; inversion F; subst; cbn [squaresP fold_left].
  - now apply ok_ret.
  - pose proof (val_lt _ _ _ Va) as La. pose proof (Gl_len _ G) as L9. vn ok_new2 G. assert (Forall2 (val m0) l l') as F0 by (eapply vals_none; eassumption).
    eapply ok_op1; [eassumption|vlt|right; lia|]. intros m2 Wr. pose proof (Gl_wrote _ _ _ _ G Wr) as G2. destruct Wr as (L2 & C2 & W2).
    eapply ok_ld; [exact W2|]. apply IH; [apply G2; lia| |apply C2; [lia|assumption]|lia].
    assert (forall q, In q l -> q <> p) as D by (intros q Hq ->; apply (forall_lt _ _ _ _ H3) in Hq; lia). clear -F0 C2 D.
    induction F0 as [|y v l l' V F0 IH]; constructor; [apply C2; [apply D; now left|exact V]|apply IH; intros; apply D; now right].
Qed.

Lemma ok_Volatility m H h : Gl m -> histIs m H h -> ok none (length m) m (VolatilityP H) (Volatility h) (isNew (length m)).
Proof.
  intros G Hh. pose proof Hh as (F & _ & E). unfold VolatilityP, Volatility. cbv zeta. rewrite E.
  eapply ok_let; [apply (ok_Average m H h G Hh)|lia|no|]. intros m1 avg K1 [Va La]. gcarry G K1. lens.
  eapply (ok_let none none (length m1)); [apply (ok_squares (length m1) _ (prPrices h) avg (Average h) m1 0 G); [eapply vals_none; eassumption|exact Va|lia]|lia|no|].
  intros m2 sum K2 ->. lens. destruct (_ =? 0); [exact I|]. apply ok_lift. intros _ _. ends (ok_new_end none).
Qed.
Lemma ok_bandWidth m H h x mu : Gl m -> histIs m H h -> val m x (mu mod W) ->
  ok none (length m) m (bandWidthP H x) (bandWidth h mu) (isNew (length m)).
Proof.
  intros G Hh Vx. unfold bandWidthP, bandWidth. callb ok_Volatility G. vn ok_new2 G. vn ok_new1 G. ends (ok_new1_end none).
Qed.
Lemma ok_bandTicks m a b va vb : Gl m -> val m a va -> val m b vb ->
  ok none (length m) m (bandTicksP a b) (bandTicks va vb) (fun _ x y => x = y).
Proof.
  intros G Va Vb. unfold bandTicksP, bandTicks. cbv zeta. vn ok_new2 G. vn ok_new2 G. glob G. do 6 (eapply ok_ld; [eassumption|]).
  apply ok_lift. intros tl _. apply ok_lift. intros tu _. now apply ok_ret.
Qed.
Lemma ok_ratio m t : ok none (length m) m (ratioP t) (GetSqrtRatioAtTick t) (isNew (length m)).
Proof.
  unfold ratioP. assert (forall r : res Z, r = (do s <- r; Ok s)) as E by (intros [ | | ]; reflexivity). rewrite (E (GetSqrtRatioAtTick t)) at 2.
  apply ok_lift. intros v _. apply ok_new_end.
Qed.
Lemma setNth_is (R : ptr -> Z -> Prop) x v : R x v -> forall l vl, Forall2 R l vl -> forall i,
  match setNthP l i x, setNth vl i v with Some l', Some vl' => Forall2 R l' vl' | None, None => True | _, _ => False end.
Proof.
  intros X l vl F. induction F as [|y w l vl Y F IH]; intros [|i]; cbn; auto. specialize (IH i).
  destruct (setNthP l i x), (setNth vl i v); auto.
Qed.

(** ** a run: the pool, the two balances, and everything that is only read *)
(** the value of a tree of calls, without the list of calls *)
Definition eval {A} (fuel : nat) (p : Pool) (t : M A) : res (Pool * A) :=
  do q <- runV fuel p t; let '(p', _, a) := q in Ok (p', a).
Lemma eval_bind {A B} fuel p (t : M A) (f : A -> M B) :
  eval fuel p (Client.mbind t f) = do q <- eval fuel p t; eval fuel (fst q) (f (snd q)).
Proof.
  unfold eval. rewrite runV_bind. destruct (runV fuel p t) as [[[p' tr] a]| |]; cbn [bind fst snd]; try reflexivity.
  destruct (runV fuel p' (f a)) as [[[p'' tr'] b]| |]; reflexivity.
Qed.
Lemma eval_done {A} fuel p (a : A) : eval fuel p (done a) = Ok (p, a).
Proof. reflexivity. Qed.
Lemma eval_pure {A} fuel p (r : res A) : eval fuel p (pure r) = do a <- r; Ok (p, a).
Proof. destruct r; reflexivity. Qed.
Lemma eval_look fuel p : eval fuel p look = Ok (p, slot p).
Proof. reflexivity. Qed.
Lemma eval_call fuel p o : eval fuel p (Client.call o) = do r <- apply fuel p o; Ok (fst (fst r), (snd (fst r), snd r)).
Proof. unfold eval, Client.call. cbn [runV]. destruct (apply fuel p o) as [[[p' a] b]| |]; reflexivity. Qed.

Definition pairs := list (ptr * Z).
Section Run.
  Variables (a0 a1 : ptr) (W0 : ptr -> Prop) (n0 fuel : nat).
  Hypotheses (Da : a0 <> a1) (L0 : (9 <= a0)%nat) (L1 : (9 <= a1)%nat) (Wa0 : W0 a0) (Wa1 : W0 a1).
  (** [R]: variables that are only read *)
  Definition held (m : Mem) (P : PoolP) (qv : ptr * Z) : Prop := val m (fst qv) (snd qv) /\ ~ wr P (fst qv) /\ fst qv <> a0 /\ fst qv <> a1.
  Definition outs (P : PoolP) (q : ptr) : Prop := ~ In q (written P) /\ ~ In q (readOnly P).
  Definition wd (m : Mem) (P : PoolP) (p : Pool) (v0 v1 : Z) (R : pairs) : Prop :=
    poolOk m P p /\ val m a0 v0 /\ val m a1 v1 /\ (forall q, wr P q -> W0 q \/ (n0 <= q)%nat) /\ outs P a0 /\ outs P a1 /\
    (n0 <= length m)%nat /\ forall qv, In qv R -> held m P qv.
  Definition sim {A B} (m : Mem) (P : PoolP) (p : Pool) (c : pm A) (t : M B) (Q : Mem -> PoolP -> Pool -> A -> B -> Prop) : Prop :=
    ok W0 n0 m (c P) (eval fuel p t) (fun m' r s => Q m' (fst r) (fst s) (snd r) (snd s)).

  Lemma wd_none m m1 P p v0 v1 R : wd m P p v0 v1 R -> keeps none (length m) m m1 -> wd m1 P p v0 v1 R.
  Proof.
    intros (H & V0 & V1 & I & O0 & O1 & L & F) K. split; [eapply poolOk_none; eassumption|].
    split; [eapply keeps_none; eassumption|]. split; [eapply keeps_none; eassumption|]. do 3 (split; [assumption|]).
    split; [apply keeps_len in K; lia|]. intros qv Hq. destruct (F qv Hq) as (V & X). split; [eapply keeps_none; eassumption|exact X].
  Qed.
  Lemma wd_in m P p v0 v1 R q v : wd m P p v0 v1 R -> In (q, v) R -> val m q v.
  Proof. intros (_ & _ & _ & _ & _ & _ & _ & F) Hq. exact (proj1 (F _ Hq)). Qed.
  Lemma wd_price m P p v0 v1 R : wd m P p v0 v1 R -> val m (zPrice P) (SqrtRatio p).
  Proof. intros ((_ & Is & _) & _). apply Is. Qed.
  Lemma wd_G m P p v0 v1 R : wd m P p v0 v1 R -> Gl m.
  Proof. intros ((G & _) & _). exact G. Qed.
  Lemma wd_incl m P p v0 v1 R R' : wd m P p v0 v1 R -> incl R' R -> wd m P p v0 v1 R'.
  Proof. intros (H & V0 & V1 & I & O0 & O1 & L & F) S. repeat (split; [assumption|]). auto. Qed.
  Lemma wd_add m m1 P p v0 v1 R x v : wd m P p v0 v1 R -> keeps none (length m) m m1 -> val m1 x v -> (length m <= x)%nat -> wd m1 P p v0 v1 ((x, v) :: R).
  Proof.
    intros H K V L. pose proof H as ((_ & Is & _) & V0 & V1 & _). pose proof (wd_none _ _ _ _ _ _ _ H K) as (H1 & U0 & U1 & I & O0 & O1 & L' & F).
    repeat (split; [assumption|]). intros qv [<-|Hq]; [|auto]. split; [exact V|]. cbn [fst snd]. apply val_lt in V0, V1.
    split; [|lia]. intros X. assert (x < length m)%nat by (eapply pool_live; [exact Is|left; exact X]). lia.
  Qed.
  Lemma wd_set0 m m1 P p v0 v1 R w : wd m P p v0 v1 R -> wrote m a0 w m1 -> wd m1 P p w v1 R.
  Proof.
    intros (H & V0 & V1 & I & O0 & O1 & L & F) (Lm & C & Vw). split.
    { eapply (poolOk_keeps (eq a0) m); [exact H|split; [lia|intros q v Nq _ Vq; apply C; [congruence|exact Vq]]|]. intros q <-. destruct O0. auto. }
    split; [exact Vw|]. split; [apply C; [congruence|exact V1]|]. do 3 (split; [assumption|]). split; [lia|].
    intros qv Hq. destruct (F qv Hq) as (V & X1 & X2 & X3). split; [apply C; assumption|auto].
  Qed.
  Lemma wd_set1 m m1 P p v0 v1 R w : wd m P p v0 v1 R -> wrote m a1 w m1 -> wd m1 P p v0 w R.
  Proof.
    intros (H & V0 & V1 & I & O0 & O1 & L & F) (Lm & C & Vw). split.
    { eapply (poolOk_keeps (eq a1) m); [exact H|split; [lia|intros q v Nq _ Vq; apply C; [congruence|exact Vq]]|]. intros q <-. destruct O1. auto. }
    split; [apply C; [congruence|exact V0]|]. split; [exact Vw|]. do 3 (split; [assumption|]). split; [lia|].
    intros qv Hq. destruct (F qv Hq) as (V & X1 & X2 & X3). split; [apply C; assumption|auto].
  Qed.
  (** after a method *)
  Lemma wd_after m m1 P p v0 v1 R P' p' : wd m P p v0 v1 R -> keeps (wr P) (length m) m m1 -> after P (length m) m1 P' p' -> wd m1 P' p' v0 v1 R.
  Proof.
    intros (H & V0 & V1 & I & O0 & O1 & L & F) K (H' & IW & IR).
    assert (forall q v, val m q v -> ~ wr P q -> val m1 q v) as C by (intros q v V N; eapply keeps_val; [exact K|exact N|eapply val_lt, V|exact V]).
    assert (forall q, (q < length m)%nat -> outs P q -> outs P' q) as O.
    { intros q Lq [X Y]. split; intros Z; [apply IW in Z|apply IR in Z]; (destruct Z; [auto|lia]). }
    split; [exact H'|]. split; [apply C; [exact V0|apply O0]|]. split; [apply C; [exact V1|apply O1]|].
    split; [intros q Hq; apply IW in Hq; destruct Hq as [Hq|Hq]; [auto|right; lia]|].
    split; [apply O; [eapply val_lt, V0|exact O0]|]. split; [apply O; [eapply val_lt, V1|exact O1]|]. split; [apply keeps_len in K; lia|].
    intros qv Hq. destruct (F qv Hq) as (V & X1 & X2). split; [now apply C|]. split; [|exact X2]. intros Z. apply IW in Z. destruct Z as [Z|Z]; [auto|]. apply val_lt in V. lia.
  Qed.

  Lemma sim_bind {A B C D} m P p (c : pm A) (t : M B) (f : A -> pm C) (g : B -> M D) Q R :
    sim m P p c t Q -> (forall m1 P1 p1 a b, Q m1 P1 p1 a b -> sim m1 P1 p1 (f a) (g b) R) -> sim m P p (pbind c f) (Client.mbind t g) R.
  Proof.
    intros H K. unfold sim, pbind. rewrite eval_bind. eapply ok_bind; [exact H|lia|auto|]. intros m1 [P1 a] [p1 b] _ X. cbn [fst snd] in *. now apply K.
  Qed.
  (** the same, with a tree that goes on where the program ends *)
  Lemma sim_tail {A B} m P p (c : pm A) (t : M B) (Q R : Mem -> PoolP -> Pool -> A -> B -> Prop) :
    sim m P p c t Q -> (forall m1 P1 p1 a b, Q m1 P1 p1 a b -> R m1 P1 p1 a b) -> sim m P p c t R.
  Proof. intros H K. eapply ok_tail; [exact H|lia|auto|]. intros m1 r s _ X. now apply K. Qed.
  Lemma sim_ret {A B} m P p (a : A) (b : B) (Q : Mem -> PoolP -> Pool -> A -> B -> Prop) : Q m P p a b -> sim m P p (pret a) (done b) Q.
  Proof. intros H. unfold sim. rewrite eval_done. now apply ok_ret. Qed.
  Lemma sim_the {A B} m P p (f : PoolP -> pm A) (t : M B) Q : sim m P p (f P) t Q -> sim m P p (pbind theP f) t Q.
  Proof. auto. Qed.
  Lemma sim_look {A B} m P p (c : pm A) (k : Slot -> M B) Q : sim m P p c (k (slot p)) Q -> sim m P p c (Client.mbind look k) Q.
  Proof. auto. Qed.
  Lemma sim_ld {A B} m P p x v (f : Z -> pm A) (t : M B) Q : val m x v -> sim m P p (f v) t Q -> sim m P p (pbind (mem (ld x)) f) t Q.
  Proof. intros V H. unfold sim, pbind, mem. apply ok_assoc. eapply ok_ld; [exact V|]. exact H. Qed.
  (** a computation on the side *)
  Lemma sim_mem {A B C D} m P p v0 v1 R (c : cm A) (r : res B) (f : A -> pm C) (g : B -> M D) Q0 Q : wd m P p v0 v1 R ->
    ok none (length m) m c r Q0 -> (forall m1 a b, keeps none (length m) m m1 -> Q0 m1 a b -> r = Ok b -> sim m1 P p (f a) (g b) Q) ->
    sim m P p (pbind (mem c) f) (Client.mbind (pure r) g) Q.
  Proof.
    intros Hw H K. assert (n0 <= length m)%nat by apply Hw. unfold sim, pbind, mem. rewrite eval_bind, eval_pure. apply ok_assoc.
    destruct r as [b| |]; cbn [bind fst snd].
    - eapply ok_let; [exact H|lia|no|]. intros m1 a K1 X. apply (K m1 a b K1 X eq_refl).
    - revert H. unfold ok, mbind. destruct (c m) as [[? ?]| |]; intros X; (contradiction || exact I).
    - revert H. unfold ok, mbind. destruct (c m) as [[? ?]| |]; intros X; (contradiction || exact I).
  Qed.
  Lemma sim_mem1 {A B C} m P p v0 v1 R (c : cm A) (b : B) (f : A -> pm C) {D} (t : M D) Q0 Q : wd m P p v0 v1 R ->
    ok none (length m) m c (Ok b) Q0 -> (forall m1 a, keeps none (length m) m m1 -> Q0 m1 a b -> sim m1 P p (f a) t Q) ->
    sim m P p (pbind (mem c) f) t Q.
  Proof.
    intros Hw H K. assert (n0 <= length m)%nat by apply Hw. unfold sim, pbind, mem. apply ok_assoc. eapply ok_let; [exact H|lia|no|]. intros m1 a K1 X. now apply K.
  Qed.
  Lemma sim_mem_end {A B} m P p v0 v1 R (c : cm A) (r : res B) Q0 (Q : Mem -> PoolP -> Pool -> A -> B -> Prop) : wd m P p v0 v1 R ->
    ok none (length m) m c r Q0 -> (forall m1 a b, keeps none (length m) m m1 -> Q0 m1 a b -> r = Ok b -> Q m1 P p a b) -> sim m P p (mem c) (pure r) Q.
  Proof.
    intros Hw H K. assert (n0 <= length m)%nat by apply Hw. unfold sim, mem. rewrite eval_pure. destruct r as [b| |]; cbn [bind].
    - eapply ok_let; [exact H|lia|no|]. intros m1 a K1 X. apply ok_ret. cbn [fst snd]. auto.
    - revert H. unfold ok, mbind. destruct (c m) as [[? ?]| |]; intros X; (contradiction || exact I).
    - revert H. unfold ok, mbind. destruct (c m) as [[? ?]| |]; intros X; (contradiction || exact I).
  Qed.
  (** the result is a new variable *)
  Lemma sim_new {A B} m P p v0 v1 R (c : cm ptr) (r : res Z) (f : ptr -> pm A) (g : Z -> M B) Q : wd m P p v0 v1 R -> ok none (length m) m c r (isNew (length m)) ->
    (forall m1 x v, wd m1 P p v0 v1 ((x, v) :: R) -> r = Ok v -> sim m1 P p (f x) (g v) Q) -> sim m P p (pbind (mem c) f) (Client.mbind (pure r) g) Q.
  Proof. intros Hw H K. eapply sim_mem; [exact Hw|exact H|]. intros m1 x v K1 [V L] E. apply K; [|exact E]. eapply wd_add; eassumption. Qed.
  Lemma sim_new1 {A B} m P p v0 v1 R (c : cm ptr) v (f : ptr -> pm A) (t : M B) Q : wd m P p v0 v1 R -> ok none (length m) m c (Ok v) (isNew (length m)) ->
    (forall m1 x, wd m1 P p v0 v1 ((x, v) :: R) -> sim m1 P p (f x) t Q) -> sim m P p (pbind (mem c) f) t Q.
  Proof. intros Hw H K. eapply sim_mem1; [exact Hw|exact H|]. intros m1 x K1 [V L]. apply K. eapply wd_add; eassumption. Qed.
  Lemma sim_set0 {A B} m P p v0 v1 R g x v (f : unit -> pm A) (t : M B) Q : wd m P p v0 v1 R -> val m x v ->
    (forall m1, wd m1 P p (g v0 v) v1 R -> sim m1 P p (f tt) t Q) -> sim m P p (pbind (mem (op2 g a0 a0 x)) f) t Q.
  Proof.
    intros Hw V K. pose proof Hw as (_ & V0 & V1 & _). unfold sim, pbind, mem. apply ok_assoc. eapply ok_op2; [exact V0|exact V|vlt|now left|].
    intros m1 Wr. apply K. eapply wd_set0; eassumption.
  Qed.
  Lemma sim_set1 {A B} m P p v0 v1 R g x v (f : unit -> pm A) (t : M B) Q : wd m P p v0 v1 R -> val m x v ->
    (forall m1, wd m1 P p v0 (g v1 v) R -> sim m1 P p (f tt) t Q) -> sim m P p (pbind (mem (op2 g a1 a1 x)) f) t Q.
  Proof.
    intros Hw V K. pose proof Hw as (_ & V0 & V1 & _). unfold sim, pbind, mem. apply ok_assoc. eapply ok_op2; [exact V1|exact V|vlt|now left|].
    intros m1 Wr. apply K. eapply wd_set1; eassumption.
  Qed.
  Lemma sim_meth {A B} m P p v0 v1 R c o (f : ptr * ptr -> pm A) (g : Z * Z -> M B) Q : wd m P p v0 v1 R ->
    ok (wr P) (length m) m (c P) (apply fuel p o) (post P (length m)) ->
    (forall m1 P1 p1 x y vx vy, wd m1 P1 p1 v0 v1 ((x, vx) :: (y, vy) :: R) -> sim m1 P1 p1 (f (x, y)) (g (vx, vy)) Q) ->
    sim m P p (pbind (meth c) f) (Client.mbind (Client.call o) g) Q.
  Proof.
    intros Hw H K. pose proof Hw as ((_ & Is & _) & V0 & V1 & I & _ & _ & L & _). unfold sim, pbind, meth. rewrite eval_bind, eval_call. apply ok_assoc.
    assert (forall r : res (Pool * Z * Z), (do q <- (do r0 <- r; Ok (fst (fst r0), (snd (fst r0), snd r0))); eval fuel (fst q) (g (snd q))) =
       do r0 <- r; eval fuel (fst (fst r0)) (g (snd (fst r0), snd r0))) as E by (intros [ | | ]; reflexivity). rewrite E.
    eapply ok_bind; [exact H|lia|exact I|]. intros m1 [[P1 x] y] [[p1 vx] vy] K1 (A1 & (Vx & Lx & Wx & _) & (Vy & Ly & Wy & _) & _). cbn [fst snd] in *.
    apply ok_mret. cbn [fst snd]. apply K. pose proof (wd_after _ _ _ _ _ _ _ _ _ Hw K1 A1) as (H1 & U0 & U1 & I1 & O0 & O1 & L' & F).
    apply val_lt in V0, V1. repeat (split; [assumption|]). intros qv [<-|[<-|Hq]]; [| |auto]; (split; [assumption|]); cbn [fst]; (split; [assumption|lia]).
  Qed.
  Lemma sim_meth0 {A B} m P p v0 v1 R c (o : op) r (f : unit -> pm A) (g : Z * Z -> M B) Q : wd m P p v0 v1 R ->
    apply fuel p o = (do p' <- r; Ok (p', 0, 0)) -> ok (wr P) (length m) m (c P) r (after P (length m)) ->
    (forall m1 P1 p1, wd m1 P1 p1 v0 v1 R -> sim m1 P1 p1 (f tt) (g (0, 0)) Q) ->
    sim m P p (pbind (meth0 c) f) (Client.mbind (Client.call o) g) Q.
  Proof.
    intros Hw E H K. pose proof Hw as (_ & _ & _ & I & _ & _ & L & _). unfold sim, pbind, meth0. rewrite eval_bind, eval_call, E. apply ok_assoc.
    assert (forall r : res Pool, (do q <- (do r0 <- (do p' <- r; Ok (p', 0, 0)); Ok (fst (fst r0), (snd (fst r0), snd r0))); eval fuel (fst q) (g (snd q))) =
       do p' <- r; eval fuel p' (g (0, 0))) as E' by (intros [ | | ]; reflexivity). rewrite E'.
    eapply ok_bind; [exact H|lia|exact I|]. intros m1 P1 p1 K1 A1. apply ok_mret. cbn [fst snd]. apply K. eapply wd_after; eassumption.
  Qed.
  Lemma wd_add2 m m1 P p v0 v1 R x y v w : wd m P p v0 v1 R -> keeps none (length m) m m1 -> val m1 x v -> val m1 y w -> (length m <= x)%nat -> (length m <= y)%nat ->
    wd m1 P p v0 v1 ((x, v) :: (y, w) :: R).
  Proof.
    intros Hw K V V' L L'. pose proof (wd_add _ _ _ _ _ _ _ _ _ Hw K V L) as (H & U0 & U1 & I & O0 & O1 & Ln & F).
    pose proof (wd_add _ _ _ _ _ _ _ _ _ Hw K V' L') as (_ & _ & _ & _ & _ & _ & _ & F').
    repeat (split; [assumption|]). intros qv [<-|[<-|Hq]]; [apply F; now left|apply F'; now left|apply F; now right].
  Qed.
  Lemma wd_tick m P p v0 v1 R : wd m P p v0 v1 R -> zTick P = TickCurrent p.
  Proof. intros ((_ & (_ & _ & _ & _ & E & _) & _) & _). exact E. Qed.
  Lemma wd_fee m P p v0 v1 R : wd m P p v0 v1 R -> zFee P = Fee p.
  Proof. intros ((_ & (_ & _ & E & _) & _) & _). exact E. Qed.
  Lemma wd_tokens m P p v0 v1 R : wd m P p v0 v1 R -> zToken0 P = Token0 p /\ zToken1 P = Token1 p.
  Proof. intros ((_ & (E & E' & _) & _) & _). now split. Qed.

  (** *** the strategy *)
  Variable mul : Z.
  Definition posR (R : pairs) (X : PositionP) (x : Position) : Prop := oLower X = poLower x /\ oUpper X = poUpper x /\ In (oAmount X, poAmount x) R.
  Definition histR (R : pairs) (H : PricesP) (h : Prices) : Prop :=
    Forall2 (fun x v => In (x, v) R) (qPrices H) (prPrices h) /\ qIndex H = prIndex h /\ qLength H = prLength h.
  Definition shape (R : pairs) (S : StP) (s : St) : Prop :=
    uAmount0 S = a0 /\ uAmount1 S = a1 /\ Forall2 (posR R) (uPositions S) (sPositions s) /\ histR R (uHistory S) (sHistory s) /\ In (uMultiplier S, mul) R /\
    uTickLower S = sTickLower s /\ uTickUpper S = sTickUpper s /\ uLimitTick S = sLimitTick s /\ uDirection S = sDirection s.
  Definition stOk (m : Mem) (P : PoolP) (p : Pool) (R : pairs) (S : StP) (s : St) : Prop := wd m P p (sAmount0 s) (sAmount1 s) R /\ shape R S s.
  Definition grows (R : pairs) : Mem -> PoolP -> Pool -> StP -> St -> Prop := fun m P p S s => exists R', incl R R' /\ stOk m P p R' S s.

  Lemma forall2_mono {A B} (X Y : A -> B -> Prop) l l' : (forall a b, X a b -> Y a b) -> Forall2 X l l' -> Forall2 Y l l'.
  Proof. intros H F. induction F; constructor; auto. Qed.
  Lemma shape_incl R R' S s : incl R R' -> shape R S s -> shape R' S s.
  Proof.
    intros I (E0 & E1 & F & (H & H1 & H2) & M & T). do 2 (split; [assumption|]). split; [|split; [split; [|now split]|split; [now apply I|exact T]]].
    - eapply forall2_mono; [|exact F]. intros X x (X1 & X2 & X3). split; [exact X1|]. split; [exact X2|now apply I].
    - eapply forall2_mono; [|exact H]. intros q v. apply I.
  Qed.
  Lemma grows_incl R R' m P p S s : incl R R' -> grows R' m P p S s -> grows R m P p S s.
  Proof. intros I (R2 & I2 & H). exists R2. split; [eapply incl_tran; eassumption|exact H]. Qed.
  Lemma hist_is m P p v0 v1 R H h : wd m P p v0 v1 R -> histR R H h -> histIs m H h.
  Proof. intros Hw (F & E). split; [|exact E]. eapply forall2_mono; [|exact F]. intros q v. now apply (wd_in _ _ _ _ _ _ _ _ Hw). Qed.
  Ltac inc := solve [assumption | apply incl_refl | apply incl_tl; inc | eapply incl_tran; [eassumption|inc]].
  Ltac inr := solve [assumption | left; reflexivity | right; inr].

  Lemma ok_balances m P p R S s : stOk m P p R S s -> ok none (length m) m (balancesP S) (Ok (sAmount0 s, sAmount1 s)) (isNew2 (length m)).
  Proof.
    intros (Hw & E0 & E1 & _). pose proof Hw as (_ & V0 & V1 & _). pose proof (wd_G _ _ _ _ _ _ Hw) as G. unfold balancesP. rewrite E0, E1.
    vn ok_clone G. vn ok_clone G. apply ok_ret. unfold isNew2. cbn [fst snd]. repeat split; (assumption || lia).
  Qed.
  Lemma sim_burnPositions l l' : forall m P p R S s, stOk m P p R S s -> Forall2 (posR R) l l' ->
    sim m P p (burnPositionsP l S) (burnPositions l' s) (fun m1 P1 p1 _ s1 => sPositions s1 = sPositions s /\ grows R m1 P1 p1 S s1).
  Proof.
    intros m P p R S s H F. revert m P p s H. revert l l' F. 
    cut (forall l l' R0, Forall2 (posR R0) l l' -> forall m P p R s, incl R0 R -> stOk m P p R S s ->
      sim m P p (burnPositionsP l S) (burnPositions l' s) (fun m1 P1 p1 _ s1 => sPositions s1 = sPositions s /\ grows R m1 P1 p1 S s1)).
    { intros X l1 l1' F m P p s H. eapply X; [exact F|apply incl_refl|exact H]. }
    clear R. intros l1 l1' R0 F. induction F as [|X x l1 l1' (El & Eu & Ia) F IH]; intros m P p R s I (Hw & Hs); cbn [burnPositionsP burnPositions].
    - apply sim_ret. split; [reflexivity|]. exists R. split; [apply incl_refl|now split].
    - rewrite El, Eu. pose proof (wd_in _ _ _ _ _ _ _ _ Hw (I _ Ia)) as Va.
      eapply sim_meth; [exact Hw|apply (ok_BurnStrategy m P p); [apply Hw|exact Va]|]. intros m1 P1 p1 x1 y1 vx1 vy1 Hw1.
      eapply sim_meth; [exact Hw1|apply (ok_CollectStrategy m1 P1 p1); apply Hw1|]. intros m2 P2 p2 x2 y2 vx2 vy2 Hw2. cbn [fst snd].
      pose proof Hs as (E0 & E1 & Hs'). rewrite E0, E1.
      eapply sim_set0; [exact Hw2|eapply wd_in; [exact Hw2|inr]|]. intros m3 Hw3.
      eapply sim_set1; [exact Hw3|eapply wd_in; [exact Hw3|right; inr]|]. intros m4 Hw4.
      eapply sim_tail; [eapply IH|].
      2:{ split; [exact Hw4|]. apply (shape_incl R); [inc|exact Hs]. }
      + inc.
      + intros m5 P5 p5 u s5 (Ep & Gr). split; [exact Ep|]. eapply grows_incl; [|exact Gr]. inc.
  Qed.
  Definition growsR (R : pairs) : Mem -> PoolP -> Pool -> StP * (ptr * ptr) -> St * (Z * Z) -> Prop := fun m P p S s =>
    exists R', incl R R' /\ stOk m P p R' (fst S) (fst s) /\ In (fst (snd S), fst (snd s)) R' /\ In (snd (snd S), snd (snd s)) R'.
  Lemma sim_balances {A B} m P p R S s (f : ptr * ptr -> pm A) (t : M B) Q : stOk m P p R S s ->
    (forall m1 x y, stOk m1 P p ((x, sAmount0 s) :: (y, sAmount1 s) :: R) S s -> sim m1 P p (f (x, y)) t Q) -> sim m P p (pbind (mem (balancesP S)) f) t Q.
  Proof.
    intros H K. pose proof H as (Hw & Hs). eapply sim_mem1; [exact Hw|exact (ok_balances m P p R S s H)|]. intros m1 [x y] K1 (V & V' & L & L'). cbn [fst snd] in *.
    apply K. split; [eapply wd_add2; eassumption|]. eapply shape_incl; [|exact Hs]. inc.
  Qed.
  Lemma shape_drop R S s : shape R S s -> shape R (with_uPositions S []) (with_positions s []).
  Proof. intros (E0 & E1 & F & X). split; [exact E0|]. split; [exact E1|]. split; [constructor|exact X]. Qed.
  Lemma sim_burnKeep m P p R S s : stOk m P p R S s -> sim m P p (burnKeepP S) (burnKeep s) (growsR R).
  Proof.
    intros H. unfold burnKeepP, burnKeep. eapply sim_bind; [apply (sim_burnPositions _ _ _ _ _ _ _ _ H); apply H|]. intros m1 P1 p1 u s1 (_ & R1 & I1 & H1).
    eapply sim_balances; [exact H1|]. intros m2 x y H2. apply sim_ret. eexists. split; [|split; [exact H2|]]; [inc|]. cbn [fst snd]. split; inr.
  Qed.
  Lemma sim_burnReset m P p R S s : stOk m P p R S s -> sim m P p (burnResetP S) (burnReset s) (growsR R).
  Proof.
    intros H. unfold burnResetP, burnReset. eapply sim_bind; [apply (sim_burnPositions _ _ _ _ _ _ _ _ H); apply H|]. intros m1 P1 p1 u s1 (_ & R1 & I1 & H1).
    eapply sim_balances; [exact H1|]. intros m2 x y (Hw2 & Hs2). apply sim_ret. eexists. split; [|split; [split; [exact Hw2|apply shape_drop; exact Hs2]|]]; [inc|]. cbn [fst snd]. split; inr.
  Qed.
  Lemma sim_BurnAll k m P p R S s : stOk m P p R S s -> sim m P p (BurnAllP k S) (BurnAll k s) (growsR R).
  Proof.
    intros H. destruct k; cbn [BurnAllP BurnAll]; try (now apply sim_burnKeep); try (now apply sim_burnReset).
    eapply sim_balances; [exact H|]. intros m2 x y H2. apply sim_ret. eexists. split; [|split; [exact H2|]]; [inc|]. cbn [fst snd]. split; inr.
  Qed.

  Lemma sim_mintAmount m P p R S s lo up x v : stOk m P p R S s -> In (x, v) R -> 0 <= v ->
    sim m P p (mintAmountP S lo up x) (mintAmount s lo up v) (grows R).
  Proof.
    intros (Hw & Hs) Ix N. unfold mintAmountP, mintAmount. cbv zeta. pose proof Hw as (Hp & _ & _ & _ & _ & _ & _ & F). destruct (F _ Ix) as (V & Nw & _). cbn [fst snd] in V, Nw.
    eapply sim_meth; [exact Hw|apply (ok_MintStrategy m P p); assumption|]. intros m1 P1 p1 x1 y1 vx1 vy1 Hw1. cbn [fst snd].
    pose proof Hs as (E0 & E1 & Fp & Hs'). rewrite E0, E1.
    eapply sim_set0; [exact Hw1|eapply wd_in; [exact Hw1|inr]|]. intros m3 Hw3.
    eapply sim_set1; [exact Hw3|eapply wd_in; [exact Hw3|right; inr]|]. intros m4 Hw4. apply sim_ret.
    eexists. split; [|split; [exact Hw4|]]; [inc|]. apply (shape_incl R); [inc|]. split; [exact E0|]. split; [exact E1|]. split; [|exact Hs'].
    cbn [with_uPositions with_positions with_amounts uPositions sPositions]. apply Forall2_app; [exact Fp|]. constructor; [|constructor]. split; [reflexivity|]. split; [reflexivity|exact Ix].
  Qed.
  Lemma sim_liquidityFor m P p R S s lo up : stOk m P p R S s ->
    sim m P p (liquidityForP S lo up) (liquidityFor s lo up) (fun m1 P1 p1 x v => exists R', incl R R' /\ stOk m1 P1 p1 R' S s /\ In (x, v) R' /\ 0 <= v).
  Proof.
    intros (Hw & Hs). unfold liquidityForP, liquidityFor.
    eapply sim_new; [exact Hw|apply ok_ratio|]. intros m1 a va Hw1 _. eapply sim_new; [exact Hw1|apply ok_ratio|]. intros m2 b vb Hw2 _.
    apply sim_the, sim_look. pose proof Hs as (E0 & E1 & _). rewrite E0, E1. pose proof Hw2 as (_ & V0 & V1 & _).
    eapply sim_mem_end; [exact Hw2|eapply ok_liq; [exact (wd_G _ _ _ _ _ _ Hw2)|exact (wd_price _ _ _ _ _ _ Hw2)|eapply wd_in; [exact Hw2|inr]|eapply wd_in; [exact Hw2|inr]|exact V0|exact V1]|].
    intros m3 x v K3 [V L] E. eexists. split; [|split; [split; [eapply wd_add; eassumption|eapply shape_incl; [|exact Hs]]|split; [inr|eapply liq_nonneg; exact E]]]; inc.
  Qed.
  (** the balances *)
  Lemma sim_ld0 {A B} m P p R S s (f : Z -> pm A) (t : M B) Q : stOk m P p R S s -> sim m P p (f (sAmount0 s)) t Q -> sim m P p (pbind (mem (ld (uAmount0 S))) f) t Q.
  Proof. intros ((_ & V & _) & E & _). rewrite E. apply sim_ld, V. Qed.
  Lemma sim_ld1 {A B} m P p R S s (f : Z -> pm A) (t : M B) Q : stOk m P p R S s -> sim m P p (f (sAmount1 s)) t Q -> sim m P p (pbind (mem (ld (uAmount1 S))) f) t Q.
  Proof. intros ((_ & _ & V & _) & _ & E & _). rewrite E. apply sim_ld, V. Qed.
  Lemma grows_refl R m P p S s : stOk m P p R S s -> grows R m P p S s.
  Proof. intros H. exists R. split; [apply incl_refl|exact H]. Qed.
  Lemma sim_same m P p R S s : stOk m P p R S s -> sim m P p (pret S) (done s) (grows R).
  Proof. intros H. apply sim_ret. now apply grows_refl. Qed.
  (** a later part may start from more variables *)
  Lemma sim_more {A B} m P p (c : pm A) (t : M B) R R' (X : pairs -> Mem -> PoolP -> Pool -> A -> B -> Prop) : incl R R' ->
    (forall m1 P1 p1 a b, X R' m1 P1 p1 a b -> X R m1 P1 p1 a b) -> sim m P p c t (X R') -> sim m P p c t (X R).
  Proof. intros I K H. eapply sim_tail; [exact H|exact K]. Qed.
  Lemma sim_grows m P p c t R R' : incl R R' -> sim m P p c t (grows R') -> sim m P p c t (grows R).
  Proof. intros I H. eapply sim_tail; [exact H|]. intros. eapply grows_incl; eassumption. Qed.
  Lemma sim_then {A} m P p (c : pm StP) (t : M St) (f : StP -> pm A) {B} (g : St -> M B) R Q : sim m P p c t (grows R) ->
    (forall m1 P1 p1 R1 S1 s1, incl R R1 -> stOk m1 P1 p1 R1 S1 s1 -> sim m1 P1 p1 (f S1) (g s1) Q) -> sim m P p (pbind c f) (Client.mbind t g) Q.
  Proof. intros H K. eapply sim_bind; [exact H|]. intros m1 P1 p1 S1 s1 (R1 & I1 & H1). eapply K; eassumption. Qed.

  Lemma sim_mintPosition m P p R S s lo up : stOk m P p R S s -> sim m P p (mintPositionP S lo up) (mintPosition s lo up) (grows R).
  Proof.
    intros H. unfold mintPositionP, mintPosition. eapply sim_bind; [eapply sim_liquidityFor; exact H|]. intros m1 P1 p1 x v (R1 & I1 & H1 & Ix & N).
    eapply sim_ld; [eapply wd_in; [apply H1|exact Ix]|]. apply (sim_grows _ _ _ _ _ R R1 I1). destruct (v =? 0); [now apply sim_same|now apply sim_mintAmount].
  Qed.
  Lemma sim_mintUnchecked m P p R S s lo up : stOk m P p R S s -> sim m P p (mintUncheckedP S lo up) (mintUnchecked s lo up) (grows R).
  Proof.
    intros H. unfold mintUncheckedP, mintUnchecked. eapply sim_bind; [eapply sim_liquidityFor; exact H|]. intros m1 P1 p1 x v (R1 & I1 & H1 & Ix & N).
    apply (sim_grows _ _ _ _ _ R R1 I1). now apply sim_mintAmount.
  Qed.
  Lemma stOk_wd m m1 P p R R' S s : stOk m P p R S s -> wd m1 P p (sAmount0 s) (sAmount1 s) R' -> incl R R' -> stOk m1 P p R' S s.
  Proof. intros [_ Hs] Hw I. split; [exact Hw|]. eapply shape_incl; eassumption. Qed.
  Lemma udiv_nonneg a b : 0 <= a -> 0 <= b -> 0 <= udiv a b.
  Proof. intros. unfold udiv. destruct (b =? 0) eqn:E; [lia|]. apply Z.div_pos; [assumption|]. apply Z.eqb_neq in E. lia. Qed.
  Lemma sim_mintHalf m P p R S s lo up : stOk m P p R S s -> sim m P p (mintHalfP S lo up) (mintHalf s lo up) (grows R).
  Proof.
    intros H. unfold mintHalfP, mintHalf. eapply sim_bind; [eapply sim_liquidityFor; exact H|]. intros m1 P1 p1 x v (R1 & I1 & H1 & Ix & N). cbv zeta.
    eapply sim_new1; [apply H1|apply ok_new_end|]. intros m2 two Hw2.
    eapply (sim_new1 _ _ _ _ _ _ _ (udiv v 2)); [exact Hw2|eapply ok_new2_end; eapply wd_in; try exact Hw2; [right; exact Ix|left; reflexivity]|]. intros m3 h Hw3.
    assert (stOk m3 P1 p1 ((h, udiv v 2) :: (two, 2) :: R1) S s) as H3 by (eapply stOk_wd; [exact H1|exact Hw3|inc]).
    eapply sim_ld; [eapply wd_in; [exact Hw3|inr]|]. apply (sim_grows _ _ _ _ _ R ((h, udiv v 2) :: (two, 2) :: R1)); [inc|].
    destruct (_ =? 0); [now apply sim_same|]. apply sim_mintAmount; [exact H3|inr|]. apply udiv_nonneg; lia.
  Qed.
  Ltac next H' := eapply sim_then; [eassumption || eauto using sim_mintPosition, sim_mintHalf, sim_same|let m1 := fresh "m" in let P1 := fresh "P" in let p1 := fresh "p" in let R1 := fresh "R" in let S1 := fresh "S" in let s1 := fresh "s" in let I1 := fresh "I" in intros m1 P1 p1 R1 S1 s1 I1 H'].
  Ltac ticks H := rewrite ?(wd_tick _ _ _ _ _ _ (proj1 H)), ?(wd_fee _ _ _ _ _ _ (proj1 H)).
  Lemma sim_if {A B} m P p (b : bool) (c c' : pm A) (t t' : M B) Q : sim m P p c t Q -> sim m P p c' t' Q -> sim m P p (if b then c else c') (if b then t else t') Q.
  Proof. destruct b; auto. Qed.
  Lemma sim_twoInterval a b m P p R S s : stOk m P p R S s -> sim m P p (twoIntervalPositionsP a b S) (twoIntervalPositions a b s) (grows R).
  Proof.
    intros H. unfold twoIntervalPositionsP, twoIntervalPositions. apply sim_the, sim_look. cbv zeta. ticks H. cbn [slot slFee slTick].
    destruct (around (TickCurrent p) a (Fee p)) as [tl tu]. next H1. eapply sim_ld0; [exact H1|].
    apply (sim_grows _ _ _ _ _ R R0 I). eapply sim_then with (R := R0).
    { apply sim_if; [|now apply sim_same]. apply sim_the, sim_look. ticks H1. now apply sim_mintPosition. }
    intros m2 P2 p2 R2 S2 s2 I2 H2. eapply sim_ld1; [exact H2|]. apply (sim_grows _ _ _ _ _ R0 R2 I2).
    apply sim_if; [|now apply sim_same]. apply sim_the, sim_look. ticks H2. now apply sim_mintPosition.
  Qed.
  Lemma sim_fillUp sp lo up m P p R S s : stOk m P p R S s -> sim m P p (fillUpP S sp lo up) (fillUp s sp lo up) (grows R).
  Proof.
    intros H. unfold fillUpP, fillUp. eapply sim_ld0; [exact H|]. apply sim_if.
    - apply sim_the, sim_look. cbv zeta. ticks H. apply sim_if; [now apply sim_mintPosition|now apply sim_same].
    - eapply sim_ld1; [exact H|]. apply sim_if; [|now apply sim_same]. apply sim_the, sim_look. cbv zeta. ticks H. apply sim_if; [now apply sim_mintPosition|now apply sim_same].
  Qed.
  Lemma sim_fillUpPositions w m P p R S s : stOk m P p R S s -> sim m P p (fillUpPositionsP w S) (fillUpPositions w s) (grows R).
  Proof.
    intros H. unfold fillUpPositionsP, fillUpPositions. apply sim_the, sim_look. cbv zeta. ticks H. cbn [slot slFee slTick].
    destruct (around (TickCurrent p) w (Fee p)) as [tl tu]. next H1. apply (sim_grows _ _ _ _ _ R R0 I). now apply sim_fillUp.
  Qed.
  Lemma stOk_limit m P p R S s t d : stOk m P p R S s -> stOk m P p R (with_uLimit S t d) (with_limit s t d).
  Proof. intros (Hw & E0 & E1 & F & Hh & M & T & T' & _). split; [exact Hw|]. do 7 (split; [assumption|]). split; reflexivity. Qed.
  Lemma stOk_range m P p R S s t d : stOk m P p R S s -> stOk m P p R (with_uRange S t d) (with_range s t d).
  Proof. intros (Hw & E0 & E1 & F & Hh & M & _ & _ & T). split; [exact Hw|]. do 5 (split; [assumption|]). split; [reflexivity|]. split; [reflexivity|exact T]. Qed.
  Lemma sim_limitOrder w m P p R S s : stOk m P p R S s -> sim m P p (limitOrderPositionsP w S) (limitOrderPositions w s) (grows R).
  Proof.
    intros H. unfold limitOrderPositionsP, limitOrderPositions. apply sim_the, sim_look. cbv zeta. ticks H. cbn [slot slFee slTick].
    destruct (around (TickCurrent p) w (Fee p)) as [tl tu]. next H1. eapply sim_ld0; [exact H1|].
    apply (sim_grows _ _ _ _ _ R R0 I). eapply sim_then with (R := R0).
    { apply sim_if; [|now apply sim_same]. apply sim_the, sim_look. ticks H1. cbn [slot slFee slTick]. next H2. apply (sim_grows _ _ _ _ _ R0 R1 I0). apply sim_same. now apply stOk_limit. }
    intros m2 P2 p2 R2 S2 s2 I2 H2. eapply sim_ld1; [exact H2|]. apply (sim_grows _ _ _ _ _ R0 R2 I2).
    apply sim_if; [|now apply sim_same]. apply sim_the, sim_look. ticks H2. cbn [slot slFee slTick]. next H3. apply (sim_grows _ _ _ _ _ R2 R1 I0). apply sim_same. now apply stOk_limit.
  Qed.

  (** the ticks of the bands *)
  Definition same {A} (R : pairs) (S : StP) (s : St) : Mem -> PoolP -> Pool -> A -> A -> Prop := fun m P p x y => x = y /\ stOk m P p R S s.
  Lemma stOk_keep m m1 P p R S s : stOk m P p R S s -> keeps none (length m) m m1 -> stOk m1 P p R S s.
  Proof. intros [Hw Hs] K. split; [eapply wd_none; eassumption|exact Hs]. Qed.
  Lemma sim_mem_same {A} m P p R S s (c : cm A) (r : res A) : stOk m P p R S s -> ok none (length m) m c r (fun _ x y => x = y) -> sim m P p (mem c) (pure r) (same R S s).
  Proof. intros H K. eapply sim_mem_end; [apply H|exact K|]. intros m1 x y K1 -> _. split; [reflexivity|]. eapply stOk_keep; eassumption. Qed.
  Lemma sim_volatilityTicks mu m P p R S s : mul = mu mod W -> stOk m P p R S s -> sim m P p (volatilityTicksP S) (volatilityTicks mu s) (same R S s).
  Proof.
    intros Em H. unfold volatilityTicksP, volatilityTicks. apply sim_the, sim_look. apply sim_mem_same; [exact H|].
    pose proof H as (Hw & E0 & E1 & F & Hh & Hm & _). rewrite Em in Hm. pose proof (hist_is _ _ _ _ _ _ _ _ Hw Hh) as Hi. pose proof (wd_in _ _ _ _ _ _ _ _ Hw Hm) as Vm.
    pose proof (wd_price _ _ _ _ _ _ Hw) as Vp. pose proof (wd_G _ _ _ _ _ _ Hw) as G.
    callb ok_bandWidth G. eapply ok_tail; [apply ok_bandTicks; eassumption|lia|no|]. auto.
  Qed.
  Lemma ok_averagePrice m H h : Gl m -> histIs m H h ->
    ok none (length m) m (let* a := AverageP H in new1 usqrt a) (Ok (usqrt (Average h))) (isNew (length m)).
  Proof. intros G Hh. eapply ok_let; [apply (ok_Average m H h G Hh)|lia|no|]. intros m1 x K [V L]. lens. ends (ok_new1_end none). Qed.
  Lemma sim_bollingerTicks mu m P p R S s : mul = mu mod W -> stOk m P p R S s -> sim m P p (bollingerTicksP S) (bollingerTicks mu s) (same R S s).
  Proof.
    intros Em H. unfold bollingerTicksP, bollingerTicks. apply sim_mem_same; [exact H|].
    pose proof H as (Hw & E0 & E1 & F & Hh & Hm & _). rewrite Em in Hm. pose proof (hist_is _ _ _ _ _ _ _ _ Hw Hh) as Hi. pose proof (wd_in _ _ _ _ _ _ _ _ Hw Hm) as Vm.
    pose proof (wd_G _ _ _ _ _ _ Hw) as G. callb ok_bandWidth G.
    assert (histIs m0 (uHistory S) (sHistory s)) as Hi1. { destruct Hi as [F1 F2]. split; [eapply vals_none; eassumption|exact F2]. }
    eapply ok_let; [apply (ok_Average m0 _ _ G Hi1)|lia|no|]. intros m2 x K2 [V2 L2]. gcarry G K2. carry1 K2. lens.
    vn ok_new1 G. eapply ok_tail; [apply ok_bandTicks; eassumption|lia|no|]. auto.
  Qed.
  Lemma sim_averageTicks w m P p R S s : stOk m P p R S s -> sim m P p (averageTicksP w S) (averageTicks w s) (same R S s).
  Proof.
    intros H. unfold averageTicksP, averageTicks. eapply sim_bind; [apply (sim_mem_same _ _ _ _ _ _ _ _ H)|].
    - pose proof H as (Hw & E0 & E1 & F & Hh & Hm & _). pose proof (hist_is _ _ _ _ _ _ _ _ Hw Hh) as Hi. pose proof (wd_G _ _ _ _ _ _ Hw) as G.
      eapply ok_let; [apply (ok_Average m _ _ G Hi)|lia|no|]. intros m2 x K2 [V2 L2]. gcarry G K2. lens. vn ok_new1 G. eapply ok_ld; [eassumption|].
      unfold ok, lift. destruct (GetTickAtSqrtRatio _); [|exact I|exact I]. split; [apply keeps_refl|reflexivity].
    - intros m1 P1 p1 x y (-> & H1). apply sim_the, sim_look. apply sim_ret. ticks H1. now split.
  Qed.
  Lemma sim_mintAt f g m P p R S s : (forall m P p R S s, stOk m P p R S s -> sim m P p (f S) (g s) (same R S s)) -> stOk m P p R S s ->
    sim m P p (mintAtP f S) (mintAt g s) (grows R).
  Proof. intros K H. unfold mintAtP, mintAt. eapply sim_bind; [apply K; exact H|]. intros m1 P1 p1 x y (-> & H1). now apply sim_mintPosition. Qed.
  Lemma sim_mintAround w f g m P p R S s : (forall m P p R S s a b, stOk m P p R S s -> sim m P p (f S a b) (g s a b) (grows R)) -> stOk m P p R S s ->
    sim m P p (mintAroundP w f S) (mintAround w g s) (grows R).
  Proof. intros K H. unfold mintAroundP, mintAround. apply sim_the, sim_look. ticks H. cbn [slot slTick slFee]. destruct (around _ _ _). now apply K. Qed.
  Lemma sim_bollingerFillUp mu m P p R S s : mul = mu mod W -> stOk m P p R S s -> sim m P p (bollingerFillUpP S) (bollingerFillUp mu s) (grows R).
  Proof.
    intros Em H. unfold bollingerFillUpP, bollingerFillUp. eapply sim_bind; [eapply sim_bollingerTicks; [exact Em|exact H]|]. intros m1 P1 p1 x y (-> & H1). destruct y as [tl tu].
    next H2. apply (sim_grows _ _ _ _ _ R R0 I). apply sim_the, sim_look. ticks H2. cbn [slot slTick slFee]. apply sim_if; [now apply sim_fillUp|now apply sim_same].
  Qed.
  Lemma ok_exact m P p x v t z : wd m P p (fst z) (snd z) [(x, v)] -> ok (wr P) (length m) m (ExactInputSwapP fuel P x t gZero) (apply fuel p (OExactInput v t 0)) (post P (length m)).
  Proof.
    intros Hw. cbn [apply]. unfold ExactInputSwapP, ExactInputSwap. rewrite (proj1 (wd_tokens _ _ _ _ _ _ Hw)). pose proof Hw as (Hp & _ & _ & _ & _ & _ & _ & F).
    destruct (F (x, v)) as (V & N & _); [now left|]. apply ok_swap; [exact Hp|exact V|apply (proj1 Hp gZero); reflexivity|exact N].
  Qed.
  Lemma sim_set1_end {B} m P p v0 v1 R g x v (b : B) (Q : Mem -> PoolP -> Pool -> unit -> B -> Prop) : wd m P p v0 v1 R -> val m x v ->
    (forall m1, wd m1 P p v0 (g v1 v) R -> Q m1 P p tt b) -> sim m P p (mem (op2 g a1 a1 x)) (done b) Q.
  Proof.
    intros Hw V K. pose proof Hw as (_ & V0 & V1 & _). unfold sim, mem. eapply ok_op2; [exact V1|exact V|vlt|now left|].
    intros m1 Wr. rewrite eval_done. apply ok_ret. apply K. eapply wd_set1; eassumption.
  Qed.
  Definition growsS (R : pairs) (S : StP) : Mem -> PoolP -> Pool -> unit -> St -> Prop := fun m P p _ s => grows R m P p S s.
  Lemma sim_swapStep m P p R S s h v tk : stOk m P p R S s -> In (h, v) R ->
    sim m P p (pbind (meth (fun Q => ExactInputSwapP fuel Q h tk gZero)) (fun r => pbind (mem (op2 usub (uAmount0 S) (uAmount0 S) (fst r))) (fun _ => mem (op2 usub (uAmount1 S) (uAmount1 S) (snd r)))))
      (Client.mbind (Client.call (OExactInput v tk 0)) (fun r => done (with_amounts s (usub (sAmount0 s) (fst r)) (usub (sAmount1 s) (snd r))))) (growsS R S).
  Proof.
    intros H Ih. pose proof H as (Hw & E0 & E1 & _). rewrite E0, E1.
    eapply sim_meth; [exact Hw|apply (ok_exact m P p h v tk (sAmount0 s, sAmount1 s)); eapply wd_incl; [exact Hw|intros q [<-|[]]; exact Ih]|].
    intros m1 P1 p1 x y vx vy Hw1. cbn [fst snd]. eapply sim_set0; [exact Hw1|eapply wd_in; [exact Hw1|inr]|]. intros m2 Hw2.
    eapply sim_set1_end; [exact Hw2|eapply wd_in; [exact Hw2|right; inr]|]. intros m3 Hw3. eexists. split; [|split; [exact Hw3|]]; [inc|].
    apply (shape_incl R); [inc|exact (proj2 H)].
  Qed.
  Lemma growsS_refl R m P p S s : stOk m P p R S s -> sim m P p (pret tt) (done s) (growsS R S).
  Proof. intros H. apply sim_ret. now apply grows_refl. Qed.
  Lemma sim_swapAndMint m P p R S s lo up : stOk m P p R S s -> sim m P p (swapAndMintP fuel S lo up) (swapAndMint s lo up) (grows R).
  Proof.
    intros H. pose proof H as (Hw & E0 & E1 & _). unfold swapAndMintP, swapAndMint.
    eapply sim_new; [exact Hw|apply ok_ratio|]. intros m1 a va Hw1 _. eapply sim_new; [exact Hw1|apply ok_ratio|]. intros m2 b vb Hw2 _.
    apply sim_the, sim_look. rewrite E0, E1.
    eapply sim_new; [exact Hw2|eapply ok_liq; [exact (wd_G _ _ _ _ _ _ Hw2)|exact (wd_price _ _ _ _ _ _ Hw2)|eapply wd_in; [exact Hw2|right; inr]|eapply wd_in; [exact Hw2|inr]|apply Hw2|apply Hw2]|].
    intros m3 x v Hw3 _. apply sim_the.
    eapply sim_mem; [exact Hw3|eapply ok_amounts; [exact (wd_G _ _ _ _ _ _ Hw3)|exact (wd_price _ _ _ _ _ _ Hw3)|eapply wd_in; [exact Hw3|right; right; inr]|eapply wd_in; [exact Hw3|right; inr]|eapply wd_in; [exact Hw3|inr]]|].
    intros m4 [y z] [vy vz] K4 (Vy & Vz & Ly & Lz) _. cbn [fst snd] in *. pose proof (wd_add2 _ _ _ _ _ _ _ _ _ _ _ Hw3 K4 Vy Vz Ly Lz) as Hw4. cbv zeta.
    eapply sim_new1; [exact Hw4|eapply ok_new2_end; [apply Hw4|exact Vy]|]. intros m5 d0 Hw5.
    eapply sim_new1; [exact Hw5|eapply ok_new1_end; eapply wd_in; [exact Hw5|inr]|]. intros m6 c0 Hw6.
    eapply sim_new1; [exact Hw6|eapply ok_new2_end; [apply Hw6|eapply wd_in; [exact Hw6|right; right; right; inr]]|]. intros m7 d1 Hw7.
    eapply sim_ld; [eapply wd_in; [exact Hw7|right; inr]|]. eapply sim_ld; [eapply wd_in; [exact Hw7|inr]|].
    match type of Hw7 with wd _ _ _ _ _ ?X => set (R7 := X) in * end.
    assert (incl R R7) as I7 by (unfold R7; inc).
    assert (In (a, va) R7 /\ In (b, vb) R7) as [Ia Ib] by (unfold R7; cbn [In]; split; tauto).
    assert (stOk m7 P p R7 S s) as H7 by (eapply stOk_wd; [exact H|exact Hw7|exact I7]).
    apply (sim_grows _ _ _ _ _ R R7 I7). eapply sim_bind with (Q := growsS R7 S).
    - rewrite <- E0, <- E1.
      apply sim_if; (eapply sim_new1; [exact Hw7|apply ok_new_end|]); intros m8 two Hw8.
      + eapply (sim_new1 _ _ _ _ _ _ _ (udiv (usub (sAmount0 s) vy) 2)); [exact Hw8|eapply ok_new2_end; (eapply wd_in; [exact Hw8|]); unfold R7; cbn [In]; auto 6|]. intros m9 h Hw9.
        eapply sim_ld; [eapply wd_in; [exact Hw9|inr]|]. pose proof (stOk_wd _ _ _ _ _ _ _ _ H7 Hw9 ltac:(inc)) as H9.
        eapply sim_tail with (Q := growsS _ S); [apply sim_if; [|apply growsS_refl; exact H9]|intros m0 P0 p0 u s0 G0; eapply grows_incl; [|exact G0]; inc].
        apply sim_the, sim_look. rewrite (proj1 (wd_tokens _ _ _ _ _ _ Hw9)). apply sim_swapStep; [exact H9|inr].
      + eapply (sim_new1 _ _ _ _ _ _ _ (udiv (usub (sAmount1 s) vz) 2)); [exact Hw8|eapply ok_new2_end; (eapply wd_in; [exact Hw8|]); unfold R7; cbn [In]; auto 6|]. intros m9 h Hw9.
        eapply sim_ld; [eapply wd_in; [exact Hw9|inr]|]. pose proof (stOk_wd _ _ _ _ _ _ _ _ H7 Hw9 ltac:(inc)) as H9.
        eapply sim_tail with (Q := growsS _ S); [apply sim_if; [|apply growsS_refl; exact H9]|intros m0 P0 p0 u s0 G0; eapply grows_incl; [|exact G0]; inc].
        apply sim_the, sim_look. rewrite (proj2 (wd_tokens _ _ _ _ _ _ Hw9)). apply sim_swapStep; [exact H9|inr].
    - intros m8 P8 p8 u s8 (R8 & I8 & H8). apply sim_the, sim_look. pose proof (proj1 H8) as Hw8.
      eapply sim_new; [exact Hw8|eapply ok_liq; [exact (wd_G _ _ _ _ _ _ Hw8)|exact (wd_price _ _ _ _ _ _ Hw8)|eapply wd_in; [exact Hw8|apply I8, Ia]|eapply wd_in; [exact Hw8|apply I8, Ib]|apply Hw8|apply Hw8]|].
      intros m9 am vam Hw9 Eam. apply (sim_grows _ _ _ _ _ R7 ((am, vam) :: R8)); [inc|]. apply sim_mintAmount; [eapply stOk_wd; [exact H8|exact Hw9|inc]|inr|]. eapply liq_nonneg, Eam.
  Qed.

  Definition mulOf (k : Kind) : Prop := match k with BollingerBands m | BollingerBandsFillUp m | VolatilitySized m => mul = m mod W | _ => True end.
  Lemma sim_initPositions k m P p R S s : mulOf k -> stOk m P p R S s -> sim m P p (initPositionsP fuel k S) (initPositions k s) (grows R).
  Proof.
    intros Hk H. destruct k; cbn [initPositionsP initPositions mulOf] in *;
      eauto using sim_twoInterval, sim_fillUpPositions, sim_limitOrder, sim_same, sim_mintPosition, sim_mintAt, sim_bollingerTicks, sim_averageTicks, sim_volatilityTicks, sim_mintAround, sim_mintUnchecked, sim_swapAndMint.
    apply sim_the, sim_look. ticks H. cbn [slot slTick slFee]. destruct (around _ _ _) as [tl tu]. apply sim_mintUnchecked. now apply stOk_range.
  Qed.
  Lemma sim_rebalancePositions k m P p R S s : mulOf k -> stOk m P p R S s -> sim m P p (rebalancePositionsP fuel k S) (rebalancePositions k s) (grows R).
  Proof.
    intros Hk H. destruct k; cbn [rebalancePositionsP rebalancePositions mulOf] in *;
      eauto using sim_twoInterval, sim_fillUpPositions, sim_limitOrder, sim_same, sim_mintPosition, sim_mintAt, sim_bollingerTicks, sim_averageTicks, sim_volatilityTicks, sim_mintAround, sim_bollingerFillUp, sim_swapAndMint.
    pose proof H as (_ & _ & _ & _ & _ & _ & -> & -> & _). now apply sim_mintPosition.
  Qed.
  Lemma sim_Init k m P p R S s : mulOf k -> stOk m P p R S s -> sim m P p (InitP fuel k S) (Init k s) (growsR R).
  Proof.
    intros Hk H. unfold InitP, Init. cbv zeta. eapply sim_balances; [exact H|]. intros m1 x y H1. eapply sim_then; [apply sim_initPositions; [exact Hk|exact H1]|].
    intros m2 P2 p2 R2 S2 s2 I2 H2. apply sim_ret. exists R2. cbn [fst snd]. split; [eapply incl_tran; [|exact I2]; inc|]. split; [exact H2|]. split; apply I2; inr.
  Qed.
  Lemma sim_eval {A B} m P p (c : pm A) (t t' : M B) Q : eval fuel p t' = eval fuel p t -> sim m P p c t Q -> sim m P p c t' Q.
  Proof. intros E H. unfold sim. now rewrite E. Qed.
  Lemma sim_Rebalance k m P p R S s : mulOf k -> stOk m P p R S s -> sim m P p (RebalanceP fuel k S) (Client.mbind (Rebalance k s) (fun r => done (fst r))) (grows R).
  Proof.
    intros Hk H. assert (sim m P p (pbind (burnResetP S) (fun r => rebalancePositionsP fuel k (fst r)))
      (Client.mbind (Client.mbind (burnReset s) (fun r => Client.mbind (rebalancePositions k (fst r)) (fun s => done (s, Some (snd r))))) (fun r => done (fst r))) (grows R)) as G.
    2:{ destruct k; cbn [RebalanceP Rebalance]; try exact G. now apply sim_same. }
    eapply sim_eval; [|eapply (sim_bind _ _ _ _ (burnReset s) _ (fun r => rebalancePositions k (fst r))); [apply sim_burnReset; exact H|]].
    - rewrite !eval_bind. destruct (eval fuel p (burnReset s)) as [[p1 [s1 v1]]| |]; cbn [bind fst snd]; try reflexivity. rewrite eval_bind.
      destruct (eval fuel p1 (rebalancePositions k s1)) as [[p2 s2]| |]; reflexivity.
    - intros m1 P1 p1 [S1 c1] [s1 v1] (R1 & I1 & H1 & _). apply (sim_grows _ _ _ _ _ R R1 I1). now apply sim_rebalancePositions.
  Qed.
  Lemma sim_MakeSnapshot k m P p R S s : stOk m P p R S s -> sim m P p (MakeSnapshotP k S) (MakeSnapshot k s) (grows R).
  Proof.
    intros H. unfold MakeSnapshotP, MakeSnapshot. destruct (keepsHistory k); [|now apply sim_same]. apply sim_the, sim_look.
    pose proof H as (Hw & E0 & E1 & Fp & (F & Ei & El) & T). pose proof (wd_price _ _ _ _ _ _ Hw) as Vp. pose proof (wd_G _ _ _ _ _ _ Hw) as G.
    set (X := fun m' (h' : PricesP) (h : Prices) => exists x v, val m' x v /\ (length m <= x)%nat /\ histR ((x, v) :: R) h' h).
    eapply (sim_mem _ _ _ _ _ _ _ _ _ _ X); [exact Hw| |].
    - unfold AddPriceP, AddPrice. cbv zeta. cbn [slot slPrice]. vn ok_new2 G. vn ok_new1 G. eapply ok_ld; [eassumption|]. apply ok_lift. intros _ _. rewrite Ei.
      destruct (_ <? 0); [exact I|].
      assert (Forall2 (fun x v => In (x, v) ((p0, umul (SqrtRatio p) (SqrtRatio p)) :: R)) (qPrices (uHistory S)) (prPrices (sHistory s))) as F'.
      { eapply forall2_mono; [|exact F]. intros q w Hq. now right. }
      pose proof (setNth_is (fun x v => In (x, v) ((p0, umul (SqrtRatio p) (SqrtRatio p)) :: R)) p0 (umul (SqrtRatio p) (SqrtRatio p)) ltac:(now left) _ _ F' (Z.to_nat (prIndex (sHistory s)))) as J.
      destruct (setNthP _ _ _), (setNth _ _ _); try contradiction; [|exact I]. apply ok_ret. exists p0, (umul (SqrtRatio p) (SqrtRatio p)). split; [assumption|]. split; [lia|].
      split; [exact J|]. cbn [qIndex qLength prIndex prLength]. rewrite El. now split.
    - intros m1 h' h K1 (x & v & V & L & Hh) _. apply sim_ret. exists ((x, v) :: R). split; [inc|]. split; [eapply wd_add; eassumption|].
      assert (shape ((x, v) :: R) S s) as (B0 & B1 & B2 & B3 & B4) by (apply (shape_incl R); [inc|exact (proj2 H)]).
      do 3 (split; [assumption|]). split; [exact Hh|exact B4].
  Qed.

  (** GetAmounts *)
  Fixpoint sumV (price : Z) (l : list Position) (x y : Z) : res (Z * Z) :=
    match l with
    | [] => Ok (x, y)
    | z :: l =>
        do a <- GetSqrtRatioAtTick (poLower z); do b <- GetSqrtRatioAtTick (poUpper z); do r <- GetAmountsForLiquidity price a b (poAmount z);
        sumV price l (uadd x (fst r)) (uadd y (snd r))
    end.
  Lemma eval_sum p l : forall x y, eval fuel p (sumPositions l x y) = do r <- sumV (SqrtRatio p) l x y; Ok (p, r).
  Proof.
    induction l as [|z l IH]; intros x y; cbn [sumPositions sumV]; [reflexivity|].
    rewrite eval_bind, eval_pure. destruct (GetSqrtRatioAtTick (poLower z)); cbn [bind fst snd]; try reflexivity.
    rewrite eval_bind, eval_pure. destruct (GetSqrtRatioAtTick (poUpper z)); cbn [bind fst snd]; try reflexivity.
    rewrite eval_bind, eval_look. cbn [bind fst snd]. rewrite eval_bind, eval_pure. cbn [slot slPrice]. destruct (GetAmountsForLiquidity _ _ _ _); cbn [bind fst snd]; try reflexivity.
    apply IH.
  Qed.
  Lemma ok_sum n m0 price vp x y l vl : Gl m0 -> n = length m0 -> val m0 price vp -> (n <= x)%nat -> (n <= y)%nat -> x <> y ->
    Forall2 (fun X z => oLower X = poLower z /\ oUpper X = poUpper z /\ val m0 (oAmount X) (poAmount z)) l vl ->
    forall m vx vy, keeps none n m0 m -> val m x vx -> val m y vy ->
    ok none n m (sumPositionsP l price x y) (sumV vp vl vx vy) (fun m' _ r => val m' x (fst r) /\ val m' y (snd r)).
  Proof.
    intros G En Vp Lx Ly Dxy F. induction F as [|X z l vl (El & Eu & Va) F IH]; intros m vx vy K Vx Vy; cbn [sumPositionsP sumV].
    - apply ok_ret. now split.
    - rewrite El, Eu. assert (forall q v, val m0 q v -> forall m', keeps none n m0 m' -> val m' q v) as C.
      { intros q v V m' K'. eapply keeps_val; [exact K'|intros []|rewrite En; eapply val_lt, V|exact V]. }
      pose proof (keeps_len _ _ _ _ K) as Lm. pose proof (val_lt _ _ _ Vx) as Lx'. pose proof (val_lt _ _ _ Vy) as Ly'.
      eapply ok_bind; [apply ok_ratio|lia|no|]. intros m1 a va K1 [V1 N1]. assert (keeps none n m0 m1) as J1 by (eapply keeps_trans; [exact K|]; eapply keeps_weaken; [| |exact K1]; [lia|no]). carry1 K1. lens.
      eapply ok_bind; [apply ok_ratio|lia|no|]. intros m2 b vb K2 [V2 N2]. assert (keeps none n m0 m2) as J2 by (eapply keeps_trans; [exact J1|]; eapply keeps_weaken; [| |exact K2]; [lia|no]). carry1 K2. lens.
      assert (Gl m2) as G2. { intros q v Hq. apply C; [apply G; exact Hq|exact J2]. }
      eapply ok_bind; [eapply ok_amounts; [exact G2|apply C; [exact Vp|exact J2]|exact V1|exact V2|apply C; [exact Va|exact J2]]|lia|no|].
      intros m3 [c d] [vc vd] K3 (Vc & Vd & Nc & Nd). cbn [fst snd] in *. assert (keeps none n m0 m3) as J3 by (eapply keeps_trans; [exact J2|]; eapply keeps_weaken; [| |exact K3]; [lia|no]). carry1 K3. lens.
      eapply ok_op2; [exact Vx|exact Vc|vlt|right; lia|]. intros m4 (L4 & C4 & W4).
      assert (keeps none n m0 m4) as J4. { eapply keeps_trans; [exact J3|]. split; [lia|]. intros q v _ Lq Vq. apply C4; [lia|exact Vq]. }
      apply C4 in Vy; [|congruence]. apply C4 in Vd; [|lia].
      eapply ok_op2; [exact Vy|exact Vd|vlt|right; lia|]. intros m5 (L5 & C5 & W5). apply C5 in W4; [|congruence].
      apply IH; [|exact W4|exact W5]. eapply keeps_trans; [exact J4|]. split; [lia|]. intros q v _ Lq Vq. apply C5; [lia|exact Vq].
  Qed.
  Definition growsV (R : pairs) (S : StP) (s : St) : Mem -> PoolP -> Pool -> ptr * ptr -> Z * Z -> Prop := fun m P p x v =>
    exists R', incl R R' /\ stOk m P p R' S s /\ In (fst x, fst v) R' /\ In (snd x, snd v) R'.
  Lemma sim_GetAmounts k m P p R S s : stOk m P p R S s -> sim m P p (GetAmountsP k S) (GetAmounts k s) (growsV R S s).
  Proof.
    intros H. pose proof H as (Hw & E0 & E1 & F & _). unfold GetAmountsP. apply sim_the.
    assert (forall c r, ok none (length m) m c r (isNew2 (length m)) -> sim m P p (mem c) (pure r) (growsV R S s)) as X.
    { intros c r K. eapply sim_mem_end; [exact Hw|exact K|]. intros m1 [x y] [v w] K1 (V & V' & L & L') _. cbn [fst snd] in *.
      exists ((x, v) :: (y, w) :: R). split; [inc|]. split; [eapply stOk_wd; [exact H|eapply wd_add2; eassumption|inc]|]. split; inr. }
    assert (sim m P p (mem (let* x := new 0 in let* y := new 0 in let* _ := sumPositionsP (uPositions S) (zPrice P) x y in
       let* _ := op2 uadd x x (uAmount0 S) in let* _ := op2 uadd y y (uAmount1 S) in mret (x, y)))
       (Client.mbind (sumPositions (sPositions s) 0 0) (fun r => done (uadd (fst r) (sAmount0 s), uadd (snd r) (sAmount1 s)))) (growsV R S s)) as G.
    2:{ destruct k; cbn [GetAmounts]; try exact G. apply (X _ (Ok (sAmount0 s, sAmount1 s))). eapply ok_balances; exact H. }
    apply (sim_eval _ _ _ _ (pure (do r <- sumV (SqrtRatio p) (sPositions s) 0 0; Ok (uadd (fst r) (sAmount0 s), uadd (snd r) (sAmount1 s))))).
    { rewrite eval_bind, eval_sum, eval_pure. destruct (sumV _ _ _ _); reflexivity. }
    apply X. pose proof Hw as (_ & Va0 & Va1 & _). rewrite E0, E1. pose proof (wd_price _ _ _ _ _ _ Hw) as Vp. pose proof (wd_G _ _ _ _ _ _ Hw) as G.
    assert (Forall2 (fun X z => oLower X = poLower z /\ oUpper X = poUpper z /\ val m (oAmount X) (poAmount z)) (uPositions S) (sPositions s)) as F'.
    { eapply forall2_mono; [|exact F]. intros Y z (Y1 & Y2 & Y3). split; [exact Y1|]. split; [exact Y2|]. eapply wd_in; eassumption. }
    pose proof (val_lt _ _ _ Va0) as La0. pose proof (val_lt _ _ _ Va1) as La1. pose proof G as G0. vn ok_new G. vn ok_new G.
    match goal with |- ok _ _ ?mm (mbind (sumPositionsP _ _ ?xx ?yy) _) _ _ => assert (keeps none (length m) m mm) as J by kn;
      eapply ok_bind; [eapply (ok_sum (length m) m (zPrice P) (SqrtRatio p) xx yy _ _ G0 eq_refl (wd_price _ _ _ _ _ _ Hw)); [lia|lia|lia|exact F'|exact J|eassumption|eassumption]|lia|no|] end.
    intros m3 [] [vx vy] K3 [Vx Vy]. cbn [fst snd] in *.
    eapply keeps_val in Va0; [|exact K3|intros []|exact La0]. eapply keeps_val in Va1; [|exact K3|intros []|exact La1].
    eapply ok_op2; [exact Vx|exact Va0|vlt|right; lia|]. intros m4 (L4 & C4 & W4). apply C4 in Vy; [|lia]. apply C4 in Va1; [|lia].
    eapply ok_op2; [exact Vy|exact Va1|vlt|right; lia|]. intros m5 (L5 & C5 & W5). apply C5 in W4; [|lia].
    apply ok_ret. unfold isNew2. cbn [fst snd]. repeat split; (assumption || lia).
  Qed.

  (** *** the executor *)
  Definition loopR (R : pairs) (L : LoopP) (l : Loop) : Prop :=
    kStarted L = lStarted l /\ kUpdate L = lUpdate l /\ kSnapshot L = lSnapshot l /\ kPrice L = lPrice l /\ Forall2 (fun x v => In (x, v) R) (kValues L) (lValues l).
  Definition txR (R : pairs) (T : TxP) (t : Transaction) : Prop :=
    xType T = txType t /\ xLower T = txLower t /\ xUpper T = txUpper t /\ xTime T = txTime t /\
    In (xAmount T, txAmount t) R /\ In (xAmount0 T, txAmount0 t) R /\ In (xAmount1 T, txAmount1 t) R /\ 0 <= txAmount t.
  Lemma loopR_incl R R' L l : incl R R' -> loopR R L l -> loopR R' L l.
  Proof. intros I (E1 & E2 & E3 & E4 & F). do 4 (split; [assumption|]). eapply forall2_mono; [|exact F]. intros x v. apply I. Qed.
  Definition stepR (R : pairs) : Mem -> PoolP -> Pool -> StP * LoopP -> St * Loop -> Prop := fun m P p X x =>
    exists R', incl R R' /\ stOk m P p R' (fst X) (fst x) /\ loopR R' (snd X) (snd x).
  Lemma stepR_incl R R' m P p X x : incl R R' -> stepR R' m P p X x -> stepR R m P p X x.
  Proof. intros I (R2 & I2 & H). exists R2. split; [eapply incl_tran; eassumption|exact H]. Qed.
  Lemma sim_stepR m P p c t R R' : incl R R' -> sim m P p c t (stepR R') -> sim m P p c t (stepR R).
  Proof. intros I H. eapply sim_tail; [exact H|]. intros. eapply stepR_incl; eassumption. Qed.
  Lemma sim_value m P p R S s x y vx vy : stOk m P p R S s -> In (x, vx) R -> In (y, vy) R -> In (gQ192, Q192) R ->
    sim m P p (valueUSDP x y) (valueUSD vx vy) (fun m1 P1 p1 z v => exists R', incl R R' /\ stOk m1 P1 p1 R' S s /\ In (z, v) R').
  Proof.
    intros H Ix Iy Iq. pose proof (proj1 H) as Hw. unfold valueUSDP, valueUSD. apply sim_the, sim_look. cbv zeta.
    apply (sim_eval _ _ _ _ (pure (do a <- MulDiv vy Q192 (umul (slPrice (slot p)) (slPrice (slot p))); Ok (uadd a vx)))).
    { rewrite eval_bind, !eval_pure. destruct (MulDiv _ _ _); reflexivity. }
    eapply sim_mem_end with (Q0 := isNew (length m)); [exact Hw| |].
    - pose proof (wd_price _ _ _ _ _ _ Hw) as Vp. pose proof (wd_G _ _ _ _ _ _ Hw) as G. cbn [slot slPrice].
      pose proof (wd_in _ _ _ _ _ _ _ _ Hw Ix) as Vx. pose proof (wd_in _ _ _ _ _ _ _ _ Hw Iy) as Vy. pose proof (wd_in _ _ _ _ _ _ _ _ Hw Iq) as Vq.
      vn ok_new2 G. callb ok_MulDiv G. ends (ok_new2_end none).
    - intros m1 z v K1 [V L] _. exists ((z, v) :: R). split; [inc|]. split; [|inr]. eapply stOk_wd; [exact H|eapply wd_add; eassumption|inc].
  Qed.
  Lemma sim_exec m P p R S s T t : stOk m P p R S s -> txR R T t -> sim m P p (execTxP fuel T) (execTx t) (fun m1 P1 p1 _ _ => grows R m1 P1 p1 S s).
  Proof.
    intros H (Et & El & Eu & _ & Ia & I0 & I1 & Na). pose proof (proj1 H) as Hw. unfold execTxP, execTx. rewrite Et, El, Eu.
    pose proof Hw as (Hp & _ & _ & _ & _ & _ & _ & F). destruct (F _ Ia) as (Va & Nw & _). cbn [fst snd] in Va, Nw.
    assert (forall A B (a : A) (b : B) m1 P1 p1 R1, incl R R1 -> wd m1 P1 p1 (sAmount0 s) (sAmount1 s) R1 -> sim m1 P1 p1 (pret a) (done b) (fun m1 P1 p1 _ _ => grows R m1 P1 p1 S s)) as Z.
    { intros A B a b m1 P1 p1 R1 I Hw1. apply sim_ret. exists R1. split; [exact I|]. split; [exact Hw1|]. eapply shape_incl; [exact I|exact (proj2 H)]. }
    assert (forall c o r, apply fuel p o = (do p' <- r; Ok (p', 0, 0)) -> ok (wr P) (length m) m (c P) r (after P (length m)) ->
      sim m P p (meth0 c) (Client.call o) (fun m1 P1 p1 _ _ => grows R m1 P1 p1 S s)) as Y.
    { intros c o r E K. apply (sim_eval _ _ _ _ (Client.mbind (Client.call o) (fun r => done r))).
      { rewrite eval_bind. destruct (eval fuel p (Client.call o)) as [[? ?]| |]; reflexivity. }
      assert (sim m P p (pbind (meth0 c) (fun u => pret u)) (Client.mbind (Client.call o) (fun r => done r)) (fun m1 P1 p1 _ _ => grows R m1 P1 p1 S s)) as J.
      { eapply sim_meth0; [exact Hw|exact E|exact K|]. intros m1 P1 p1 Hw1. eapply Z; [apply incl_refl|exact Hw1]. }
      revert J. unfold sim, pbind, ok, mbind, pret, mret. destruct (meth0 c P m) as [[[P1 []] m1]| |]; auto. }
    assert (forall x v tk, In (x, v) R -> sim m P p (pbind (meth (fun Q => ExactInputSwapP fuel Q x tk gZero)) (fun _ => pret tt)) (Client.call (OExactInput v tk 0)) (fun m1 P1 p1 _ _ => grows R m1 P1 p1 S s)) as X.
    { intros x v tk Ix. apply (sim_eval _ _ _ _ (Client.mbind (Client.call (OExactInput v tk 0)) (fun r => done r))).
      { rewrite eval_bind. destruct (eval fuel p (Client.call _)) as [[? ?]| |]; reflexivity. }
      eapply sim_meth; [exact Hw|apply (ok_exact m P p x v tk (sAmount0 s, sAmount1 s)); eapply wd_incl; [exact Hw|intros q [<-|[]]; exact Ix]|].
      intros m1 P1 p1 y z vy vz Hw1. eapply Z; [|exact Hw1]. inc. }
    destruct (String.eqb _ _); [eapply Y; [reflexivity|now apply ok_Mint]|].
    destruct (String.eqb _ _); [eapply Y; [reflexivity|now apply ok_Burn]|].
    destruct (String.eqb _ _); [|destruct (String.eqb _ _); [eapply Y; [reflexivity|apply ok_Flash; [exact Hp| |]; eapply wd_in; eassumption]|eapply Z; [apply incl_refl|exact Hw]]].
    eapply sim_ld; [eapply wd_in; eassumption|]. apply sim_if.
    - apply sim_the, sim_look. rewrite (proj1 (wd_tokens _ _ _ _ _ _ Hw)). now apply X.
    - eapply sim_ld; [eapply wd_in; eassumption|]. apply sim_if; [|eapply Z; [apply incl_refl|exact Hw]]. apply sim_the, sim_look. rewrite (proj2 (wd_tokens _ _ _ _ _ _ Hw)). now apply X.
  Qed.
  Lemma loop_grow R R' (X : list ptr) (V : list Z) z v : incl R R' -> In (z, v) R' -> Forall2 (fun x v => In (x, v) R) X V -> Forall2 (fun x v => In (x, v) R') (X ++ [z]) (V ++ [v]).
  Proof. intros I Iz F. apply Forall2_app; [|repeat constructor; exact Iz]. eapply forall2_mono; [|exact F]. intros x w. apply I. Qed.
  Lemma sim_loop k c : mulOf k -> forall txs vtxs R0, In (gQ192, Q192) R0 -> Forall2 (txR R0) txs vtxs -> forall m P p R S s L l, incl R0 R -> stOk m P p R S s -> loopR R L l ->
    sim m P p (runLoopP fuel k c txs S L) (runLoop (strategyOf k) c vtxs s l) (stepR R).
  Proof.
    intros Hk txs vtxs R0 Hq F. induction F as [|T t txs vtxs HT F IH]; intros m P p R S s L l I0 H HL; cbn [runLoopP runLoop].
    - apply sim_ret. exists R. split; [apply incl_refl|now split].
    - pose proof HT as (_ & _ & _ & Et & _). rewrite Et. apply sim_if; [apply sim_ret; exists R; split; [apply incl_refl|now split]|].
      eapply sim_bind with (Q := stepR R).
      { pose proof HL as (E1 & E2 & E3 & E4 & FL). rewrite E1. apply sim_if; [|apply sim_ret; exists R; split; [apply incl_refl|now split]].
        cbn [strategyOf doInit]. eapply sim_bind; [apply sim_Init; [exact Hk|exact H]|]. intros m1 P1 p1 [S1 [x y]] [s1 [vx vy]] (R1 & I1 & H1 & Ix & Iy). cbn [fst snd] in *.
        eapply sim_bind; [eapply (sim_value _ _ _ _ _ _ _ _ _ _ H1 Ix Iy); apply I1, I0, Hq|]. intros m2 P2 p2 z v (R2 & I2 & H2 & Iz).
        apply sim_ret. exists R2. split; [eapply incl_tran; eassumption|]. split; [exact H2|]. cbn [snd]. repeat (split; [reflexivity || exact E4|]). cbn [kValues lValues].
        eapply loop_grow; [|exact Iz|exact FL]. eapply incl_tran; eassumption. }
      intros m1 P1 p1 [S1 LL1] [s1 l1] (R1 & I1 & H1 & HL1). cbn [fst snd] in *. apply (sim_stepR _ _ _ _ _ R R1 I1).
      eapply sim_bind with (Q := stepR R1).
      { pose proof HL1 as (E1 & E2 & E3 & E4 & FL). rewrite E4. apply sim_if; [|apply sim_ret; exists R1; split; [apply incl_refl|now split]].
        cbn [strategyOf doSnapshot]. eapply sim_then; [apply sim_MakeSnapshot; exact H1|]. intros m2 P2 p2 R2 S2 s2 I2 H2. apply sim_ret. exists R2. split; [exact I2|]. split; [exact H2|].
        apply (loopR_incl R1 R2 _ _ I2). repeat split; assumption || reflexivity. }
      intros m2 P2 p2 [S2 LL2] [s2 l2] (R2 & I2 & H2 & HL2). cbn [fst snd] in *. apply (sim_stepR _ _ _ _ _ R1 R2 I2).
      eapply sim_bind with (Q := fun m P p L l => stepR R2 m P p (S2, L) (s2, l)).
      { pose proof HL2 as (E1 & E2 & E3 & E4 & FL). rewrite E3. apply sim_if; [|apply sim_ret; exists R2; split; [apply incl_refl|now split]].
        cbn [strategyOf doAmounts]. eapply sim_bind; [apply sim_GetAmounts; exact H2|]. intros m3 P3 p3 [x y] [vx vy] (R3 & I3 & H3 & Ix & Iy). cbn [fst snd] in *.
        eapply sim_bind; [eapply (sim_value _ _ _ _ _ _ _ _ _ _ H3 Ix Iy); apply I3, I2, I1, I0, Hq|]. intros m4 P4 p4 z v (R4 & I4 & H4 & Iz).
        apply sim_ret. exists R4. split; [eapply incl_tran; eassumption|]. split; [exact H4|]. cbn [snd]. repeat (split; [reflexivity || assumption|]). cbn [kValues lValues].
        eapply loop_grow; [|exact Iz|exact FL]. eapply incl_tran; eassumption. }
      intros m3 P3 p3 LL3 l3 (R3 & I3 & H3 & HL3). cbn [fst snd] in *. apply (sim_stepR _ _ _ _ _ R2 R3 I3).
      eapply sim_bind with (Q := stepR R3).
      { pose proof HL3 as (E1 & E2 & E3 & E4 & FL). rewrite E2. apply sim_if; [|apply sim_ret; exists R3; split; [apply incl_refl|now split]].
        cbn [strategyOf doRebalance]. eapply sim_then; [apply sim_Rebalance; [exact Hk|exact H3]|]. intros m4 P4 p4 R4 S4 s4 I4 H4. apply sim_ret. exists R4. split; [exact I4|]. split; [exact H4|].
        apply (loopR_incl R3 R4 _ _ I4). repeat split; assumption || reflexivity. }
      intros m4 P4 p4 [S4 LL4] [s4 l4] (R4 & I4 & H4 & HL4). cbn [fst snd] in *. apply (sim_stepR _ _ _ _ _ R3 R4 I4).
      assert (incl R0 R4) as I04 by (do 4 (eapply incl_tran; [|eassumption]); exact I0).
      eapply sim_bind; [eapply sim_exec; [exact H4|]|].
      { destruct HT as (T1 & T2 & T3 & T4 & T5 & T6 & T7 & T8). do 4 (split; [assumption|]). split; [now apply I04|]. split; [now apply I04|]. split; [now apply I04|exact T8]. }
      intros m5 P5 p5 u r (R5 & I5 & H5). apply (sim_stepR _ _ _ _ _ R4 R5 I5). apply IH; [eapply incl_tran; eassumption|exact H5|]. eapply loopR_incl; eassumption.
  Qed.
  Definition runR (R : pairs) : Mem -> PoolP -> Pool -> StP * list ptr -> St * list Z -> Prop := fun m P p X x =>
    exists R', incl R R' /\ stOk m P p R' (fst X) (fst x) /\ Forall2 (fun x v => In (x, v) R') (snd X) (snd x).
  Lemma sim_Run k c m P p R S s txs vtxs : mulOf k -> stOk m P p R S s -> In (gQ192, Q192) R -> Forall2 (txR R) txs vtxs ->
    sim m P p (RunP fuel k c txs S) (Run (strategyOf k) c vtxs s) (runR R).
  Proof.
    intros Hk H Hq F. unfold RunP, Run. eapply sim_bind; [eapply (sim_loop k c Hk txs vtxs R Hq F); [apply incl_refl|exact H|]|].
    { repeat (split; [reflexivity|]). constructor. }
    intros m1 P1 p1 [S1 LL1] [s1 l1] (R1 & I1 & H1 & HL1). cbn [fst snd] in *.
    cbn [strategyOf doBurnAll]. eapply sim_bind; [apply sim_BurnAll; exact H1|]. intros m2 P2 p2 [S2 [x y]] [s2 [vx vy]] (R2 & I2 & H2 & Ix & Iy). cbn [fst snd] in *.
    eapply sim_bind; [eapply (sim_value _ _ _ _ _ _ _ _ _ _ H2 Ix Iy); apply I2, I1, Hq|]. intros m3 P3 p3 z v (R3 & I3 & H3 & Iz).
    apply sim_ret. exists R3. cbn [fst snd]. split; [eapply incl_tran; [exact I1|]; eapply incl_tran; eassumption|]. split; [exact H3|].
    eapply loop_grow; [|exact Iz|apply HL1]. eapply incl_tran; eassumption.
  Qed.
End Run.

(** ** a run *)
Definition txIs (m : Mem) (T : TxP) (t : Transaction) : Prop :=
  xType T = txType t /\ xLower T = txLower t /\ xUpper T = txUpper t /\ xTime T = txTime t /\
  val m (xAmount T) (txAmount t) /\ val m (xAmount0 T) (txAmount0 t) /\ val m (xAmount1 T) (txAmount1 t) /\ 0 <= txAmount t.
Definition positionIs (m : Mem) (X : PositionP) (x : Position) : Prop := oLower X = poLower x /\ oUpper X = poUpper x /\ val m (oAmount X) (poAmount x).
Definition stIs (mul : Z) (m : Mem) (S : StP) (s : St) : Prop :=
  val m (uAmount0 S) (sAmount0 s) /\ val m (uAmount1 S) (sAmount1 s) /\ Forall2 (positionIs m) (uPositions S) (sPositions s) /\
  histIs m (uHistory S) (sHistory s) /\ val m (uMultiplier S) mul /\
  uTickLower S = sTickLower s /\ uTickUpper S = sTickUpper s /\ uLimitTick S = sLimitTick s /\ uDirection S = sDirection s.
(** what a run only reads *)
Definition txReads (T : TxP) : list ptr := [xAmount T; xAmount0 T; xAmount1 T].
Definition reads (S : StP) (txs : list TxP) : list ptr :=
  gQ192 :: uMultiplier S :: map oAmount (uPositions S) ++ qPrices (uHistory S) ++ flat_map txReads txs.
(** the two balances have no second name, and nothing that is only read is written *)
Definition apart (P : PoolP) (S : StP) (txs : list TxP) : Prop :=
  uAmount0 S <> uAmount1 S /\
  (forall a, a = uAmount0 S \/ a = uAmount1 S -> (9 <= a)%nat /\ ~ In a (written P) /\ ~ In a (readOnly P) /\ ~ In a (reads S txs)) /\
  forall q, In q (reads S txs) -> ~ In q (written P).

Lemma forall2_in {A B} (X : A -> B -> Prop) l l' a : Forall2 X l l' -> In a l -> exists b, X a b.
Proof. induction 1 as [|x y l l' H F IH]; [intros []|]. intros [<-|Ha]; [now exists y|auto]. Qed.
Lemma forall2_with {A B} (X Y : A -> B -> Prop) l l' : (forall a b, In a l -> X a b -> Y a b) -> Forall2 X l l' -> Forall2 Y l l'.
Proof. intros H F. induction F; constructor; [apply H; [now left|assumption]|]. apply IHF. intros a b Ha. apply H. now right. Qed.
Lemma mulOf_k k : mulOf (multiplierOf k) k.
Proof. destruct k; cbn; auto. Qed.

Lemma ok_Run fuel k c m P p S s txs vtxs : poolOk m P p -> stIs (multiplierOf k) m S s -> val m gQ192 Q192 -> Forall2 (txIs m) txs vtxs -> apart P S txs ->
  ok (fun q => In q (written P) \/ q = uAmount0 S \/ q = uAmount1 S) (length m) m (RunP fuel k c txs S P) (eval fuel p (Run (strategyOf k) c vtxs s))
    (fun m' r r' => poolOk m' (fst r) (fst r') /\ stIs (multiplierOf k) m' (fst (snd r)) (fst (snd r')) /\ Forall2 (val m') (snd (snd r)) (snd (snd r'))).
Proof.
  intros H (V0 & V1 & Fp & (Fh & Ei & El) & Vm & T) Vq Ft (D & A & N).
  set (R := map (fun q => (q, nth q m 0)) (reads S txs)).
  assert (forall q v, In q (reads S txs) -> val m q v -> In (q, v) R) as IR.
  { intros q v Hq V. apply in_map_iff. exists q. split; [|exact Hq]. f_equal. now apply nth_error_nth. }
  assert (forall q, In q (reads S txs) -> exists v, val m q v) as Live.
  { intros q. unfold reads. cbn [In]. rewrite !in_app_iff. intros [<-|[<-|[Hq|[Hq|Hq]]]]; [now exists Q192|now exists (multiplierOf k)| | |].
    - apply in_map_iff in Hq. destruct Hq as (X & <- & HX). destruct (forall2_in _ _ _ _ Fp HX) as (x & _ & _ & V). now exists (poAmount x).
    - destruct (forall2_in _ _ _ _ Fh Hq) as (v & V). now exists v.
    - apply in_flat_map in Hq. destruct Hq as (X & HX & Hq). destruct (forall2_in _ _ _ _ Ft HX) as (x & _ & _ & _ & _ & B0 & B1 & B2 & _).
      cbn [txReads In] in Hq. destruct Hq as [<-|[<-|[<-|[]]]]; [now exists (txAmount x)|now exists (txAmount0 x)|now exists (txAmount1 x)]. }
  destruct (A (uAmount0 S)) as (A1 & A2 & A3 & A4); [now left|]. destruct (A (uAmount1 S)) as (B1 & B2 & B3 & B4); [now right|].
  assert (wd (uAmount0 S) (uAmount1 S) (fun q => In q (written P) \/ q = uAmount0 S \/ q = uAmount1 S) (length m) m P p (sAmount0 s) (sAmount1 s) R) as Hw.
  { split; [exact H|]. split; [exact V0|]. split; [exact V1|]. split; [intros q Hq; left; left; exact Hq|]. split; [now split|]. split; [now split|]. split; [lia|].
    intros [q v] Hq. apply in_map_iff in Hq. destruct Hq as (q' & [= -> <-] & Hq). cbn [fst snd]. split.
    - destruct (Live q Hq) as [w V]. replace (nth q m 0) with w; [exact V|]. symmetry. now apply nth_error_nth.
    - split; [now apply N|]. split; cbn [fst]; intros E; rewrite E in Hq; contradiction. }
  assert (stOk (uAmount0 S) (uAmount1 S) (fun q => In q (written P) \/ q = uAmount0 S \/ q = uAmount1 S) (length m) (multiplierOf k) m P p R S s) as Hs.
  { split; [exact Hw|]. split; [reflexivity|]. split; [reflexivity|]. split; [|split; [split; [|now split]|split; [|exact T]]].
    - eapply forall2_with; [|exact Fp]. intros X x HX (X1 & X2 & X3). split; [exact X1|]. split; [exact X2|]. apply IR; [|exact X3].
      unfold reads. cbn [In]. rewrite !in_app_iff. right. right. left. now apply in_map.
    - eapply forall2_with; [|exact Fh]. intros q v Hq V. apply IR; [|exact V]. unfold reads. cbn [In]. rewrite !in_app_iff. auto.
    - apply IR; [|exact Vm]. unfold reads. cbn [In]. auto. }
  set (W0 := fun q => In q (written P) \/ q = uAmount0 S \/ q = uAmount1 S) in *.
  assert (W0 (uAmount0 S)) as X0 by (right; left; reflexivity). assert (W0 (uAmount1 S)) as X1 by (right; right; reflexivity).
  pose proof (sim_Run (uAmount0 S) (uAmount1 S) W0 (length m) fuel D A1 B1 X0 X1 (multiplierOf k) k c m P p R S s txs vtxs (mulOf_k k) Hs) as Sim.
  eapply ok_tail; [apply Sim|lia|auto|].
  - apply IR; [|exact Vq]. now left.
  - eapply forall2_with; [|exact Ft]. intros X x HX (Y1 & Y2 & Y3 & Y4 & Y5 & Y6 & Y7 & Y8). do 4 (split; [assumption|]).
    assert (forall q, In q (txReads X) -> In q (reads S txs)) as J. { intros q Hq. unfold reads. cbn [In]. rewrite !in_app_iff. do 4 right. apply in_flat_map. now exists X. }
    split; [|split; [|split; [|exact Y8]]]; (apply IR; [|assumption]); apply J; cbn [txReads In]; auto.
  - intros m1 [P1 [S1 xs]] [p1 [s1 vs]] _ (R1 & I1 & (Hw1 & E0 & E1 & G1 & Gh & Gm & G2) & F1). cbn [fst snd] in *.
    pose proof (fun q v => wd_in _ _ _ _ _ _ _ _ _ _ q v Hw1) as C. pose proof Hw1 as (Q0 & Q1 & Q2 & _). split; [exact Q0|]. split.
    + rewrite <- E0 in Q1. rewrite <- E1 in Q2. split; [exact Q1|]. split; [exact Q2|]. split; [|split; [|split; [now apply C|exact G2]]].
      * eapply forall2_mono; [|exact G1]. intros X x (Y1 & Y2 & Y3). split; [exact Y1|]. split; [exact Y2|now apply C].
      * destruct Gh as [Gh Gi]. split; [|exact Gi]. eapply forall2_mono; [|exact Gh]. exact C.
    + eapply forall2_mono; [|exact F1]. exact C.
Qed.

(** ** a back-test *)
Lemma ok_NewPrices m n : Gl m -> ok none (length m) m (NewPricesP n) (NewPrices n) (fun m' H h => histIs m' H h /\ forall q, In q (qPrices H) -> (length m <= q < length m')%nat).
Proof.
  intros G. unfold NewPricesP, NewPrices. apply ok_lift. intros _ _. eapply ok_let; [apply (ok_zeros (Z.to_nat n) m G)|lia|no|]. intros m1 l K1 [F L]. apply ok_ret.
  split; [now split|]. cbn [qPrices]. intros q Hq. split; [now apply L|]. eapply forall_lt; eassumption.
Qed.
Lemma ok_NewStrategy m k x0 x1 v0 v1 n : Gl m -> val m x0 v0 -> val m x1 v1 ->
  ok none (length m) m (NewStrategyP k x0 x1 n) (NewStrategy k v0 v1 n)
    (fun m' S s => stIs (multiplierOf k) m' S s /\ uPositions S = [] /\ uAmount0 S <> uAmount1 S /\
       (forall q, In q (uMultiplier S :: qPrices (uHistory S)) -> (length m <= q)%nat /\ q <> uAmount0 S /\ q <> uAmount1 S) /\
       (length m <= uAmount0 S)%nat /\ (length m <= uAmount1 S)%nat).
Proof.
  intros G V0 V1. unfold NewStrategyP, NewStrategy. eapply ok_bind; [apply (ok_NewPrices m _ G)|lia|no|]. intros m1 H h K1 [Hh LH]. gcarry G K1. carry1 K1. lens.
  vn ok_new G. vn ok_clone G. vn ok_clone G. apply ok_ret.
  match goal with |- stIs _ ?mm _ _ /\ _ => assert (keeps none (length m1) m1 mm) as J by kn end.
  split; [|split; [reflexivity|split; [cbn [uAmount0 uAmount1]; lia|split; [|cbn [uAmount0 uAmount1]; lia]]]].
  - do 3 (split; [assumption || constructor|]). split; [|repeat split; assumption || reflexivity]. destruct Hh as [F E]. split; [eapply vals_none; eassumption|exact E].
  - cbn [uMultiplier uHistory uAmount0 uAmount1 In]. intros q [<-|Hq]; [lia|]. apply LH in Hq. lia.
Qed.

Definition backtestV (fuel : nat) (j : Job) (p : Pool) (v0 v1 : Z) (ts : list Transaction) : res (Pool * (St * list Z)) :=
  do s <- NewStrategy (jKind j) v0 v1 (jSnapshots j);
  do r <- runV fuel (PoolClone p) (Run (strategyOf (jKind j)) (jConfig j) ts s);
  let '(p', _, a) := r in Ok (p', a).
Definition shares (P : PoolP) (txs : list TxP) : Prop := forall q, In q (gQ192 :: flat_map txReads txs) -> ~ In q (tc (yTicks (zData P))).
Definition resultIs (k : Kind) (m : Mem) (r : StP * list ptr) (r' : St * list Z) : Prop := stIs (multiplierOf k) m (fst r) (fst r') /\ Forall2 (val m) (snd r) (snd r').

Lemma ok_backtest fuel j m P p x0 x1 v0 v1 txs ts : poolOk m P p -> val m x0 v0 -> val m x1 v1 -> val m gQ192 Q192 -> Forall2 (txIs m) txs ts -> shares P txs ->
  ok (fun q => In q (tc (yTicks (zData P)))) (length m) m (backtestP fuel (jKind j) (jConfig j) P x0 x1 (jSnapshots j) txs) (backtestV fuel j p v0 v1 ts)
    (fun m' r r' => poolOk m' (fst r) (fst r') /\ resultIs (jKind j) m' (snd r) (snd r')).
Proof.
  intros H V0 V1 Vq Ft Sh. pose proof H as (G & IsP & Sep). unfold backtestP, backtestV.
  eapply ok_bind; [exact (ok_NewStrategy m (jKind j) x0 x1 v0 v1 (jSnapshots j) G V0 V1)|lia|no|].
  intros m1 S s K1 (Hs & Ep & D & LR & LA & LB). pose proof (poolOk_none _ _ _ _ H K1) as H1. pose proof (keeps_len _ _ _ _ K1) as Ln1.
  eapply ok_let; [exact (ok_Clone m1 P p H1)|lia|no|]. intros m2 Q K2 (H2 & Ed & IW & IRo). pose proof (keeps_len _ _ _ _ K2) as Ln2.
  assert (forall q, In q (tc (yTicks (zData P))) -> (q < length m)%nat) as LT.
  { intros q Hq. eapply pool_live; [exact IsP|]. left. apply wr_t. exact Hq. }
  pose proof Hs as (U0 & U1 & _ & (Fh & Eh) & Um & Ut). apply val_lt in U0, U1.
  assert (stIs (multiplierOf (jKind j)) m2 S s) as Hs2.
  { destruct Hs as (X0 & X1 & X2 & _). split; [eapply keeps_none; eassumption|]. split; [eapply keeps_none; eassumption|].
    split; [rewrite Ep in *; inversion X2; constructor|]. split; [split; [eapply vals_none; eassumption|exact Eh]|]. split; [eapply keeps_none; eassumption|exact Ut]. }
  assert (Forall2 (txIs m2) txs ts) as Ft2.
  { eapply forall2_mono; [|exact Ft]. intros X x (Y1 & Y2 & Y3 & Y4 & Y5 & Y6 & Y7 & Y8). repeat (split; [assumption|]).
    split; [|split; [|split; [|exact Y8]]]; (eapply keeps_none; [exact K2|]); (eapply keeps_none; [exact K1|assumption]). }
  assert (forall q, In q (gQ192 :: flat_map txReads txs) -> (q < length m)%nat) as LX.
  { intros q [<-|Hq]; [eapply val_lt, Vq|]. apply in_flat_map in Hq. destruct Hq as (X & HX & Hq). destruct (forall2_in _ _ _ _ Ft HX) as (x & _ & _ & _ & _ & B0 & B1 & B2 & _).
    cbn [txReads In] in Hq. destruct Hq as [<-|[<-|[<-|[]]]]; eapply val_lt; eassumption. }
  assert (forall q, In q (reads S txs) -> In q (gQ192 :: flat_map txReads txs) \/ In q (uMultiplier S :: qPrices (uHistory S))) as RS.
  { intros q. unfold reads. rewrite Ep. cbn [map app In]. rewrite in_app_iff. tauto. }
  assert (apart Q S txs) as Ap.
  { split; [exact D|]. split.
    - intros a Ha. assert (length m <= a < length m1)%nat as La by (destruct Ha as [-> | ->]; lia). split; [apply Gl_len in G; lia|].
      split; [intros X; apply IW in X; destruct X as [X|X]; [apply LT in X; lia|lia]|]. split; [intros X; apply IRo in X; lia|].
      intros X. apply RS in X. destruct X as [X|X]; [apply LX in X; lia|]. apply LR in X. destruct X as (_ & X1 & X2). destruct Ha; congruence.
    - intros q Hq X. apply IW in X. apply RS in Hq. destruct Hq as [Hq|Hq].
      + destruct X as [X|X]; [now apply (Sh q Hq)|]. apply LX in Hq. lia.
      + assert (q < length m1)%nat as Lq. { destruct Hq as [<-|Hq]; [eapply val_lt, Um|eapply forall_lt; eassumption]. }
        apply LR in Hq. destruct X as [X|X]; [apply LT in X; lia|lia]. }
  eapply ok_tail; [apply (ok_Run fuel (jKind j) (jConfig j) m2 Q (PoolClone p) S s txs ts H2 Hs2); [|exact Ft2|exact Ap]| | |].
  - eapply keeps_none; [exact K2|]. eapply keeps_none; [exact K1|exact Vq].
  - lia.
  - intros q [X|[-> | ->]]; [|right; lia|right; lia]. apply IW in X. destruct X as [X|X]; [now left|right; lia].
  - intros m3 r r' _ (X1 & X2 & X3). split; [exact X1|]. now split.
Qed.

Fixpoint backtestsV (fuel : nat) (jobs : list Job) (p : Pool) (v0 v1 : Z) (ts : list Transaction) : res (list (St * list Z)) :=
  match jobs with
  | [] => Ok []
  | j :: jobs => do r <- backtestV fuel j p v0 v1 ts; do rs <- backtestsV fuel jobs p v0 v1 ts; Ok (snd r :: rs)
  end.
Inductive resultsAre (m : Mem) : list Job -> list (StP * list ptr) -> list (St * list Z) -> Prop :=
| resultsNil : resultsAre m [] [] []
| resultsCons j jobs r rs v vs : resultIs (jKind j) m r v -> resultsAre m jobs rs vs -> resultsAre m (j :: jobs) (r :: rs) (v :: vs).
Lemma result_keeps k m m1 r v : resultIs k m r v -> keeps none (length m) m m1 -> resultIs k m1 r v.
Proof.
  intros ((X0 & X1 & X2 & [Fh Eh] & Um & Ut) & F) K. split; [|eapply vals_none; eassumption].
  split; [eapply keeps_none; eassumption|]. split; [eapply keeps_none; eassumption|]. split; [|split; [split; [eapply vals_none; eassumption|exact Eh]|split; [eapply keeps_none; eassumption|exact Ut]]].
  eapply forall2_mono; [|exact X2]. intros X x (Y1 & Y2 & Y3). split; [exact Y1|]. split; [exact Y2|]. eapply keeps_none; eassumption.
Qed.
Lemma ok_backtests fuel P p x0 x1 v0 v1 txs ts : yTicks (zData P) = [] -> forall jobs m, poolOk m P p -> val m x0 v0 -> val m x1 v1 -> val m gQ192 Q192 -> Forall2 (txIs m) txs ts ->
  ok none (length m) m (backtestsP fuel jobs P x0 x1 txs) (backtestsV fuel jobs p v0 v1 ts) (fun m' rs vs => poolOk m' P p /\ resultsAre m' jobs rs vs).
Proof.
  intros E. assert (shares P txs) as Sh by (intros q _; rewrite E; intros []).
  induction jobs as [|j jobs IH]; intros m H V0 V1 Vq Ft; cbn [backtestsP backtestsV].
  - apply ok_ret. split; [exact H|constructor].
  - eapply ok_bind; [exact (ok_backtest fuel j m P p x0 x1 v0 v1 txs ts H V0 V1 Vq Ft Sh)|lia|intros q Hq; rewrite E in Hq; destruct Hq|].
    intros m1 [Q r] [q v] K1 (_ & Hr). cbn [fst snd] in *.
    assert (keeps none (length m) m m1) as K by (eapply keeps_weaken; [| |exact K1]; [lia|intros y Hy; rewrite E in Hy; destruct Hy]).
    pose proof (keeps_len _ _ _ _ K) as Ln.
    eapply ok_bind; [apply (IH m1); [eapply poolOk_none; eassumption|eapply keeps_none; eassumption|eapply keeps_none; eassumption|eapply keeps_none; eassumption|]|lia|no|].
    + eapply forall2_mono; [|exact Ft]. intros X x (Y1 & Y2 & Y3 & Y4 & Y5 & Y6 & Y7 & Y8). repeat (split; [assumption|]).
      split; [|split; [|split; [|exact Y8]]]; (eapply keeps_none; [exact K|assumption]).
    + intros m2 rs vs K2 (H2 & Hrs). apply ok_ret. split; [exact H2|]. constructor; [|exact Hrs]. eapply result_keeps; eassumption.
Qed.
Lemma place_is m ts : forall i, Forall (fun t => 0 <= txAmount t) ts -> (forall d v, nth_error (txValues ts) d = Some v -> val m (i + d) v) -> Forall2 (txIs m) (placeTxs i ts) ts.
Proof.
  induction ts as [|t ts IH]; intros i F V; cbn [placeTxs]; [constructor|]. inversion F; subst. constructor.
  - repeat (split; [reflexivity|]). cbn [xAmount xAmount0 xAmount1].
    split; [rewrite <- (Nat.add_0_r i); now apply V|]. split; [replace (1 + i)%nat with (i + 1)%nat by lia; now apply V|]. split; [replace (2 + i)%nat with (i + 2)%nat by lia; now apply V|assumption].
  - apply IH; [assumption|]. intros d v E. replace (3 + i + d)%nat with (i + (3 + d))%nat by lia. now apply V.
Qed.
