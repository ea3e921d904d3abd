(** World.v -- a run of client code beside its accounts, and what each call must respect for the call to return.

    A world is a pool with the ledger of all its positions, the ledger of the strategy's, the pool's tokens, and a count of the tokens put in so far.
    [runW] runs a tree like [runV] and keeps the accounts.  [calm] says that every call the tree comes to respects [guard]; it says nothing of
    the computations between the calls, and does not say that the calls return.  *)
From Coq Require Import ZifyBool String QArith Qround.
From Verif Require Import Base U256Z U256Facts FullMathFacts SwapMath TickMath TickMathFacts TickData TickDataFacts Ledger Pool PoolTable PoolInv PoolSwap PoolLoop PoolHist PoolOps PoolMint PoolFees PoolPos PoolSpec PoolLimit PoolReturns Client StrategyBudget Solvency Cash Money PoolSettle.
Ltac Zify.zify_post_hook ::= idtac.
Open Scope Z_scope.

Lemma swap_mono n m p z amt lim r : (n <= m)%nat -> swap n p z amt lim = Ok r -> swap m p z amt lim = Ok r.
Proof.
  intros H E. unfold swap in *. apply bind_inv in E as ([] & E0 & E). rewrite E0. cbn [bind]. cbv zeta in *.
  apply bind_inv in E as ([] & E1 & E). rewrite E1. cbn [bind]. apply bind_inv in E as (s & E2 & E).
  rewrite (loop_mono _ _ _ _ _ n m _ H) by congruence. rewrite E2. cbn [bind]. exact E.
Qed.
Lemma apply_mono n m p o r : (n <= m)%nat -> apply n p o = Ok r -> apply m p o = Ok r.
Proof. intros H. destruct o; cbn [apply]; auto; unfold ExactInputSwap, ExactOutputSwap; apply swap_mono; assumption. Qed.

(** [wAll], [wOwn]: the ledgers; [wHas0], [wHas1]: the pool's tokens; [wIn0], [wIn1]: a bound for all tokens there are, in the pool and with the strategy, counted up by
    what is paid for market mints, asked to be swapped, and lent *)
Record World := mkWorld { wAll : hist; wOwn : hist; wPool : Pool; wHas0 : Z; wHas1 : Z; wIn0 : Z; wIn1 : Z }.
(** what a market mint of [a] at [l, u) costs, rounded up *)
Definition cost (tk : bool) (p : Pool) (l u a : Z) : Z := Qceiling ([a]q * worth tk (SqrtRatio p) l u).
Definition after (w : World) (o : op) (r : Pool * Z * Z) : World :=
  let p := wPool w in
  let '(p', a0, a1) := r in
  match o with
  | OMint l u a => mkWorld (mkE l u a :: wAll w) (wOwn w) p' (wHas0 w + cost true p l u a) (wHas1 w + cost false p l u a) (wIn0 w + cost true p l u a) (wIn1 w + cost false p l u a)
  | OBurn l u a => mkWorld (mkE l u (- a) :: wAll w) (wOwn w) p' (wHas0 w) (wHas1 w) (wIn0 w) (wIn1 w)
  | OFlash b0 b1 => mkWorld (wAll w) (wOwn w) p' (wHas0 w + flashFee (Fee p) b0) (wHas1 w + flashFee (Fee p) b1) (wIn0 w + b0) (wIn1 w + b1)
  | OExactInput amt t lim =>
      let z := String.eqb t (Token0 p) in
      mkWorld (wAll w) (wOwn w) p' (wHas0 w + sgn256 a0) (wHas1 w + sgn256 a1) (if z then wIn0 w + amt else wIn0 w) (if z then wIn1 w else wIn1 w + amt)
  | OMintStrategy l u a => mkWorld (mkE l u a :: wAll w) (mkE l u a :: wOwn w) p' (wHas0 w + a0) (wHas1 w + a1) (wIn0 w) (wIn1 w)
  | OBurnStrategy l u a => mkWorld (mkE l u (- a) :: wAll w) (mkE l u (- a) :: wOwn w) p' (wHas0 w) (wHas1 w) (wIn0 w) (wIn1 w)
  | OCollectStrategy l u => mkWorld (wAll w) (wOwn w) p' (wHas0 w - a0) (wHas1 w - a1) (wIn0 w) (wIn1 w)
  | OExactOutput _ _ _ => mkWorld (wAll w) (wOwn w) p' (wHas0 w) (wHas1 w) (wIn0 w) (wIn1 w)
  end.
Lemma after_pool w o r : wPool (after w o r) = fst (fst r).
Proof. destruct r as [[p a0] a1], o; reflexivity. Qed.

Lemma price_min h p : poolOK h p -> MinSqrtRatio <= SqrtRatio p.
Proof.
  intros HP. assert (priceOK (TickCurrent p) (SqrtRatio p)) as (A & B & _) by apply HP. pose proof (rat_range (TickCurrent p) ltac:(lia)). lia.
Qed.
Lemma total_cons l u a h : total (mkE l u a :: h) = a + total h.
Proof. unfold total. cbn [sumOn eLower eUpper eDelta]. lia. Qed.
Lemma cost_le tk p l u a : ([a]q * worth tk (SqrtRatio p) l u <= [cost tk p l u a]q)%Q.
Proof. apply Qle_ceiling. Qed.
Lemma cost_nonneg tk h p l u a : poolOK h p -> MinTick <= l < u -> u <= MaxTick -> 0 <= a -> 0 <= cost tk p l u a.
Proof.
  intros HP H1 H2 Ha. rewrite Zle_Qle. eapply Qle_trans; [|apply cost_le]. apply Qmult_le_0_compat; [rewrite <- (Zle_Qle 0); assumption|apply worth_nonneg; lia].
Qed.
Lemma flash_fee_le fee a : 0 <= a -> 0 <= fee < 1000000 -> 0 <= flashFee fee a <= a.
Proof.
  intros Ha Hf. unfold flashFee. assert (a * fee <= a * 999999) as K by (apply Z.mul_le_mono_nonneg_l; lia). assert (0 <= a * fee) as K0 by (apply Z.mul_nonneg_nonneg; lia).
  split; [apply Z.div_pos; lia|]. destruct (Z.eq_dec a 0) as [->|N]; [reflexivity|].
  apply Z.lt_succ_r, Z.div_lt_upper_bound; lia.
Qed.
Lemma total_nonneg sp h : histOK sp h -> 0 <= total h.
Proof. intros (C & _). exact (sumOn_nonneg (fun _ _ => 1) h C ltac:(intros; lia)). Qed.

Section World.
Variable fuel : nat.
(** the most liquidity there ever is *)
Variable cap : Z.
Hypothesis enough : (allRounds <= fuel)%nat.
Hypothesis cap_ok : cap <= 2 ^ 127.

Fixpoint runW {A} (w : World) (m : M A) : res (World * A) :=
  match m with
  | MRet r => do a <- r; Ok (w, a)
  | MRead k => runW w (k (slot (wPool w)))
  | MOp o k => do r <- apply fuel (wPool w) o; runW (after w o r) (k (snd (fst r), snd r))
  end.
Lemma runW_runV {A} (m : M A) : forall w w' a, runW w m = Ok (w', a) -> exists tr, runV fuel (wPool w) m = Ok (wPool w', tr, a).
Proof.
  induction m as [r|o k IH|k IH]; intros w w' a E; cbn [runW runV] in *.
  - destruct r; cbn [bind] in *; try discriminate. injection E as <- <-. eauto.
  - destruct (apply fuel (wPool w) o) as [[[p a0] a1]| |] eqn:EA; cbn [bind fst snd] in *; try discriminate.
    apply IH in E as (tr & E). rewrite after_pool in E. cbn [fst] in E. rewrite E. cbn [bind]. eauto.
  - apply IH in E. exact E.
Qed.

(** a swap stops before some limit [b]: below 2^128, and going down past no misplaced tick *)
Definition stops (p : Pool) (z : bool) (amt : Z) : Prop := exists b,
  (if z then MinSqrtRatio < b < SqrtRatio p /\ clearWay p b else SqrtRatio p < b < 2 ^ 128) /\
  forall r, swap fuel p z amt b = Ok r -> SqrtRatio (fst (fst r)) <> b.
Definition guard (w : World) (o : op) : Prop :=
  let p := wPool w in
  match o with
  | OMint l u a => 0 < a /\ MinTick <= l < u /\ u <= MaxTick /\ placed (TickSpacing p) l /\ placed (TickSpacing p) u /\ total (wAll w) + a <= cap /\
      wIn0 w + cost true p l u a < 2 ^ 128 /\ wIn1 w + cost false p l u a < 2 ^ 128
  | OBurn l u a => 0 <= a /\ minted (wOwn w) l u + a <= minted (wAll w) l u /\ 0 < minted (wAll w) l u
  | OFlash b0 b1 => 0 <= b0 /\ 0 <= b1 /\ 0 < Liquidity p /\ wIn0 w + b0 < 2 ^ 128 /\ wIn1 w + b1 < 2 ^ 128
  | OExactInput amt t lim =>
      let z := String.eqb t (Token0 p) in
      lim = 0 /\ 0 < amt /\ (if z then wIn0 w else wIn1 w) + amt < 2 ^ 128 /\ ticks (Data p) <> [] /\ stops p z amt
  | OMintStrategy l u a => 0 < a /\ placed (TickSpacing p) l /\ placed (TickSpacing p) u /\ total (wAll w) + a <= cap /\ cap <= 2 ^ 63 * a /\ ownKey (wOwn w) l u
  | OBurnStrategy _ _ _ | OCollectStrategy _ _ => True
  | OExactOutput _ _ _ => False
  end.
Fixpoint calm {A} (w : World) (m : M A) : Prop :=
  match m with
  | MRet _ => True
  | MRead k => calm w (k (slot (wPool w)))
  | MOp o k => guard w o /\ forall r, apply fuel (wPool w) o = Ok r -> calm (after w o r) (k (snd (fst r), snd r))
  end.
(** if calm, it returns *)
Definition returns {A} (w : World) (m : M A) (Q : World -> A -> Prop) : Prop := calm w m -> exists w' a, runW w m = Ok (w', a) /\ Q w' a.

Lemma runW_bind {A B} (m : M A) (f : A -> M B) : forall w, runW w (mbind m f) = do r <- runW w m; runW (fst r) (f (snd r)).
Proof.
  induction m as [r|o k IH|k IH]; intros w; cbn [mbind runW].
  - destruct r; reflexivity.
  - destruct (apply fuel (wPool w) o); cbn [bind]; [apply IH|reflexivity|reflexivity].
  - apply IH.
Qed.
Lemma calm_bind {A B} (m : M A) (f : A -> M B) : forall w, calm w (mbind m f) -> calm w m /\ forall w' a, runW w m = Ok (w', a) -> calm w' (f a).
Proof.
  induction m as [r|o k IH|k IH]; intros w H; cbn [mbind calm runW] in *.
  - split; [exact I|]. intros w' a E. destruct r; cbn [bind] in E; try discriminate. injection E as <- <-. exact H.
  - destruct H as [G H]. split; [split; [exact G|]|].
    + intros r E. apply (IH _ _ (H r E)).
    + intros w' a E. apply bind_inv in E as (r & E1 & E2). exact (proj2 (IH _ _ (H r E1)) _ _ E2).
  - apply IH. exact H.
Qed.
Lemma returns_bind {A B} w (m : M A) (f : A -> M B) Q R : returns w m Q -> (forall w' a, Q w' a -> returns w' (f a) R) -> returns w (mbind m f) R.
Proof.
  intros H K HC. apply calm_bind in HC as [H1 H2]. destruct (H H1) as (w1 & a & E & HQ). destruct (K w1 a HQ (H2 _ _ E)) as (w2 & b & E2 & HR).
  exists w2, b. rewrite runW_bind, E. auto.
Qed.
Lemma returns_done {A} w (a : A) (Q : World -> A -> Prop) : Q w a -> returns w (done a) Q.
Proof. intros H _. exists w, a. auto. Qed.
Lemma returns_pure {A} w (r : res A) a (Q : World -> A -> Prop) : r = Ok a -> Q w a -> returns w (pure r) Q.
Proof. intros -> H _. exists w, a. auto. Qed.
Lemma returns_look w (Q : World -> Slot -> Prop) : Q w (slot (wPool w)) -> returns w look Q.
Proof. intros H _. exists w, (slot (wPool w)). auto. Qed.
Lemma returns_call w o (Q : World -> Z * Z -> Prop) : (guard w o -> exists r, apply fuel (wPool w) o = Ok r /\ Q (after w o r) (snd (fst r), snd r)) -> returns w (call o) Q.
Proof.
  intros H [G _]. destruct (H G) as (r & E & HQ). exists (after w o r), (snd (fst r), snd r). split; [|exact HQ]. unfold call, done. cbn [runW]. rewrite E. reflexivity.
Qed.
Lemma returns_conseq {A} w (m : M A) (Q R : World -> A -> Prop) : returns w m Q -> (forall w' a, Q w' a -> R w' a) -> returns w m R.
Proof. intros H K HC. destruct (H HC) as (w' & a & E & HQ). eauto. Qed.

(** ** the accounts in order *)
(** since a moment when the growth recorded for it was that of its range, the strategy's position at [l, u), of liquidity [m], has been left alone *)
Definition settledAt (m l u : Z) (h : hist) (p : Pool) (u0 u1 : Z) : Prop := exists h0 p0 i v0 v1,
  reach h0 p0 /\ posGet (Pos p0) (posKey l u) = Some i /\ pLiquidity i = m /\
  GetFeeGrowthInside (Data p0) l u (TickCurrent p0) (FeeGrowth0 p0) (FeeGrowth1 p0) = Ok (pLast0 i, pLast1 i) /\
  m <= minted h0 l u /\ total h0 <= cap /\ others m l u h0 p0 h p v0 v1 /\ v0 <= u0 /\ v1 <= u1.
Record sound (w : World) : Prop := {
  so_cash : cash true true (wAll w) (wOwn w) (wPool w) (wHas0 w) (wHas1 w);
  so_tokens : Token0 (wPool w) <> Token1 (wPool w);
  so_price : SqrtRatio (wPool w) < 2 ^ 128;
  so_total : total (wAll w) <= cap;
  so_in0 : 0 <= wIn0 w < 2 ^ 128;
  so_in1 : 0 <= wIn1 w < 2 ^ 128;
  so_set : forall l u, 0 < minted (wOwn w) l u ->
    cap <= 2 ^ 63 * minted (wOwn w) l u /\ settledAt (minted (wOwn w) l u) l u (wAll w) (wPool w) (wIn0 w) (wIn1 w)
}.

Lemma settled_more m l u h p u0 u1 u0' u1' : settledAt m l u h p u0 u1 -> u0 <= u0' -> u1 <= u1' -> settledAt m l u h p u0' u1'.
Proof.
  intros (h0 & p0 & i & v0 & v1 & A & B & C & D & E & F & G & H & I) K0 K1. exists h0, p0, i, v0, v1. repeat (split; [assumption|]). split; lia.
Qed.
Lemma settled_call m l u h p u0 u1 o p' : settledAt m l u h p u0 u1 -> apart (posKey l u) o -> allowed h p o -> step 0 p o = Ok p' ->
  m <= minted (log h o) l u -> total (log h o) <= cap -> cap <= 2 ^ 63 * m -> settledAt m l u (log h o) p' u0 u1.
Proof.
  intros (h0 & p0 & i & v0 & v1 & A & B & C & D & E & F & G & H & I) K1 K2 K3 K4 K5 K6. exists h0, p0, i, v0, v1. repeat (split; [assumption|]).
  split; [|split; assumption]. eapply ot_call; try eassumption; lia.
Qed.
Lemma settled_start m l u h p u0 u1 i : reach h p -> posGet (Pos p) (posKey l u) = Some i -> pLiquidity i = m ->
  GetFeeGrowthInside (Data p) l u (TickCurrent p) (FeeGrowth0 p) (FeeGrowth1 p) = Ok (pLast0 i, pLast1 i) ->
  m <= minted h l u -> total h <= cap -> 0 <= u0 -> 0 <= u1 -> settledAt m l u h p u0 u1.
Proof.
  intros. exists h, p, i, 0, 0. repeat (split; [assumption|]). split; [constructor|]. split; assumption.
Qed.
Lemma settled_settles m l u h p u0 u1 : settledAt m l u h p u0 u1 -> 0 < m -> cap <= 2 ^ 63 * m -> u0 < 2 ^ 128 -> u1 < 2 ^ 128 -> settles p l u.
Proof.
  intros (h0 & p0 & i & v0 & v1 & A & B & C & D & E & F & G & H & I) Hm Hc H0 H1.
  apply (others_settles m l u h0 p0 i h p v0 v1); try assumption; lia.
Qed.
Lemma sound_reach w : sound w -> reach (wAll w) (wPool w).
Proof. intros H. eapply cash_reach, so_cash, H. Qed.
Lemma sound_ok w : sound w -> cashOK (wAll w) (wOwn w) (wPool w) (wHas0 w) (wHas1 w).
Proof. intros H. apply cash_ok, so_cash, H. Qed.

(** ** market calls *)
Lemma mint_world w l u a : sound w -> guard w (OMint l u a) -> exists r, apply fuel (wPool w) (OMint l u a) = Ok r /\ sound (after w (OMint l u a) r).
Proof.
  intros S (Ha & Hl & Hu & Pl & Pu & Ht & B0 & B1). pose proof (sound_ok w S) as CK. pose proof (ck_pool _ _ _ _ _ CK) as HP. pose proof (total_nonneg _ _ (proj1 HP)) as T0.
  destruct (mint_some (wAll w) (wPool w) l u a HP ltac:(lia) Pl Pu ltac:(lia)) as [_ K]. destruct K as (p' & E); [split; [assumption|]; lia|].
  exists (p', 0, 0). cbn [apply]. rewrite E. split; [reflexivity|].
  assert (allowed (wAll w) (wPool w) (OMint l u a)) as HA by (cbn [allowed]; unfold is_u256; repeat (split; [first [assumption|lia]|]); lia).
  pose proof (mint_ok _ _ _ _ _ _ HP HA E) as (_ & SS & _). pose proof (apply_sameTokens fuel (wPool w) (OMint l u a) p' 0 0) as ST. cbn [apply] in ST. rewrite E in ST. specialize (ST eq_refl).
  pose proof (cost_nonneg true _ _ l u a HP Hl Hu ltac:(lia)) as C0. pose proof (cost_nonneg false _ _ l u a HP Hl Hu ltac:(lia)) as C1.
  destruct S as [S1 S2 S3 S4 S5 S6 S7]. constructor; cbn [after wAll wOwn wPool wHas0 wHas1 wIn0 wIn1]; try lia.
  - apply cash_mint with (p := wPool w); try assumption. intros [|]; apply cost_le.
  - destruct ST; congruence.
  - pose proof (slot_same _ _ SS) as EQ. unfold slot in EQ. congruence.
  - rewrite total_cons. lia.
  - intros lo up Hm. destruct (S7 lo up Hm) as [Q1 Q2]. split; [assumption|].
    apply settled_more with (u0 := wIn0 w) (u1 := wIn1 w); [|lia|lia].
    apply (settled_call _ _ _ (wAll w) (wPool w) _ _ (OMint l u a)); try assumption; cbn [apart log]; [exact I| |rewrite total_cons; lia].
    rewrite minted_cons. pose proof (ck_sub _ _ _ _ _ CK lo up). destruct (_ && _); lia.
Qed.
Lemma burn_world w l u a : sound w -> guard w (OBurn l u a) -> exists r, apply fuel (wPool w) (OBurn l u a) = Ok r /\ sound (after w (OBurn l u a) r).
Proof.
  intros S (Ha & Hm & Hp). pose proof (sound_ok w S) as CK. pose proof (ck_pool _ _ _ _ _ CK) as HP. pose proof (ck_cov _ _ _ _ _ CK l u) as Cov.
  destruct (burn_some (wAll w) (wPool w) l u a HP ltac:(lia) Hp) as (p' & E).
  exists (p', 0, 0). cbn [apply]. rewrite E. split; [reflexivity|].
  assert (allowed (wAll w) (wPool w) (OBurn l u a)) as HA by (cbn [allowed]; lia).
  destruct (burn_ok _ _ _ _ _ HP HA) as (q & E' & _ & SS & _). rewrite E in E'. injection E' as <-.
  pose proof (slot_same _ _ SS) as EQ. unfold slot in EQ.
  destruct S as [S1 S2 S3 S4 S5 S6 S7]. constructor; cbn [after wAll wOwn wPool wHas0 wHas1 wIn0 wIn1]; try lia.
  - replace (wHas0 w) with (wHas0 w - 0) by lia. replace (wHas1 w) with (wHas1 w - 0) by lia. apply cash_burn with (p := wPool w); try assumption.
    intros tk. pose proof (minted_range _ _ l u (proj1 HP) Hp) as (R1 & R2 & R3 & _).
    replace (tok tk 0 0) with 0 by (destruct tk; reflexivity). apply Qmult_le_0_compat; [rewrite <- (Zle_Qle 0); assumption|apply worth_nonneg; lia].
  - congruence.
  - congruence.
  - rewrite total_cons. lia.
  - intros lo up Hmn. destruct (S7 lo up Hmn) as [Q1 Q2]. split; [assumption|].
    apply (settled_call _ _ _ (wAll w) (wPool w) _ _ (OBurn l u a)); try assumption; cbn [apart log]; [exact I| |rewrite total_cons; lia].
    rewrite minted_cons. pose proof (ck_sub _ _ _ _ _ CK lo up). destruct ((l =? lo) && (u =? up)) eqn:EB; [|lia].
    apply andb_true_iff in EB as [E1 E2]. apply Z.eqb_eq in E1, E2. subst lo up. lia.
Qed.

Lemma flash_world w b0 b1 : sound w -> guard w (OFlash b0 b1) -> exists r, apply fuel (wPool w) (OFlash b0 b1) = Ok r /\ sound (after w (OFlash b0 b1) r) /\ 0 <= Fee (wPool w) < 1000000.
Proof.
  intros S (H0 & H1 & HL & B0 & B1). pose proof (sound_ok w S) as CK. pose proof (ck_pool _ _ _ _ _ CK) as HP.
  destruct S as [S1 S2 S3 S4 S5 S6 S7]. pose proof (cash_reach _ _ _ _ _ S1) as R. pose proof (fee_range _ _ HP HL) as HF.
  destruct (flash_returns _ _ b0 b1 R ltac:(lia) ltac:(lia)) as [_ K]. destruct (K HL) as (p' & E). clear K.
  exists (p', 0, 0). cbn [apply]. rewrite E. split; [reflexivity|]. split; [|assumption].
  pose proof (apply_sameTokens fuel (wPool w) (OFlash b0 b1) p' 0 0) as ST. cbn [apply] in ST. rewrite E in ST. specialize (ST eq_refl).
  assert (SqrtRatio p' = SqrtRatio (wPool w)) as EP.
  { clear - E. unfold Flash in E. repeat (apply bind_inv in E as (? & _ & E)). cbv zeta in E. injection E as <-. reflexivity. }
  assert (is_u256 b0 /\ is_u256 b1) as [U0 U1] by (unfold is_u256; lia).
  constructor; cbn [after wAll wOwn wPool wHas0 wHas1 wIn0 wIn1]; try lia.
  - eapply cash_flash; eassumption.
  - destruct ST; congruence.
  - intros lo up Hmn. destruct (S7 lo up Hmn) as [Q1 (h0 & p0 & i & v0 & v1 & A & B & C & D & F & G & I & J & K)]. split; [assumption|].
    exists h0, p0, i, (v0 + b0), (v1 + b1). repeat (split; [assumption|]). split; [|lia]. now apply ot_flash with (p := wPool w).
Qed.

(** what a swap takes in and pays out *)
Definition traded (w : World) (amt : Z) (t : string) (r : Pool * Z * Z) : Prop :=
  let z := String.eqb t (Token0 (wPool w)) in exists inp out,
  (if z then snd (fst r) = inp /\ snd r = uneg out else snd r = inp /\ snd (fst r) = uneg out) /\ 0 <= inp <= amt /\ 0 <= out < 2 ^ 214 /\
  let w' := after w (OExactInput amt t 0) r in
  (if z then wHas0 w' = wHas0 w + inp /\ wHas1 w' = wHas1 w - out /\ wIn0 w' = wIn0 w + amt /\ wIn1 w' = wIn1 w
   else wHas0 w' = wHas0 w - out /\ wHas1 w' = wHas1 w + inp /\ wIn0 w' = wIn0 w /\ wIn1 w' = wIn1 w + amt).
Lemma swap_world w amt t lim : sound w -> guard w (OExactInput amt t lim) -> exists r, apply fuel (wPool w) (OExactInput amt t lim) = Ok r /\
  sound (after w (OExactInput amt t lim) r) /\ traded w amt t r.
Proof.
  intros S. cbn [guard]. cbv zeta. unfold traded. set (z := String.eqb t (Token0 (wPool w))). intros (-> & Ha & HB & HT & b & Hb & Hs).
  pose proof (sound_ok w S) as CK. pose proof (ck_pool _ _ _ _ _ CK) as HP. destruct S as [S1 S2 S3 S4 S5 S6 S7]. pose proof (cash_reach _ _ _ _ _ S1) as R.
  pose proof (price_min _ _ HP) as PO.
  assert (amt < 2 ^ 128) as Ha' by (destruct z; lia). assert (is_u256 amt) as HU by (unfold is_u256; lia).
  assert (0 < b) as Hb0 by (destruct z; unfold MinSqrtRatio in *; lia).
  assert (effectiveLimit z b = b) as EL by (unfold effectiveLimit; now replace (b =? 0) with false by lia).
  destruct (swap_returns (wAll w) (wPool w) z amt b R HT (or_introl (conj Ha Ha')) S3) as (((p' & a0) & a1) & E).
  { rewrite EL. destruct z; lia. } { rewrite EL. destruct z; [exact Hb|apply Hb]. }
  apply (swap_mono _ fuel) in E; [|assumption]. specialize (Hs _ E). cbn [fst] in Hs.
  pose proof (no_limit (wAll w) (wPool w) fuel z amt b p' a0 a1 R ltac:(lia) E Hs) as E'.
  pose proof (swap_direction _ _ _ _ _ _ _ _ _ R HU E) as D. cbv zeta in D. rewrite EL in D.
  exists (p', a0, a1). cbn [apply]. unfold ExactInputSwap. fold z. rewrite E'. split; [reflexivity|].
  destruct (swap_amounts (wAll w) (wPool w) z amt 0 HP HU fuel p' a0 a1 E') as (inp & out & Er & Hi & Ho & Hr).
  replace (amt <? T255) with true in Hr by lia. destruct Hr as (Hr1 & _ & Hr2).
  assert (sgn256 inp = inp) as SI by (apply sgn_small; lia). assert (sgn256 (uneg out) = - out) as SO by (apply sgn_neg; lia).
  split.
  - pose proof (apply_sameTokens fuel (wPool w) (OExactInput amt t 0) p' a0 a1) as ST. cbn [apply] in ST. unfold ExactInputSwap in ST. fold z in ST. rewrite E' in ST. specialize (ST eq_refl).
    constructor; cbn [after wAll wOwn wPool wHas0 wHas1 wIn0 wIn1]; fold z; try (destruct z; lia).
    + apply cash_swap with (p := wPool w) (n := fuel) (z := z) (amt := amt) (lim := 0); try assumption.
      intros _ Hz. exists b. rewrite Hz in *. split; [|assumption]. replace (b =? 0) with false by lia. apply Hb.
    + destruct ST; congruence.
    + destruct z; [|lia]. destruct D as (_ & _ & D). destruct Hb as [_ Hb]. apply D in Hb. lia.
    + intros lo up Hmn. destruct (S7 lo up Hmn) as [Q1 (h0 & p0 & i & v0 & v1 & A & B & C & D' & F & G & I & J & K)]. split; [assumption|].
      exists h0, p0, i, (if z then v0 + a0 else v0), (if z then v1 else v1 + a1). repeat (split; [assumption|]).
      split; [now apply ot_swap with (p := wPool w) (n := fuel) (amt := amt) (lim := 0)|]. destruct z; destruct Er as [-> ->]; lia.
  - exists inp, out. cbn [fst snd]. split; [exact Er|]. split; [lia|]. split; [lia|]. cbn [after wHas0 wHas1 wIn0 wIn1]. fold z. destruct z; destruct Er as [-> ->]; lia.
Qed.

(** ** the strategy's calls *)
Lemma own_settles w l u : sound w -> ownKey (wOwn w) l u -> settles (wPool w) l u.
Proof.
  intros S OK. pose proof (sound_ok w S) as CK. pose proof (ck_cov _ _ _ _ _ CK l u) as Cov. destruct (Z.eq_dec (minted (wOwn w) l u) 0) as [Z0|N0].
  - intros i E. left. pose proof (own_liq _ _ _ _ _ l u CK OK) as L. unfold infoAt in L. rewrite E in L. lia.
  - destruct (so_set _ S l u ltac:(lia)) as [Q1 Q2]. apply (settled_settles _ _ _ _ _ _ _ Q2); [lia|assumption|apply S|apply S].
Qed.
Lemma mintS_world w l u a : sound w -> MinTick <= l < u -> u <= MaxTick -> guard w (OMintStrategy l u a) ->
  exists r, apply fuel (wPool w) (OMintStrategy l u a) = Ok r /\ sound (after w (OMintStrategy l u a) r).
Proof.
  intros S Hl Hu (Ha & Pl & Pu & Ht & Hc & OK). pose proof (sound_ok w S) as CK. pose proof (ck_pool _ _ _ _ _ CK) as HP. pose proof (total_nonneg _ _ (proj1 HP)) as T0.
  pose proof (own_settles w l u S OK) as HS. pose proof S as [S1 S2 S3 S4 S5 S6 S7].
  destruct (mint_strategy_some _ _ l u a HP Ha Pl Pu ltac:(lia) Hl Hu (or_intror (or_intror S3)) HS) as (((p' & x0) & x1) & E).
  exists (p', x0, x1). cbn [apply]. split; [exact E|].
  assert (allowed (wAll w) (wPool w) (OMintStrategy l u a)) as HA by (cbn [allowed]; unfold is_u256; repeat (split; [first [assumption|lia]|]); lia).
  assert (slot p' = slot (wPool w)) as EQ. { pose proof E as E'. unfold MintStrategy in E'. apply bind_inv in E' as (? & _ & E'). now apply modify_slot in E'. }
  unfold slot in EQ. pose proof (ck_cov _ _ _ _ _ CK l u) as Cov.
  assert (cash true true (mkE l u a :: wAll w) (mkE l u a :: wOwn w) p' (wHas0 w + x0) (wHas1 w + x1)) as C' by (apply cash_mintS with (p := wPool w); auto).
  pose proof (cash_ok _ _ _ _ _ C') as CK'.
  constructor; cbn [after wAll wOwn wPool wHas0 wHas1 wIn0 wIn1]; try lia; try assumption; try congruence.
  - rewrite total_cons. lia.
  - intros lo up Hmn. destruct (Z.eq_dec lo l) as [->|N1]; [destruct (Z.eq_dec up u) as [->|N2]|].
    + destruct (mint_settled _ _ l u a p' x0 x1 (cash_reach _ _ _ _ _ S1) HA E) as (i & I1 & I2 & I3).
      pose proof (ck_liq _ _ _ _ _ CK' l u Hmn) as IL. unfold infoAt in IL. rewrite I1 in IL. split.
      { rewrite minted_cons, !Z.eqb_refl. cbn [andb]. lia. }
      apply settled_start with (i := i); try assumption; try lia; [exact (cash_reach _ _ _ _ _ C')|apply CK'|rewrite total_cons; lia].
    + assert (posKey l u <> posKey l up) as NK. { intros C. destruct (ck_key _ _ _ _ _ CK' l up Hmn l u) as [_ X]; [|assumption|congruence]. rewrite minted_cons, !Z.eqb_refl. cbn [andb]. lia. }
      rewrite minted_cons in *. rewrite Z.eqb_refl in *. replace (u =? up) with false in * by lia. cbn [andb] in *. rewrite Z.add_0_l in *.
      destruct (S7 l up Hmn) as [Q1 Q2]. split; [assumption|].
      apply (settled_call _ _ _ (wAll w) (wPool w) _ _ (OMintStrategy l u a)); try assumption; cbn [apart log]; [| |rewrite total_cons; lia].
      { cbn [step]. rewrite E. reflexivity. }
      rewrite minted_cons. replace (u =? up) with false by lia. rewrite andb_false_r. pose proof (ck_sub _ _ _ _ _ CK l up). lia.
    + assert (posKey l u <> posKey lo up) as NK. { intros C. destruct (ck_key _ _ _ _ _ CK' lo up Hmn l u) as [X _]; [|assumption|congruence]. rewrite minted_cons, !Z.eqb_refl. cbn [andb]. lia. }
      rewrite minted_cons in *. replace (l =? lo) with false in * by lia. cbn [andb] in *. rewrite Z.add_0_l in *.
      destruct (S7 lo up Hmn) as [Q1 Q2]. split; [assumption|].
      apply (settled_call _ _ _ (wAll w) (wPool w) _ _ (OMintStrategy l u a)); try assumption; cbn [apart log]; [| |rewrite total_cons; lia].
      { cbn [step]. rewrite E. reflexivity. }
      rewrite minted_cons. replace (l =? lo) with false by lia. cbn [andb]. pose proof (ck_sub _ _ _ _ _ CK lo up). lia.
Qed.
Lemma burnS_world w l u a : sound w -> 0 < a <= minted (wOwn w) l u -> a = minted (wOwn w) l u \/ cap <= 2 ^ 63 * (minted (wOwn w) l u - a) ->
  exists r, apply fuel (wPool w) (OBurnStrategy l u a) = Ok r /\ sound (after w (OBurnStrategy l u a) r) /\
    exists i, posGet (Pos (wPool (after w (OBurnStrategy l u a) r))) (posKey l u) = Some i.
Proof.
  intros S Ha Hrest. pose proof (sound_ok w S) as CK. pose proof (ck_pool _ _ _ _ _ CK) as HP.
  pose proof (ck_key _ _ _ _ _ CK l u ltac:(lia)) as OK. pose proof (own_settles w l u S OK) as HS. pose proof S as [S1 S2 S3 S4 S5 S6 S7]. pose proof (ck_sub _ _ _ _ _ CK l u) as Hsub.
  destruct (burn_strategy_some _ _ l u a HP ltac:(lia) ltac:(lia) HS) as (((p' & x0) & x1) & E).
  exists (p', x0, x1). cbn [apply]. split; [exact E|].
  assert (allowed (wAll w) (wPool w) (OBurnStrategy l u a)) as HA by (cbn [allowed]; lia).
  pose proof (burn_slot _ _ _ _ _ _ _ E) as EQ. unfold slot in EQ.
  assert (cash true true (mkE l u (- a) :: wAll w) (mkE l u (- a) :: wOwn w) p' (wHas0 w) (wHas1 w)) as C' by (eapply cash_burnS with (p := wPool w); [exact S1|lia|lia|exact E]).
  pose proof (cash_ok _ _ _ _ _ C') as CK'. split.
  - constructor; cbn [after wAll wOwn wPool wHas0 wHas1 wIn0 wIn1]; try lia; try assumption; try congruence.
    { rewrite total_cons. lia. }
    intros lo up Hmn. destruct ((l =? lo) && (u =? up)) eqn:EB.
    + apply andb_true_iff in EB as [E1 E2]. apply Z.eqb_eq in E1, E2. subst lo up.
      assert (minted (mkE l u (- a) :: wOwn w) l u = minted (wOwn w) l u - a) as EM by (rewrite minted_cons, !Z.eqb_refl; cbn [andb]; lia).
      destruct (burn_settled _ _ l u a p' x0 x1 (cash_reach _ _ _ _ _ S1) HA E ltac:(lia)) as (i & I1 & I2 & I3).
      pose proof (ck_liq _ _ _ _ _ CK' l u Hmn) as IL. unfold infoAt in IL. rewrite I1 in IL. split; [lia|].
      apply settled_start with (i := i); try assumption; try lia; [exact (cash_reach _ _ _ _ _ C')|apply CK'|rewrite total_cons; lia].
    + assert (0 < minted (wOwn w) lo up) as Hmn' by (rewrite minted_cons, EB in Hmn; lia).
      assert (posKey l u <> posKey lo up) as NK. { intros C. destruct (ck_key _ _ _ _ _ CK lo up Hmn' l u) as [X1 X2]; [lia|assumption|]. subst lo up. rewrite !Z.eqb_refl in EB. discriminate. }
      rewrite minted_cons, EB, Z.add_0_l. destruct (S7 lo up Hmn') as [Q1 Q2]. split; [assumption|].
      apply (settled_call _ _ _ (wAll w) (wPool w) _ _ (OBurnStrategy l u a)); try assumption; cbn [apart log]; [| |rewrite total_cons; lia].
      { cbn [step]. rewrite E. reflexivity. }
      rewrite minted_cons, EB. pose proof (ck_sub _ _ _ _ _ CK lo up). lia.
  - cbn [after wPool]. unfold BurnStrategy in E. apply bind_inv in E as (((p1 & x') & y') & E1 & E). destruct (posGet (Pos p1) (posKey l u)) as [i|] eqn:EI; [|discriminate].
    injection E as <- _ _. cbn [with_pos Pos]. rewrite posGet_put, (proj2 (keyEq_true _ _) eq_refl). eauto.
Qed.
Lemma collect_world w l u i : sound w -> posGet (Pos (wPool w)) (posKey l u) = Some i ->
  exists r, apply fuel (wPool w) (OCollectStrategy l u) = Ok r /\ sound (after w (OCollectStrategy l u) r) /\ 0 <= snd (fst r) <= wHas0 w /\ 0 <= snd r <= wHas1 w.
Proof.
  intros S EI. pose proof (sound_ok w S) as CK. pose proof S as [S1 S2 S3 S4 S5 S6 S7].
  assert (exists r, CollectStrategy (wPool w) l u = Ok r) as (((p' & x0) & x1) & E) by (unfold CollectStrategy; rewrite EI; eauto).
  exists (p', x0, x1). cbn [apply]. split; [exact E|].
  pose proof (collect_slot _ _ _ _ _ _ E) as EQ. unfold slot in EQ.
  assert (cash true true (wAll w) (wOwn w) p' (wHas0 w - x0) (wHas1 w - x1)) as C' by (eapply cash_collect; eassumption).
  pose proof (collect_range _ _ _ _ _ _ _ _ _ _ CK E) as [R0 R1]. pose proof (cash_solvent _ _ _ _ _ C') as (N0 & N1 & _). cbn [fst snd]. split; [|lia].
  constructor; cbn [after wAll wOwn wPool wHas0 wHas1 wIn0 wIn1]; try lia; try assumption; try congruence.
  intros lo up Hmn. destruct (S7 lo up Hmn) as [Q1 Q2]. split; [assumption|].
  apply (settled_call _ _ _ (wAll w) (wPool w) _ _ (OCollectStrategy l u)); try assumption; cbn [apart log allowed]; try exact I; [|apply (ck_sub _ _ _ _ _ CK)].
  cbn [step]. rewrite E. reflexivity.
Qed.
End World.
