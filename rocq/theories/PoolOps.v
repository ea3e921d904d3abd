(** PoolOps.v -- histories of pool operations. *)
From Coq Require Import ZifyBool String.
From Verif Require Import Base U256Z TickMath TickMathFacts TickData TickDataFacts TickSearch Ledger Pool PoolTable PoolInv PoolSwap PoolLoop PoolHist.
Ltac Zify.zify_post_hook ::= idtac.
Open Scope Z_scope.

(** the exported operations of a pool *)
Inductive op :=
| OMint (lower upper amount : Z)
| OBurn (lower upper amount : Z)
| OMintStrategy (lower upper amount : Z)
| OBurnStrategy (lower upper amount : Z)
| OCollectStrategy (lower upper : Z)
| OFlash (amount0 amount1 : Z)
| OExactInput (amount : Z) (token : string) (limit : Z)
| OExactOutput (amount : Z) (token : string) (limit : Z).

(** run one operation ([fuel] bounds the rounds of a swap) *)
Definition step (fuel : nat) (p : Pool) (o : op) : res Pool :=
  match o with
  | OMint l u a => Mint p l u a
  | OBurn l u a => Burn p l u a
  | OMintStrategy l u a => do r <- MintStrategy p l u a; Ok (fst (fst r))
  | OBurnStrategy l u a => do r <- BurnStrategy p l u a; Ok (fst (fst r))
  | OCollectStrategy l u => do r <- CollectStrategy p l u; Ok (fst (fst r))
  | OFlash a0 a1 => Flash p a0 a1
  | OExactInput a t lim => do r <- ExactInputSwap fuel p a t lim; Ok (fst (fst r))
  | OExactOutput a t lim => do r <- ExactOutputSwap fuel p a t lim; Ok (fst (fst r))
  end.

(** the ledger entry an operation makes *)
Definition log (h : hist) (o : op) : hist :=
  match o with
  | OMint l u a | OMintStrategy l u a => mkE l u a :: h
  | OBurn l u a | OBurnStrategy l u a => mkE l u (- a) :: h
  | _ => h
  end.

(** what callers must respect: ranges aligned to the spacing, less than 2^128 liquidity in all, and no
    more burnt on a range than is left on it *)
Definition allowed (h : hist) (p : Pool) (o : op) : Prop :=
  match o with
  | OMint l u a | OMintStrategy l u a => is_u256 a /\ placed (TickSpacing p) l /\ placed (TickSpacing p) u /\ total h + a < 2 ^ 128
  | OBurn l u a | OBurnStrategy l u a => 0 <= a <= minted h l u /\ 0 < minted h l u
  | OExactInput a _ _ | OExactOutput a _ _ => is_u256 a
  | _ => True
  end.

(** pools reachable from a new one, with the ledger of their positions *)
Inductive reach : hist -> Pool -> Prop :=
| reach_new t0 t1 fee price p : NewPool t0 t1 fee price = Ok p -> reach [] p
| reach_step h p fuel o p' : reach h p -> allowed h p o -> step fuel p o = Ok p' -> reach (log h o) p'.

Lemma mint_hist h p l u a : poolOK h p -> is_u256 a -> placed (TickSpacing p) l -> placed (TickSpacing p) u -> total h + a < 2 ^ 128 -> usign a =? 1 = true ->
  checkTicks l u = Ok tt -> histOK (TickSpacing p) (mkE l u a :: h) /\ a mod T256 = a /\ 0 < a.
Proof.
  intros HP Ha Hl Hu Ht Hs Hc. apply usign_1 in Hs; [|assumption]. apply checkTicks_inv in Hc. split; [|split; [apply Z.mod_small; lia|lia]].
  apply histOK_cons_total; [apply HP| |pose proof (proj1 (proj1 HP) l u); lia|assumption]. unfold rangeOK. tauto.
Qed.

Lemma invariant_inv b : invariant b = Ok tt -> b = true.
Proof. destruct b; [reflexivity|discriminate]. Qed.

Lemma burn_hist h p l u a : poolOK h p -> 0 <= a <= minted h l u -> 0 < minted h l u -> histOK (TickSpacing p) (mkE l u (- a) :: h).
Proof.
  intros HP Ha Hm. destruct HP as (HH & _). apply histOK_cons_total; [assumption|eapply minted_range; eassumption|lia|]. destruct HH as (_ & _ & T). lia.
Qed.

Lemma mint_ok h p l u a p' : poolOK h p -> allowed h p (OMint l u a) -> Mint p l u a = Ok p' ->
  poolOK (mkE l u a :: h) p' /\ sameSlot p p' /\ Pos p' = Pos p.
Proof.
  intros HP (Ha & Hl & Hu & Ht) E. unfold Mint in E. apply bind_inv in E as ([] & E0 & E). apply invariant_inv in E0.
  assert (checkTicks l u = Ok tt) as Hc by (unfold modifyPosition in E; apply bind_inv in E as ([] & E1 & _); assumption).
  destruct (mint_hist h p l u a HP Ha Hl Hu Ht E0 Hc) as (HH & Em & Hpos).
  destruct (modifyPosition_ok h p l u a HP HH ltac:(lia)) as (q & E' & HQ). rewrite Em in E'. rewrite E' in E. injection E as <-. exact HQ.
Qed.
Lemma burn_ok h p l u a : poolOK h p -> allowed h p (OBurn l u a) -> exists p', Burn p l u a = Ok p' /\
  poolOK (mkE l u (- a) :: h) p' /\ sameSlot p p' /\ Pos p' = Pos p.
Proof. intros HP [H1 H2]. unfold Burn. rewrite uneg_delta. apply modifyPosition_ok; [assumption|now apply burn_hist|lia]. Qed.
Lemma mintS_ok h p l u a p' a0 a1 : poolOK h p -> allowed h p (OMint l u a) -> MintStrategy p l u a = Ok (p', a0, a1) ->
  poolOK (mkE l u a :: h) p' /\ sameSlot p p'.
Proof.
  intros HP (Ha & Hl & Hu & Ht) E. unfold MintStrategy in E. apply bind_inv in E as ([] & E0 & E). apply invariant_inv in E0.
  assert (checkTicks l u = Ok tt) as Hc by (unfold modifyPositionStrategy in E; apply bind_inv in E as ([] & E1 & _); assumption).
  destruct (mint_hist h p l u a HP Ha Hl Hu Ht E0 Hc) as (HH & Em & Hpos). rewrite <- Em in E.
  now apply (modifyPositionStrategy_ok h p l u a p' a0 a1).
Qed.
Lemma burnS_ok h p l u a p' a0 a1 : poolOK h p -> allowed h p (OBurn l u a) -> BurnStrategy p l u a = Ok (p', a0, a1) ->
  poolOK (mkE l u (- a) :: h) p' /\ sameSlot p p'.
Proof.
  intros HP [H1 H2] E. unfold BurnStrategy in E. rewrite uneg_delta in E. apply bind_inv in E as (((q & b0) & b1) & E0 & E).
  apply modifyPositionStrategy_ok with (h := h) in E0; [|assumption|now apply burn_hist]. cbv zeta in E. destruct E0 as [HQ HS].
  destruct (posGet (Pos q) (posKey l u)); [|discriminate]. injection E as <- _ _. split; [now apply poolOK_with_pos|]. unfold sameSlot in *. cbn. tauto.
Qed.

Lemma step_ok h p fuel o p' : poolOK h p -> allowed h p o -> step fuel p o = Ok p' ->
  poolOK (log h o) p' /\ Token0 p' = Token0 p /\ Token1 p' = Token1 p /\ Fee p' = Fee p /\ TickSpacing p' = TickSpacing p.
Proof.
  assert (forall q, sameSlot p q -> Token0 q = Token0 p /\ Token1 q = Token1 p /\ Fee q = Fee p /\ TickSpacing q = TickSpacing p) as K by (unfold sameSlot; tauto).
  intros HP HA E. destruct o as [l u a|l u a|l u a|l u a|l u|a0 a1|a t lim|a t lim]; cbn [step log] in *.
  - destruct (mint_ok h p l u a p' HP HA E) as (H1 & H2 & _). auto.
  - destruct (burn_ok h p l u a HP HA) as (q & E' & H1 & H2 & _). rewrite E' in E. injection E as <-. auto.
  - apply bind_inv in E as (((q & b0) & b1) & E0 & E). injection E as <-. destruct (mintS_ok h p l u a q b0 b1 HP HA E0). auto.
  - apply bind_inv in E as (((q & b0) & b1) & E0 & E). injection E as <-. destruct (burnS_ok h p l u a q b0 b1 HP HA E0). auto.
  - apply bind_inv in E as (((q & b0) & b1) & E0 & E). injection E as <-. unfold CollectStrategy in E0. destruct (posGet _ _); [|discriminate]. injection E0 as <- _ _.
    split; [now apply poolOK_with_pos|]. cbn. tauto.
  - split; [eapply flash_ok; eassumption|]. unfold Flash in E. do 5 (apply bind_inv in E as (? & _ & E)). injection E as <-. cbn. tauto.
  - apply bind_inv in E as (((q & b0) & b1) & E0 & E). injection E as <-. destruct (swap_ok h p _ a lim HP HA fuel q b0 b1 E0) as (H1 & H2 & H3 & H4 & H5 & _). auto.
  - apply bind_inv in E as (((q & b0) & b1) & E0 & E). injection E as <-. destruct (swap_ok h p _ a lim HP HA fuel q b0 b1 E0) as (H1 & H2 & H3 & H4 & H5 & _). auto.
Qed.

Lemma reach_ok h p : reach h p -> poolOK h p.
Proof.
  induction 1 as [t0 t1 fee price p E|h p fuel o p' HR IH HA E].
  - apply (new_pool_ok t0 t1 fee price p E).
  - apply (step_ok h p fuel o p' IH HA E).
Qed.

(** ** what the invariant says about the table *)
Lemma ok_sorted h p : poolOK h p -> sortedT (Data p) /\ tickSpacing (Data p) = TickSpacing p.
Proof. intros (_ & (S & E & _) & _). auto. Qed.
Lemma ok_lookup h p j : poolOK h p -> (exists x, GetTick (Data p) j = Ok x) <-> 0 < gross h j.
Proof.
  intros HP. pose proof (ok_sorted h p HP) as [S _]. rewrite GetTick_spec by assumption. destruct HP as (_ & (_ & _ & L) & _). specialize (L j). unfold tickOK in L.
  destruct (lookup (ticks (Data p)) j); split; intros H; try lia; eauto. destruct H. discriminate.
Qed.

(** the sum of the net amounts of the ticks at or below [t] *)
Fixpoint sumNet (l : list Tick) (t : Z) : Z :=
  match l with
  | [] => 0
  | x :: l => (if tkIndex x <=? t then tkNet x else 0) + sumNet l t
  end.

Definition netAt (l : list Tick) (t : Z) : Z := match lookup l t with Some x => tkNet x | None => 0 end.

Lemma sumNet_none l t : (forall x, In x l -> t < tkIndex x) -> sumNet l t = 0.
Proof.
  induction l as [|a l IH]; intros H; [reflexivity|]. cbn [sumNet]. rewrite IH by (intros x Hx; apply H; now right).
  specialize (H a (or_introl eq_refl)). replace (tkIndex a <=? t) with false by lia. reflexivity.
Qed.
Lemma sumNet_step l t : sortedL l -> sumNet l t = sumNet l (t - 1) + netAt l t.
Proof.
  unfold netAt. induction l as [|a l IH]; intros Hs; [reflexivity|]. apply sorted_cons in Hs as [Hs Ha]. specialize (IH Hs). cbn [sumNet lookup find].
  fold (lookup l t). destruct (tkIndex a =? t) eqn:C.
  - replace (tkIndex a <=? t) with true by lia. replace (tkIndex a <=? t - 1) with false by lia.
    rewrite !sumNet_none by (intros x Hx; specialize (Ha x Hx); lia). lia.
  - replace (tkIndex a <=? t - 1) with (tkIndex a <=? t) by lia. lia.
Qed.

Lemma active_low s h : histOK s h -> active h (MinTick - 1) = 0.
Proof.
  intros (_ & R & _). unfold active. induction h as [|e h IH]; [reflexivity|]. cbn [sumOn]. rewrite IH by (intros x Hx; apply R; now right).
  destruct (R e (or_introl eq_refl)) as (_ & H & _). replace ((eLower e <=? MinTick - 1) && (MinTick - 1 <? eUpper e)) with false by lia. reflexivity.
Qed.

Lemma sumNet_active h s d : histOK s h -> tableOK h s d -> forall t, MinTick - 1 <= t -> sumNet (ticks d) t mod T256 = active h t mod T256.
Proof.
  intros HH (S & _ & L) t Ht. replace t with (MinTick - 1 + Z.of_nat (Z.to_nat (t - (MinTick - 1)))) by lia.
  induction (Z.to_nat (t - (MinTick - 1))) as [|n IH].
  - rewrite Z.add_0_r, (active_low s h HH), sumNet_none; [reflexivity|]. intros x Hx. pose proof (L (tkIndex x)) as Lx. unfold tickOK in Lx.
    pose proof (proj1 (lookup_in_iff _ x S) Hx) as Ex. rewrite Ex in Lx. destruct Lx as (G & _). apply (gross_range s h) in G; [lia|assumption].
  - set (u := MinTick - 1 + Z.of_nat (Datatypes.S n)). rewrite sumNet_step by exact S. rewrite active_step by (eapply histOK_proper, HH).
    replace (u - 1) with (MinTick - 1 + Z.of_nat n) by lia. rewrite (Zplus_mod (sumNet _ _)), IH, (Zplus_mod (active _ _)). f_equal. f_equal.
    specialize (L u). unfold tickOK, netAt in *. destruct (lookup (ticks d) u) as [x|].
    + destruct L as (_ & _ & _ & E & _). rewrite E. apply Z.mod_mod. lia.
    + destruct HH as (C & _). pose proof (net_gross h u C). replace (net h u) with 0 by lia. reflexivity.
Qed.

Lemma ok_sumNet h p : poolOK h p -> Liquidity p = sumNet (ticks (Data p)) (TickCurrent p) mod T256.
Proof.
  intros (HH & HT & _ & _ & EL & HP & _). rewrite (sumNet_active h _ _ HH HT) by (destruct HP; lia). rewrite Z.mod_small; [assumption|].
  pose proof (active_range _ _ (TickCurrent p) HH). lia.
Qed.

(** price strictly below the next tick: kept by everything except downward swaps *)
Definition downSwap (p : Pool) (o : op) : Prop :=
  match o with OExactInput _ t _ => t = Token0 p | OExactOutput _ t _ => t = Token1 p | _ => False end.

Lemma step_strict h p fuel o p' : poolOK h p -> allowed h p o -> step fuel p o = Ok p' -> ~ downSwap p o ->
  SqrtRatio p < rat (TickCurrent p + 1) -> SqrtRatio p' < rat (TickCurrent p' + 1).
Proof.
  assert (forall q, sameSlot p q -> SqrtRatio p < rat (TickCurrent p + 1) -> SqrtRatio q < rat (TickCurrent q + 1)) as K.
  { intros q (_ & _ & _ & E1 & _ & _ & _ & E2) H. rewrite E1, E2. exact H. }
  intros HP HA E ND. destruct o as [l u a|l u a|l u a|l u a|l u|a0 a1|a t lim|a t lim]; cbn [step log downSwap] in *.
  - destruct (mint_ok h p l u a p' HP HA E) as (_ & H2 & _). auto.
  - destruct (burn_ok h p l u a HP HA) as (q & E' & _ & H2 & _). rewrite E' in E. injection E as <-. auto.
  - apply bind_inv in E as (((q & b0) & b1) & E0 & E). injection E as <-. destruct (mintS_ok h p l u a q b0 b1 HP HA E0). auto.
  - apply bind_inv in E as (((q & b0) & b1) & E0 & E). injection E as <-. destruct (burnS_ok h p l u a q b0 b1 HP HA E0). auto.
  - apply bind_inv in E as (((q & b0) & b1) & E0 & E). injection E as <-. unfold CollectStrategy in E0. destruct (posGet _ _); [|discriminate]. injection E0 as <- _ _.
    cbn. auto.
  - unfold Flash in E. do 5 (apply bind_inv in E as (? & _ & E)). injection E as <-. cbn. auto.
  - apply bind_inv in E as (((q & b0) & b1) & E0 & E). injection E as <-. unfold ExactInputSwap in E0.
    assert (String.eqb t (Token0 p) = false) as Et by (now apply String.eqb_neq). rewrite Et in E0.
    destruct (swap_ok h p false a lim HP HA fuel q b0 b1 E0) as (_ & _ & _ & _ & _ & _ & _ & _ & _ & _ & H). exact H.
  - apply bind_inv in E as (((q & b0) & b1) & E0 & E). injection E as <-. unfold ExactOutputSwap in E0.
    assert (String.eqb t (Token1 p) = false) as Et by (now apply String.eqb_neq). rewrite Et in E0.
    destruct (swap_ok h p false a lim HP HA fuel q b0 b1 E0) as (_ & _ & _ & _ & _ & _ & _ & _ & _ & _ & H). exact H.
Qed.
