(** PoolLimit.v -- a price limit that a swap does not reach makes no difference. *)
From Coq Require Import ZifyBool String.
From Verif Require Import Base U256Z FullMathFacts SwapMath SwapMathFacts SwapStep TickMath TickMathFacts TickData TickDataFacts Ledger Pool PoolTable PoolInv PoolSwap PoolLoop PoolHist PoolOps PoolSpec.
Ltac Zify.zify_post_hook ::= idtac.
Open Scope Z_scope.

(** ** the amounts of a price move exist *)
Lemma first_words n k b : Q96 <= n -> 0 < k -> 0 < b < 2 ^ 160 -> words b <= words (n * k) + 1.
Proof.
  intros Hn Hk Hb. assert (Q96 * 1 <= n * k) as K by (apply Z.mul_le_mono_nonneg; unfold Q96 in *; lia). rewrite Z.mul_1_r in K.
  assert (words b <= 3) as K3 by (apply words_spec; [lia|lia|]; change (W ^ 3) with (2 ^ 192); lia).
  assert (words Q96 <= words (n * k)) as K2 by (apply words_mono; unfold Q96 in *; lia).
  change (words Q96) with 2 in K2. lia.
Qed.
Lemma first_returns a b l up : liqR l -> 0 < a <= b -> b < 2 ^ 160 -> exists x, (if up : bool then MulDivRoundingUp (l * Q96) (b - a) b else MulDiv (l * Q96) (b - a) b) = Ok x.
Proof.
  intros Hl Ha Hb. destruct (liq_n1 l Hl) as [En Hn]. pose proof (mul_lt_bound (l * Q96) a b Hn ltac:(lia)) as HB. unfold liqR in Hl.
  assert (l = 0 \/ a = b \/ (Q96 <= l * Q96 /\ a < b)) as [->|[->|[H1 H2]]].
  { destruct (Z.eq_dec l 0); [now left|right]. destruct (Z.eq_dec a b); [now left|right]. unfold Q96. lia. }
  - unfold MulDiv, MulDivRoundingUp. cbn [Z.mul Z.eqb orb]. destruct up; eauto.
  - unfold MulDiv, MulDivRoundingUp. rewrite Z.sub_diag. change (0 =? 0) with true. rewrite Bool.orb_true_r. destruct up; eauto.
  - pose proof (first_words (l * Q96) (b - a) b H1 ltac:(lia) ltac:(lia)). set (n := l * Q96) in *. clearbody n.
    assert (n * (b - a) < T256 * b) as HB2 by lia.
    destruct up; [apply MulDivRoundingUp_returns|apply MulDiv_returns]; try lia.
Qed.
Lemma amount0_down_returns a b l : liqR l -> 0 < a <= b -> b < 2 ^ 160 -> exists x, GetAmount0Delta a b l false = Ok x.
Proof.
  intros Hl Ha Hb. destruct (liq_n1 l Hl) as [En Hn]. unfold GetAmount0Delta. rewrite ordered_le by lia. cbv zeta. rewrite En, usub_small by lia.
  destruct (first_returns a b l false Hl Ha Hb) as (x & E). rewrite E. cbn [bind]. eauto.
Qed.
(** rounding up divides twice, and the second division may panic; it does not when it did not for a nearer price *)
Lemma amount0_up_far a a' b l y : liqR l -> 0 < a' <= a -> a < b -> b < 2 ^ 160 -> 0 < l -> GetAmount0Delta a b l true = Ok y ->
  exists x, GetAmount0Delta a' b l true = Ok x.
Proof.
  intros Hl Ha Hab Hb Hl0. destruct (liq_n1 l Hl) as [En Hn]. unfold GetAmount0Delta. rewrite !ordered_le by lia. cbv zeta. rewrite En, !usub_small by lia.
  destruct (first_returns a b l true Hl ltac:(lia) Hb) as (x & E). destruct (first_returns a' b l true Hl ltac:(lia) Hb) as (x' & E'). rewrite E, E'. cbn [bind].
  assert (0 < l * Q96) as Hn0 by (unfold Q96; lia). set (n := l * Q96) in *. clearbody n.
  pose proof (mul_lt_bound n a b Hn ltac:(lia)) as HB. pose proof (mul_lt_bound n a' b Hn ltac:(lia)) as HB'.
  apply MulDivRoundingUp_ceil in E as [[Q1 Q2] Qr]; [|lia|lia|lia|lia]. apply MulDivRoundingUp_ceil in E' as [[Q1' Q2'] Qr']; [|lia|lia|lia|lia].
  assert (n * (b - a) <= n * (b - a')) as K by (apply Z.mul_le_mono_nonneg_l; lia).
  assert (0 < n * (b - a)) as K0 by (apply Z.mul_pos_pos; lia).
  assert (x <= x') as Hxx. { apply Z.lt_succ_r. apply Z.mul_lt_mono_pos_r with b; [lia|]. unfold Z.succ. rewrite Z.mul_add_distr_r. lia. }
  assert (0 < x) as Hx. { apply Z.nle_gt. intros C. assert (x * b <= 0 * b) by (apply Z.mul_le_mono_nonneg_r; lia). lia. }
  intros E2. assert (words a <= words x + 1) as Hw.
  { unfold MulDivRoundingUp in E2. replace ((x =? 0) || (1 =? 0)) with false in E2 by lia. rewrite Z.mul_1_r in E2. destruct (udivrem5_ok x a) eqn:U; [|discriminate].
    unfold udivrem5_ok in U. lia. }
  apply MulDivRoundingUp_returns; try lia. left. rewrite Z.mul_1_r. pose proof (words_mono a' a ltac:(lia)). pose proof (words_mono x x' ltac:(lia)). lia.
Qed.
Lemma amount1_returns a b l up : liqR l -> 0 <= a <= b -> b < 2 ^ 160 -> exists x, GetAmount1Delta a b l up = Ok x.
Proof.
  intros Hl Ha Hb. destruct (liq_delta l (b - a) Hl ltac:(lia)) as [H _]. unfold GetAmount1Delta. rewrite ordered_le by lia. rewrite usub_small by lia.
  unfold liqR in Hl. unfold Q96 in *. destruct up; [apply MulDivRoundingUp_returns|apply MulDiv_returns]; lia.
Qed.

(** ** a farther target takes at least as much *)
Lemma ceil0_far l a a' b x x' : 0 <= l -> 0 < a' <= a -> a <= b -> ceil0 l a b x -> ceil0 l a' b x' -> x <= x'.
Proof.
  intros Hl Ha Hab H H'. apply (ceil0_le l a b x x' H); [lia|lia|]. unfold ceil0 in H'. assert (0 <= l * Q96) as Hn by (unfold Q96; lia). set (n := l * Q96) in *. clearbody n.
  (* n (b - a) a' <= n (b - a') a <= x' a' b a *)
  apply Z.mul_le_mono_pos_r with a'; [lia|]. assert (n * (b - a') * a <= x' * (a' * b) * a) as K by (apply Z.mul_le_mono_nonneg_r; lia).
  assert (0 <= n * b * (a - a')) as K2 by (apply Z.mul_nonneg_nonneg; [apply Z.mul_nonneg_nonneg; lia|lia]).
  replace (x' * (a * b) * a') with (x' * (a' * b) * a) by ring. replace (n * (b - a) * a') with (n * (b - a') * a - n * b * (a - a')) by ring. lia.
Qed.
Lemma ceil1_far l a b b' x x' : 0 <= l -> b <= b' -> ceil1 l a b x -> ceil1 l a b' x' -> x <= x'.
Proof.
  intros Hl Hb H H'. apply (ceil1_le l a b x x' H). unfold ceil1 in H'. assert (l * (b - a) <= l * (b' - a)) by (apply Z.mul_le_mono_nonneg_l; lia). lia.
Qed.
Lemma floor1_far l a a' b x x' : 0 <= l -> a' <= a -> floor1 l a b x -> floor1 l a' b x' -> x <= x'.
Proof.
  intros Hl Ha H H'. apply Z.nlt_ge. intros C. unfold floor1, Q96 in *. assert (l * (b - a) <= l * (b - a')) by (apply Z.mul_le_mono_nonneg_l; lia). lia.
Qed.
Lemma floor0_far l a b b' x x' : 0 <= l -> 0 < a -> a <= b <= b' -> floor0 l a b x -> floor0 l a b' x' -> x <= x'.
Proof.
  intros Hl Ha Hb H H'. apply Z.nlt_ge. intros C. unfold floor0 in *. assert (0 <= l * Q96) as Hn by (unfold Q96; lia). set (n := l * Q96) in *. clearbody n.
  assert (0 < a * b') as P' by (apply Z.mul_pos_pos; lia).
  assert ((x' + 1) * (a * b) <= x * (a * b)) as K by (apply Z.mul_le_mono_nonneg_r; [apply Z.mul_nonneg_nonneg|]; lia).
  (* n (b' - a) b < (x'+1) a b' b <= n (b - a) b' *)
  assert (n * (b' - a) * b < (x' + 1) * (a * b') * b) as K1 by (apply Z.mul_lt_mono_pos_r; lia).
  assert ((x' + 1) * (a * b) * b' <= n * (b - a) * b') as K2 by (apply Z.mul_le_mono_nonneg_r; lia).
  assert (0 <= n * a * (b' - b)) as K3 by (apply Z.mul_nonneg_nonneg; [apply Z.mul_nonneg_nonneg; lia|lia]).
  replace ((x' + 1) * (a * b) * b') with ((x' + 1) * (a * b') * b) in K2 by ring.
  replace (n * (b - a) * b') with (n * (b' - a) * b - n * a * (b' - b)) in K2 by ring. lia.
Qed.

(** ** one step *)
Lemma step_far P T T' l rem f st : priceR P -> priceR T -> priceR T' -> liqR l -> is_u256 rem -> 0 <= f <= MaxFee ->
  T' <= T < P \/ P < T <= T' -> ComputeSwapStep P T l rem f = Ok st -> stNext st <> T -> ComputeSwapStep P T' l rem f = Ok st.
Proof.
  intros HP HT HT' Hl Hrem Hf HD E HN. unfold is_u256 in Hrem. unfold ComputeSwapStep in *. cbv zeta in *.
  assert ((T' <=? P) = (T <=? P)) as Ez by lia. rewrite Ez. clear Ez. set (z := T <=? P) in *.
  rewrite usign_nonneg in * by lia. destruct (rem <? T255) eqn:Cr.
  - set (x := udiv (umul rem (usub MaxFee (f mod W))) MaxFee) in *.
    assert (0 <= x < T255) as Hx.
    { unfold x. rewrite (Z.mod_small f W) by (unfold MaxFee in Hf; lia). rewrite usub_fee by assumption. destruct (less_fee rem f ltac:(lia) Hf) as (_ & Hlr & Hlrem). lia. }
    clearbody x. apply bind_ok in E as (((nxt & ain0) & aout0) & E1 & E).
    apply bind_ok in E1 as (ain & Eain & E1). apply bind_ok in E1 as (next & Enext & E1). injection E1 as -> -> ->.
    destruct (ain0 <=? x) eqn:C.
    { injection Enext as ->. apply bind_ok in E as (? & _ & E). apply bind_ok in E as (? & _ & E). apply bind_ok in E as (? & _ & E). injection E as <-. cbn [stNext] in HN. congruence. }
    assert (exists ain', (if z then GetAmount0Delta T' P l true else GetAmount1Delta P T' l true) = Ok ain' /\ ain0 <= ain') as (ain' & Eain' & Hle).
    { unfold liqR, priceR in *. unfold z in *. destruct (T <=? P) eqn:Cz.
      - assert (0 < l) as Hl0. { destruct (Z.eq_dec l 0) as [->|]; [|lia]. apply amount0_up in Eain as [[Q1 Q2] _]; [|unfold liqR; lia|lia|lia]. nia. }
        destruct (amount0_up_far T T' P l ain0 Hl ltac:(lia) ltac:(lia) ltac:(lia) Hl0 Eain) as (y & Ey). exists y. split; [assumption|].
        apply amount0_up in Eain as [Q _]; [|assumption|lia|lia]. apply amount0_up in Ey as [Q' _]; [|assumption|lia|lia]. apply (ceil0_far l T T' P); try assumption; lia.
      - destruct (amount1_returns P T' l true Hl ltac:(lia) ltac:(lia)) as (y & Ey). exists y. split; [assumption|].
        apply amount1_up in Eain as [Q _]; [|assumption|lia|lia]. apply amount1_up in Ey as [Q' _]; [|assumption|lia|lia]. apply (ceil1_far l P T T'); try assumption; lia. }
    rewrite Eain'. cbn [bind]. replace (ain' <=? x) with false by lia. rewrite Enext. cbn [bind].
    assert (nxt <> T /\ nxt <> T') as [N1 N2].
    { apply in_amount in Eain as [Q _]; try assumption; [|unfold z; destruct (T <=? P) eqn:?; lia]. unfold in_ceil in Q. unfold z in *. destruct (T <=? P) eqn:Cz.
      - apply (input_down_target P T l x ain0) in Enext; try assumption; lia.
      - apply (input_up_target P T l x ain0) in Enext; try assumption; lia. }
    replace (T =? nxt) with false in E by lia. replace (T' =? nxt) with false by lia. replace (nxt =? T) with false in E by lia. replace (nxt =? T') with false by lia.
    exact E.
  - set (x := uneg rem) in *. assert (x = T256 - rem) as Hx by (unfold x; apply uneg_pos; lia). clearbody x.
    apply bind_ok in E as (((nxt & ain0) & aout0) & E1 & E).
    apply bind_ok in E1 as (aout & Eaout & E1). apply bind_ok in E1 as (next & Enext & E1). injection E1 as -> -> ->.
    assert (nxt <> T) as N1.
    { intros ->. apply bind_ok in E as (? & _ & E). apply bind_ok in E as (? & _ & E). apply bind_ok in E as (? & _ & E). injection E as <-. cbn [stNext] in HN. congruence. }
    destruct (aout0 <=? x) eqn:C; [congruence|].
    assert (exists aout', (if z then GetAmount1Delta T' P l false else GetAmount0Delta P T' l false) = Ok aout' /\ aout0 <= aout') as (aout' & Eaout' & Hle).
    { unfold liqR, priceR in *. unfold z in *. destruct (T <=? P) eqn:Cz.
      - destruct (amount1_returns T' P l false Hl ltac:(lia) ltac:(lia)) as (y & Ey). exists y. split; [assumption|].
        apply amount1_down in Eaout as [Q _]; [|assumption|lia|lia]. apply amount1_down in Ey as [Q' _]; [|assumption|lia|lia]. apply (floor1_far l T T' P); try assumption; lia.
      - destruct (amount0_down_returns P T' l Hl ltac:(lia) ltac:(lia)) as (y & Ey). exists y. split; [assumption|].
        apply amount0_down in Eaout as [Q _]; [|assumption|lia|lia]. apply amount0_down in Ey as [Q' _]; [|assumption|lia|lia]. apply (floor0_far l P T T'); try assumption; lia. }
    rewrite Eaout'. cbn [bind]. replace (aout' <=? x) with false by lia. rewrite Enext. cbn [bind].
    assert (nxt <> T') as N2.
    { apply out_amount in Eaout as [Q _]; try assumption; [|unfold z; destruct (T <=? P) eqn:?; lia]. unfold out_floor in Q. unfold z in *. destruct (T <=? P) eqn:Cz.
      - apply (output_down_target P T l x aout0) in Enext; try assumption; lia.
      - apply (output_up_target P T l x aout0) in Enext; try assumption; lia. }
    replace (T =? nxt) with false in E by lia. replace (T' =? nxt) with false by lia. replace (nxt =? T) with false in E by lia. replace (nxt =? T') with false by lia.
    exact E.
Qed.

(** ** one round, the loop and the swap *)
(** [limit'] is at or beyond [limit] in the direction of the swap *)
Definition beyond (z : bool) (limit limit' : Z) : Prop := if z then limit' <= limit else limit <= limit'.

Section Far.
Variables (h : hist) (sp : Z) (z ex : bool) (L L' fee other : Z).
Hypothesis HH : histOK sp h.
Hypothesis Hsp : 0 < sp.
Hypothesis Hfee : 0 <= fee < MaxFee.
Hypothesis HL : limitOK z L.
Hypothesis HL' : limitOK z L'.
Hypothesis HB : beyond z L L'.

Lemma round_far s s' : loopOK h sp z ex L s -> sRemaining s <> 0 -> sPrice s <> L -> swapRound z ex L fee other s = Ok s' -> sPrice s' <> L ->
  swapRound z ex L' fee other s = Ok s'.
Proof.
  intros HO Hr Hp E HN. destruct (round_ok h sp z ex L fee other s s' HH Hsp Hfee HL HO Hr Hp E) as (k0 & st0 & RF).
  pose proof HO as (HT & EL & HP & HG & HR & Hside). unfold swapRound in *.
  apply bind_inv in E as ((n & b) & En & E). rewrite En. cbn [bind].
  pose proof (search_facts h sp z (sData s) (sTick s) n b HH HT Hsp (proj1 HP) En) as [HS _]. set (k := clampTick n) in *. clearbody k.
  destruct HS as [Hk _]. rewrite rat_ok in * by assumption. cbn [bind] in *.
  assert (forall l, (if z then if rat k <? l then l else rat k else if l <? rat k then l else rat k) = targetOf z l (rat k)) as ET.
  { intros l. unfold targetOf. destruct z; [destruct (rat k <? l) eqn:?|destruct (l <? rat k) eqn:?]; lia. }
  rewrite ET in *. clear ET. apply bind_inv in E as (st & Est & E).
  assert (stNext st = sPrice s') as EN.
  { cbv zeta in E. apply bind_inv in E as (g & Eg & E). destruct (stNext st =? rat k).
    - apply bind_inv in E as ((d & l) & _ & E). injection E as <-. reflexivity.
    - destruct (negb _); [apply bind_inv in E as (t & _ & E)|]; injection E as <-; reflexivity. }
  pose proof (active_range _ _ (sTick s) HH) as Hliq. rewrite <- EL in Hliq. pose proof (price_bounds _ _ HP) as HPb. pose proof (rat_range k Hk) as Hkb.
  assert (ComputeSwapStep (sPrice s) (targetOf z L' (rat k)) (sLiquidity s) (sRemaining s) fee = Ok st) as Est'.
  { destruct (Z.eq_dec (targetOf z L' (rat k)) (targetOf z L (rat k))) as [->|D]; [assumption|].
    assert (MinSqrtRatio <= targetOf z L (rat k) <= MaxSqrtRatio /\ MinSqrtRatio <= targetOf z L' (rat k) <= MaxSqrtRatio /\ targetOf z L (rat k) = L /\
      (targetOf z L' (rat k) <= targetOf z L (rat k) < sPrice s \/ sPrice s < targetOf z L (rat k) <= targetOf z L' (rat k))) as (B1 & B2 & B3 & B4).
    { unfold targetOf, side, limitOK, beyond in *. destruct z; lia. }
    apply (step_far (sPrice s) (targetOf z L (rat k)) (targetOf z L' (rat k)) (sLiquidity s) (sRemaining s) fee st); try assumption;
      [apply price_R; lia|apply price_R; lia|apply price_R; lia|unfold liqR; lia|unfold remOK in HR; unfold is_u256; destruct ex; lia|lia|congruence]. }
  rewrite Est'. cbn [bind]. exact E.
Qed.

Lemma loop_far n : forall s s', loopOK h sp z ex L s -> sPrice s <> L -> swapLoop n z ex L fee other s = Ok s' -> sPrice s' <> L ->
  swapLoop n z ex L' fee other s = Ok s'.
Proof.
  assert (forall s, loopOK h sp z ex L s -> sPrice s <> L -> running L' s = running L s) as HR.
  { intros s (_ & _ & _ & _ & _ & Hside) Hp. unfold running, side, beyond in *. destruct z; lia. }
  induction n as [|n IH]; intros s s' HO Hp E HN; rewrite loop_eq in *; rewrite HR by assumption; destruct (running L s) eqn:R; try assumption.
  apply bind_inv in E as (s1 & E1 & E). assert (sRemaining s <> 0) as Hr by (unfold running in R; lia).
  destruct (round_ok h sp z ex L fee other s s1 HH Hsp Hfee HL HO Hr Hp E1) as (k & st & RF).
  assert (sPrice s1 <> L) as Hp1.
  { intros C. rewrite loop_eq in E. replace (running L s1) with false in E by (unfold running; lia). congruence. }
  rewrite (round_far s s1) by assumption. cbn [bind]. apply IH; try assumption. apply RF.
Qed.
End Far.

(** ** a limit that is not reached does not matter *)
Theorem swap_far h n p z amt lim lim' p' a0 a1 : poolOK h p -> is_u256 amt -> swap n p z amt lim = Ok (p', a0, a1) ->
  SqrtRatio p' <> effectiveLimit z lim -> beyond z (effectiveLimit z lim) (effectiveLimit z lim') -> limitOK z (effectiveLimit z lim') ->
  swap n p z amt lim' = Ok (p', a0, a1).
Proof.
  intros HP Ha E HN HB HL'. pose proof E as E0. apply (swap_ok_inv h) in E0 as (HS & Hsp & Hfee & s & Es & -> & EA); [|assumption|assumption].
  destruct (start_ok h p z amt lim HP Ha HS) as (HO & Hl & R).
  assert (swapStarts p z amt lim') as HS' by (destruct HS as [S1 S2]; split; [assumption|]; unfold beyond, limitOK in *; destruct z; lia).
  rewrite swap_eq in E by assumption. rewrite swap_eq by assumption. rewrite Es in E. cbn [bind] in E.
  rewrite (loop_far h (TickSpacing p) z (amt <? T255) (effectiveLimit z lim) (effectiveLimit z lim') (Fee p) (otherGrowth p z) (proj1 HP) Hsp Hfee Hl HL' HB n (startState p z amt) s HO); try assumption.
  destruct HS as [S1 S2]. cbn [startState sPrice]. destruct z; lia.
Qed.

Lemma limit_unreached h p fuel z amt lim lim' p' a0 a1 : reach h p -> 0 <= amt < 2 ^ 256 -> swap fuel p z amt lim = Ok (p', a0, a1) ->
  let limit x := if x =? 0 then (if z then 4295128740 else 1461446703485210103287273052203988822378723970341) else x in
  SqrtRatio p' <> limit lim -> (if z then 4295128739 < limit lim' <= limit lim else limit lim <= limit lim' < 1461446703485210103287273052203988822378723970342) ->
  swap fuel p z amt lim' = Ok (p', a0, a1).
Proof.
  intros R Ha E limit HN HB. apply reach_ok in R. assert (forall x, effectiveLimit z x = limit x) as EL by (intros x; unfold effectiveLimit, limit; destruct (x =? 0), z; reflexivity).
  clearbody limit. apply (swap_far h fuel p z amt lim lim' p' a0 a1 R Ha E); rewrite ?EL; [assumption| |]; unfold beyond, limitOK; change MinSqrtRatio with 4295128739;
    change MaxSqrtRatio with 1461446703485210103287273052203988822378723970342; destruct z; lia.
Qed.
Lemma no_limit h p fuel z amt lim p' a0 a1 : reach h p -> 0 <= amt < 2 ^ 256 -> swap fuel p z amt lim = Ok (p', a0, a1) ->
  SqrtRatio p' <> lim -> swap fuel p z amt 0 = Ok (p', a0, a1).
Proof.
  intros R Ha E HN. destruct (Z.eq_dec lim 0) as [->|N]; [assumption|]. apply reach_ok in R as HP.
  assert (swapStarts p z amt lim) as [_ HS] by (eapply swap_ok_inv in E as (S & _); eassumption).
  unfold effectiveLimit in HS. replace (lim =? 0) with false in HS by lia.
  change MinSqrtRatio with 4295128739 in HS; change MaxSqrtRatio with 1461446703485210103287273052203988822378723970342 in HS.
  apply (limit_unreached h p fuel z amt lim 0 p' a0 a1 R Ha E); cbv zeta; replace (lim =? 0) with false by lia; [assumption|]. change (0 =? 0) with true. cbv iota. destruct z; lia.
Qed.
Lemma limit_matters : exists p' a0 a1, swap 20 good2 false (2 * 10 ^ 16) (SqrtRatio good2 + 1) = Ok (p', a0, a1) /\ swap 20 good2 false (2 * 10 ^ 16) 0 <> Ok (p', a0, a1).
Proof. do 3 eexists. split; [vm_compute; reflexivity|]. vm_compute. discriminate. Qed.
