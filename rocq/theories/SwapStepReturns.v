(** SwapStepReturns.v -- ComputeSwapStep does not panic on ordinary values: prices below 2^128, liquidity and
    amount below 2^128. *)
From Verif Require Import Base U256Z FullMathFacts SwapMath SwapMathFacts SwapStep.
From Coq Require Import ZifyBool.
Ltac Zify.zify_post_hook ::= idtac.

Lemma words_ge v k : 0 <= v -> 0 <= k -> W ^ k <= v -> k < words v.
Proof. intros. apply Z.nle_gt. intros C. apply words_spec in C; lia. Qed.

Lemma amount0_returns a b l u : 0 < a <= b -> b < W2 -> exists x, GetAmount0Delta a b l u = Ok x.
Proof.
  intros Ha Hb. unfold GetAmount0Delta. rewrite ordered_le by lia. rewrite usub_small by lia.
  pose proof (ulsh_range l 96) as Hn. set (n1 := ulsh l 96) in *. clearbody n1.
  pose proof (mul_lt_bound n1 a b Hn Ha). destruct u.
  - destruct (MulDivRoundingUp_returns n1 (b - a) b) as [x E]; [lia..|]. rewrite E. cbn [bind].
    pose proof (MulDivRoundingUp_range _ _ _ _ E). apply MulDivRoundingUp_returns; lia.
  - destruct (MulDiv_returns n1 (b - a) b) as [x E]; [lia..|]. rewrite E. cbn [bind]. eauto.
Qed.
Lemma amount1_returns a b l u : liqR l -> 0 <= a <= b -> b < 2 ^ 160 -> exists x, GetAmount1Delta a b l u = Ok x.
Proof.
  intros Hl Ha Hb. unfold GetAmount1Delta. rewrite ordered_le by lia. rewrite usub_small by lia.
  destruct (liq_delta l (b - a) Hl ltac:(lia)) as [H _]. unfold liqR in Hl.
  destruct u; [apply MulDivRoundingUp_returns|apply MulDiv_returns]; unfold Q96 in *; lia.
Qed.

Definition priceS (x : Z) : Prop := 2 ^ 32 <= x < 2 ^ 128.
Lemma priceS_R x : priceS x -> priceR x. Proof. unfold priceS, priceR. lia. Qed.

Lemma guard_ok P : 0 < P < T255 -> invariant (usign P =? 1) = Ok tt.
Proof. intros. unfold usign. replace (P =? 0) with false by lia. replace (P <? T255) with true by lia. reflexivity. Qed.

Lemma input_returns P l x (z : bool) : priceS P -> 0 < l < 2 ^ 128 -> 0 <= x < 2 ^ 128 ->
  exists r, GetNextSqrtPriceFromInput P l x z = Ok r.
Proof.
  unfold priceS. intros HP Hl Hx. unfold GetNextSqrtPriceFromInput. rewrite !guard_ok by lia. cbn [bind].
  destruct z; [|unfold getNextSqrtPriceFromAmount1RoundingDown; eauto].
  unfold getNextSqrtPriceFromAmount0RoundingUp. destruct (x =? 0) eqn:E0; [eauto|].
  destruct (liq_n1 l ltac:(unfold liqR; lia)) as [En Hn]. rewrite En. cbv zeta.
  assert (Hn1 : 2 ^ 96 <= l * Q96 < 2 ^ 224) by (unfold Q96; lia). set (n := l * Q96) in *. clearbody n.
  rewrite multiplyIn256_eq, addIn256_eq. destruct (_ && _) eqn:Ec.
  - pose proof (umul_range x P) as Hm. pose proof (uadd_range n (umul x P)) as Hd.
    apply andb_true_iff in Ec as [_ Ec]. set (d := uadd n (umul x P)) in *. clearbody d.
    assert (Hnp : 2 ^ 96 * 2 ^ 32 <= n * P) by (apply Z.mul_le_mono_nonneg; lia).
    apply MulDivRoundingUp_returns; try lia.
    + assert (n * P <= d * P) by (apply Z.mul_le_mono_nonneg_r; lia).
      assert (d * P < d * T256) by (apply Z.mul_lt_mono_pos_l; lia). lia.
    + left. assert (words d <= 4) by (apply words_spec; try lia; change (W ^ 4) with T256; lia).
      assert (2 < words (n * P)) by (apply words_ge; try lia; change (W ^ 2) with W2; lia). lia.
  - assert (Hq : 0 <= udiv n P <= n / 2 ^ 32).
    { unfold udiv. replace (P =? 0) with false by lia. split; [apply Z.div_pos; lia|].
      apply Z.div_le_compat_l; lia. }
    assert (n / 2 ^ 32 < 2 ^ 192) by (apply Z.div_lt_upper_bound; lia).
    assert (Hq2 : n < 2 ^ 128 -> n / 2 ^ 32 < 2 ^ 96) by (intros; apply Z.div_lt_upper_bound; lia).
    set (q := udiv n P) in *. set (q' := n / 2 ^ 32) in *. clearbody q q'.
    rewrite uadd_small by lia. rewrite Z.eqb_neq in E0.
    apply MulDivRoundingUp_returns; try lia.
    left. rewrite Z.mul_1_r. destruct (Z.lt_ge_cases n (2 ^ 128)) as [C|C].
    + specialize (Hq2 C). assert (words (q + x) <= 3) by (apply words_spec; try lia; change (W ^ 3) with W3; lia).
      assert (1 < words n) by (apply words_ge; try lia; change (W ^ 1) with W; lia). lia.
    + assert (words (q + x) <= 4) by (apply words_spec; try lia; change (W ^ 4) with W4; lia).
      assert (2 < words n) by (apply words_ge; try lia; change (W ^ 2) with W2; lia). lia.
Qed.

Lemma output_returns P T l x y (z : bool) : priceS P -> priceS T -> 0 < l < 2 ^ 128 -> 0 < x <= 2 ^ 128 ->
  (if z then T <= P else P <= T) -> out_floor z l P T y -> x < y ->
  exists r, GetNextSqrtPriceFromOutput P l x z = Ok r.
Proof.
  unfold priceS. intros HP HT Hl Hx Hz Hf Hxy. unfold GetNextSqrtPriceFromOutput. rewrite !guard_ok by lia. cbn [bind].
  destruct (liq_n1 l ltac:(unfold liqR; lia)) as [En Hn].
  destruct z.
  - unfold getNextSqrtPriceFromAmount1RoundingDown.
    destruct (MulDivRoundingUp_returns x Q96 l) as [q E]; [lia|unfold Q96; lia|lia| | |].
    + assert (T256 * 1 <= T256 * l) by (apply Z.mul_le_mono_nonneg_l; lia). unfold Q96. lia.
    + right. left. lia.
    + rewrite E. cbn [bind]. eauto.
  - unfold getNextSqrtPriceFromAmount0RoundingUp. replace (x =? 0) with false by lia. rewrite En. cbv zeta.
    rewrite multiplyIn256_eq. unfold out_floor in Hf.
    pose proof (floor0_lt l P T y x Hf ltac:(lia) ltac:(lia) Hxy) as B.
    assert (HPT : 0 < P * T) by (apply Z.mul_pos_pos; lia).
    assert (Hlt : x * P < l * Q96).
    { apply Z.nle_gt. intros C. assert (l * Q96 * T <= x * P * T) by (apply Z.mul_le_mono_nonneg_r; lia).
      assert (0 <= l * Q96 * P) by (apply Z.mul_nonneg_nonneg; lia). lia. }
    assert (Hb : l * Q96 * P <= T * (l * Q96 - x * P)) by lia.
    assert (0 < x * P) by (apply Z.mul_pos_pos; lia).
    rewrite umul_small by lia. set (n := l * Q96) in *. set (xp := x * P) in *. clearbody n xp.
    rewrite usub_small by lia.
    assert (T * (n - xp) < T256 * (n - xp)) by (apply Z.mul_lt_mono_pos_r; lia).
    apply MulDivRoundingUp_returns; try lia.
    right. right. assert (n * 1 <= n * P) by (apply Z.mul_le_mono_nonneg_l; lia). lia.
Qed.

(** ComputeSwapStep returns *)
Lemma step_returns P T l rem f : priceS P -> priceS T -> 0 <= l < 2 ^ 128 -> 0 <= f < MaxFee ->
  0 <= rem < 2 ^ 128 \/ T256 - 2 ^ 128 <= rem < T256 ->
  exists s, ComputeSwapStep P T l rem f = Ok s.
Proof.
  intros HP HT Hl Hf Hrem. unfold ComputeSwapStep. cbv zeta.
  set (z := T <=? P). assert (Hz : if z then T <= P else P <= T) by (unfold z; destruct (T <=? P) eqn:?; lia).
  assert (HlR : liqR l) by (unfold liqR; lia).
  rewrite usign_nonneg by lia. rewrite (Z.mod_small f W) by (unfold MaxFee in Hf; lia). rewrite usub_fee by lia.
  assert (Rin : forall r, priceS r -> (if z then r <= P else P <= r) ->
     exists x, (if z then GetAmount0Delta r P l true else GetAmount1Delta P r l true) = Ok x).
  { unfold priceS in *. intros r Hr Hd. destruct z; [apply amount0_returns; lia|apply amount1_returns; [assumption|lia..]]. }
  assert (Rout : forall r, priceS r -> (if z then r <= P else P <= r) ->
     exists x, (if z then GetAmount1Delta r P l false else GetAmount0Delta P r l false) = Ok x).
  { unfold priceS in *. intros r Hr Hd. destruct z; [apply amount1_returns; [assumption|lia..]|apply amount0_returns; lia]. }
  assert (Rfee : forall ain r, priceS r -> (if z then r <= P else P <= r) -> in_ceil z l P r ain -> 0 <= ain < T256 ->
     exists x, MulDivRoundingUp ain f (MaxFee - f) = Ok x).
  { intros ain r Hr Hd Hc Hra. pose proof (in_bound z l P r ain (priceS_R _ HP) (priceS_R _ Hr) Hd HlR ltac:(lia) Hc).
    unfold MaxFee in *. apply MulDivRoundingUp_returns; try lia.
    assert (ain * f <= 2 ^ 225 * 1000000) by (apply Z.mul_le_mono_nonneg; lia).
    assert (T256 * 1 <= T256 * (1000000 - f)) by (apply Z.mul_le_mono_nonneg_l; lia). lia. }
  assert (Hto : forall r, toward P T r -> priceS r /\ (if z then r <= P else P <= r)).
  { unfold toward. fold z. unfold priceS in *. intros r. destruct z; lia. }
  destruct (rem <? T255) eqn:Es.
  - assert (Hrem' : 0 <= rem < 2 ^ 128) by lia. clear Hrem.
    destruct (less_fee rem f ltac:(lia) ltac:(lia)) as (Hlf & Hlr & Hlrem).
    set (x := udiv (umul rem (MaxFee - f)) MaxFee) in *. clearbody x.
    destruct (Rin T HT Hz) as [ain Eain]. rewrite Eain. cbn [bind].
    apply in_amount in Eain as [Hain Hra]; [|assumption|now apply priceS_R|now apply priceS_R|assumption].
    assert (HN : exists next, (if ain <=? x then Ok T else GetNextSqrtPriceFromInput P l x z) = Ok next /\ toward P T next).
    { destruct (ain <=? x) eqn:C.
      - exists T. split; [reflexivity|]. unfold toward. fold z. destruct z; lia.
      - destruct (Z.eq_dec l 0) as [El|El].
        { exfalso. subst l. unfold in_ceil, ceil0, ceil1, priceS, Q96 in *. destruct z; [|lia].
          assert (0 < T * P) by (apply Z.mul_pos_pos; lia). assert (ain * (T * P) < 1 * (T * P)) by lia.
          apply Z.mul_lt_mono_pos_r in H0; lia. }
        destruct (input_returns P l x z HP ltac:(lia) ltac:(lia)) as [r Er]. exists r. split; [assumption|].
        unfold toward. fold z. unfold in_ceil in Hain. destruct z.
        + eapply (input_down_target P T l x ain) in Er as [N1 N2]; try assumption; try (now apply priceS_R); lia.
        + eapply (input_up_target P T l x ain) in Er as [N1 N2]; try assumption; try (now apply priceS_R); lia. }
    destruct HN as (next & En & Hn). rewrite En. cbn [bind]. destruct (Hto next Hn) as [Hns Hnd].
    destruct (Rin next Hns Hnd) as [ain' Eain']. destruct (Rout next Hns Hnd) as [aout' Eaout'].
    rewrite Eain', Eaout'. cbn [negb andb]. rewrite andb_false_r, andb_true_r.
    destruct (T =? next) eqn:C.
    + cbn [bind]. replace (next =? T) with true by lia. cbn [negb].
      destruct (Rfee ain T HT Hz Hain Hra) as [fee Ef]. rewrite Ef. cbn [bind]. eauto.
    + cbn [bind]. replace (next =? T) with false by lia. cbn [negb bind]. eauto.
  - assert (Hrem' : T256 - 2 ^ 128 <= rem < T256) by lia. clear Hrem.
    rewrite uneg_pos by lia. assert (Hw : 0 < T256 - rem <= 2 ^ 128) by lia. set (want := T256 - rem) in *. clearbody want.
    destruct (Rout T HT Hz) as [aout Eaout]. rewrite Eaout. cbn [bind].
    apply out_amount in Eaout as [Haout Hra]; [|assumption|now apply priceS_R|now apply priceS_R|assumption].
    assert (HN : exists next, (if aout <=? want then Ok T else GetNextSqrtPriceFromOutput P l want z) = Ok next /\ toward P T next).
    { destruct (aout <=? want) eqn:C.
      - exists T. split; [reflexivity|]. unfold toward. fold z. destruct z; lia.
      - destruct (Z.eq_dec l 0) as [El|El].
        { exfalso. subst l. unfold out_floor, floor0, floor1, priceS, Q96 in *. destruct z; [lia|].
          assert (0 < P * T) by (apply Z.mul_pos_pos; lia). assert (0 < aout * (P * T)) by (apply Z.mul_pos_pos; lia). lia. }
        destruct (output_returns P T l want aout z HP HT ltac:(lia) ltac:(lia) Hz Haout ltac:(lia)) as [r Er].
        exists r. split; [assumption|].
        unfold toward. fold z. unfold out_floor in Haout. destruct z.
        + eapply (output_down_target P T l want aout) in Er as [N1 N2]; try assumption; try (now apply priceS_R); lia.
        + eapply (output_up_target P T l want aout) in Er as [N1 N2]; try assumption; try (now apply priceS_R); lia. }
    destruct HN as (next & En & Hn). rewrite En. cbn [bind]. destruct (Hto next Hn) as [Hns Hnd].
    destruct (Rin next Hns Hnd) as [ain' Eain']. destruct (Rout next Hns Hnd) as [aout' Eaout'].
    rewrite Eain', Eaout'. cbn [negb andb]. rewrite andb_false_r, andb_true_r. cbn [bind].
    apply in_amount in Eain' as [Hain' Hra']; [|assumption|now apply priceS_R|now apply priceS_R|assumption].
    destruct (Rfee ain' next Hns Hnd Hain' Hra') as [fee Ef].
    destruct (T =? next); cbn [bind]; rewrite Ef; cbn [bind]; eauto.
Qed.

Lemma step_panics_witness : exists P T l rem f, 2 ^ 32 <= P < 2 ^ 160 /\ 2 ^ 32 <= T < 2 ^ 160 /\
  0 < l < 2 ^ 128 /\ 0 <= f < 1000000 /\ 0 < rem < 2 ^ 128 /\ ComputeSwapStep P T l rem f = Panic.
Proof.
  exists (2 ^ 128 + 1), (2 ^ 128), 1, 1000, 3000. repeat (split; [lia|]). vm_compute. reflexivity.
Qed.

Lemma step_fee_least P T l rem f s : 2 ^ 32 <= P < 2 ^ 160 -> 2 ^ 32 <= T < 2 ^ 160 -> 0 <= l < 2 ^ 160 ->
  0 <= rem < T256 -> 0 <= f < 1000000 -> ComputeSwapStep P T l rem f = Ok s ->
  stIn s * f <= stFee s * (1000000 - f) /\
  (stNext s = T \/ T255 <= rem -> forall g, stIn s * f <= g * (1000000 - f) -> stFee s <= g).
Proof.
  intros HP HT Hl Hr Hf E.
  assert (K : stIn s * f <= stFee s * (1000000 - f) /\
    (stNext s = T \/ T255 <= rem -> stFee s * (1000000 - f) < stIn s * f + (1000000 - f))).
  { destruct (Z_lt_le_dec rem T255) as [C|C].
    - apply step_exactin in E; try assumption; [|lia|unfold MaxFee; lia]. cbv zeta in E.
      destruct E as (_ & _ & _ & _ & _ & _ & _ & H1 & H2 & _). unfold MaxFee in *. split; [lia|]. intros [H|H]; [apply H2; lia|lia].
    - apply step_exactout in E; try assumption; [|lia]. cbv zeta in E.
      destruct E as (_ & _ & _ & _ & _ & H1 & _). unfold MaxFee in *. lia. }
  destruct K as [K1 K2]. split; [assumption|]. intros H g Hg. specialize (K2 H).
  apply Z.nlt_ge. intros C. assert ((g + 1) * (1000000 - f) <= stFee s * (1000000 - f)) by (apply Z.mul_le_mono_nonneg_r; lia). lia.
Qed.
