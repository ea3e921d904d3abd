(** DecimalFacts.v -- decimal amounts round-trip (C54), IntPow is the wrapped power (C55). *)
From Coq Require Import String.
From Verif Require Import Base U256 U256Facts U256Conv U256ConvFacts U256HexFacts Prices Decimal.
From Coq Require Import ZifyBool.
Ltac Zify.zify_post_hook ::= idtac.
Open Scope Z_scope.

Lemma decParse_app a b acc acc' : decParse acc a = Some acc' -> decParse acc (a ++ b) = decParse acc' b.
Proof.
  revert acc. induction a as [|c a IH]; intros acc H; cbn [decParse app] in *; [injection H as ->; reflexivity|].
  destruct ((48 <=? c) && (c <=? 57)); [auto|discriminate].
Qed.

(** printing in front of [acc] then reading: the value, then [acc] *)
Lemma decLoop_spec fuel v acc : 0 <= v -> v < 10 ^ Z.of_nat fuel -> (0 < fuel)%nat ->
  exists ds, decLoop fuel v acc = ds ++ acc /\ ds <> [] /\ decParse 0 ds = Some v /\
    Forall (fun c => 48 <= c <= 57) ds /\ (v <> 0 -> hd 0 ds <> 48) /\ (v = 0 -> ds = [48]).
Proof.
  revert v acc. induction fuel as [|f IH]; intros v acc H0 H1 Hf; [lia|].
  cbn [decLoop]. pose proof (Z.div_mod v 10 ltac:(lia)) as D. pose proof (Z.mod_pos_bound v 10 ltac:(lia)) as M.
  destruct (v <? 10) eqn:E.
  - assert (V : v mod 10 = v) by (apply Z.mod_small; lia).
    exists [48 + v mod 10]. rewrite V. cbn [app decParse hd].
    split; [reflexivity|]. split; [discriminate|]. split; [|split; [|split]].
    + destruct ((48 <=? 48 + v) && (48 + v <=? 57)) eqn:C; [f_equal; lia|lia].
    + constructor; [lia|constructor].
    + lia.
    + intros ->. reflexivity.
  - rewrite Nat2Z.inj_succ, Z.pow_succ_r in H1 by lia.
    assert (Hd : v / 10 < 10 ^ Z.of_nat f) by (apply Z.div_lt_upper_bound; lia).
    assert (Hp : 0 < v / 10) by (apply Z.div_str_pos; lia).
    assert (Hf' : (0 < f)%nat) by (destruct f; [cbn in Hd; lia|lia]).
    destruct (IH (v / 10) (48 + v mod 10 :: acc) ltac:(lia) Hd Hf') as (ds & E1 & E2 & E3 & E4 & E5 & E6).
    exists (ds ++ [48 + v mod 10]). rewrite E1, <- app_assoc. split; [reflexivity|].
    split; [destruct ds; discriminate|]. split; [|split; [|split]].
    + rewrite (decParse_app _ _ _ _ E3). cbn [decParse].
      destruct ((48 <=? 48 + v mod 10) && (48 + v mod 10 <=? 57)) eqn:C; [f_equal; lia|lia].
    + apply Forall_app. split; [exact E4|]. constructor; [lia|constructor].
    + intros _. destruct ds as [|c ds]; [now destruct E2|]. cbn [hd app] in *. apply E5. lia.
    + lia.
Qed.

Lemma log2_fuel v : 0 <= v -> v < 10 ^ Z.of_nat (Z.to_nat (Z.log2 v) + 1).
Proof.
  intros H. rewrite Nat2Z.inj_add, Z2Nat.id by apply Z.log2_nonneg. change (Z.of_nat 1) with 1.
  destruct (Z.eq_dec v 0) as [->|N]; [reflexivity|].
  pose proof (Z.log2_spec v ltac:(lia)) as [_ L]. pose proof (Z.log2_nonneg v).
  apply Z.lt_le_trans with (2 ^ Z.succ (Z.log2 v)); [exact L|]. apply Z.pow_le_mono_l. lia.
Qed.

Lemma decDigits_spec v : 0 <= v -> decDigits v <> [] /\ decParse 0 (decDigits v) = Some v /\
  Forall (fun c => 48 <= c <= 57) (decDigits v) /\ (v <> 0 -> hd 0 (decDigits v) <> 48) /\ (v = 0 -> decDigits v = [48]).
Proof.
  intros H. unfold decDigits. destruct (decLoop_spec _ v [] H (log2_fuel v H) ltac:(lia)) as (ds & E & R).
  rewrite E, app_nil_r. exact R.
Qed.

Lemma bigString_round v : bigSetString (bigString v) = Some v.
Proof.
  unfold bigString. destruct (v <? 0) eqn:E.
  - destruct (decDigits_spec (- v) ltac:(lia)) as (N & P & _). cbn [bigSetString Z.eqb Pos.eqb].
    unfold decNumber. destruct (decDigits (- v)) as [|c r]; [now destruct N|]. rewrite P. cbn [option_map]. f_equal. lia.
  - destruct (decDigits_spec v ltac:(lia)) as (N & P & F & _). unfold bigSetString, decNumber.
    destruct (decDigits v) as [|c r]; [now destruct N|]. inversion F as [|? ? Hc _]; subst.
    destruct (c =? 43) eqn:E1; [lia|]. destruct (c =? 45) eqn:E2; [lia|]. exact P.
Qed.

Lemma amount_round z : wf z -> amountString (Some z) = Ok (bigString (sgn256 (toZ z))) /\
  stringToUint256 (bigString (sgn256 (toZ z))) = Some z.
Proof.
  intros Hz. cbn [amountString]. rewrite SToBig_spec by assumption. split; [reflexivity|].
  unfold stringToUint256. rewrite bigString_round. rewrite <- SToBig_spec by assumption.
  rewrite FromBig_SToBig by assumption. reflexivity.
Qed.

Lemma stringToUint256_value s b : bigSetString s = Some b ->
  exists z, stringToUint256 s = Some z /\ wf z /\ toZ z = b mod T256.
Proof.
  intros E. unfold stringToUint256. rewrite E. eexists. split; [reflexivity|].
  destruct (FromBig_spec b) as (H1 & H2 & _). auto.
Qed.

Lemma ParseBool_round b : ParseBool (FormatBool b) = b.
Proof. destruct b; reflexivity. Qed.

Definition some_wf (z : option Int) : Prop := match z with Some z => wf z | None => False end.

Lemma amount_opt z : some_wf z -> exists s, amountString z = Ok s /\ stringToUint256 s = z.
Proof. destruct z as [z|]; [|intros []]. cbn [some_wf]. intros Hz. destruct (amount_round z Hz). eauto. Qed.

Lemma swap_round t : tType t = "Swap"%string -> some_wf (tAmount0 t) -> some_wf (tAmount1 t) -> some_wf (tSqrtPriceX96 t) ->
  exists i, MarshalJSON t = Ok i /\
   readTransaction i = mkTrans (tType t) None (tAmount0 t) (tAmount1 t) (tID t) (tSqrtPriceX96 t) (tTick t) 0 0
      (tTimestamp t) (tUseX96 t).
Proof.
  intros T H0 H1 H2. unfold MarshalJSON. rewrite T. cbn [String.eqb Ascii.eqb Bool.eqb].
  destruct (amount_opt _ H0) as (s0 & -> & R0). destruct (amount_opt _ H1) as (s1 & -> & R1).
  destruct (amount_opt _ H2) as (s2 & -> & R2). cbn [bind]. eexists. split; [reflexivity|].
  unfold readTransaction. cbn [inType inAmount inAmount0 inAmount1 inID inSqrtPriceX96 inTick inTickLower inTickUpper inTimestamp inUseX96].
  rewrite R0, R1, R2, ParseBool_round. reflexivity.
Qed.

Lemma mint_burn_round t : tType t = "Mint"%string \/ tType t = "Burn"%string ->
  some_wf (tAmount t) -> some_wf (tAmount0 t) -> some_wf (tAmount1 t) ->
  exists i, MarshalJSON t = Ok i /\
   readTransaction i = mkTrans (tType t) (tAmount t) (tAmount0 t) (tAmount1 t) (tID t) None 0 (tTickLower t) (tTickUpper t)
      (tTimestamp t) false.
Proof.
  intros T H H0 H1.
  assert (E : MarshalJSON t = (do a <- amountString (tAmount t); do a1 <- amountString (tAmount1 t);
     do a0 <- amountString (tAmount0 t);
     Ok (mkTxIn (tType t) (tID t) (tTimestamp t) a0 a1 a [] 0 (tTickLower t) (tTickUpper t) ""%string)))
    by (unfold MarshalJSON; destruct T as [T|T]; rewrite T; reflexivity).
  rewrite E. destruct (amount_opt _ H) as (s & -> & R).
  destruct (amount_opt _ H0) as (s0 & -> & R0). destruct (amount_opt _ H1) as (s1 & -> & R1). cbn [bind]. eexists. split; [reflexivity|].
  unfold readTransaction. cbn [inType inAmount inAmount0 inAmount1 inID inSqrtPriceX96 inTick inTickLower inTickUpper inTimestamp inUseX96].
  rewrite R, R0, R1. reflexivity.
Qed.

Lemma flash_round t : tType t = "Flash"%string -> some_wf (tAmount0 t) -> some_wf (tAmount1 t) ->
  exists i, MarshalJSON t = Ok i /\
   readTransaction i = mkTrans (tType t) None (tAmount0 t) (tAmount1 t) (tID t) None 0 0 0 (tTimestamp t) false.
Proof.
  intros T H0 H1. unfold MarshalJSON. rewrite T. cbn [String.eqb Ascii.eqb Bool.eqb orb].
  destruct (amount_opt _ H0) as (s0 & -> & R0). destruct (amount_opt _ H1) as (s1 & -> & R1).
  cbn [bind]. eexists. split; [reflexivity|].
  unfold readTransaction. cbn [inType inAmount inAmount0 inAmount1 inID inSqrtPriceX96 inTick inTickLower inTickUpper inTimestamp inUseX96].
  rewrite R0, R1. reflexivity.
Qed.

(** * IntPow *)

Lemma int64_small v : - 2 ^ 63 <= v < 2 ^ 63 -> int64 v = v.
Proof. intros H. unfold int64. rewrite Z.mod_small; lia. Qed.

Lemma int64_mul_l a b : int64 (int64 a * b) = int64 (a * b).
Proof.
  unfold int64. set (M := 2 ^ 64). set (H := 2 ^ 63). f_equal.
  assert (E : (a + H) mod M = a + H - M * ((a + H) / M)) by (pose proof (Z.div_mod (a + H) M ltac:(unfold M; lia)); lia).
  rewrite E. replace ((a + H - M * ((a + H) / M) - H) * b + H) with (a * b + H + (- ((a + H) / M) * b) * M) by ring.
  apply Z.mod_add. unfold M. lia.
Qed.

Lemma powLoop_ok fuel n m i r e : (Z.to_nat (m + 1 - i) < fuel)%nat -> 1 <= i <= m + 1 -> m < 2 ^ 63 - 1 -> e = i - 1 ->
  r = int64 (n ^ e) -> powLoop fuel n m i r = Ok (int64 (n ^ m)).
Proof.
  revert i r e. induction fuel as [|f IH]; intros i r e Hf Hi Hm -> ->; [lia|]. cbn [powLoop].
  destruct (i <=? m) eqn:E.
  - unfold iadd. rewrite (int64_small (i + 1)) by lia.
    rewrite int64_mul_l. apply (IH (i + 1) _ i); try lia. f_equal.
    replace i with (Z.succ (i - 1)) at 2 by lia. rewrite Z.pow_succ_r by lia. ring.
  - replace (i - 1) with m by lia. reflexivity.
Qed.

Lemma IntPow_ok fuel n m : - 2 ^ 63 <= n < 2 ^ 63 -> 0 <= m < 2 ^ 63 - 1 -> (Z.to_nat m < fuel)%nat ->
  IntPow fuel n m = Ok (int64 (n ^ m)).
Proof.
  intros Hn Hm Hf. unfold IntPow. destruct (m =? 0) eqn:E.
  - replace m with 0 by lia. reflexivity.
  - apply (powLoop_ok fuel n m 2 n 1); try lia. rewrite Z.pow_1_r. symmetry. apply int64_small. assumption.
Qed.

Lemma IntPow_negative fuel n m : m < 0 -> (0 < fuel)%nat -> IntPow fuel n m = Ok n.
Proof.
  intros Hm Hf. unfold IntPow. destruct (m =? 0) eqn:E; [lia|]. destruct fuel; [lia|]. cbn [powLoop].
  destruct (2 <=? m) eqn:E2; [lia|reflexivity].
Qed.

(** i <= MaxInt64 holds for every int: the loop never ends *)
Lemma IntPow_max fuel n : IntPow fuel n (2 ^ 63 - 1) = OutOfFuel.
Proof.
  unfold IntPow. change (2 ^ 63 - 1 =? 0) with false. cbv iota.
  assert (G : forall i r, - 2 ^ 63 <= i < 2 ^ 63 -> powLoop fuel n (2 ^ 63 - 1) i r = OutOfFuel).
  { induction fuel as [|f IH]; intros i r Hi; [reflexivity|]. cbn [powLoop].
    destruct (i <=? 2 ^ 63 - 1) eqn:E; [|lia]. apply IH. unfold iadd, int64.
    pose proof (Z.mod_pos_bound (i + 1 + 2 ^ 63) (2 ^ 64) ltac:(lia)). lia. }
  apply G. lia.
Qed.
