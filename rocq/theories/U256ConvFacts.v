(** U256ConvFacts.v -- digits, byte codecs (C14) and math/big conversions (C16). *)
From Verif Require Import Base U256 BitFacts U256Facts U256Bits U256DivSpec U256Conv.
From Coq Require Import ZifyBool.
Ltac Zify.zify_post_hook ::= idtac.

(** * Digits *)

Definition is_byte (v : Z) : Prop := 0 <= v < 256.

Lemma numval_from b l a : fold_left (fun a d => a * b + d) l a = a * b ^ Z.of_nat (length l) + numval b l.
Proof.
  unfold numval. revert a. induction l as [|x l IH]; intros a; cbn [fold_left length].
  - cbn. ring.
  - rewrite IH. rewrite (IH (0 * b + x)). rewrite Nat2Z.inj_succ, Z.pow_succ_r by lia. ring.
Qed.

Lemma numval_cons b x l : numval b (x :: l) = x * b ^ Z.of_nat (length l) + numval b l.
Proof. unfold numval at 1. cbn [fold_left]. rewrite numval_from. ring. Qed.

Lemma numval_app b l m : numval b (l ++ m) = numval b l * b ^ Z.of_nat (length m) + numval b m.
Proof. unfold numval at 1. rewrite fold_left_app. apply numval_from. Qed.

Lemma numval_range b l : 0 < b -> Forall (fun d => 0 <= d < b) l -> 0 <= numval b l < b ^ Z.of_nat (length l).
Proof.
  intros Hb H. induction H as [|x l Hx _ IH]; [cbn; lia|].
  rewrite numval_cons. cbn [length]. rewrite Nat2Z.inj_succ, Z.pow_succ_r by lia.
  set (p := b ^ Z.of_nat (length l)) in *.
  assert (0 <= x * p) by (apply Z.mul_nonneg_nonneg; lia).
  assert (x * p <= (b - 1) * p) by (apply Z.mul_le_mono_nonneg_r; lia).
  lia.
Qed.

Lemma digits_length b n v : length (digits b n v) = n.
Proof. induction n; cbn [digits length]; congruence. Qed.

Lemma digits_range b n v : 0 < b -> Forall (fun d => 0 <= d < b) (digits b n v).
Proof. intros. induction n; cbn [digits]; constructor; auto. apply Z.mod_pos_bound. assumption. Qed.

Lemma numval_digits b n v : 0 < b -> numval b (digits b n v) = v mod b ^ Z.of_nat n.
Proof.
  intros Hb. induction n as [|n IH]; [cbn; symmetry; apply Z.mod_1_r|].
  cbn [digits]. rewrite numval_cons, digits_length, IH, Nat2Z.inj_succ, Z.pow_succ_r by lia.
  assert (0 < b ^ Z.of_nat n) by (apply Z.pow_pos_nonneg; lia).
  rewrite (Z.mul_comm b), Z.rem_mul_r by lia. ring.
Qed.

Lemma digits_app b m n v : 0 < b -> digits b (m + n) v = digits b m (v / b ^ Z.of_nat n) ++ digits b n v.
Proof.
  intros Hb. induction m as [|m IH]; [reflexivity|].
  cbn [digits Nat.add app]. rewrite IH. f_equal.
  rewrite Z.div_div by (try (apply Z.pow_pos_nonneg; lia); apply Z.pow_nonzero; lia).
  rewrite <- Z.pow_add_r by lia. do 3 f_equal. lia.
Qed.

Lemma digits_skip b m n v : 0 < b -> skipn m (digits b (m + n) v) = digits b n v.
Proof.
  intros. rewrite digits_app by assumption. rewrite skipn_app, digits_length, Nat.sub_diag.
  rewrite (skipn_all2 (digits b m _)) by (rewrite digits_length; lia). reflexivity.
Qed.

Lemma digits_unique b l n v : 0 < b -> length l = n -> Forall (fun d => 0 <= d < b) l ->
  numval b l = v mod b ^ Z.of_nat n -> l = digits b n v.
Proof.
  intros Hb <-. revert v. induction l as [|x l IH]; intros v F E; [reflexivity|].
  inversion F as [|? ? Hx Hl]; subst. cbn [length digits]. rewrite numval_cons in E. cbn [length] in E.
  rewrite Nat2Z.inj_succ, Z.pow_succ_r in E by lia.
  pose proof (numval_range b l Hb Hl) as R.
  set (p := b ^ Z.of_nat (length l)) in *. assert (Hp : 0 < p) by (apply Z.pow_pos_nonneg; lia).
  rewrite (Z.mul_comm b p), Z.rem_mul_r in E by lia.
  pose proof (Z.mod_pos_bound v p Hp).
  assert (Ex : x = (v / p) mod b).
  { apply (Z.div_unique_pos (v mod p + p * ((v / p) mod b)) p x (numval b l)) in R; [|lia].
    rewrite R, (Z.mul_comm p), Z.div_add by lia. rewrite Z.div_small by lia. lia. }
  f_equal; [exact Ex|]. apply IH; [assumption|]. fold p. subst x. lia.
Qed.

Lemma digits_numval b l : 0 < b -> Forall (fun d => 0 <= d < b) l -> digits b (length l) (numval b l) = l.
Proof.
  intros Hb F. symmetry. apply digits_unique; auto. symmetry. apply Z.mod_small. apply numval_range; assumption.
Qed.

Lemma digits_mod b n v k : 0 < b -> (n <= k)%nat -> digits b n (v mod b ^ Z.of_nat k) = digits b n v.
Proof.
  intros Hb Hk. apply digits_unique; [assumption|apply digits_length|apply digits_range; assumption|].
  rewrite numval_digits by assumption.
  replace (b ^ Z.of_nat k) with (b ^ Z.of_nat n * b ^ Z.of_nat (k - n))
    by (rewrite <- Z.pow_add_r by lia; f_equal; lia).
  assert (0 < b ^ Z.of_nat n) by (apply Z.pow_pos_nonneg; lia).
  assert (0 < b ^ Z.of_nat (k - n)) by (apply Z.pow_pos_nonneg; lia).
  rewrite Z.rem_mul_r by lia.
  rewrite (Z.mul_comm (b ^ Z.of_nat n)), Z.mod_add by lia. apply Z.mod_mod. lia.
Qed.

(** * Slices *)

Lemma idx_ok b i : (i < length (vis b))%nat -> idx b i = Ok (nth i (vis b) 0).
Proof.
  intros H. unfold idx, geti. rewrite (nth_error_nth' (vis b) 0 H). reflexivity.
Qed.
Lemma idx_panic b i : (length (vis b) <= i)%nat -> idx b i = Panic.
Proof. intros H. unfold idx, geti. apply nth_error_None in H. now rewrite H. Qed.

(** the bytes [i .. i+n) of the backing array *)
Definition seg (b : slice) (i n : nat) : list Z := firstn n (skipn i (data b)).

Lemma sub_ok b i j : (i <= j <= length (data b))%nat ->
  sub b i j = Ok (mkSlice (seg b i (j - i)) (skipn j (data b))).
Proof.
  intros H. unfold sub. destruct ((i <=? j) && (j <=? length (data b)))%nat eqn:E; [reflexivity|]. lia.
Qed.
Lemma sub_panic b i j : (length (data b) < j)%nat -> sub b i j = Panic.
Proof.
  intros H. unfold sub. destruct ((i <=? j) && (j <=? length (data b)))%nat eqn:E; [lia|reflexivity].
Qed.

Lemma seg_length b i n : (i + n <= length (data b))%nat -> length (seg b i n) = n.
Proof. intros. unfold seg. rewrite firstn_length, skipn_length. lia. Qed.

Lemma skipn_skipn' {A} (l : list A) n m : skipn n (skipn m l) = skipn (m + n) l.
Proof. revert l. induction m as [|m IH]; intros l; [reflexivity|]. destruct l; [now rewrite !skipn_nil|]. apply IH. Qed.

Lemma firstn_add {A} (l : list A) m n : firstn (m + n) l = firstn m l ++ firstn n (skipn m l).
Proof.
  revert l. induction m as [|m IH]; intros l; [reflexivity|].
  destruct l; [now rewrite !firstn_nil|]. cbn [Nat.add firstn skipn app]. now rewrite IH.
Qed.

Lemma seg_split b i m n : seg b i (m + n) = seg b i m ++ seg b (i + m) n.
Proof. unfold seg. rewrite firstn_add, skipn_skipn'. reflexivity. Qed.

Lemma seg_bytes b i n : Forall is_byte (data b) -> Forall is_byte (seg b i n).
Proof.
  intros H. unfold seg. rewrite Forall_forall in *. intros x Hx. apply H.
  rewrite <- (firstn_skipn i (data b)). apply in_or_app. right.
  rewrite <- (firstn_skipn n (skipn i (data b))). apply in_or_app. now left.
Qed.

Lemma seg_all b i n : firstn n (seg b i n) = seg b i n.
Proof. unfold seg. rewrite firstn_firstn. now rewrite Nat.min_id. Qed.

Definition be (b : slice) (i n : nat) : Z := numval 256 (seg b i n).

Lemma be_range b i n : Forall is_byte (data b) -> (i + n <= length (data b))%nat -> 0 <= be b i n < 256 ^ Z.of_nat n.
Proof.
  intros H L. unfold be.
  pose proof (numval_range 256 (seg b i n) ltac:(lia) (seg_bytes b i n H)) as R. rewrite (seg_length b i n L) in R. exact R.
Qed.

Lemma be_split b i m n : (i + m + n <= length (data b))%nat -> be b i (m + n) = be b i m * 256 ^ Z.of_nat n + be b (i + m) n.
Proof. intros. unfold be. rewrite seg_split, numval_app, seg_length by lia. reflexivity. Qed.

Lemma beUint_seg b i n h : (0 < n)%nat -> (i + n <= length (data b))%nat ->
  beUint n (mkSlice (seg b i n) h) = Ok (be b i n).
Proof.
  intros Hn H. unfold beUint. rewrite idx_ok by (cbn [vis]; rewrite seg_length; lia).
  cbn [bind vis]. rewrite seg_all. reflexivity.
Qed.

Lemma be16_ok b i j : j = (i + 2)%nat -> (j <= length (data b))%nat -> be16 b i j = Ok (be b i 2).
Proof.
  intros -> H. unfold be16. rewrite sub_ok by lia. cbn [bind]. replace (i + 2 - i)%nat with 2%nat by lia.
  apply beUint_seg; lia.
Qed.
Lemma be32_ok b i j : j = (i + 4)%nat -> (j <= length (data b))%nat -> be32 b i j = Ok (be b i 4).
Proof.
  intros -> H. unfold be32. rewrite sub_ok by lia. cbn [bind]. replace (i + 4 - i)%nat with 4%nat by lia.
  apply beUint_seg; lia.
Qed.
Lemma be64_ok b i j : j = (i + 8)%nat -> (j <= length (data b))%nat -> be64 b i j = Ok (be b i 8).
Proof.
  intros -> H. unfold be64. rewrite sub_ok by lia. cbn [bind]. replace (i + 8 - i)%nat with 8%nat by lia.
  apply beUint_seg; lia.
Qed.
Lemma be64_panic b i j : (length (data b) < j)%nat -> be64 b i j = Panic.
Proof. intros H. unfold be64. now rewrite sub_panic. Qed.

(** [lo | hi << s] with [lo] below 2^s *)
Lemma lor_shl a c s : 0 <= s <= 56 -> 0 <= a < 2 ^ s -> is_byte c -> Z.lor a (wshl c s) = a + c * 2 ^ s.
Proof.
  intros Hs Ha Hc. unfold wshl, is_byte in *. rewrite Z.shiftl_mul_pow2 by lia.
  assert (0 < 2 ^ s) by (apply Z.pow_pos_nonneg; lia).
  assert (E : 0 <= c * 2 ^ s < W).
  { split; [apply Z.mul_nonneg_nonneg; lia|].
    apply Z.le_lt_trans with (255 * 2 ^ 56); [|reflexivity].
    apply Z.mul_le_mono_nonneg; try lia. apply Z.pow_le_mono_r; lia. }
  rewrite Z.mod_small by exact E.
  rewrite <- Z.lxor_lor, <- Z.add_nocarry_lxor; [reflexivity| |].
  all: apply Z.bits_inj'; intros n Hn; rewrite Z.land_spec, Z.bits_0;
    destruct (Z.lt_ge_cases n s) as [L|G];
    [rewrite Z.mul_pow2_bits_low by lia; apply andb_false_r|].
  all: rewrite <- (Z.mod_small a (2 ^ s)) by assumption; rewrite Z.mod_pow2_bits_high by lia; reflexivity.
Qed.

Lemma list_len_S {A} (l : list A) n : length l = S n -> exists x t, l = x :: t /\ length t = n.
Proof. destruct l as [|x t]; [discriminate|]. cbn. intros H. injection H as H. eauto. Qed.

Ltac open_list H :=
  let x := fresh "x" in let t := fresh "t" in let E := fresh "E" in
  apply list_len_S in H; destruct H as (x & t & E & H); subst.

Lemma be40_ok b i j : Forall is_byte (data b) -> j = (i + 5)%nat -> (j <= length (data b))%nat -> be40 b i j = Ok (be b i 5).
Proof.
  intros F -> H. unfold be40. rewrite sub_ok by lia. cbn [bind]. replace (i + 5 - i)%nat with 5%nat by lia.
  pose proof (seg_length b i 5 ltac:(lia)) as L. pose proof (seg_bytes b i 5 F) as B. unfold be.
  revert L B. generalize (seg b i 5). intros s L B. do 5 open_list L. apply length_zero_iff_nil in L. subst.
  repeat match goal with K : Forall _ (_ :: _) |- _ => inversion K; clear K; subst end.
  unfold bigEndianUint40, idx, geti. cbn [vis nth_error bind].
  unfold is_byte in *. cbv [numval fold_left].
  rewrite (lor_shl _ _ 8) by (unfold is_byte; lia).
  rewrite (lor_shl _ _ 16) by (unfold is_byte; lia).
  rewrite (lor_shl _ _ 24) by (unfold is_byte; lia).
  rewrite (lor_shl _ _ 32) by (unfold is_byte; lia). f_equal. lia.
Qed.
Lemma be48_ok b i j : Forall is_byte (data b) -> j = (i + 6)%nat -> (j <= length (data b))%nat -> be48 b i j = Ok (be b i 6).
Proof.
  intros F -> H. unfold be48. rewrite sub_ok by lia. cbn [bind]. replace (i + 6 - i)%nat with 6%nat by lia.
  pose proof (seg_length b i 6 ltac:(lia)) as L. pose proof (seg_bytes b i 6 F) as B. unfold be.
  revert L B. generalize (seg b i 6). intros s L B. do 6 open_list L. apply length_zero_iff_nil in L. subst.
  repeat match goal with K : Forall _ (_ :: _) |- _ => inversion K; clear K; subst end.
  unfold bigEndianUint48, idx, geti. cbn [vis nth_error bind].
  unfold is_byte in *. cbv [numval fold_left].
  rewrite (lor_shl _ _ 8) by (unfold is_byte; lia).
  rewrite (lor_shl _ _ 16) by (unfold is_byte; lia).
  rewrite (lor_shl _ _ 24) by (unfold is_byte; lia).
  rewrite (lor_shl _ _ 32) by (unfold is_byte; lia).
  rewrite (lor_shl _ _ 40) by (unfold is_byte; lia). f_equal. lia.
Qed.
Lemma be56_ok b i j : Forall is_byte (data b) -> j = (i + 7)%nat -> (j <= length (data b))%nat -> be56 b i j = Ok (be b i 7).
Proof.
  intros F -> H. unfold be56. rewrite sub_ok by lia. cbn [bind]. replace (i + 7 - i)%nat with 7%nat by lia.
  pose proof (seg_length b i 7 ltac:(lia)) as L. pose proof (seg_bytes b i 7 F) as B. unfold be.
  revert L B. generalize (seg b i 7). intros s L B. do 7 open_list L. apply length_zero_iff_nil in L. subst.
  repeat match goal with K : Forall _ (_ :: _) |- _ => inversion K; clear K; subst end.
  unfold bigEndianUint56, idx, geti. cbn [vis nth_error bind].
  unfold is_byte in *. cbv [numval fold_left].
  rewrite (lor_shl _ _ 8) by (unfold is_byte; lia).
  rewrite (lor_shl _ _ 16) by (unfold is_byte; lia).
  rewrite (lor_shl _ _ 24) by (unfold is_byte; lia).
  rewrite (lor_shl _ _ 32) by (unfold is_byte; lia).
  rewrite (lor_shl _ _ 40) by (unfold is_byte; lia).
  rewrite (lor_shl _ _ 48) by (unfold is_byte; lia). f_equal. lia.
Qed.

(** * SetBytes *)

Lemma data_len b : (length (vis b) <= length (data b))%nat.
Proof. unfold data. rewrite app_length. lia. Qed.

Lemma idx0_be b : (0 < length (vis b))%nat -> idx b 0 = Ok (be b 0 1).
Proof.
  intros H. rewrite idx_ok by assumption. f_equal. unfold be, seg, data.
  destruct (vis b) as [|x t]; [cbn in H; lia|]. cbn. lia.
Qed.

Lemma be24 b : Forall is_byte (data b) -> (3 <= length (data b))%nat ->
  Z.lor (be b 1 2) (wshl (be b 0 1) 16) = be b 0 3.
Proof.
  intros F H. pose proof (be_range b 1 2 F ltac:(lia)). pose proof (be_range b 0 1 F ltac:(lia)).
  rewrite lor_shl; [|lia|assumption|unfold is_byte; assumption].
  change 3%nat with (1 + 2)%nat. rewrite be_split by lia. cbn [Nat.add]. change (256 ^ Z.of_nat 2) with (2 ^ 16). lia.
Qed.

(** a decoder result: the limbs are the 8-byte groups counted from the end *)
Definition decodes (z : Int) (v : Z) : Prop := wf z /\ toZ z = v.

Lemma be_word b i n : Forall is_byte (data b) -> (n <= 8)%nat -> (i + n <= length (data b))%nat -> is_w (be b i n).
Proof.
  intros F Hn H. pose proof (be_range b i n F H). unfold is_w. split; [lia|].
  apply Z.lt_le_trans with (256 ^ Z.of_nat n); [lia|]. change W with (256 ^ 8). apply Z.pow_le_mono_r; lia.
Qed.

Lemma dec1 b r : Forall is_byte (data b) -> (r <= 8)%nat -> (r <= length (data b))%nat ->
  decodes (mkInt (be b 0 r) 0 0 0) (be b 0 r).
Proof.
  intros F Hr H. pose proof (be_word b 0 r F Hr ltac:(lia)). unfold decodes, wf, toZ, is_w in *. cbn [l0 l1 l2 l3]. lia.
Qed.
Lemma dec2 b r : Forall is_byte (data b) -> (r <= 8)%nat -> (r + 8 <= length (data b))%nat ->
  decodes (mkInt (be b r 8) (be b 0 r) 0 0) (be b 0 (r + 8)).
Proof.
  intros F Hr H. pose proof (be_word b 0 r F Hr ltac:(lia)). pose proof (be_word b r 8 F ltac:(lia) ltac:(lia)).
  rewrite be_split by lia. cbn [Nat.add]. change (256 ^ Z.of_nat 8) with W.
  unfold decodes, wf, toZ, is_w in *. cbn [l0 l1 l2 l3]. lia.
Qed.
Lemma dec3 b r : Forall is_byte (data b) -> (r <= 8)%nat -> (r + 16 <= length (data b))%nat ->
  decodes (mkInt (be b (r + 8) 8) (be b r 8) (be b 0 r) 0) (be b 0 (r + 16)).
Proof.
  intros F Hr H. pose proof (be_word b 0 r F Hr ltac:(lia)). pose proof (be_word b r 8 F ltac:(lia) ltac:(lia)).
  pose proof (be_word b (r + 8) 8 F ltac:(lia) ltac:(lia)).
  replace (r + 16)%nat with (r + (8 + 8))%nat by lia. rewrite !be_split by lia. cbn [Nat.add].
  change (256 ^ Z.of_nat 16) with W2. change (256 ^ Z.of_nat 8) with W.
  unfold decodes, wf, toZ, is_w in *. cbn [l0 l1 l2 l3]. lia.
Qed.
Lemma dec4 b r : Forall is_byte (data b) -> (r <= 8)%nat -> (r + 24 <= length (data b))%nat ->
  decodes (mkInt (be b (r + 16) 8) (be b (r + 8) 8) (be b r 8) (be b 0 r)) (be b 0 (r + 24)).
Proof.
  intros F Hr H. pose proof (be_word b 0 r F Hr ltac:(lia)). pose proof (be_word b r 8 F ltac:(lia) ltac:(lia)).
  pose proof (be_word b (r + 8) 8 F ltac:(lia) ltac:(lia)).
  pose proof (be_word b (r + 16) 8 F ltac:(lia) ltac:(lia)).
  replace (r + 24)%nat with (r + (8 + (8 + 8)))%nat by lia. rewrite !be_split by lia. cbn [Nat.add].
  replace (r + 16)%nat with (r + 8 + 8)%nat in * by lia.
  change (256 ^ Z.of_nat 24) with W3. change (256 ^ Z.of_nat 16) with W2. change (256 ^ Z.of_nat 8) with W.
  unfold decodes, wf, toZ, is_w in *. cbn [l0 l1 l2 l3]. lia.
Qed.

Ltac dec_run F :=
  repeat (match goal with
   | |- context [be64 ?b ?i ?j] => rewrite (be64_ok b i j) by (reflexivity || lia)
   | |- context [be32 ?b ?i ?j] => rewrite (be32_ok b i j) by (reflexivity || lia)
   | |- context [be16 ?b ?i ?j] => rewrite (be16_ok b i j) by (reflexivity || lia)
   | |- context [be40 ?b ?i ?j] => rewrite (be40_ok b i j F) by (reflexivity || lia)
   | |- context [be48 ?b ?i ?j] => rewrite (be48_ok b i j F) by (reflexivity || lia)
   | |- context [be56 ?b ?i ?j] => rewrite (be56_ok b i j F) by (reflexivity || lia)
   | |- context [idx ?b 0] => rewrite (idx0_be b) by lia
   | |- context [idx ?b ?i] => rewrite (idx_ok b i) by lia
   end; cbn [bind]; cbv zeta);
  rewrite ?be24 by (assumption || lia).

(** what it takes for the [n]-byte decoder to return *)
Definition long_enough (n : nat) (b : slice) : Prop :=
  if (n =? 29)%nat then (24 <= length (vis b) /\ 29 <= length (data b))%nat else (n <= length (vis b))%nat.

Lemma SetBytesN_ok n b : (1 <= n <= 32)%nat -> Forall is_byte (data b) -> long_enough n b ->
  exists z, SetBytesN n b = Ok z /\ decodes z (be b 0 n).
Proof.
  intros Hn F H. pose proof (data_len b) as D.
  assert (I : In n (seq 1 32)) by (apply in_seq; lia). cbn [seq In] in I. clear Hn.
  repeat (destruct I as [<-|I]; [|]); [..|contradiction].
  all: unfold long_enough in H; cbn [Nat.eqb] in H; cbn [SetBytesN].
  1: unfold SetBytes1; dec_run F; eexists; split; [reflexivity|exact (dec1 b 1 F ltac:(lia) ltac:(lia))].
  1: unfold SetBytes2; dec_run F; eexists; split; [reflexivity|exact (dec1 b 2 F ltac:(lia) ltac:(lia))].
  1: unfold SetBytes3; dec_run F; eexists; split; [reflexivity|exact (dec1 b 3 F ltac:(lia) ltac:(lia))].
  1: unfold SetBytes4; dec_run F; eexists; split; [reflexivity|exact (dec1 b 4 F ltac:(lia) ltac:(lia))].
  1: unfold SetBytes5; dec_run F; eexists; split; [reflexivity|exact (dec1 b 5 F ltac:(lia) ltac:(lia))].
  1: unfold SetBytes6; dec_run F; eexists; split; [reflexivity|exact (dec1 b 6 F ltac:(lia) ltac:(lia))].
  1: unfold SetBytes7; dec_run F; eexists; split; [reflexivity|exact (dec1 b 7 F ltac:(lia) ltac:(lia))].
  1: unfold SetBytes8; dec_run F; eexists; split; [reflexivity|exact (dec1 b 8 F ltac:(lia) ltac:(lia))].
  1: unfold SetBytes9; dec_run F; eexists; split; [reflexivity|exact (dec2 b 1 F ltac:(lia) ltac:(lia))].
  1: unfold SetBytes10; dec_run F; eexists; split; [reflexivity|exact (dec2 b 2 F ltac:(lia) ltac:(lia))].
  1: unfold SetBytes11; dec_run F; eexists; split; [reflexivity|exact (dec2 b 3 F ltac:(lia) ltac:(lia))].
  1: unfold SetBytes12; dec_run F; eexists; split; [reflexivity|exact (dec2 b 4 F ltac:(lia) ltac:(lia))].
  1: unfold SetBytes13; dec_run F; eexists; split; [reflexivity|exact (dec2 b 5 F ltac:(lia) ltac:(lia))].
  1: unfold SetBytes14; dec_run F; eexists; split; [reflexivity|exact (dec2 b 6 F ltac:(lia) ltac:(lia))].
  1: unfold SetBytes15; dec_run F; eexists; split; [reflexivity|exact (dec2 b 7 F ltac:(lia) ltac:(lia))].
  1: unfold SetBytes16; dec_run F; eexists; split; [reflexivity|exact (dec2 b 8 F ltac:(lia) ltac:(lia))].
  1: unfold SetBytes17; dec_run F; eexists; split; [reflexivity|exact (dec3 b 1 F ltac:(lia) ltac:(lia))].
  1: unfold SetBytes18; dec_run F; eexists; split; [reflexivity|exact (dec3 b 2 F ltac:(lia) ltac:(lia))].
  1: unfold SetBytes19; dec_run F; eexists; split; [reflexivity|exact (dec3 b 3 F ltac:(lia) ltac:(lia))].
  1: unfold SetBytes20; dec_run F; eexists; split; [reflexivity|exact (dec3 b 4 F ltac:(lia) ltac:(lia))].
  1: unfold SetBytes21; dec_run F; eexists; split; [reflexivity|exact (dec3 b 5 F ltac:(lia) ltac:(lia))].
  1: unfold SetBytes22; dec_run F; eexists; split; [reflexivity|exact (dec3 b 6 F ltac:(lia) ltac:(lia))].
  1: unfold SetBytes23; dec_run F; eexists; split; [reflexivity|exact (dec3 b 7 F ltac:(lia) ltac:(lia))].
  1: unfold SetBytes24; dec_run F; eexists; split; [reflexivity|exact (dec3 b 8 F ltac:(lia) ltac:(lia))].
  1: unfold SetBytes25; dec_run F; eexists; split; [reflexivity|exact (dec4 b 1 F ltac:(lia) ltac:(lia))].
  1: unfold SetBytes26; dec_run F; eexists; split; [reflexivity|exact (dec4 b 2 F ltac:(lia) ltac:(lia))].
  1: unfold SetBytes27; dec_run F; eexists; split; [reflexivity|exact (dec4 b 3 F ltac:(lia) ltac:(lia))].
  1: unfold SetBytes28; dec_run F; eexists; split; [reflexivity|exact (dec4 b 4 F ltac:(lia) ltac:(lia))].
  1: unfold SetBytes29; dec_run F; eexists; split; [reflexivity|exact (dec4 b 5 F ltac:(lia) ltac:(lia))].
  1: unfold SetBytes30; dec_run F; eexists; split; [reflexivity|exact (dec4 b 6 F ltac:(lia) ltac:(lia))].
  1: unfold SetBytes31; dec_run F; eexists; split; [reflexivity|exact (dec4 b 7 F ltac:(lia) ltac:(lia))].
  1: unfold SetBytes32; dec_run F; eexists; split; [reflexivity|exact (dec4 b 8 F ltac:(lia) ltac:(lia))].
Qed.

Lemma SetBytesN_panic n b : (1 <= n <= 32)%nat -> Forall is_byte (data b) -> ~ long_enough n b -> SetBytesN n b = Panic.
Proof.
  intros Hn F H. pose proof (data_len b) as D.
  assert (I : In n (seq 1 32)) by (apply in_seq; lia). cbn [seq In] in I. clear Hn.
  repeat (destruct I as [<-|I]; [|]); [..|contradiction].
  all: unfold long_enough in H; cbn [Nat.eqb] in H; cbn [SetBytesN].
  29: { unfold SetBytes29. destruct (Nat.lt_ge_cases (length (vis b)) 24) as [L|L]; [rewrite idx_panic by lia; reflexivity|].
        rewrite idx_ok by lia. cbn [bind]. rewrite (be40_ok b 0 5 F) by (reflexivity || lia). cbn [bind].
        rewrite (be64_ok b 5 13) by (reflexivity || lia). cbn [bind].
        rewrite (be64_ok b 13 21) by (reflexivity || lia). cbn [bind].
        rewrite be64_panic by lia. reflexivity. }
  all: match goal with |- ?f ?x = Panic => unfold f end; rewrite idx_panic by lia; reflexivity.
Qed.

Lemma be_vis b n : (n <= length (vis b))%nat -> be b 0 n = numval 256 (firstn n (vis b)).
Proof.
  intros H. unfold be, seg, data. rewrite skipn_O, firstn_app. replace (n - length (vis b))%nat with 0%nat by lia.
  now rewrite firstn_O, app_nil_r.
Qed.

Lemma SetBytes32_decodes b : Forall is_byte (data b) -> (32 <= length (vis b))%nat ->
  exists z, SetBytes32 b = Ok z /\ decodes z (be b 0 32).
Proof. intros F H. exact (SetBytesN_ok 32 b ltac:(lia) F H). Qed.

Lemma SetBytes_short b n : length (vis b) = n -> (1 <= n <= 31)%nat -> SetBytes b = SetBytesN n b.
Proof.
  intros L H. unfold SetBytes. rewrite L.
  assert (I : In n (seq 1 31)) by (apply in_seq; lia). cbn [seq In] in I. clear H L.
  repeat (destruct I as [<-|I]; [reflexivity|]). contradiction.
Qed.

Lemma SetBytes_long b : (32 <= length (vis b))%nat ->
  SetBytes b = (do t <- sub b (length (vis b) - 32) (length (vis b)); SetBytes32 t).
Proof.
  intros H. unfold SetBytes. destruct (length (vis b)) as [|n]; [lia|].
  do 31 (destruct n as [|n]; [lia|]). reflexivity.
Qed.

Lemma Forall_skipn {A} (P : A -> Prop) n l : Forall P l -> Forall P (skipn n l).
Proof.
  rewrite !Forall_forall. intros H x Hx. apply H. rewrite <- (firstn_skipn n l). apply in_or_app. now right.
Qed.
Lemma Forall_firstn {A} (P : A -> Prop) n l : Forall P l -> Forall P (firstn n l).
Proof.
  rewrite !Forall_forall. intros H x Hx. apply H. rewrite <- (firstn_skipn n l). apply in_or_app. now left.
Qed.

Lemma numval_last b l n : 0 < b -> Forall (fun d => 0 <= d < b) l -> (n <= length l)%nat ->
  numval b (skipn (length l - n) l) = numval b l mod b ^ Z.of_nat n.
Proof.
  intros Hb F H. rewrite <- (firstn_skipn (length l - n) l) at 3. rewrite numval_app, skipn_length.
  replace (length l - (length l - n))%nat with n by lia.
  rewrite Z.add_comm, Z.mod_add by (apply Z.pow_nonzero; lia). symmetry. apply Z.mod_small.
  pose proof (numval_range b (skipn (length l - n) l) Hb (Forall_skipn _ _ _ F)) as R.
  rewrite skipn_length in R. replace (length l - (length l - n))%nat with n in R by lia. exact R.
Qed.

Lemma SetBytes_spec b : Forall is_byte (data b) ->
  exists z, SetBytes b = Ok z /\ wf z /\ toZ z = numval 256 (vis b) mod T256.
Proof.
  intros F. assert (FV : Forall is_byte (vis b)) by (unfold data in F; apply Forall_app in F; tauto).
  destruct (Nat.eq_dec (length (vis b)) 0) as [E0|E0].
  { apply length_zero_iff_nil in E0. unfold SetBytes. rewrite E0. cbn [length]. exists Clear.
    split; [reflexivity|]. split; [unfold wf, Clear, is_w; cbn [l0 l1 l2 l3]; lia|reflexivity]. }
  destruct (Nat.lt_ge_cases (length (vis b)) 32) as [S|L].
  - rewrite (SetBytes_short b _ eq_refl) by lia.
    destruct (SetBytesN_ok (length (vis b)) b ltac:(lia) F) as (z & Hz & Hw & Hv).
    { unfold long_enough. destruct (Nat.eqb_spec (length (vis b)) 29) as [E|E]; [|lia]. pose proof (data_len b). lia. }
    exists z. split; [exact Hz|]. split; [exact Hw|]. rewrite Hv, be_vis, firstn_all by lia. symmetry.
    apply Z.mod_small. pose proof (numval_range 256 (vis b) ltac:(lia) FV) as R. split; [lia|].
    apply Z.lt_le_trans with (256 ^ Z.of_nat (length (vis b))); [lia|]. change T256 with (256 ^ 32).
    apply Z.pow_le_mono_r; lia.
  - rewrite SetBytes_long by assumption. pose proof (data_len b). rewrite sub_ok by lia. cbn [bind].
    set (s := mkSlice _ _).
    assert (Ev : vis s = skipn (length (vis b) - 32) (vis b)).
    { unfold s, seg, data. cbn [vis]. rewrite skipn_app. replace (length (vis b) - 32 - length (vis b))%nat with 0%nat by lia.
      rewrite firstn_app, skipn_length.
      replace (length (vis b) - (length (vis b) - 32) - (length (vis b) - (length (vis b) - 32)))%nat with 0%nat by lia.
      rewrite firstn_O, app_nil_r. apply firstn_all2. rewrite skipn_length. lia. }
    assert (Lv : length (vis s) = 32%nat) by (rewrite Ev, skipn_length; lia).
    destruct (SetBytes32_decodes s) as (z & Hz & Hw & Hv).
    { unfold data. apply Forall_app. split; [rewrite Ev; now apply Forall_skipn|].
      unfold s. cbn [hid]. now apply Forall_skipn. }
    { lia. }
    exists z. split; [exact Hz|]. split; [exact Hw|].
    rewrite Hv, be_vis by lia. rewrite <- Lv, firstn_all, Ev. rewrite numval_last by (assumption || lia). reflexivity.
Qed.

(** * Bytes *)

Lemma word_digits w : is_w w -> PutUint64 w = digits 256 8 w. Proof. reflexivity. Qed.

Lemma digits8_eq u v : u mod W = v mod W -> digits 256 8 u = digits 256 8 v.
Proof.
  intros H. rewrite <- (digits_mod 256 8 u 8), <- (digits_mod 256 8 v 8) by lia.
  change (256 ^ Z.of_nat 8) with W. now rewrite H.
Qed.

Lemma toZ_digits32 z : wf z -> Bytes32 z = digits 256 32 (toZ z).
Proof.
  intros (H0 & H1 & H2 & H3). unfold is_w in *. unfold Bytes32, PutUint64, toZ. destruct z as [a b c d]. cbn [l0 l1 l2 l3] in *.
  change 32%nat with (8 + 24)%nat. rewrite digits_app by lia. change 24%nat with (8 + 16)%nat at 2. rewrite digits_app by lia.
  change 16%nat with (8 + 8)%nat at 3. rewrite digits_app by lia.
  change (256 ^ Z.of_nat 24) with W3. change (256 ^ Z.of_nat 16) with W2. change (256 ^ Z.of_nat 8) with W.
  f_equal; [|f_equal; [|f_equal]]; apply digits8_eq.
  - f_equal. apply (Z.div_unique_pos _ W3 _ (a + W * b + W2 * c)); lia.
  - rewrite <- (Z.div_unique_pos (a + W * b + W2 * c + W3 * d) W2 (c + d * W) (a + W * b)) by lia.
    rewrite Z.mod_add by lia. reflexivity.
  - rewrite <- (Z.div_unique_pos (a + W * b + W2 * c + W3 * d) W (b + (c + W * d) * W) a) by lia.
    rewrite Z.mod_add by lia. reflexivity.
  - replace (a + W * b + W2 * c + W3 * d) with (a + (b + W * c + W2 * d) * W) by lia.
    rewrite Z.mod_add by lia. reflexivity.
Qed.

Lemma Bytes20_digits z : wf z -> Bytes20 z = digits 256 20 (toZ z).
Proof.
  intros Hz. pose proof (toZ_digits32 z Hz) as E. unfold Bytes32 in E. unfold Bytes20, PutUint32.
  change 4294967296 with (256 ^ Z.of_nat 4). rewrite digits_mod by lia.
  rewrite <- (digits_skip 256 12 20) by lia. change (12 + 20)%nat with 32%nat. rewrite <- E.
  rewrite skipn_app. rewrite skipn_all2 by (unfold PutUint64; rewrite digits_length; lia).
  unfold PutUint64 at 3. rewrite digits_length. change (12 - 8)%nat with 4%nat. rewrite skipn_app.
  unfold PutUint64 at 3 4. rewrite digits_length. rewrite (digits_skip 256 4 4) by lia. reflexivity.
Qed.

Lemma Bytes_digits z : wf z -> Bytes z = digits 256 (Z.to_nat (ByteLen z)) (toZ z).
Proof.
  intros Hz. unfold Bytes. rewrite toZ_digits32 by assumption. destruct (ByteLen_least z Hz) as (_ & R & _).
  replace 32%nat with (32 - Z.to_nat (ByteLen z) + Z.to_nat (ByteLen z))%nat at 2 by lia.
  apply digits_skip. lia.
Qed.

Lemma byteAt_digit z i : wf z -> (i < 32)%nat -> byteAt z i = Ok ((toZ z / 256 ^ Z.of_nat i) mod 256).
Proof.
  intros Hz Hi. unfold byteAt.
  assert (Q : Z.of_nat i = 8 * (Z.of_nat i / 8) + Z.of_nat i mod 8) by (apply Z.div_mod; lia).
  pose proof (Z.mod_pos_bound (Z.of_nat i) 8 ltac:(lia)) as M.
  assert (K : 0 <= Z.of_nat i / 8 <= 3) by (split; [apply Z.div_pos; lia|]; lia).
  set (q := Z.of_nat i / 8) in *. set (r := Z.of_nat i mod 8) in *. clearbody q r. rewrite Q. clear Q Hi i.
  assert (L : exists w, limb z q = Ok w /\ (toZ z / 256 ^ (8 * q)) mod W = w).
  { destruct Hz as (H0 & H1 & H2 & H3). unfold limb, toZ, is_w in *. destruct z as [a b c d]. cbn [l0 l1 l2 l3] in *.
    assert (C : q = 0 \/ q = 1 \/ q = 2 \/ q = 3) by lia.
    destruct C as [->|[->|[->| ->]]]; cbn [Z.eqb Pos.eqb]; eexists; (split; [reflexivity|]).
    - change (256 ^ (8 * 0)) with 1. rewrite Z.div_1_r.
      replace (a + W * b + W2 * c + W3 * d) with (a + (b + W * c + W2 * d) * W) by lia. rewrite Z.mod_add, Z.mod_small by lia. reflexivity.
    - change (256 ^ (8 * 1)) with W.
      rewrite <- (Z.div_unique_pos (a + W * b + W2 * c + W3 * d) W (b + W * c + W2 * d) a) by lia.
      replace (b + W * c + W2 * d) with (b + (c + W * d) * W) by lia. rewrite Z.mod_add, Z.mod_small by lia. reflexivity.
    - change (256 ^ (8 * 2)) with W2.
      rewrite <- (Z.div_unique_pos (a + W * b + W2 * c + W3 * d) W2 (c + W * d) (a + W * b)) by lia.
      rewrite (Z.mul_comm W d), Z.mod_add, Z.mod_small by lia. reflexivity.
    - change (256 ^ (8 * 3)) with W3.
      rewrite <- (Z.div_unique_pos (a + W * b + W2 * c + W3 * d) W3 d (a + W * b + W2 * c)) by lia.
      rewrite Z.mod_small by lia. reflexivity. }
  destruct L as (w & -> & Ew). cbn [bind]. f_equal. unfold wshr. rewrite Z.shiftr_div_pow2 by lia. rewrite <- Ew.
  rewrite Z.pow_add_r, <- Z.div_div by (try (apply Z.pow_pos_nonneg; lia); try (apply Z.pow_nonzero; lia); lia).
  replace (2 ^ (8 * r)) with (256 ^ r) by (rewrite Z.pow_mul_r by lia; reflexivity).
  generalize (toZ z / 256 ^ (8 * q)). intros v.
  assert (Pr : 0 < 256 ^ r) by (apply Z.pow_pos_nonneg; lia).
  assert (EW : W = 256 ^ r * (256 ^ (7 - r) * 256)).
  { change 256 with (256 ^ 1) at 3. rewrite <- (Z.pow_add_r 256 (7 - r) 1), <- Z.pow_add_r by lia.
    replace (r + (7 - r + 1)) with 8 by lia. reflexivity. }
  assert (P7 : 0 < 256 ^ (7 - r)) by (apply Z.pow_pos_nonneg; lia).
  rewrite EW, Z.rem_mul_r by lia.
  rewrite (Z.mul_comm (256 ^ r) (_ mod _)), Z.div_add by lia.
  rewrite (Z.div_small (v mod 256 ^ r)) by (apply Z.mod_pos_bound; lia). rewrite Z.add_0_l.
  rewrite (Z.mul_comm (256 ^ (7 - r)) 256), Z.rem_mul_r by lia.
  rewrite (Z.mul_comm 256), Z.mod_add by lia. apply Z.mod_mod. lia.
Qed.

Lemma put_ok l i v : (i < length l)%nat -> put l i v = Ok (firstn i l ++ v :: skipn (S i) l).
Proof.
  revert i. induction l as [|x l IH]; intros i H; [cbn in H; lia|].
  destruct i as [|i]; [reflexivity|]. cbn [put]. rewrite IH by (cbn in H; lia). reflexivity.
Qed.

Lemma writeLoop_ok z top n i dest : wf z -> (n + i <= 32)%nat -> (n + i <= top + 1)%nat -> (top < length dest)%nat ->
  writeLoop z top n i dest =
    Ok (firstn (top + 1 - i - n) dest ++ digits 256 n (toZ z / 256 ^ Z.of_nat i) ++ skipn (top + 1 - i) dest).
Proof.
  intros Hz. revert i dest. induction n as [|n IH]; intros i dest H1 H2 H3.
  - cbn [writeLoop digits app]. rewrite Nat.sub_0_r, firstn_skipn. reflexivity.
  - cbn [writeLoop]. rewrite byteAt_digit by (assumption || lia). cbn [bind].
    rewrite put_ok by lia. cbn [bind].
    set (v := (toZ z / 256 ^ Z.of_nat i) mod 256).
    assert (Lf : length (firstn (top - i) dest) = (top - i)%nat) by (rewrite firstn_length; lia).
    rewrite IH; [|lia|lia|rewrite app_length; cbn [length]; rewrite firstn_length, skipn_length; lia].
    f_equal.
    rewrite firstn_app, Lf. replace (top + 1 - S i - n - (top - i))%nat with 0%nat by lia.
    rewrite firstn_O, app_nil_r, firstn_firstn. replace (Nat.min (top + 1 - S i - n) (top - i)) with (top + 1 - i - S n)%nat by lia.
    f_equal. rewrite skipn_app, Lf. replace (top + 1 - S i - (top - i))%nat with 0%nat by lia.
    rewrite skipn_all2 by (rewrite Lf; lia). rewrite skipn_O. cbn [app].
    replace (S n) with (n + 1)%nat by lia. rewrite digits_app by lia. rewrite <- app_assoc.
    f_equal.
    + f_equal. rewrite Z.div_div by (try (apply Z.pow_pos_nonneg; lia); apply Z.pow_nonzero; lia).
      rewrite <- Z.pow_add_r by lia. do 2 f_equal. lia.
    + cbn [digits app]. change (256 ^ Z.of_nat 0) with 1. rewrite Z.div_1_r. fold v. f_equal. f_equal. lia.
Qed.

Lemma WriteToSlice_ok z dest : wf z ->
  WriteToSlice z dest = Ok (digits 256 (Nat.min (length dest) 32) (toZ z) ++ skipn 32 dest).
Proof.
  intros Hz. unfold WriteToSlice. destruct dest as [|x t]; [reflexivity|].
  rewrite writeLoop_ok; [|assumption|lia|lia|cbn [length]; lia].
  set (e := Nat.min (length (x :: t)) 32). assert (He : (1 <= e <= 32)%nat) by (unfold e; cbn [length]; lia).
  replace (e - 1 + 1 - 0 - e)%nat with 0%nat by lia. cbn [firstn app]. change (256 ^ Z.of_nat 0) with 1. rewrite Z.div_1_r.
  do 2 f_equal. replace (e - 1 + 1 - 0)%nat with e by lia. unfold e.
  destruct (Nat.le_gt_cases (length (x :: t)) 32) as [L|L].
  - rewrite Nat.min_l by lia. rewrite skipn_all. symmetry. apply skipn_all2. lia.
  - rewrite Nat.min_r by lia. reflexivity.
Qed.

Lemma WriteToArray32_ok z dest : wf z -> length dest = 32%nat -> WriteToArray32 z dest = Ok (digits 256 32 (toZ z)).
Proof.
  intros Hz L. unfold WriteToArray32. rewrite writeLoop_ok by (assumption || lia).
  change (31 + 1 - 0 - 32)%nat with 0%nat. change (31 + 1 - 0)%nat with 32%nat.
  rewrite skipn_all2 by lia. change (256 ^ Z.of_nat 0) with 1. rewrite Z.div_1_r, app_nil_r. reflexivity.
Qed.
Lemma WriteToArray20_ok z dest : wf z -> length dest = 20%nat -> WriteToArray20 z dest = Ok (digits 256 20 (toZ z)).
Proof.
  intros Hz L. unfold WriteToArray20. rewrite writeLoop_ok by (assumption || lia).
  change (19 + 1 - 0 - 20)%nat with 0%nat. change (19 + 1 - 0)%nat with 20%nat.
  rewrite skipn_all2 by lia. change (256 ^ Z.of_nat 0) with 1. rewrite Z.div_1_r, app_nil_r. reflexivity.
Qed.

Lemma digits_zero b n v : 1 < b -> 0 <= v < b ^ Z.of_nat n -> forall m, digits b (m + n) v = repeat 0 m ++ digits b n v.
Proof.
  intros Hb Hv m. rewrite digits_app by lia. f_equal. rewrite Z.div_small by assumption.
  induction m as [|m IH]; [reflexivity|]. cbn [digits repeat]. rewrite IH, Z.div_0_l by (apply Z.pow_nonzero; lia). reflexivity.
Qed.

Lemma PaddedBytes_ok z n : wf z -> 0 <= n -> PaddedBytes z n = Ok (digits 256 (Z.to_nat n) (toZ z)).
Proof.
  intros Hz Hn. unfold PaddedBytes. destruct (n <? 0) eqn:E; [lia|]. cbv zeta. clear E.
  generalize (Z.to_nat n). clear n Hn. intros n. destruct n as [|n]; [reflexivity|].
  rewrite writeLoop_ok; [|assumption|lia|lia|rewrite repeat_length; lia].
  change (256 ^ Z.of_nat 0) with 1. rewrite Z.div_1_r. rewrite (skipn_all2 (n := _)) by (rewrite repeat_length; lia).
  rewrite app_nil_r. f_equal.
  destruct (Nat.le_gt_cases (S n) 32) as [L|L].
  - rewrite Nat.min_l by lia. replace (S n - 1 + 1 - 0 - S n)%nat with 0%nat by lia. reflexivity.
  - rewrite Nat.min_r by lia. replace (S n) with (S n - 32 + 32)%nat at 3 by lia.
    rewrite (digits_zero 256 32) by (try lia; exact (toZ_range z Hz)). f_equal.
    replace (S n - 1 + 1 - 0 - 32)%nat with (S n - 32)%nat by lia.
    replace (S n) with (S n - 32 + 32)%nat at 2 by lia. rewrite repeat_app, firstn_app, repeat_length, Nat.sub_diag.
    rewrite firstn_O, app_nil_r. rewrite firstn_all2 by (rewrite repeat_length; lia). reflexivity.
Qed.
