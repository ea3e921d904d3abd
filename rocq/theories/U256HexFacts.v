(** U256HexFacts.v -- math/big conversions (C16), hexadecimal text (C15) and RLP (C17). *)
From Verif Require Import Base U256 BitFacts U256Facts U256Bits U256DivSpec U256Conv U256ConvFacts.
From Coq Require Import ZifyBool.
Ltac Zify.zify_post_hook ::= idtac.

(** * math/big *)

Lemma lxor_ones z : 0 <= z < T256 -> Z.lxor (T256 - 1) z = T256 - 1 - z.
Proof.
  intros H. change (T256 - 1) with (Z.ones 256).
  assert (Z.ldiff z (Z.ones 256) = 0) as E.
  { rewrite Z.ldiff_ones_r by lia. rewrite Z.shiftr_div_pow2 by lia. change (2 ^ 256) with T256.
    rewrite Z.div_small by assumption. reflexivity. }
  rewrite (Z.sub_nocarry_ldiff _ _ E).
  apply Z.bits_inj'. intros n Hn. rewrite Z.lxor_spec, Z.ldiff_spec.
  destruct (Z.lt_ge_cases n 256) as [L|G].
  - rewrite Z.ones_spec_low by lia. destruct (Z.testbit z n); reflexivity.
  - rewrite Z.ones_spec_high by lia. rewrite (testbit_high z n 256) by (try lia; exact H). reflexivity.
Qed.

Lemma ToBig_spec z : ToBig z = toZ z.
Proof. unfold ToBig, toZ. lia. Qed.

Lemma SToBig_spec z : wf z -> SToBig z = sgn256 (toZ z).
Proof.
  intros Hz. unfold SToBig. rewrite Sign_spec by assumption. cbv zeta. rewrite !ToBig_spec.
  pose proof (toZ_range z Hz) as R. unfold sgn256. destruct (toZ z <? T255) eqn:E.
  - destruct (Z.sgn (toZ z) <? 0) eqn:S; [|reflexivity]. destruct (toZ z); cbn in S; lia.
  - assert (N : toZ z - T256 < 0) by lia. rewrite (Z.sgn_neg _ N). cbn [Z.ltb Z.compare].
    assert (Hf : wf (mkInt (W-1) (W-1) (W-1) (W-1))) by (unfold wf, is_w; cbn [l0 l1 l2 l3]; lia).
    destruct (Xor_spec _ _ Hf Hz) as [X1 X2].
    assert (H1 : wf (SetUint64 1)) by (unfold wf, is_w, SetUint64; cbn [l0 l1 l2 l3]; lia).
    destruct (Add_spec _ _ X1 H1) as [A1 A2]. rewrite A2, X2.
    change (toZ (mkInt (W-1) (W-1) (W-1) (W-1))) with (T256 - 1). rewrite lxor_ones by assumption.
    change (toZ (SetUint64 1)) with 1. rewrite Z.mod_small by lia. lia.
Qed.

Lemma bigLen_le b k : 0 <= k -> (bigLen b <= k <-> Z.abs b < W ^ k).
Proof.
  intros Hk. unfold bigLen, len64. change W with (2 ^ 64). rewrite <- Z.pow_mul_r by lia.
  destruct (Z.abs b =? 0) eqn:E.
  - assert (Z.abs b = 0) as -> by lia. split; intros.
    + apply Z.pow_pos_nonneg; lia.
    + change ((0 + 63) / 64) with 0. lia.
  - assert (P : 0 < Z.abs b) by lia. pose proof (Z.log2_nonneg (Z.abs b)).
    pose proof (Z.div_mod (Z.log2 (Z.abs b) + 1 + 63) 64 ltac:(lia)) as D.
    pose proof (Z.mod_pos_bound (Z.log2 (Z.abs b) + 1 + 63) 64 ltac:(lia)) as M.
    rewrite Z.log2_lt_pow2 by assumption. lia.
Qed.

Lemma bigWord_zero b i : 0 <= i -> bigLen b <= i -> bigWord b i = 0.
Proof. intros Hi H. apply bigLen_le in H; [|assumption]. unfold bigWord. rewrite Z.div_small by lia. reflexivity. Qed.

Lemma FromBig_spec b : wf (fst (FromBig b)) /\ toZ (fst (FromBig b)) = b mod T256 /\
  snd (FromBig b) = (T256 <=? Z.abs b).
Proof.
  unfold FromBig, SetFromBig. cbn [fst snd].
  assert (S : forall i, 0 <= i -> (if i <? bigLen b then bigWord b i else 0) = bigWord b i).
  { intros i Hi. destruct (i <? bigLen b) eqn:E; [reflexivity|]. symmetry. apply bigWord_zero; lia. }
  rewrite !S by lia.
  assert (E : mkInt (bigWord b 0) (bigWord b 1) (bigWord b 2) (bigWord b 3) = ofZ (Z.abs b)).
  { unfold bigWord, ofZ. change (W ^ 0) with 1. change (W ^ 1) with W. change (W ^ 2) with W2. change (W ^ 3) with W3.
    now rewrite Z.div_1_r. }
  rewrite E. clear E S.
  assert (V : toZ (ofZ (Z.abs b)) = Z.abs b mod T256).
  { rewrite <- (toZ_ofZ (Z.abs b mod T256)) by (apply Z.mod_pos_bound; lia). f_equal.
    apply toZ_inj; try apply wf_ofZ. unfold toZ, ofZ. cbn [l0 l1 l2 l3].
    assert (X : forall p q, 0 < p -> 0 < q -> T256 = p * W * q -> (Z.abs b mod T256) / p mod W = Z.abs b / p mod W).
    { intros p q Hp Hq ->. rewrite <- Z.mul_assoc. rewrite (Z.rem_mul_r (Z.abs b) p (W * q)) by lia.
      rewrite (Z.mul_comm p (_ mod _)), Z.div_add by lia.
      rewrite (Z.div_small (_ mod p)) by (apply Z.mod_pos_bound; lia). rewrite Z.add_0_l.
      rewrite Z.rem_mul_r by lia. rewrite (Z.mul_comm W), Z.mod_add by lia. apply Z.mod_mod. lia. }
    rewrite (X W W2), (X W2 W), (X W3 1) by (reflexivity || lia).
    pose proof (X 1 W3 ltac:(lia) ltac:(lia) eq_refl) as X1. rewrite !Z.div_1_r in X1. rewrite X1. reflexivity. }
  assert (O : (4 <? bigLen b) = (T256 <=? Z.abs b)).
  { pose proof (bigLen_le b 4 ltac:(lia)) as L. change (W ^ 4) with T256 in L.
    destruct (4 <? bigLen b) eqn:E1, (T256 <=? Z.abs b) eqn:E2; lia. }
  destruct (Z.sgn b =? -1) eqn:Sg.
  - assert (b < 0) by (destruct b; cbn in Sg; lia).
    destruct (Neg_spec _ (wf_ofZ (Z.abs b))) as [N1 N2]. split; [exact N1|]. split; [|exact O].
    rewrite N2, V. rewrite Z.abs_neq by lia.
    rewrite <- (Z.sub_0_l (_ mod _)), Zminus_mod_idemp_r. f_equal. lia.
  - assert (0 <= b) by (destruct b; cbn in Sg; lia). split; [apply wf_ofZ|]. split; [|exact O].
    rewrite V, Z.abs_eq by lia. reflexivity.
Qed.

Lemma FromBig_ToBig z : wf z -> FromBig (ToBig z) = (z, false).
Proof.
  intros Hz. rewrite ToBig_spec. pose proof (toZ_range z Hz) as R.
  destruct (FromBig_spec (toZ z)) as (H1 & H2 & H3).
  rewrite (surjective_pairing (FromBig _)). f_equal.
  - apply toZ_inj; auto. rewrite H2. apply Z.mod_small. assumption.
  - rewrite H3. lia.
Qed.
Lemma FromBig_SToBig z : wf z -> FromBig (SToBig z) = (z, false).
Proof.
  intros Hz. rewrite SToBig_spec by assumption. pose proof (toZ_range z Hz) as R.
  destruct (FromBig_spec (sgn256 (toZ z))) as (H1 & H2 & H3).
  rewrite (surjective_pairing (FromBig _)). f_equal.
  - apply toZ_inj; auto. rewrite H2. apply sgn256_mod. assumption.
  - rewrite H3. pose proof (sgn256_range (toZ z) R). lia.
Qed.

(** * Hexadecimal digits *)

(** the character [c] is a hexadecimal digit of value [d] *)
Definition hexdig (c d : Z) : Prop :=
  (48 <= c <= 57 /\ d = c - 48) \/ (97 <= c <= 102 /\ d = c - 87) \/ (65 <= c <= 70 /\ d = c - 55).

Definition nib (c : Z) : Z := nth (Z.to_nat c) bintable 255.

Definition hexdigb (c d : Z) : bool :=
  ((48 <=? c) && (c <=? 57) && (d =? c - 48)) || ((97 <=? c) && (c <=? 102) && (d =? c - 87)) ||
  ((65 <=? c) && (c <=? 70) && (d =? c - 55)).
Definition digcharb (c : Z) : bool :=
  ((48 <=? c) && (c <=? 57)) || ((97 <=? c) && (c <=? 102)) || ((65 <=? c) && (c <=? 70)).

Lemma bintable_checked : forallb (fun i => let c := Z.of_nat i in
   if digcharb c then hexdigb c (nib c) else nib c =? 255) (seq 0 256) = true.
Proof. vm_compute. reflexivity. Qed.

Lemma nib_spec c : (hexdig c (nib c) /\ 0 <= nib c < 16) \/ (nib c = 255 /\ forall d, ~ hexdig c d).
Proof.
  destruct (Z.lt_ge_cases c 0) as [N|N].
  { right. split; [unfold nib; replace (Z.to_nat c) with 0%nat by lia; reflexivity|]. unfold hexdig. lia. }
  destruct (Z.lt_ge_cases c 256) as [L|G].
  - pose proof bintable_checked as C. rewrite forallb_forall in C. specialize (C (Z.to_nat c)).
    rewrite in_seq in C. specialize (C ltac:(lia)). cbv zeta in C. rewrite Z2Nat.id in C by lia.
    destruct (digcharb c) eqn:D.
    + left. unfold hexdigb, digcharb, hexdig in *. lia.
    + right. split; [lia|]. unfold digcharb, hexdig in *. lia.
  - right. split; [|unfold hexdig; lia]. unfold nib. apply nth_overflow. change (length bintable) with 256%nat. lia.
Qed.

Lemma hexdig_fun c d e : hexdig c d -> hexdig c e -> d = e. Proof. unfold hexdig. lia. Qed.
Lemma hexdig_range c d : hexdig c d -> 0 <= d < 16. Proof. unfold hexdig. lia. Qed.
Lemma nib_eq c d : hexdig c d -> nib c = d.
Proof. intros H. destruct (nib_spec c) as [[N _]|[_ N]]; [exact (hexdig_fun c _ _ N H)|destruct (N d H)]. Qed.

Lemma hexLimb_ok w cs vs : is_w w -> Forall2 hexdig cs vs ->
  hexLimb w cs = ((w * 16 ^ Z.of_nat (length vs) + numval 16 vs) mod W, true).
Proof.
  intros Hw F. revert w Hw. induction F as [|c d cs vs Hc _ IH]; intros w Hw; cbn [hexLimb].
  - cbn [length numval fold_left]. change (16 ^ Z.of_nat 0) with 1. rewrite Z.mul_1_r, Z.add_0_r, Z.mod_small by exact Hw. reflexivity.
  - fold (nib c). rewrite (nib_eq c d Hc). pose proof (hexdig_range c d Hc). destruct (d =? 255) eqn:E; [lia|].
    rewrite IH by (unfold wadd, is_w; apply Z.mod_pos_bound; lia). f_equal. unfold wadd, wshl.
    rewrite Z.shiftl_mul_pow2 by lia. change (2 ^ 4) with 16. rewrite Zplus_mod_idemp_l.
    rewrite <- Zplus_mod_idemp_l, Zmult_mod_idemp_l, Zplus_mod_idemp_l.
    f_equal. rewrite numval_cons. cbn [length]. rewrite Nat2Z.inj_succ, Z.pow_succ_r by lia. ring.
Qed.

Lemma hexLimb_true w cs w' : hexLimb w cs = (w', true) -> exists vs, Forall2 hexdig cs vs.
Proof.
  revert w. induction cs as [|c cs IH]; intros w H; [exists []; constructor|].
  cbn [hexLimb] in H. fold (nib c) in H. destruct (nib c =? 255) eqn:E; [discriminate|].
  destruct (IH _ H) as (vs & F). exists (nib c :: vs). constructor; [|exact F].
  destruct (nib_spec c) as [[N _]|[N _]]; [exact N|lia].
Qed.

(** the loop of fromHex, on the digits alone *)
Fixpoint hexSpec (ds : list Z) (n i : nat) (z : Int) : Int * option hexErr :=
  match n with
  | O => (z, None)
  | S k =>
      let '(w, ok) := hexLimb (getLimb z i) (skipn (length ds - 16) ds) in
      if ok then hexSpec (firstn (length ds - 16) ds) k (S i) (setLimb z i w) else (setLimb z i w, Some ErrSyntax)
  end.

Lemma hexLoop_spec a b ds rest n i z :
  hexLoop (a :: b :: ds ++ rest) n i (2 + length ds) z = hexSpec ds n i z.
Proof.
  revert ds rest i z. induction n as [|n IH]; intros ds rest i z; [reflexivity|].
  cbn [hexLoop hexSpec]. cbv zeta.
  replace (Nat.max 2 (2 + length ds - 16)) with (2 + (length ds - 16))%nat by lia.
  set (t := (length ds - 16)%nat).
  assert (E : firstn (2 + length ds - (2 + t)) (skipn (2 + t) (a :: b :: ds ++ rest)) = skipn t ds).
  { cbn [Nat.add skipn]. rewrite skipn_app, firstn_app, skipn_length. replace (t - length ds)%nat with 0%nat by lia.
    replace (S (S (length ds)) - S (S t) - (length ds - t))%nat with 0%nat by lia. rewrite firstn_O, app_nil_r.
    apply firstn_all2. rewrite skipn_length. lia. }
  rewrite E. destruct (hexLimb (getLimb z i) (skipn t ds)) as [w ok]. destruct ok; [|reflexivity].
  rewrite <- (firstn_skipn t ds) at 1. rewrite <- app_assoc.
  replace (2 + t)%nat with (2 + length (firstn t ds))%nat by (rewrite firstn_length; lia).
  apply IH.
Qed.

Lemma numval_chunk vs : Forall (fun d => 0 <= d < 16) vs ->
  numval 16 (skipn (length vs - 16) vs) = numval 16 vs mod W /\
  numval 16 (firstn (length vs - 16) vs) = numval 16 vs / W.
Proof.
  intros F. set (t := (length vs - 16)%nat).
  assert (R : 0 <= numval 16 (skipn t vs) < W).
  { pose proof (numval_range 16 (skipn t vs) ltac:(lia) (Forall_skipn _ _ _ F)) as R. rewrite skipn_length in R.
    split; [lia|]. apply Z.lt_le_trans with (16 ^ Z.of_nat (length vs - t)); [lia|]. change W with (16 ^ 16).
    apply Z.pow_le_mono_r; lia. }
  assert (E : numval 16 vs = W * numval 16 (firstn t vs) + numval 16 (skipn t vs)).
  { rewrite <- (firstn_skipn t vs) at 1. rewrite numval_app, skipn_length.
    destruct (Nat.le_gt_cases (length vs) 16) as [L|L].
    - replace t with 0%nat by lia. cbn [firstn numval fold_left]. lia.
    - replace (length vs - t)%nat with 16%nat by lia. change (16 ^ Z.of_nat 16) with W. lia. }
  split.
  - exact (Z.mod_unique_pos _ _ _ _ R E).
  - exact (Z.div_unique_pos _ _ _ _ R E).
Qed.

(** the contents of a limb [w] after the [k] digits [v] that belong to it have been shifted in *)
Definition shiftIn (w v k : Z) : Z := (w * 16 ^ k + v) mod W.
(** how many of [k] digits belong to limb [j] *)
Definition limbDigits (k j : Z) : Z := Z.max 0 (Z.min 16 (k - 16 * j)).

Lemma Forall2_len {A B} (P : A -> B -> Prop) l m : Forall2 P l m -> length l = length m.
Proof. induction 1; cbn; congruence. Qed.
Lemma Forall2_skipn {A B} (P : A -> B -> Prop) n l m : Forall2 P l m -> Forall2 P (skipn n l) (skipn n m).
Proof. revert l m. induction n as [|n IH]; intros l m H; [exact H|]. destruct H; [constructor|]. cbn [skipn]. now apply IH. Qed.
Lemma Forall2_firstn {A B} (P : A -> B -> Prop) n l m : Forall2 P l m -> Forall2 P (firstn n l) (firstn n m).
Proof. revert l m. induction n as [|n IH]; intros l m H; [constructor|]. destruct H; [constructor|]. cbn [firstn]. constructor; auto. Qed.

Lemma hexSpec_step ds vs n i z : wf z -> Forall2 hexdig ds vs -> (i < 4)%nat ->
  hexSpec ds (S n) i z =
    hexSpec (firstn (length ds - 16) ds) n (S i)
      (setLimb z i (shiftIn (getLimb z i) (numval 16 vs mod W) (limbDigits (Z.of_nat (length vs)) 0))).
Proof.
  intros Hz F Hi. cbn [hexSpec].
  assert (Hl : is_w (getLimb z i)).
  { destruct Hz as (?&?&?&?). destruct i as [|[|[|i]]]; assumption. }
  rewrite (hexLimb_ok _ _ _ Hl (Forall2_skipn _ (length ds - 16) _ _ F)). rewrite (Forall2_len _ _ _ F).
  assert (Fv : Forall (fun d => 0 <= d < 16) vs).
  { clear -F. induction F; constructor; [eapply hexdig_range; eassumption|assumption]. }
  destruct (numval_chunk vs Fv) as [C1 _]. rewrite C1, skipn_length. unfold shiftIn, limbDigits. do 6 f_equal. lia.
Qed.

Lemma wf_setLimb z i w : wf z -> is_w w -> wf (setLimb z i w).
Proof. unfold wf. intros (?&?&?&?) ?. destruct i as [|[|[|i]]]; cbn [setLimb l0 l1 l2 l3]; auto. Qed.
Lemma shiftIn_w w v k : is_w (shiftIn w v k). Proof. unfold shiftIn, is_w. apply Z.mod_pos_bound. lia. Qed.

Lemma hexSpec_all ds vs z : wf z -> Forall2 hexdig ds vs ->
  let k := Z.of_nat (length vs) in let v := numval 16 vs in
  hexSpec ds 4 0 z = (mkInt (shiftIn (l0 z) (v mod W) (limbDigits k 0)) (shiftIn (l1 z) (v / W mod W) (limbDigits k 1))
     (shiftIn (l2 z) (v / W2 mod W) (limbDigits k 2)) (shiftIn (l3 z) (v / W3 mod W) (limbDigits k 3)), None).
Proof.
  intros Hz F k v.
  assert (Fv : forall u : list Z, Forall2 hexdig ds u -> Forall (fun d => 0 <= d < 16) u).
  { intros u G. clear -G. induction G; constructor; [eapply hexdig_range; eassumption|assumption]. }
  assert (Fv' : forall (a u : list Z), Forall2 hexdig a u -> Forall (fun d => 0 <= d < 16) u).
  { intros a u G. clear -G. induction G; constructor; [eapply hexdig_range; eassumption|assumption]. }
  pose proof (Forall2_len _ _ _ F) as L0.
  rewrite (hexSpec_step ds vs) by (assumption || lia).
  set (z1 := setLimb z 0 _). assert (Hz1 : wf z1) by (apply wf_setLimb; [assumption|apply shiftIn_w]).
  pose proof (Forall2_firstn _ (length ds - 16) _ _ F) as F1. rewrite (hexSpec_step _ _ _ _ _ Hz1 F1) by lia.
  set (ds1 := firstn (length ds - 16) ds) in *. rewrite L0 in F1 |- *. set (vs1 := firstn (length vs - 16) vs) in *.
  pose proof (Forall2_len _ _ _ F1) as L1.
  set (z2 := setLimb z1 1 _). assert (Hz2 : wf z2) by (apply wf_setLimb; [assumption|apply shiftIn_w]).
  pose proof (Forall2_firstn _ (length ds1 - 16) _ _ F1) as F2. rewrite (hexSpec_step _ _ _ _ _ Hz2 F2) by lia.
  set (ds2 := firstn (length ds1 - 16) ds1) in *. rewrite L1 in F2 |- *. set (vs2 := firstn (length vs1 - 16) vs1) in *.
  pose proof (Forall2_len _ _ _ F2) as L2.
  set (z3 := setLimb z2 2 _). assert (Hz3 : wf z3) by (apply wf_setLimb; [assumption|apply shiftIn_w]).
  pose proof (Forall2_firstn _ (length ds2 - 16) _ _ F2) as F3. rewrite (hexSpec_step _ _ _ _ _ Hz3 F3) by lia.
  cbn [hexSpec]. rewrite L2 in F3 |- *. set (vs3 := firstn (length vs2 - 16) vs2) in *.
  assert (E1 : numval 16 vs1 = v / W) by (apply numval_chunk; exact (Fv' _ _ F)).
  assert (E2 : numval 16 vs2 = v / W2).
  { destruct (numval_chunk vs1 (Fv' _ _ F1)) as [_ E]. unfold vs2. rewrite E, E1, Z.div_div by lia. reflexivity. }
  assert (E3 : numval 16 vs3 = v / W3).
  { destruct (numval_chunk vs2 (Fv' _ _ F2)) as [_ E]. unfold vs3. rewrite E, E2, Z.div_div by lia. reflexivity. }
  assert (K1 : length vs1 = (length vs - 16)%nat) by (unfold vs1; rewrite firstn_length; lia).
  assert (K2 : length vs2 = (length vs - 32)%nat) by (unfold vs2; rewrite firstn_length; lia).
  assert (K3 : length vs3 = (length vs - 48)%nat) by (unfold vs3; rewrite firstn_length; lia).
  clear Hz1 Hz2 Hz3. subst z3 z2 z1. cbn [setLimb getLimb l0 l1 l2 l3]. rewrite E1, E2, E3. rewrite K1, K2, K3.
  f_equal. unfold k, v. unfold limbDigits.
  f_equal; f_equal; lia.
Qed.

Lemma hexSpec_none ds n i z z' : hexSpec ds n i z = (z', None) -> (length ds <= 16 * n)%nat -> exists vs, Forall2 hexdig ds vs.
Proof.
  revert ds i z. induction n as [|n IH]; intros ds i z H L.
  - destruct ds; [exists []; constructor|cbn in L; lia].
  - cbn [hexSpec] in H. destruct (hexLimb (getLimb z i) (skipn (length ds - 16) ds)) as [w ok] eqn:E.
    destruct ok; [|discriminate].
    destruct (hexLimb_true _ _ _ E) as (v2 & F2).
    destruct (IH _ _ _ H) as (v1 & F1); [rewrite firstn_length; lia|].
    exists (v1 ++ v2). rewrite <- (firstn_skipn (length ds - 16) ds). apply Forall2_app; assumption.
Qed.

(** [s] is 0x or 0X followed by 1..64 hexadecimal digits of values [vs], the first of them not 0 unless
    it is the only one *)
Definition hexString (s vs : list Z) : Prop := exists x ds, s = 48 :: x :: ds /\ (x = 120 \/ x = 88) /\
  Forall2 hexdig ds vs /\ (1 <= length ds <= 64)%nat /\ ((1 < length ds)%nat -> hd 0 ds <> 48).

Lemma check_none s : checkNumberS s = None <->
  exists x ds, s = 48 :: x :: ds /\ (x = 120 \/ x = 88) /\ (1 <= length ds)%nat /\ ((1 < length ds)%nat -> hd 0 ds <> 48).
Proof.
  unfold checkNumberS. split.
  - intros H. destruct s as [|c0 [|c1 rest]]; try discriminate.
    destruct (negb (c0 =? 48) || (negb (c1 =? 120) && negb (c1 =? 88))) eqn:E; [discriminate|].
    destruct rest as [|c2 r]; [discriminate|].
    destruct ((0 <? length r)%nat && (c2 =? 48)) eqn:E2; [discriminate|].
    exists c1, (c2 :: r). cbn [length hd]. repeat split; try lia.
    + f_equal. lia.
  - intros (x & ds & -> & Hx & Hl & Hh). cbn [Z.eqb Pos.eqb negb orb].
    destruct (negb (x =? 120) && negb (x =? 88)) eqn:E; [lia|].
    destruct ds as [|c r]; [cbn in Hl; lia|]. cbn [length hd] in *.
    destruct ((0 <? length r)%nat && (c =? 48)) eqn:E2; [lia|reflexivity].
Qed.

(** fromHex on a receiver [z] *)
Lemma fromHex_ok z s vs : wf z -> hexString s vs ->
  let k := Z.of_nat (length vs) in let v := numval 16 vs in
  fromHex z s = (mkInt (shiftIn (l0 z) (v mod W) (limbDigits k 0)) (shiftIn (l1 z) (v / W mod W) (limbDigits k 1))
     (shiftIn (l2 z) (v / W2 mod W) (limbDigits k 2)) (shiftIn (l3 z) (v / W3 mod W) (limbDigits k 3)), None).
Proof.
  intros Hz (x & ds & -> & Hx & F & Hl & Hh) k v. unfold fromHex.
  assert (C : checkNumberS (48 :: x :: ds) = None) by (apply check_none; exists x, ds; repeat split; try assumption; lia).
  rewrite C. destruct (Nat.ltb 66 (length (48 :: x :: ds))) eqn:E; [cbn [length] in E; lia|].
  rewrite <- (app_nil_r ds) at 1. change (length (48 :: x :: ds)) with (2 + length ds)%nat. rewrite hexLoop_spec.
  exact (hexSpec_all ds vs z Hz F).
Qed.

Lemma fromHex_none z s z' : fromHex z s = (z', None) -> exists vs, hexString s vs.
Proof.
  unfold fromHex. destruct (checkNumberS s) eqn:C; [discriminate|]. apply check_none in C.
  destruct C as (x & ds & -> & Hx & Hl & Hh).
  destruct (Nat.ltb 66 (length (48 :: x :: ds))) eqn:E; [discriminate|]. cbn [length] in E.
  rewrite <- (app_nil_r ds) at 1. change (length (48 :: x :: ds)) with (2 + length ds)%nat. rewrite hexLoop_spec.
  intros H. destruct (hexSpec_none _ _ _ _ _ H) as (vs & F); [lia|]. exists vs, x, ds. repeat split; try assumption; lia.
Qed.

Lemma hexString_digits s vs : hexString s vs -> Forall (fun d => 0 <= d < 16) vs /\ (1 <= length vs <= 64)%nat.
Proof.
  intros (x & ds & _ & _ & F & L & _). split.
  - clear -F. induction F; constructor; [eapply hexdig_range; eassumption|assumption].
  - rewrite <- (Forall2_len _ _ _ F). exact L.
Qed.

Lemma shiftIn_zero v k : 0 <= k -> shiftIn 0 (v mod W) k = v mod W.
Proof. intros. unfold shiftIn. rewrite Z.mul_0_l, Z.add_0_l. apply Z.mod_mod. lia. Qed.

Lemma shiftIn_full w v : shiftIn w (v mod W) 16 = v mod W.
Proof.
  unfold shiftIn. change (16 ^ 16) with W. rewrite Z.add_comm, Z.mod_add by lia. apply Z.mod_mod. lia.
Qed.

Lemma hexString_range s vs : hexString s vs -> 0 <= numval 16 vs < T256.
Proof.
  intros H. apply hexString_digits in H. destruct H as [F L]. pose proof (numval_range 16 vs ltac:(lia) F) as R.
  split; [lia|]. apply Z.lt_le_trans with (16 ^ Z.of_nat (length vs)); [lia|]. change T256 with (16 ^ 64).
  apply Z.pow_le_mono_r; lia.
Qed.

(** a zero receiver, or a string of 64 digits: the number is stored *)
Lemma fromHex_exact z s vs : wf z -> hexString s vs -> z = Clear \/ length vs = 64%nat ->
  fromHex z s = (ofZ (numval 16 vs), None).
Proof.
  intros Hz H C. rewrite (fromHex_ok z s vs Hz H). f_equal. unfold ofZ. destruct C as [->|C].
  - cbn [Clear l0 l1 l2 l3]. unfold limbDigits. rewrite !shiftIn_zero by lia. reflexivity.
  - rewrite C. change (limbDigits (Z.of_nat 64) 0) with 16. change (limbDigits (Z.of_nat 64) 1) with 16.
    change (limbDigits (Z.of_nat 64) 2) with 16. change (limbDigits (Z.of_nat 64) 3) with 16. rewrite !shiftIn_full. reflexivity.
Qed.

Lemma wf_Clear : wf Clear. Proof. unfold wf, Clear, is_w; cbn [l0 l1 l2 l3]; lia. Qed.

Lemma FromHex_iff s z : FromHex s = inl z <-> exists vs, hexString s vs /\ wf z /\ toZ z = numval 16 vs.
Proof.
  unfold FromHex. split.
  - destruct (fromHex Clear s) as [z' [e|]] eqn:E; [discriminate|]. intros K. injection K as ->.
    destruct (fromHex_none _ _ _ E) as (vs & H). exists vs. split; [exact H|].
    rewrite (fromHex_exact _ _ _ wf_Clear H (or_introl eq_refl)) in E. injection E as <-.
    split; [apply wf_ofZ|]. apply toZ_ofZ. exact (hexString_range _ _ H).
  - intros (vs & H & Hw & Hv). rewrite (fromHex_exact _ _ _ wf_Clear H (or_introl eq_refl)). f_equal.
    symmetry. apply eq_ofZ; assumption.
Qed.

(** * Hex *)

Definition hexDig (d : Z) : Z := nth (Z.to_nat d) hextable 0.

Lemma hexDig_spec d : 0 <= d < 16 -> hexdig (hexDig d) d /\ ~ (65 <= hexDig d <= 70) /\ (hexDig d = 48 -> d = 0).
Proof.
  intros H. assert (C : forallb (fun i => hexdigb (hexDig (Z.of_nat i)) (Z.of_nat i) &&
     negb ((65 <=? hexDig (Z.of_nat i)) && (hexDig (Z.of_nat i) <=? 70))) (seq 0 16) = true) by (vm_compute; reflexivity).
  rewrite forallb_forall in C. specialize (C (Z.to_nat d)). rewrite in_seq in C. specialize (C ltac:(lia)).
  rewrite Z2Nat.id in C by lia. unfold hexdigb, hexdig in *. lia.
Qed.

Lemma hexChar_dig w sh : 0 <= sh -> hexChar w sh = hexDig ((w / 2 ^ sh) mod 16).
Proof.
  intros H. unfold hexChar, hexDig, wshr. rewrite Z.shiftr_div_pow2 by lia. do 2 f_equal.
  change 15 with (Z.ones 4). rewrite Z.land_ones by lia. change (2 ^ 4) with 16. change 256 with (16 * 16).
  rewrite Z.rem_mul_r by lia. rewrite (Z.mul_comm 16), Z.mod_add by lia. apply Z.mod_mod. lia.
Qed.

Lemma hexLine_ok w n pos out : (pos + n <= length out)%nat ->
  hexLine w n pos (4 * (Z.of_nat n - 1)) out = Ok (firstn pos out ++ map hexDig (digits 16 n w) ++ skipn (pos + n) out).
Proof.
  revert pos out. induction n as [|n IH]; intros pos out H.
  - cbn [hexLine digits map app]. rewrite Nat.add_0_r, firstn_skipn. reflexivity.
  - cbn [hexLine]. rewrite put_ok by lia. cbn [bind].
    replace (4 * (Z.of_nat (S n) - 1) - 4) with (4 * (Z.of_nat n - 1)) by lia.
    assert (Lf : length (firstn pos out) = pos) by (rewrite firstn_length; lia).
    rewrite IH by (rewrite app_length; cbn [length]; rewrite firstn_length, skipn_length; lia).
    f_equal. rewrite firstn_app, Lf. replace (S pos - pos)%nat with 1%nat by lia.
    rewrite firstn_firstn. replace (Nat.min (S pos) pos) with pos by lia.
    rewrite firstn_cons, firstn_O, <- app_assoc. f_equal. cbn [digits map app]. f_equal.
    + rewrite hexChar_dig by lia. do 3 f_equal. replace (4 * (Z.of_nat (S n) - 1)) with (4 * Z.of_nat n) by lia.
      rewrite Z.pow_mul_r by lia. reflexivity.
    + f_equal. rewrite skipn_app, Lf. rewrite skipn_all2 by lia. cbn [app].
      replace (S pos + n - pos)%nat with (S n) by lia. rewrite skipn_cons, skipn_skipn'. f_equal. lia.
Qed.

Lemma getLimb_word z i : wf z -> (i < 4)%nat -> getLimb z i = toZ z / 16 ^ Z.of_nat (16 * i) mod W.
Proof.
  intros (H0 & H1 & H2 & H3) Hi. unfold toZ, is_w in *. destruct z as [a b c d]. cbn [l0 l1 l2 l3] in *.
  destruct i as [|[|[|[|i]]]]; [| | | |lia]; cbn [getLimb l0 l1 l2 l3].
  - change (16 ^ Z.of_nat (16 * 0)) with 1. rewrite Z.div_1_r.
    replace (a + W * b + W2 * c + W3 * d) with (a + (b + W * c + W2 * d) * W) by lia. rewrite Z.mod_add, Z.mod_small by lia. reflexivity.
  - change (16 ^ Z.of_nat (16 * 1)) with W.
    rewrite <- (Z.div_unique_pos (a + W * b + W2 * c + W3 * d) W (b + (c + W * d) * W) a) by lia.
    rewrite Z.mod_add, Z.mod_small by lia. reflexivity.
  - change (16 ^ Z.of_nat (16 * 2)) with W2.
    rewrite <- (Z.div_unique_pos (a + W * b + W2 * c + W3 * d) W2 (c + d * W) (a + W * b)) by lia.
    rewrite Z.mod_add, Z.mod_small by lia. reflexivity.
  - change (16 ^ Z.of_nat (16 * 3)) with W3.
    rewrite <- (Z.div_unique_pos (a + W * b + W2 * c + W3 * d) W3 d (a + W * b + W2 * c)) by lia.
    rewrite Z.mod_small by lia. reflexivity.
Qed.

Lemma hexOut_ok z n out : wf z -> (n <= 4)%nat -> length out = 66%nat ->
  hexOut z n out = Ok (firstn ((4 - n) * 16 + 2) out ++ map hexDig (digits 16 (16 * n) (toZ z))).
Proof.
  intros Hz. revert out. induction n as [|i IH]; intros out Hn L.
  - cbn [hexOut]. change ((4 - 0) * 16 + 2)%nat with 66%nat. rewrite firstn_all2 by lia. cbn. now rewrite app_nil_r.
  - cbn [hexOut]. pose proof (hexLine_ok (getLimb z i) 16 ((3 - i) * 16 + 2) out ltac:(lia)) as E.
    change (4 * (Z.of_nat 16 - 1)) with 60 in E. rewrite E. cbn [bind]. clear E.
    set (P := ((3 - i) * 16 + 2)%nat). set (D := map hexDig (digits 16 16 (getLimb z i))).
    assert (LD : length D = 16%nat) by (unfold D; rewrite map_length, digits_length; reflexivity).
    assert (LP : length (firstn P out) = P) by (rewrite firstn_length; lia).
    rewrite IH; [|lia|rewrite !app_length, LP, LD, skipn_length; lia].
    f_equal. rewrite firstn_app, LP. replace ((4 - i) * 16 + 2 - P)%nat with 16%nat by lia.
    rewrite firstn_all2 by lia. rewrite firstn_app, LD, Nat.sub_diag, firstn_O, app_nil_r.
    rewrite (firstn_all2 D) by lia. rewrite <- app_assoc. replace ((4 - S i) * 16 + 2)%nat with P by lia. f_equal.
    replace (16 * S i)%nat with (16 + 16 * i)%nat by lia. rewrite digits_app by lia. rewrite map_app. f_equal.
    unfold D. f_equal. rewrite getLimb_word by (assumption || lia).
    change W with (16 ^ Z.of_nat 16). apply digits_mod; lia.
Qed.

(** the number of hexadecimal digits of a value *)
Definition hexLen (v : Z) : Z := if v =? 0 then 1 else Z.log2 v / 4 + 1.

Lemma hexLen_nibbles z : wf z ->
  (let nibbles := (BitLen z + 3) / 4 in if nibbles =? 0 then 1 else nibbles) = hexLen (toZ z).
Proof.
  intros Hz. cbv zeta. unfold hexLen. destruct (BitLen_spec z Hz) as (R & _ & _ & Z0).
  destruct (toZ z =? 0) eqn:E.
  - rewrite Z0 by lia. reflexivity.
  - rewrite BitLen_log2 by (assumption || lia). pose proof (Z.log2_nonneg (toZ z)).
    replace (Z.log2 (toZ z) + 1 + 3) with (Z.log2 (toZ z) + 1 * 4) by lia. rewrite Z.div_add by lia.
    pose proof (Z.div_pos (Z.log2 (toZ z)) 4 ltac:(lia) ltac:(lia)).
    destruct (Z.log2 (toZ z) / 4 + 1 =? 0) eqn:E1; lia.
Qed.

Lemma hexLen_range v : 0 <= v < T256 -> 1 <= hexLen v <= 64.
Proof.
  intros H. unfold hexLen. destruct (v =? 0) eqn:E; [lia|].
  assert (Z.log2 v < 256) by (apply Z.log2_lt_pow2; [lia|exact (proj2 H)]).
  pose proof (Z.log2_nonneg v). pose proof (Z.div_pos (Z.log2 v) 4 ltac:(lia) ltac:(lia)).
  assert (Z.log2 v / 4 < 64) by (apply Z.div_lt_upper_bound; lia). lia.
Qed.

Lemma hexLen_bound v : 0 <= v -> v < 16 ^ hexLen v /\ (v <> 0 -> 16 ^ (hexLen v - 1) <= v).
Proof.
  intros H. unfold hexLen. destruct (v =? 0) eqn:E; [lia|].
  pose proof (Z.log2_spec v ltac:(lia)) as [L1 L2]. pose proof (Z.log2_nonneg v).
  pose proof (Z.div_mod (Z.log2 v) 4 ltac:(lia)) as D. pose proof (Z.mod_pos_bound (Z.log2 v) 4 ltac:(lia)).
  pose proof (Z.div_pos (Z.log2 v) 4 ltac:(lia) ltac:(lia)).
  set (q := Z.log2 v / 4) in *. change 16 with (2 ^ 4). rewrite <- !Z.pow_mul_r by lia. split.
  - apply Z.lt_le_trans with (2 ^ Z.succ (Z.log2 v)); [exact L2|]. apply Z.pow_le_mono_r; lia.
  - intros _. apply Z.le_trans with (2 ^ Z.log2 v); [|exact L1]. apply Z.pow_le_mono_r; lia.
Qed.

Lemma Hex_digits z : wf z -> Hex z = Ok (48 :: 120 :: map hexDig (digits 16 (Z.to_nat (hexLen (toZ z))) (toZ z))).
Proof.
  intros Hz. unfold Hex. pose proof (hexLen_nibbles z Hz) as E. cbv zeta in E |- *. rewrite E. clear E.
  pose proof (hexLen_range _ (toZ_range z Hz)) as R. set (n := hexLen (toZ z)) in *. clearbody n.
  pose proof (Z.div_mod (n - 1) 16 ltac:(lia)) as D. pose proof (Z.mod_pos_bound (n - 1) 16 ltac:(lia)) as M.
  pose proof (Z.div_pos (n - 1) 16 ltac:(lia) ltac:(lia)) as P. set (q := (n - 1) / 16) in *. clearbody q.
  rewrite hexOut_ok by (assumption || lia || apply repeat_length). cbn [bind].
  set (m := (Z.to_nat q + 1)%nat) in *.
  set (F := firstn ((4 - m) * 16 + 2) (repeat 0 66)). set (G := map hexDig (digits 16 (16 * m) (toZ z))).
  assert (LF : length F = ((4 - m) * 16 + 2)%nat) by (unfold F; rewrite firstn_length, repeat_length; lia).
  assert (LG : length G = (16 * m)%nat) by (unfold G; rewrite map_length, digits_length; reflexivity).
  set (k := Z.to_nat n).
  rewrite put_ok by (rewrite app_length, LF, LG; lia). cbn [bind].
  set (O := F ++ G). assert (LO : length O = 66%nat) by (unfold O; rewrite app_length; lia).
  rewrite put_ok by (rewrite app_length; cbn [length]; rewrite firstn_length, skipn_length; lia). cbn [bind]. f_equal.
  assert (LA : length (firstn (64 - k) O) = (64 - k)%nat) by (rewrite firstn_length; lia).
  rewrite firstn_app, LA. replace (65 - k - (64 - k))%nat with 1%nat by lia. rewrite firstn_all2 by lia. cbn [firstn].
  rewrite <- app_assoc, skipn_app, LA, Nat.sub_diag, skipn_O. rewrite skipn_all2 by lia. cbn [app]. do 2 f_equal.
  rewrite skipn_app, LA. rewrite skipn_all2 by lia. cbn [app].
  replace (S (65 - k) - (64 - k))%nat with 2%nat by lia. rewrite skipn_cons.
  rewrite skipn_skipn'. unfold O. rewrite skipn_app, LF. rewrite skipn_all2 by lia. cbn [app].
  unfold G. rewrite skipn_map. f_equal.
  replace (16 * m)%nat with ((16 * m - k) + k)%nat by lia.
  replace (S (64 - k) + 1 - ((4 - m) * 16 + 2))%nat with (16 * m - k)%nat by lia. apply digits_skip. lia.
Qed.

Lemma Hex_string z : wf z -> exists s, Hex z = Ok s /\ hexString s (digits 16 (Z.to_nat (hexLen (toZ z))) (toZ z)) /\
  nth 1 s 0 = 120 /\ Forall (fun c => ~ (65 <= c <= 70)) s /\
  numval 16 (digits 16 (Z.to_nat (hexLen (toZ z))) (toZ z)) = toZ z.
Proof.
  intros Hz. rewrite Hex_digits by assumption. eexists. split; [reflexivity|].
  pose proof (toZ_range z Hz) as R. pose proof (hexLen_range _ R) as HL. destruct (hexLen_bound (toZ z) (proj1 R)) as [B1 B2].
  set (n := Z.to_nat (hexLen (toZ z))). assert (Hn : Z.of_nat n = hexLen (toZ z)) by lia.
  pose proof (digits_range 16 n (toZ z) ltac:(lia)) as F. split; [|split; [reflexivity|split]].
  - exists 120, (map hexDig (digits 16 n (toZ z))). split; [reflexivity|]. split; [now left|]. split; [|split].
    + clear -F. induction F; cbn [map]; constructor; [now apply hexDig_spec|assumption].
    + rewrite map_length, digits_length. lia.
    + rewrite map_length, digits_length. intros Hn1 E. destruct n as [|n']; [lia|]. cbn [digits map hd] in E.
      apply hexDig_spec in E; [|apply Z.mod_pos_bound; lia].
      assert (V0 : toZ z <> 0) by (intros V; unfold hexLen in Hn; rewrite V in Hn; cbn in Hn; lia).
      specialize (B2 V0). replace (hexLen (toZ z) - 1) with (Z.of_nat n') in B2 by lia.
      assert (P : 0 < 16 ^ Z.of_nat n') by (apply Z.pow_pos_nonneg; lia).
      rewrite Z.mod_small in E.
      * apply Z.div_small_iff in E; lia.
      * split; [apply Z.div_pos; lia|]. apply Z.div_lt_upper_bound; [lia|].
        rewrite <- Hn, Nat2Z.inj_succ, Z.pow_succ_r in B1 by lia. lia.
  - constructor; [lia|]. constructor; [lia|]. clear -F. induction F as [|d l Hd _ IH]; cbn [map]; constructor; [|exact IH].
    now apply hexDig_spec.
  - rewrite numval_digits by lia. rewrite Hn. apply Z.mod_small. lia.
Qed.

Lemma FromHex_Hex z : wf z -> exists s, Hex z = Ok s /\ FromHex s = inl z.
Proof.
  intros Hz. destruct (Hex_string z Hz) as (s & E & S & _ & _ & V). exists s. split; [exact E|].
  apply FromHex_iff. eexists. split; [exact S|]. split; [exact Hz|]. symmetry. exact V.
Qed.

Lemma UnmarshalJSON_quoted z s : UnmarshalJSON z (34 :: s ++ [34]) = UnmarshalText z s.
Proof.
  unfold UnmarshalJSON. cbn [length hd]. rewrite app_length. cbn [length].
  change (34 :: s ++ [34]) with ((34 :: s) ++ [34]). rewrite last_last. cbn [Z.eqb Pos.eqb negb].
  destruct (S (length s + 1) <? 2)%nat eqn:E; [lia|]. cbn [orb app skipn]. f_equal.
  replace (S (length s + 1) - 2)%nat with (length s + 0)%nat by lia. rewrite firstn_app_2. cbn [firstn]. apply app_nil_r.
Qed.
Lemma UnmarshalJSON_reject z s : (forall t, s <> 34 :: t ++ [34]) -> UnmarshalJSON z s = (z, Some ErrNonString).
Proof.
  intros H. unfold UnmarshalJSON. destruct ((length s <? 2)%nat || negb (hd 0 s =? 34) || negb (last s 0 =? 34)) eqn:E; [reflexivity|].
  exfalso. destruct s as [|a s]; [cbn in E; discriminate|]. cbn [hd length] in E.
  destruct (exists_last (l := s)) as (t & c & ->); [intros ->; cbn in E; discriminate|].
  change (a :: t ++ [c]) with ((a :: t) ++ [c]) in E. rewrite last_last in E. apply (H t).
  f_equal; [lia|]. f_equal. f_equal. lia.
Qed.

(** * RLP *)

(** canonical RLP of a byte string shorter than 56 bytes *)
Definition rlpString (bs : list Z) : list Z :=
  match bs with
  | [b] => if b <? 128 then [b] else 128 + 1 :: bs
  | _ => (128 + Z.of_nat (length bs)) :: bs
  end.

Lemma EncodeRLP_spec z : wf z -> EncodeRLP (Some z) = Ok (rlpString (Bytes z)).
Proof.
  intros Hz. rewrite Bytes_digits by assumption. unfold EncodeRLP.
  destruct (BitLen_spec z Hz) as (R & B1 & B2 & Z0). unfold ByteLen.
  destruct (BitLen z =? 0) eqn:E0.
  - replace (BitLen z) with 0 by lia. reflexivity.
  - assert (NZ : toZ z <> 0).
    { intros V. rewrite (Z0 V) in E0. discriminate. }
    specialize (B2 NZ). destruct (BitLen z <=? 7) eqn:E7.
    + assert (Q : (BitLen z + 7) / 8 = 1).
      { symmetry. apply (Z.div_unique_pos _ 8 1 (BitLen z - 1)); lia. }
      rewrite Q. change (Z.to_nat 1) with 1%nat. cbn [digits rlpString]. change (256 ^ Z.of_nat 0) with 1. rewrite Z.div_1_r.
      assert (toZ z < 128).
      { apply Z.lt_le_trans with (2 ^ BitLen z); [lia|]. change 128 with (2 ^ 7). apply Z.pow_le_mono_r; lia. }
      pose proof (toZ_range z Hz). rewrite (Z.mod_small (toZ z)) by lia.
      destruct (toZ z <? 128) eqn:E; [|lia]. do 2 f_equal.
      destruct Hz as (?&?&?&?). unfold toZ, is_w in *. rewrite Z.mod_small by lia. lia.
    + set (n := (BitLen z + 7) / 8).
      assert (Hn : 1 <= n <= 32).
      { unfold n. split; [apply Z.div_le_lower_bound; lia|apply Z.lt_succ_r, Z.div_lt_upper_bound; lia]. }
      cbv zeta. rewrite (Z.mod_small n) by lia. rewrite (Z.mod_small (128 + n)) by lia.
      fold (Bytes32 z). rewrite toZ_digits32 by assumption.
      rewrite put_ok by (cbn [length]; rewrite digits_length; lia). cbn [bind]. f_equal.
      set (k := (32 - Z.to_nat n)%nat).
      assert (LA : length (firstn k (0 :: digits 256 32 (toZ z))) = k) by (rewrite firstn_length; cbn [length]; rewrite digits_length; lia).
      rewrite skipn_app, LA, Nat.sub_diag, skipn_O. rewrite skipn_all2 by lia. cbn [app skipn].
      replace 32%nat with (k + Z.to_nat n)%nat at 1 by lia. rewrite digits_skip by lia.
      destruct (Z.eq_dec n 1) as [N1|N1].
      * rewrite N1. change (Z.to_nat 1) with 1%nat. cbn [digits rlpString]. change (256 ^ Z.of_nat 0) with 1. rewrite Z.div_1_r.
        assert (B8 : BitLen z = 8).
        { assert (BitLen z < 9); [|lia]. destruct (Z.lt_ge_cases (BitLen z) 9); [assumption|].
          assert (2 <= n) by (apply Z.div_le_lower_bound; lia). lia. }
        rewrite B8 in *. change (2 ^ (8 - 1)) with 128 in B2. change (2 ^ 8) with 256 in B1.
        pose proof (toZ_range z Hz). rewrite (Z.mod_small (toZ z)) by lia. destruct (toZ z <? 128) eqn:E; [lia|reflexivity].
      * unfold rlpString. destruct (digits 256 (Z.to_nat n) (toZ z)) as [|a [|b l]] eqn:E.
        { apply (f_equal (@length Z)) in E. rewrite digits_length in E. cbn in E. lia. }
        { apply (f_equal (@length Z)) in E. rewrite digits_length in E. cbn in E. lia. }
        rewrite <- E, digits_length. f_equal. lia.
Qed.

Lemma Bytes_inj x y : wf x -> wf y -> Bytes x = Bytes y -> x = y.
Proof.
  intros Hx Hy E. apply toZ_inj; auto. rewrite !Bytes_digits in E by assumption.
  apply (f_equal (numval 256)) in E. rewrite !numval_digits in E by lia.
  destruct (ByteLen_least x Hx) as (_ & Rx & Lx). destruct (ByteLen_least y Hy) as (_ & Ry & Ly).
  rewrite !Z2Nat.id in E by lia. rewrite !Z.mod_small in E; [exact E| |].
  - split; [apply toZ_range; assumption|]. apply Ly; lia.
  - split; [apply toZ_range; assumption|]. apply Lx; lia.
Qed.

(** an RLP string says where it ends *)
Lemma rlpString_prefix a b s t : (length a <= 55)%nat -> (length b <= 55)%nat ->
  Forall is_byte a -> Forall is_byte b -> rlpString a ++ s = rlpString b ++ t -> a = b /\ s = t.
Proof.
  assert (SH : forall l : list Z, (length l <= 55)%nat -> Forall is_byte l ->
     (exists c, l = [c] /\ 0 <= c < 128 /\ rlpString l = [c]) \/ (rlpString l = (128 + Z.of_nat (length l)) :: l)).
  { intros l _ Fl. destruct l as [|c [|d l]]; [now right| |now right]. inversion Fl as [|? ? Hc _]; subst. unfold is_byte in Hc.
    unfold rlpString. destruct (c <? 128) eqn:E; [left; exists c; repeat split; lia|right; reflexivity]. }
  intros La Lb Fa Fb E. destruct (SH a La Fa) as [(c & -> & Hc & Ra)|Ra], (SH b Lb Fb) as [(d & -> & Hd & Rb)|Rb];
    rewrite Ra, Rb in E; cbn [app] in E;
    pose proof (f_equal (hd 0) E) as E1; pose proof (f_equal (@tl Z) E) as E2; cbn [hd tl] in E1, E2; clear E.
  - subst. auto.
  - lia.
  - lia.
  - assert (L : length a = length b) by lia.
    pose proof (f_equal (firstn (length a)) E2) as F1. pose proof (f_equal (skipn (length a)) E2) as F2.
    rewrite L in F1 at 2. rewrite L in F2 at 2.
    rewrite !firstn_app, !Nat.sub_diag, !firstn_O, !app_nil_r, !firstn_all in F1.
    rewrite !skipn_app, !Nat.sub_diag, !skipn_O, !skipn_all in F2. auto.
Qed.

Lemma EncodeRLP_prefix x y ex ey s t : wf x -> wf y -> EncodeRLP (Some x) = Ok ex -> EncodeRLP (Some y) = Ok ey ->
  ex ++ s = ey ++ t -> x = y /\ s = t.
Proof.
  intros Hx Hy Ex Ey E. rewrite EncodeRLP_spec in Ex, Ey by assumption.
  apply (f_equal (fun r => match r with Ok l => l | _ => [] end)) in Ex, Ey. subst ex ey.
  assert (B : forall z, wf z -> (length (Bytes z) <= 55)%nat /\ Forall is_byte (Bytes z)).
  { intros z Hz. rewrite Bytes_digits by assumption. rewrite digits_length. destruct (ByteLen_least z Hz) as (_ & R & _).
    split; [lia|]. apply digits_range. lia. }
  destruct (B x Hx), (B y Hy). destruct (rlpString_prefix (Bytes x) (Bytes y) s t) as [E1 E2]; auto.
  split; [|assumption]. now apply Bytes_inj.
Qed.
