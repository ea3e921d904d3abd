(** Prop_Conv.v -- properties C14-C17, C54 and C55: byte, text, math/big, RLP and decimal codecs.
    Reading guide: a byte list is a Go []byte or string; [numval b l] is the number written by the
    base-[b] digits [l], most significant first.  [vis s] are the bytes of the slice [s] up to its
    length, [hid s] the ones behind up to its capacity. *)
From Coq Require Import String.
From Verif Require Import Base U256 U256Facts U256Div U256DivSpec U256Conv U256ConvFacts U256HexFacts Prices Decimal DecimalFacts.
Open Scope Z_scope.

Definition bytes (l : list Z) : Prop := Forall (fun c => 0 <= c < 256) l.
(** [l] is the [n]-byte big-endian form of [v] *)
Definition bigEndian (n : nat) (v : Z) (l : list Z) : Prop := length l = n /\ bytes l /\ numval 256 l = v.

Lemma bigEndian_digits n v : bigEndian n (v mod 256 ^ Z.of_nat n) (digits 256 n v).
Proof.
  split; [apply digits_length|]. split; [apply digits_range; lia|]. apply numval_digits. lia.
Qed.
Lemma bigEndian_small n v : 0 <= v < 256 ^ Z.of_nat n -> bigEndian n v (digits 256 n v).
Proof. intros H. pose proof (bigEndian_digits n v) as B. rewrite Z.mod_small in B by assumption. exact B. Qed.

(** * C14 *)

(** a buffer of any length: its big-endian value modulo 2^256 *)
Theorem C14_setbytes s : bytes (vis s) -> bytes (hid s) ->
  exists z, SetBytes s = Ok z /\ wf z /\ toZ z = numval 256 (vis s) mod 2 ^ 256.
Proof.
  exact (fun H1 H2 => SetBytes_spec s (proj2 (Forall_app _ _ _) (conj H1 H2))).
Qed.
Print Assumptions C14_setbytes.

Lemma setbytes_n n s : (1 <= n <= 32)%nat -> n <> 29%nat -> bytes (vis s) -> bytes (hid s) ->
  ((n <= length (vis s))%nat -> exists z, SetBytesN n s = Ok z /\ wf z /\ toZ z = numval 256 (firstn n (vis s))) /\
  ((length (vis s) < n)%nat -> SetBytesN n s = Panic).
Proof.
  intros Hn H29 H1 H2.
  assert (F : Forall is_byte (data s)) by (apply Forall_app; auto).
  assert (L : long_enough n s <-> (n <= length (vis s))%nat).
  { unfold long_enough. destruct (Nat.eqb_spec n 29); [contradiction|tauto]. }
  split; intros H.
  - destruct (SetBytesN_ok n s Hn F) as (z & E & W & V); [now apply L|]. exists z. rewrite <- be_vis by assumption. auto.
  - apply SetBytesN_panic; auto. rewrite L. lia.
Qed.
(** the fixed-length decoders other than SetBytes29: the first [n] bytes, a panic for a shorter slice *)
Theorem C14_setbytes_n n s : (1 <= n <= 32)%nat -> n <> 29%nat -> bytes (vis s) -> bytes (hid s) ->
  ((n <= length (vis s))%nat -> exists z, SetBytesN n s = Ok z /\ wf z /\ toZ z = numval 256 (firstn n (vis s))) /\
  ((length (vis s) < n)%nat -> SetBytesN n s = Panic).
Proof. exact (setbytes_n n s). Qed.
Print Assumptions C14_setbytes_n.

Lemma setbytes_29 s : bytes (vis s) -> bytes (hid s) ->
  ((24 <= length (vis s))%nat -> (29 <= length (vis s ++ hid s))%nat ->
     exists z, SetBytes29 s = Ok z /\ wf z /\ toZ z = numval 256 (firstn 29 (vis s ++ hid s))) /\
  ((length (vis s) < 24)%nat \/ (length (vis s ++ hid s) < 29)%nat -> SetBytes29 s = Panic).
Proof.
  intros H1 H2. assert (F : Forall is_byte (data s)) by (apply Forall_app; auto). split.
  - intros L1 L2. exact (SetBytesN_ok 29 s ltac:(lia) F (conj L1 L2)).
  - intros H. apply (SetBytesN_panic 29 s); [lia|exact F|]. unfold long_enough, data. cbn [Nat.eqb]. lia.
Qed.
(** SetBytes29 checks the 24th byte instead of the 29th: with enough capacity it reads behind the slice *)
Theorem C14_setbytes_29 s : bytes (vis s) -> bytes (hid s) ->
  ((24 <= length (vis s))%nat -> (29 <= length (vis s ++ hid s))%nat ->
     exists z, SetBytes29 s = Ok z /\ wf z /\ toZ z = numval 256 (firstn 29 (vis s ++ hid s))) /\
  ((length (vis s) < 24)%nat \/ (length (vis s ++ hid s) < 29)%nat -> SetBytes29 s = Panic).
Proof. exact (setbytes_29 s). Qed.
Print Assumptions C14_setbytes_29.
Theorem C14_setbytes_29_refuted :
  ~ (forall s, bytes (vis s) -> bytes (hid s) -> (length (vis s) < 29)%nat -> SetBytes29 s = Panic).
Proof.
  intros H. specialize (H (mkSlice (repeat 1 24) (repeat 7 8))). 
  assert (B : forall n v, 0 <= v < 256 -> bytes (repeat v n)).
  { intros n v Hv. apply Forall_forall. intros x Hx. apply repeat_spec in Hx. lia. }
  specialize (H (B 24%nat 1 ltac:(lia)) (B 8%nat 7 ltac:(lia)) ltac:(cbn; lia)). vm_compute in H. discriminate.
Qed.
Print Assumptions C14_setbytes_29_refuted.

Lemma bytes32 z : wf z -> bigEndian 32 (toZ z) (Bytes32 z) /\ bigEndian 20 (toZ z mod 2 ^ 160) (Bytes20 z) /\
  bigEndian (Z.to_nat (ByteLen z)) (toZ z) (Bytes z) /\ (toZ z <> 0 -> hd 0 (Bytes z) <> 0) /\ (toZ z = 0 -> Bytes z = []).
Proof.
  intros Hz. rewrite toZ_digits32, Bytes20_digits, Bytes_digits by assumption.
  destruct (ByteLen_least z Hz) as (_ & R & L). pose proof (toZ_range z Hz) as V.
  split; [apply bigEndian_small; exact V|]. split; [exact (bigEndian_digits 20 (toZ z))|].
  assert (Lt : toZ z < 256 ^ ByteLen z) by (apply L; lia).
  split; [apply bigEndian_small; rewrite Z2Nat.id by lia; lia|]. split.
  - intros NZ. assert (P : 1 <= ByteLen z).
    { destruct (Z.le_gt_cases (ByteLen z) 0) as [C|C]; [|lia]. apply L in C; [|lia]. cbn in C. lia. }
    destruct (Z.to_nat (ByteLen z)) as [|n] eqn:E; [lia|]. cbn [digits hd].
    assert (Hn : ByteLen z = Z.of_nat n + 1) by lia.
    assert (Ge : 256 ^ Z.of_nat n <= toZ z).
    { destruct (Z.lt_ge_cases (toZ z) (256 ^ Z.of_nat n)) as [C|C]; [|exact C]. apply L in C; lia. }
    rewrite Hn, Z.pow_add_r in Lt by lia. change (256 ^ 1) with 256 in Lt.
    assert (P0 : 0 < 256 ^ Z.of_nat n) by (apply Z.pow_pos_nonneg; lia).
    rewrite Z.mod_small by (split; [apply Z.div_pos; lia|apply Z.div_lt_upper_bound; lia]).
    intros C. apply Z.div_small_iff in C; lia.
  - intros V0. assert (ByteLen z <= 0) by (apply L; [lia|rewrite V0; reflexivity]). replace (Z.to_nat (ByteLen z)) with 0%nat by lia. reflexivity.
Qed.
(** Bytes32, Bytes20 and Bytes; Bytes is minimal *)
Theorem C14_bytes z : wf z -> bigEndian 32 (toZ z) (Bytes32 z) /\ bigEndian 20 (toZ z mod 2 ^ 160) (Bytes20 z) /\
  bigEndian (Z.to_nat (ByteLen z)) (toZ z) (Bytes z) /\ (toZ z <> 0 -> hd 0 (Bytes z) <> 0) /\ (toZ z = 0 -> Bytes z = []).
Proof. exact (bytes32 z). Qed.
Print Assumptions C14_bytes.

Lemma round_bytes z l : wf z -> numval 256 l = toZ z -> bytes l -> forall h, bytes h -> SetBytes (mkSlice l h) = Ok z.
Proof.
  intros Hz V B h Hh. destruct (SetBytes_spec (mkSlice l h)) as (z' & E & W & V'); [apply Forall_app; auto|].
  rewrite E. f_equal. apply toZ_inj; auto. rewrite V'. cbn [vis]. rewrite V. apply Z.mod_small. apply toZ_range. assumption.
Qed.
Lemma roundtrip z h : wf z -> bytes h -> SetBytes (mkSlice (Bytes32 z) h) = Ok z /\ SetBytes (mkSlice (Bytes z) h) = Ok z.
Proof.
  intros Hz Hh. destruct (bytes32 z Hz) as ((_ & B1 & V1) & _ & (_ & B2 & V2) & _).
  split; apply round_bytes; assumption.
Qed.
Theorem C14_roundtrip z h : wf z -> bytes h ->
  SetBytes (mkSlice (Bytes32 z) h) = Ok z /\ SetBytes (mkSlice (Bytes z) h) = Ok z.
Proof. exact (roundtrip z h). Qed.
Print Assumptions C14_roundtrip.

Lemma writers z dest n : wf z -> 0 <= n ->
  (exists l, WriteToSlice z dest = Ok (l ++ skipn 32 dest) /\
     bigEndian (Nat.min (length dest) 32) (toZ z mod 256 ^ Z.of_nat (Nat.min (length dest) 32)) l) /\
  (exists l, PaddedBytes z n = Ok l /\ bigEndian (Z.to_nat n) (toZ z mod 256 ^ n) l) /\
  (length dest = 32%nat -> exists l, WriteToArray32 z dest = Ok l /\ bigEndian 32 (toZ z) l) /\
  (length dest = 20%nat -> exists l, WriteToArray20 z dest = Ok l /\ bigEndian 20 (toZ z mod 2 ^ 160) l).
Proof.
  intros Hz Hn. split; [|split; [|split]].
  - rewrite WriteToSlice_ok by assumption. eexists. split; [reflexivity|]. apply bigEndian_digits.
  - rewrite PaddedBytes_ok by assumption. eexists. split; [reflexivity|].
    pose proof (bigEndian_digits (Z.to_nat n) (toZ z)) as B. rewrite Z2Nat.id in B by assumption. exact B.
  - intros L. rewrite WriteToArray32_ok by assumption. eexists. split; [reflexivity|]. apply bigEndian_small. exact (toZ_range z Hz).
  - intros L. rewrite WriteToArray20_ok by assumption. eexists. split; [reflexivity|]. exact (bigEndian_digits 20 (toZ z)).
Qed.
(** the writers store the low bytes that fit, big endian; WriteToSlice leaves what is behind byte 32;
    PaddedBytes of more than 32 bytes pads with zeros in front *)
Theorem C14_writers z dest n : wf z -> 0 <= n ->
  (exists l, WriteToSlice z dest = Ok (l ++ skipn 32 dest) /\
     bigEndian (Nat.min (length dest) 32) (toZ z mod 256 ^ Z.of_nat (Nat.min (length dest) 32)) l) /\
  (exists l, PaddedBytes z n = Ok l /\ bigEndian (Z.to_nat n) (toZ z mod 256 ^ n) l) /\
  (length dest = 32%nat -> exists l, WriteToArray32 z dest = Ok l /\ bigEndian 32 (toZ z) l) /\
  (length dest = 20%nat -> exists l, WriteToArray20 z dest = Ok l /\ bigEndian 20 (toZ z mod 2 ^ 160) l).
Proof. exact (writers z dest n). Qed.
Print Assumptions C14_writers.

Example C14_case : SetBytes (mkSlice [1; 2; 3; 4; 5; 6; 7; 8; 9; 10; 11] [99]) = Ok (mkInt 0x0405060708090a0b 0x010203 0 0) /\
  Bytes (mkInt 0x0405060708090a0b 0x010203 0 0) = [1; 2; 3; 4; 5; 6; 7; 8; 9; 10; 11] /\
  PaddedBytes (mkInt 258 0 0 0) 3 = Ok [0; 1; 2] /\ WriteToSlice (mkInt 258 0 0 0) [9] = Ok [2].
Proof. vm_compute. auto. Qed.

(** * C15 *)

(** [s] is 0x or 0X and 1 to 64 hexadecimal digits with the values [vs], without a leading zero unless
    it is the only digit *)
Definition hexNumber (s vs : list Z) : Prop := exists x ds, s = 48 :: x :: ds /\ (x = 120 \/ x = 88) /\
  Forall2 (fun c d => (48 <= c <= 57 /\ d = c - 48) \/ (97 <= c <= 102 /\ d = c - 87) \/ (65 <= c <= 70 /\ d = c - 55)) ds vs /\
  (1 <= length ds <= 64)%nat /\ ((1 < length ds)%nat -> hd 0 ds <> 48).

Theorem C15_accepts s z : FromHex s = inl z <-> exists vs, hexNumber s vs /\ wf z /\ toZ z = numval 16 vs.
Proof. exact (FromHex_iff s z). Qed.
Print Assumptions C15_accepts.

Lemma hex_form z : wf z -> exists s vs, Hex z = Ok s /\ hexNumber s vs /\ numval 16 vs = toZ z /\
  nth 1 s 0 = 120 /\ Forall (fun c => ~ (65 <= c <= 70)) s.
Proof. intros Hz. destruct (Hex_string z Hz) as (s & A & B & C & D & E). eauto 10. Qed.
(** Hex never panics and writes the canonical lower-case form *)
Theorem C15_hex z : wf z -> exists s vs, Hex z = Ok s /\ hexNumber s vs /\ numval 16 vs = toZ z /\
  nth 1 s 0 = 120 /\ Forall (fun c => ~ (65 <= c <= 70)) s.
Proof. exact (hex_form z). Qed.
Print Assumptions C15_hex.
Theorem C15_roundtrip z : wf z -> exists s, Hex z = Ok s /\ FromHex s = inl z.
Proof. exact (FromHex_Hex z). Qed.
Print Assumptions C15_roundtrip.

(** UnmarshalText into an existing value: the digits are shifted into the old limbs *)
Theorem C15_receiver z s vs : wf z -> hexNumber s vs ->
  let v := numval 16 vs in
  let shifted w j := (w * 16 ^ Z.max 0 (Z.min 16 (Z.of_nat (length vs) - 16 * j)) + (v / 2 ^ (64 * j)) mod 2 ^ 64) mod 2 ^ 64 in
  UnmarshalText z s = (mkInt (shifted (l0 z) 0) (shifted (l1 z) 1) (shifted (l2 z) 2) (shifted (l3 z) 3), None).
Proof.
  intros Hz H v shifted. unfold shifted. change (2 ^ (64 * 0)) with 1. rewrite Z.div_1_r. exact (fromHex_ok z s vs Hz H).
Qed.
Print Assumptions C15_receiver.
(** so the value read is right for a zero receiver and for 64 digits *)
Theorem C15_receiver_zero z s vs : wf z -> hexNumber s vs -> z = mkInt 0 0 0 0 \/ length vs = 64%nat ->
  exists z', UnmarshalText z s = (z', None) /\ wf z' /\ toZ z' = numval 16 vs.
Proof.
  exact (fun Hz H C => ex_intro _ _ (conj (fromHex_exact z s vs Hz H C)
    (conj (wf_ofZ _) (toZ_ofZ _ (hexString_range s vs H))))).
Qed.
Print Assumptions C15_receiver_zero.
(** but not in general: reading "0x1" into 5 gives 0x51; after an error the receiver has changed too *)
Theorem C15_receiver_refuted :
  ~ (forall z s vs z' , wf z -> hexNumber s vs -> UnmarshalText z s = (z', None) -> toZ z' = numval 16 vs).
Proof.
  intros H. specialize (H (mkInt 5 0 0 0) [48; 120; 49] [1] (mkInt 81 0 0 0)).
  assert (E : toZ (mkInt 81 0 0 0) = numval 16 [1]).
  - apply H; [unfold wf, is_w; cbn [l0 l1 l2 l3]; lia| |vm_compute; reflexivity].
    exists 120, [49]. split; [reflexivity|]. split; [now left|]. split; [repeat constructor; lia|]. cbn. lia.
  - vm_compute in E. discriminate.
Qed.
Print Assumptions C15_receiver_refuted.
Theorem C15_json z s : UnmarshalJSON z (34 :: s ++ [34]) = UnmarshalText z s /\
  ((forall t, s <> 34 :: t ++ [34]) -> UnmarshalJSON z s = (z, Some ErrNonString)).
Proof. exact (conj (UnmarshalJSON_quoted z s) (UnmarshalJSON_reject z s)). Qed.
Print Assumptions C15_json.
Example C15_case : Hex (mkInt 0xabc 1 0 0) = Ok ([48; 120; 49] ++ repeat 48 13 ++ [97; 98; 99]) /\
  Hex (mkInt 0 0 0 0) = Ok [48; 120; 48] /\ FromHex [48; 88; 65; 102] = inl (mkInt 0xaf 0 0 0) /\
  FromHex [48; 120; 48; 49] = inr ErrLeadingZero /\ FromHex (48 :: 120 :: repeat 49 65) = inr ErrBig256Range /\
  FromHex [48; 120; 103] = inr ErrSyntax /\ UnmarshalText (mkInt 5 0 0 0) [48; 120; 49; 103] = (mkInt 81 0 0 0, Some ErrSyntax).
Proof. vm_compute. auto 10. Qed.

(** * C16 *)

Theorem C16_tobig z : wf z -> ToBig z = toZ z /\ SToBig z = sgn256 (toZ z).
Proof. exact (fun H => conj (ToBig_spec z) (SToBig_spec z H)). Qed.
Print Assumptions C16_tobig.
(** any integer: its residue, two's complement for negatives; the flag tells whether the absolute value
    needs more than 256 bits *)
Theorem C16_frombig b : wf (fst (FromBig b)) /\ toZ (fst (FromBig b)) = b mod 2 ^ 256 /\
  snd (FromBig b) = (2 ^ 256 <=? Z.abs b).
Proof. exact (FromBig_spec b). Qed.
Print Assumptions C16_frombig.
Theorem C16_roundtrip z : wf z -> FromBig (ToBig z) = (z, false) /\ FromBig (SToBig z) = (z, false).
Proof. exact (fun H => conj (FromBig_ToBig z H) (FromBig_SToBig z H)). Qed.
Print Assumptions C16_roundtrip.
Example C16_case : SToBig (mkInt (W - 5) (W - 1) (W - 1) (W - 1)) = -5 /\ FromBig (- (2 ^ 256 + 1)) = (mkInt (W - 1) (W - 1) (W - 1) (W - 1), true) /\
  snd (FromBig (- (2 ^ 256 - 1))) = false.
Proof. vm_compute. auto. Qed.

(** * C17 *)

(** the canonical RLP of a byte string of at most 55 bytes: a single byte below 128 stands for itself,
    any other string is preceded by 128 plus its length *)
Definition canonicalRLP (bs : list Z) : list Z :=
  match bs with
  | [b] => if b <? 128 then [b] else 129 :: bs
  | _ => (128 + Z.of_nat (length bs)) :: bs
  end.
Theorem C17_canonical z : wf z -> EncodeRLP (Some z) = Ok (canonicalRLP (Bytes z)).
Proof. exact (EncodeRLP_spec z). Qed.
Print Assumptions C17_canonical.
(** a stream of encodings is read back in one way only *)
Theorem C17_uniquely_decodable x y ex ey s t : wf x -> wf y -> EncodeRLP (Some x) = Ok ex -> EncodeRLP (Some y) = Ok ey ->
  ex ++ s = ey ++ t -> x = y /\ s = t.
Proof. exact (EncodeRLP_prefix x y ex ey s t). Qed.
Print Assumptions C17_uniquely_decodable.
Example C17_case : EncodeRLP (Some (mkInt 127 0 0 0)) = Ok [127] /\ EncodeRLP (Some (mkInt 128 0 0 0)) = Ok [129; 128] /\
  EncodeRLP (Some (mkInt 0 0 0 0)) = Ok [128] /\ EncodeRLP None = Ok [128] /\ EncodeRLP (Some (mkInt 1024 0 0 0)) = Ok [130; 4; 0].
Proof. vm_compute. auto 10. Qed.

(** * C54 *)

Theorem C54_amount z : wf z -> exists s, amountString (Some z) = Ok s /\ stringToUint256 s = Some z.
Proof. exact (fun H => ex_intro _ _ (amount_round z H)). Qed.
Print Assumptions C54_amount.
(** the string is the decimal form of the signed value, and any decimal string is read modulo 2^256 *)
Theorem C54_meaning z s b : wf z -> bigSetString s = Some b ->
  amountString (Some z) = Ok (bigString (sgn256 (toZ z))) /\
  exists z', stringToUint256 s = Some z' /\ wf z' /\ toZ z' = b mod 2 ^ 256.
Proof. exact (fun H E => conj (proj1 (amount_round z H)) (stringToUint256_value s b E)). Qed.
Print Assumptions C54_meaning.
(** a whole transaction: every field its type uses survives writing and reading *)
Theorem C54_swap t : tType t = "Swap"%string -> some_wf (tAmount0 t) -> some_wf (tAmount1 t) -> some_wf (tSqrtPriceX96 t) ->
  exists i, MarshalJSON t = Ok i /\
   readTransaction i = mkTrans (tType t) None (tAmount0 t) (tAmount1 t) (tID t) (tSqrtPriceX96 t) (tTick t) 0 0
      (tTimestamp t) (tUseX96 t).
Proof. exact (swap_round t). Qed.
Print Assumptions C54_swap.
Theorem C54_mint_burn t : tType t = "Mint"%string \/ tType t = "Burn"%string ->
  some_wf (tAmount t) -> some_wf (tAmount0 t) -> some_wf (tAmount1 t) ->
  exists i, MarshalJSON t = Ok i /\
   readTransaction i = mkTrans (tType t) (tAmount t) (tAmount0 t) (tAmount1 t) (tID t) None 0 (tTickLower t) (tTickUpper t)
      (tTimestamp t) false.
Proof. exact (mint_burn_round t). Qed.
Print Assumptions C54_mint_burn.
Theorem C54_flash t : tType t = "Flash"%string -> some_wf (tAmount0 t) -> some_wf (tAmount1 t) ->
  exists i, MarshalJSON t = Ok i /\
   readTransaction i = mkTrans (tType t) None (tAmount0 t) (tAmount1 t) (tID t) None 0 0 0 (tTimestamp t) false.
Proof. exact (flash_round t). Qed.
Print Assumptions C54_flash.
Example C54_case : amountString (Some (mkInt (W - 1200) (W - 1) (W - 1) (W - 1))) = Ok [45; 49; 50; 48; 48] /\
  stringToUint256 [45; 49; 50; 48; 48] = Some (mkInt (W - 1200) (W - 1) (W - 1) (W - 1)) /\
  stringToUint256 [] = None /\ bigString (10 ^ 20) = 49 :: repeat 48 20.
Proof. vm_compute. auto. Qed.

(** * C55 *)

Theorem C55_power fuel n m : - 2 ^ 63 <= n < 2 ^ 63 -> 0 <= m < 2 ^ 63 - 1 -> (Z.to_nat m < fuel)%nat ->
  exists r, IntPow fuel n m = Ok r /\ - 2 ^ 63 <= r < 2 ^ 63 /\ (2 ^ 64 | r - n ^ m).
Proof.
  intros Hn Hm Hf. exists (int64 (n ^ m)). split; [exact (IntPow_ok fuel n m Hn Hm Hf)|]. unfold int64.
  pose proof (Z.mod_pos_bound (n ^ m + 2 ^ 63) (2 ^ 64) ltac:(lia)). split; [lia|].
  pose proof (Z.div_mod (n ^ m + 2 ^ 63) (2 ^ 64) ltac:(lia)). exists (- ((n ^ m + 2 ^ 63) / 2 ^ 64)). lia.
Qed.
Print Assumptions C55_power.
(** a negative exponent gives n; the largest int as exponent never returns *)
Theorem C55_outside fuel n m : (m < 0 -> (0 < fuel)%nat -> IntPow fuel n m = Ok n) /\ IntPow fuel n (2 ^ 63 - 1) = OutOfFuel.
Proof. exact (conj (IntPow_negative fuel n m) (IntPow_max fuel n)). Qed.
Print Assumptions C55_outside.
Example C55_case : IntPow 20 2 16 = Ok 65536 /\ IntPow 70 2 63 = Ok (- 2 ^ 63) /\ IntPow 70 3 41 = Ok (3 ^ 41 - 2 * 2 ^ 64).
Proof. vm_compute. auto. Qed.
