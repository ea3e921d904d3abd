(** Prop_U256.v -- properties C01-C09 and C11-C13 of /repo/uint256.
    Reading guide: [wf x] says the four limbs of x are 64-bit words (every Go value), [toZ x] is the
    integer it denotes, [sgn256 v] its two's-complement reading, [T256] = 2^256.  [Ok z] is a normal
    return, [Panic] a Go panic. *)
From Verif Require Import Base U256 U256Facts U256Shift U256Bits U256Exp U256Div U256DivFacts U256Udivrem U256DivSpec.

Definition x1 : Int := mkInt (W - 1) (W - 1) (W - 1) (W - 1).
Definition x2 : Int := mkInt 5 7 0 (W - 2).
Example x12_wf : wf x1 /\ wf x2. Proof. unfold wf, is_w; cbn [x1 x2 l0 l1 l2 l3]; lia. Qed.

Theorem C01_add_sub x y : wf x -> wf y ->
  (wf (Add x y) /\ toZ (Add x y) = (toZ x + toZ y) mod T256) /\
  (wf (Sub x y) /\ toZ (Sub x y) = (toZ x - toZ y) mod T256) /\
  (wf (Neg x) /\ toZ (Neg x) = (- toZ x) mod T256).
Proof. exact (fun Hx Hy => conj (Add_spec x y Hx Hy) (conj (Sub_spec x y Hx Hy) (Neg_spec x Hx))). Qed.
Print Assumptions C01_add_sub.

Theorem C01_add_overflow x y : wf x -> wf y ->
  wf (fst (AddOverflow x y)) /\ toZ (fst (AddOverflow x y)) = (toZ x + toZ y) mod T256 /\
  snd (AddOverflow x y) = (T256 <=? toZ x + toZ y).
Proof. exact (AddOverflow_spec x y). Qed.
Print Assumptions C01_add_overflow.

Theorem C01_sub_overflow x y : wf x -> wf y ->
  wf (fst (SubOverflow x y)) /\ toZ (fst (SubOverflow x y)) = (toZ x - toZ y) mod T256 /\
  snd (SubOverflow x y) = (toZ x <? toZ y).
Proof. exact (SubOverflow_spec x y). Qed.
Print Assumptions C01_sub_overflow.

Theorem C01_uint64_operand x n : wf x -> 0 <= n < W ->
  (wf (AddUint64 x n) /\ toZ (AddUint64 x n) = (toZ x + n) mod T256) /\
  (wf (SubUint64 x n) /\ toZ (SubUint64 x n) = (toZ x - n) mod T256).
Proof. exact (fun Hx Hn => conj (AddUint64_spec x n Hx Hn) (SubUint64_spec x n Hx Hn)). Qed.
Print Assumptions C01_uint64_operand.
Example C01_case : Add x1 x2 = mkInt 4 7 0 (W - 2) /\ snd (AddOverflow x1 x2) = true /\ snd (SubOverflow x2 x1) = true.
Proof. vm_compute. auto. Qed.

Theorem C02_mul x y : wf x -> wf y ->
  (length (Umul x y) = 8%nat /\ Forall is_w (Umul x y) /\ lval (Umul x y) = toZ x * toZ y) /\
  (wf (Mul x y) /\ toZ (Mul x y) = (toZ x * toZ y) mod T256) /\
  (wf (squared x) /\ toZ (squared x) = (toZ x * toZ x) mod T256) /\
  (wf (fst (MulOverflow x y)) /\ toZ (fst (MulOverflow x y)) = (toZ x * toZ y) mod T256 /\
   snd (MulOverflow x y) = (T256 <=? toZ x * toZ y)).
Proof.
  exact (fun Hx Hy => conj (Umul_length_spec x y Hx Hy)
    (conj (Mul_spec x y Hx Hy) (conj (squared_spec x Hx) (MulOverflow_spec x y Hx Hy)))).
Qed.
Print Assumptions C02_mul.
Example C02_case : Umul x1 x1 = [1; 0; 0; 0; W - 2; W - 1; W - 1; W - 1] /\ squared x1 = mkInt 1 0 0 0.
Proof. vm_compute. auto. Qed.

Theorem C03_unsigned_order x y : wf x -> wf y ->
  Lt x y = (toZ x <? toZ y) /\ Gt x y = (toZ y <? toZ x) /\ Eq x y = (toZ x =? toZ y) /\
  IsZero x = (toZ x =? 0) /\
  Cmp x y = match toZ x ?= toZ y with Datatypes.Lt => -1 | Datatypes.Eq => 0 | Datatypes.Gt => 1 end.
Proof.
  exact (fun Hx Hy => conj (Lt_spec x y Hx Hy) (conj (Gt_spec x y Hx Hy) (conj (Eq_spec x y Hx Hy)
    (conj (IsZero_spec x Hx) (Cmp_spec x y Hx Hy))))).
Qed.
Print Assumptions C03_unsigned_order.
Theorem C03_uint64_order x n : wf x -> 0 <= n < W ->
  LtUint64 x n = (toZ x <? n) /\ GtUint64 x n = (n <? toZ x) /\ IsUint64 x = (toZ x <? W) /\
  fst (Uint64WithOverflow x) = toZ x mod W /\ snd (Uint64WithOverflow x) = (W <=? toZ x).
Proof.
  exact (fun Hx Hn => conj (LtUint64_spec x n Hx Hn) (conj (GtUint64_spec x n Hx Hn) (conj (IsUint64_spec x Hx)
    (Uint64WithOverflow_spec x Hx)))).
Qed.
Print Assumptions C03_uint64_order.
Theorem C03_signed_order x y : wf x -> wf y ->
  Slt x y = (sgn256 (toZ x) <? sgn256 (toZ y)) /\ Sgt x y = (sgn256 (toZ y) <? sgn256 (toZ x)) /\
  Sign x = Z.sgn (sgn256 (toZ x)).
Proof. exact (fun Hx Hy => conj (Slt_spec x y Hx Hy) (conj (Sgt_spec x y Hx Hy) (Sign_spec x Hx))). Qed.
Print Assumptions C03_signed_order.
Example C03_case : Lt x2 x1 = true /\ Slt x2 x1 = true /\ Sign x1 = -1 /\ Sgt (mkInt 1 0 0 0) x1 = true.
Proof. vm_compute. auto. Qed.

Theorem C04_shifts x n : wf x -> 0 <= n ->
  (wf (Lsh x n) /\ toZ (Lsh x n) = (toZ x * 2 ^ n) mod T256) /\
  (wf (Rsh x n) /\ toZ (Rsh x n) = toZ x / 2 ^ n) /\
  (exists r, SRsh x n = Ok r /\ wf r /\ toZ r = (sgn256 (toZ x) / 2 ^ n) mod T256).
Proof. exact (fun Hx Hn => conj (Lsh_spec x n Hx Hn) (conj (Rsh_spec x n Hx Hn) (SRsh_spec x n Hx Hn))). Qed.
Print Assumptions C04_shifts.
Example C04_case : Lsh x2 65 = mkInt 0 10 14 0 /\ Rsh x2 193 = mkInt ((W - 2) / 2) 0 0 0 /\
  SRsh x1 77 = Ok x1.
Proof. vm_compute. auto. Qed.

Theorem C05_bitwise x y : wf x -> wf y ->
  (wf (And x y) /\ toZ (And x y) = Z.land (toZ x) (toZ y)) /\
  (wf (Or x y) /\ toZ (Or x y) = Z.lor (toZ x) (toZ y)) /\
  (wf (Xor x y) /\ toZ (Xor x y) = Z.lxor (toZ x) (toZ y)) /\
  (wf (Not x) /\ toZ (Not x) = T256 - 1 - toZ x).
Proof.
  exact (fun Hx Hy => conj (And_spec x y Hx Hy) (conj (Or_spec x y Hx Hy) (conj (Xor_spec x y Hx Hy) (Not_spec x Hx)))).
Qed.
Print Assumptions C05_bitwise.
(** byte n counted from the most significant one *)
Theorem C05_byte x n : wf x -> wf n ->
  exists r, Byte x n = Ok r /\ wf r /\
    toZ r = if toZ n <? 32 then (toZ x / 2 ^ (8 * (31 - toZ n))) mod 256 else 0.
Proof. exact (Byte_spec x n). Qed.
Print Assumptions C05_byte.
(** [sext k v]: the low k bits of v read as a two's-complement number *)
Theorem C05_extend_sign x b : wf x -> wf b ->
  exists r, ExtendSign x b = Ok r /\ wf r /\
    toZ r = if toZ b <? 32 then sext (8 * (toZ b + 1)) (toZ x) mod T256 else toZ x.
Proof. exact (ExtendSign_spec x b). Qed.
Print Assumptions C05_extend_sign.
Example C05_case : ExtendSign (mkInt 255 3 0 0) (mkInt 0 0 0 0) = Ok x1 /\ Byte x2 (mkInt 31 0 0 0) = Ok (mkInt 5 0 0 0).
Proof. vm_compute. auto. Qed.

Theorem C06_div x y : wf x -> wf y ->
  exists z, Div x y = Ok z /\ wf z /\ toZ z = if toZ y =? 0 then 0 else toZ x / toZ y.
Proof. exact (Div0_spec x y). Qed.
Print Assumptions C06_div.
Theorem C06_mod x y : wf x -> wf y ->
  exists z, Mod x y = Ok z /\ wf z /\ toZ z = if toZ y =? 0 then 0 else toZ x mod toZ y.
Proof. exact (Mod_spec x y). Qed.
Print Assumptions C06_mod.
Example C06_case : Div x1 x2 = Ok (mkInt 1 0 0 0) /\ Div x1 (mkInt 0 0 3 0) = Ok (mkInt 6148914691236517205 6148914691236517205 0 0)
  /\ Mod x1 (mkInt 0 0 0 0) = Ok (mkInt 0 0 0 0).
Proof. vm_compute. auto. Qed.

Theorem C07_sdiv x y : wf x -> wf y -> exists z, SDiv x y = Ok z /\ wf z /\
  toZ z = (if toZ y =? 0 then 0 else Z.quot (sgn256 (toZ x)) (sgn256 (toZ y))) mod T256.
Proof. exact (SDiv_spec x y). Qed.
Print Assumptions C07_sdiv.
Theorem C07_smod x y : wf x -> wf y -> exists z, SMod x y = Ok z /\ wf z /\
  toZ z = (if toZ y =? 0 then 0 else Z.rem (sgn256 (toZ x)) (sgn256 (toZ y))) mod T256.
Proof. exact (SMod_spec x y). Qed.
Print Assumptions C07_smod.
Theorem C07_abs x : wf x -> wf (Abs x) /\ toZ (Abs x) = (Z.abs (sgn256 (toZ x))) mod T256.
Proof. exact (Abs_spec x). Qed.
Print Assumptions C07_abs.
Example C07_case : SDiv (Neg (mkInt 7 0 0 0)) (mkInt 2 0 0 0) = Ok (Neg (mkInt 3 0 0 0)) /\
  SMod (Neg (mkInt 7 0 0 0)) (mkInt 2 0 0 0) = Ok (Neg (mkInt 1 0 0 0)).
Proof. vm_compute. auto. Qed.

(** [words_of k v]: v has k significant 64-bit words: k = 0 for v = 0, otherwise W^(k-1) <= v < W^k *)
Theorem C08_udivrem quot u d nu nd : Forall is_w u -> wf d ->
  words_of nu (lval u) -> words_of nd (toZ d) ->
  (* normal return: exact quotient (the words past it are untouched) and remainder *)
  ((nd <> 0 /\ nu <> 0 /\ nu < 9 /\ nd <= nu + 1 /\ nu + 1 - nd <= length quot)%nat ->
   exists Qs rem, Udivrem quot u d = Ok (Qs ++ skipn (length Qs) quot, rem) /\
      length Qs = (nu + 1 - nd)%nat /\ Forall is_w Qs /\ wf rem /\
      lval Qs = lval u / toZ d /\ toZ rem = lval u mod toZ d) /\
  (* otherwise a panic *)
  (~ (nd <> 0 /\ nu <> 0 /\ nu < 9 /\ nd <= nu + 1 /\ nu + 1 - nd <= length quot)%nat ->
   Udivrem quot u d = Panic).
Proof. exact (Udivrem_exact quot u d nu nd). Qed.
Print Assumptions C08_udivrem.
Example C08_case : words_of 3 (lval [0; 0; 5; 0]) /\ words_of 2 (toZ (mkInt 1 3 0 0)) /\
  Udivrem [0;0;0;0] [0; 0; 5; 0] (mkInt 1 3 0 0) = Ok ([12297829382473034410; 1; 0; 0], mkInt 6148914691236517206 0 0 0).
Proof. vm_compute. intuition discriminate. Qed.
Example C08_panic_case : Udivrem [0;0;0;0;0] [7] (mkInt 0 0 1 0) = Panic.
Proof. reflexivity. Qed.

Theorem C09_addmod x y m : wf x -> wf y -> wf m -> exists z, AddMod x y m = Ok z /\ wf z /\
  toZ z = if toZ m =? 0 then 0 else (toZ x + toZ y) mod toZ m.
Proof. exact (AddMod_spec x y m). Qed.
Print Assumptions C09_addmod.
Example C09_case : AddMod x1 x1 (mkInt 10 0 0 0) = Ok (mkInt 0 0 0 0) /\ AddMod x1 x2 (mkInt 0 0 0 5) = Ok (mkInt 4 7 0 0).
Proof. vm_compute. auto. Qed.

Theorem C11_exp b e : wf b -> wf e -> wf (Exp b e) /\ toZ (Exp b e) = (toZ b ^ toZ e) mod T256.
Proof. exact (Exp_spec b e). Qed.
Print Assumptions C11_exp.
Example C11_case : Exp (mkInt 3 0 0 0) (mkInt 100 0 0 0) = ofZ (3 ^ 100).
Proof. vm_compute. reflexivity. Qed.

Theorem C12_sqrt fuel x : wf x -> (130 <= fuel)%nat ->
  exists r, Sqrt fuel x = Ok r /\ wf r /\ toZ r * toZ r <= toZ x < (toZ r + 1) * (toZ r + 1).
Proof. exact (Sqrt_floor_spec fuel x). Qed.
Print Assumptions C12_sqrt.
Example C12_case : Sqrt 130 x1 = Ok (mkInt (W - 1) (W - 1) 0 0).
Proof. vm_compute. reflexivity. Qed.

Theorem C13_bitlen x : wf x -> 0 <= BitLen x <= 256 /\ (forall n, 0 <= n -> (toZ x < 2 ^ n <-> BitLen x <= n)).
Proof. exact (BitLen_least x). Qed.
Print Assumptions C13_bitlen.
Theorem C13_bytelen x : wf x -> ByteLen x = (BitLen x + 7) / 8 /\ 0 <= ByteLen x <= 32 /\
  (forall n, 0 <= n -> (toZ x < 256 ^ n <-> ByteLen x <= n)).
Proof. exact (ByteLen_least x). Qed.
Print Assumptions C13_bytelen.
Example C13_case : BitLen x2 = 256 /\ ByteLen (mkInt 0 256 0 0) = 10.
Proof. vm_compute. auto. Qed.
