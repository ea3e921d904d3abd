(** Conformance.v -- the literal expectations of the repository's own tests (/repo/uint256/uint256_test.go,
    conversion_test.go and mod_test.go), replayed on the model.  These are tests of the model, not proofs about it:
    a copying mistake in U256.v, U256Mod.v or U256Conv.v that the general theorems took over in their statements
    would show here against expectations the authors of the code wrote.  Tests which compare with math/big on random
    or listed arguments are not replayed: the theorems of Prop_U256.v and Prop_Div.v state that comparison for all
    arguments.  The tables are copied by a script, row by row. *)
From Coq Require Import String Ascii.
From Verif Require Import Base U256 U256Div U256Mod U256Conv LimbMath.
Open Scope string_scope.
Open Scope list_scope.
Open Scope Z_scope.

Definition hexDigit (c : ascii) : Z := nth (Z.to_nat (Z.of_N (N_of_ascii c))) bintable 255.
(** uint256_test.go:107-110 hex2Bytes: the complete pairs of digits; what follows an odd digit is dropped *)
Fixpoint hex2Bytes (s : string) : list Z :=
  match s with
  | String a (String b r) => (16 * hexDigit a + hexDigit b) :: hex2Bytes r
  | _ => nil
  end.
Definition whole (l : list Z) : slice := mkSlice l nil.
Definition beq (a b : list Z) : bool := (length a =? length b)%nat && forallb (fun p => fst p =? snd p) (combine a b).
Definition ieq (a b : Int) : bool := (l0 a =? l0 b) && (l1 a =? l1 b) && (l2 a =? l2 b) && (l3 a =? l3 b).
Definition okInt (r e : res Int) : bool := match r, e with Ok a, Ok b => ieq a b | _, _ => false end.
Definition okBytes (r : res (list Z)) (e : list Z) : bool := match r with Ok a => beq a e | _ => false end.
(** [new(Int).SetBytes(hex2Bytes(s))] *)
Definition setHex (s : string) : res Int := SetBytes (whole (hex2Bytes s)).

(** uint256_test.go:824-865 TestSRsh *)
Example test_SRsh : forallb (fun t => let '(a, n, e) := t in okInt (do x <- setHex a; SRsh x n) (setHex e)) [
  ("FFFFEEEEDDDDCCCCBBBBAAAA9999888877776666555544443333222211110000", 0, "FFFFEEEEDDDDCCCCBBBBAAAA9999888877776666555544443333222211110000");
  ("FFFFEEEEDDDDCCCCBBBBAAAA9999888877776666555544443333222211110000", 16, "FFFFFFFFEEEEDDDDCCCCBBBBAAAA999988887777666655554444333322221111");
  ("FFFFEEEEDDDDCCCCBBBBAAAA9999888877776666555544443333222211110000", 64, "FFFFFFFFFFFFFFFFFFFFEEEEDDDDCCCCBBBBAAAA999988887777666655554444");
  ("FFFFEEEEDDDDCCCCBBBBAAAA9999888877776666555544443333222211110000", 96, "FFFFFFFFFFFFFFFFFFFFFFFFFFFFEEEEDDDDCCCCBBBBAAAA9999888877776666");
  ("FFFFEEEEDDDDCCCCBBBBAAAA9999888877776666555544443333222211110000", 127, "FFFFFFFFFFFFFFFFFFFFFFFFFFFFFFFFFFFFDDDDBBBB99997777555533331110");
  ("FFFFEEEEDDDDCCCCBBBBAAAA9999888877776666555544443333222211110000", 128, "FFFFFFFFFFFFFFFFFFFFFFFFFFFFFFFFFFFFEEEEDDDDCCCCBBBBAAAA99998888");
  ("FFFFEEEEDDDDCCCCBBBBAAAA9999888877776666555544443333222211110000", 129, "FFFFFFFFFFFFFFFFFFFFFFFFFFFFFFFFFFFFF7776EEEE6665DDDD5554CCCC444");
  ("FFFFEEEEDDDDCCCCBBBBAAAA9999888877776666555544443333222211110000", 192, "FFFFFFFFFFFFFFFFFFFFFFFFFFFFFFFFFFFFFFFFFFFFFFFFFFFFEEEEDDDDCCCC");
  ("8000000000000000000000000000000000000000000000000000000000000000", 254, "FFFFFFFFFFFFFFFFFFFFFFFFFFFFFFFFFFFFFFFFFFFFFFFFFFFFFFFFFFFFFFFE");
  ("8000000000000000000000000000000000000000000000000000000000000000", 255, "FFFFFFFFFFFFFFFFFFFFFFFFFFFFFFFFFFFFFFFFFFFFFFFFFFFFFFFFFFFFFFFF");
  ("FFFFEEEEDDDDCCCCBBBBAAAA9999888877776666555544443333222211110000", 256, "FFFFFFFFFFFFFFFFFFFFFFFFFFFFFFFFFFFFFFFFFFFFFFFFFFFFFFFFFFFFFFFF");
  ("FFFFEEEEDDDDCCCCBBBBAAAA9999888877776666555544443333222211110000", 300, "FFFFFFFFFFFFFFFFFFFFFFFFFFFFFFFFFFFFFFFFFFFFFFFFFFFFFFFFFFFFFFFF");
  ("7FFFEEEEDDDDCCCCBBBBAAAA9999888877776666555544443333222211110000", 16, "7FFFEEEEDDDDCCCCBBBBAAAA999988887777666655554444333322221111");
  ("7FFFEEEEDDDDCCCCBBBBAAAA9999888877776666555544443333222211110000", 256, "")] = true.
Proof. vm_compute. reflexivity. Qed.

(** uint256_test.go:867-895 TestByte *)
Example test_Byte : forallb (fun t => let '(a, n, e) := t in okInt (do x <- setHex a; do n <- n; Byte x n) (setHex e)) [
  ("ABCDEF09080706050403020100000000000000000000000000000000000000ef", Ok (SetUint64 0), "00000000000000000000000000000000000000000000000000000000000000ab");
  ("ABCDEF09080706050403020100000000000000000000000000000000000000ef", Ok (SetUint64 31), "00000000000000000000000000000000000000000000000000000000000000ef");
  ("ABCDEF09080706050403020100000000000000000000000000000000000000ef", Ok (SetUint64 32), "0000000000000000000000000000000000000000000000000000000000000000");
  ("ABCDEF0908070605040302011111111111111111111111111111111111111111",
   setHex "f000000000000000000000000000000000000000000000000000000000000001", "0000000000000000000000000000000000000000000000000000000000000000")] = true.
Proof. vm_compute. reflexivity. Qed.

(** uint256_test.go:897-942 TestSignExtend *)
Example test_SignExtend : forallb (fun t => let '(a, n, e) := t in okInt (do x <- setHex a; ExtendSign x (SetUint64 n)) (setHex e)) [
  ("8080808080808080808080808080808080808080808080808080808080808080", 0, "ffffffffffffffffffffffffffffffffffffffffffffffffffffffffffffff80");
  ("8080808080808080808080808080808080808080808080808080808080808080", 1, "ffffffffffffffffffffffffffffffffffffffffffffffffffffffffffff8080");
  ("8080808080808080808080808080808080808080808080808080808080808080", 2, "ffffffffffffffffffffffffffffffffffffffffffffffffffffffffff808080");
  ("8080808080808080808080808080808080808080808080808080808080808080", 3, "ffffffffffffffffffffffffffffffffffffffffffffffffffffffff80808080");
  ("8080808080808080808080808080808080808080808080808080808080808080", 30, "ff80808080808080808080808080808080808080808080808080808080808080");
  ("8080808080808080808080808080808080808080808080808080808080808080", 31, "8080808080808080808080808080808080808080808080808080808080808080");
  ("8080808080808080808080808080808080808080808080808080808080808080", 32, "8080808080808080808080808080808080808080808080808080808080808080");
  ("4040404040404040404040404040404040404040404040404040404040404040", 0, "40");
  ("4040404040404040404040404040404040404040404040404040404040404040", 1, "4040");
  ("4040404040404040404040404040404040404040404040404040404040404040", 30, "40404040404040404040404040404040404040404040404040404040404040");
  ("4040404040404040404040404040404040404040404040404040404040404040", 31, "4040404040404040404040404040404040404040404040404040404040404040");
  ("4040404040404040404040404040404040404040404040404040404040404040", 32, "4040404040404040404040404040404040404040404040404040404040404040")] = true.
Proof. vm_compute. reflexivity. Qed.

(** uint256_test.go:944-990 TestAddSubUint64; [z mod 2^256] is U256 of the test *)
Example test_AddSubUint64 : forallb (fun t => let '(a, n) := t in
    ieq (SubUint64 (fst (FromBig a)) n) (fst (FromBig ((a - n) mod 2 ^ 256)))
    && ieq (AddUint64 (fst (FromBig a)) n) (fst (FromBig ((a + n) mod 2 ^ 256)))) [
  (0, 1);
  (1, 0);
  (1, 1);
  (1, 3);
  (0x10000000000000000, 1);
  (0x100000000000000000000000000000000, 1);
  (0, 0xffffffffffffffff);
  (1, 0xffffffff);
  (0xffffffffffffffff, 1);
  (0xffffffffffffffff, 0xffffffffffffffff);
  (0x10000000000000000, 1);
  (0xfffffffffffffffffffffffffffffffff, 1);
  (0xfffffffffffffffffffffffffffffffff, 2)] = true.
Proof. vm_compute. reflexivity. Qed.

(** uint256_test.go:992-1008 TestSGT *)
Example test_SGT :
  (do x <- setHex "fffffffffffffffffffffffffffffffffffffffffffffffffffffffffffffffe"; do y <- setHex "00"; Ok (Sgt x y, Sgt y x)) = Ok (false, true).
Proof. vm_compute. reflexivity. Qed.

(** uint256_test.go:1423-1443 TestFixedExpReusedArgs (the results; Prop_Alias.v has the aliasing) *)
Example test_Exp :
  (ToBig (Exp (SetUint64 2) (SetUint64 2)), ToBig (Exp (SetUint64 4) (SetUint64 3)), ToBig (Exp (SetUint64 6) (SetUint64 5)),
   ToBig (Exp (SetUint64 3) (SetUint64 3))) = (2 * 2, 4 * 4 * 4, 6 * 6 * 6 * 6 * 6, 3 * 3 * 3).
Proof. vm_compute. reflexivity. Qed.

(** uint256_test.go:1445-1474 TestByteRepresentation *)
Example test_PaddedBytes : forallb (fun t => let '(x, n, e) := t in okBytes (do x <- x; PaddedBytes x n) (hex2Bytes e)) [
  (Ok (SetUint64 0xFF0afcafe), 32, "0000000000000000000000000000000000000000000000000000000ff0afcafe");
  (Ok (SetUint64 0xFF0afcafe), 20, "0000000000000000000000000000000ff0afcafe");
  (Ok (SetUint64 0xFF0afcafe), 40, "00000000000000000000000000000000000000000000000000000000000000000000000ff0afcafe");
  (setHex "0e320219838e859b2f9f18b72e3d4073ca50b37d", 32, "0000000000000000000000000e320219838e859b2f9f18b72e3d4073ca50b37d");
  (setHex "0e320219838e859b2f9f18b72e3d4073ca50b37d", 20, "0e320219838e859b2f9f18b72e3d4073ca50b37d");
  (setHex "0e320219838e859b2f9f18b72e3d4073ca50b37d", 40, "00000000000000000000000000000000000000000e320219838e859b2f9f18b72e3d4073ca50b37d")] = true.
Proof. vm_compute. reflexivity. Qed.

(** uint256_test.go:1476-1522 TestWriteToSlice; [big.Int.SetBytes] is [numval 256] *)
Definition x1 : Int := fst (FromBig (numval 256 (hex2Bytes "fe7fb0d1f59dfe9492ffbf73683fd1e870eec79504c60144cc7f5fc2bad1e611"))).
Example test_WriteToSlice :
  (okBytes (WriteToSlice x1 (repeat 0 32)) (hex2Bytes "fe7fb0d1f59dfe9492ffbf73683fd1e870eec79504c60144cc7f5fc2bad1e611")
   && okBytes (do d <- WriteToSlice x1 (repeat 0 32); WriteToSlice Clear d) (repeat 0 32)
   && okBytes (WriteToSlice x1 (repeat 0 20)) (hex2Bytes "683fd1e870eec79504c60144cc7f5fc2bad1e611")
   && okBytes (WriteToSlice x1 (hex2Bytes "ffffffffffffffffffffffffffffffffffffffffffffffffffffffffffffffffffffffffffffffff"))
        (hex2Bytes "fe7fb0d1f59dfe9492ffbf73683fd1e870eec79504c60144cc7f5fc2bad1e611ffffffffffffffff")
   && okBytes (WriteToSlice x1 nil) nil)%bool = true.
Proof. vm_compute. reflexivity. Qed.

(** uint256_test.go:1523-1549 TestInt_WriteToArray *)
Example test_WriteToArray :
  let fa := fst (FromBig (numval 256 (hex2Bytes "0000000000000000000000000000d1e870eec79504c60144cc7f5fc2bad1e611"))) in
  (okBytes (WriteToArray20 fa (repeat 255 20)) (hex2Bytes "0000d1e870eec79504c60144cc7f5fc2bad1e611")
   && okBytes (WriteToArray32 fa (repeat 255 32)) (hex2Bytes "0000000000000000000000000000d1e870eec79504c60144cc7f5fc2bad1e611"))%bool = true.
Proof. vm_compute. reflexivity. Qed.

(** uint256_test.go:1551-1586 bytesToAddress and bytesToHash: the last [n] bytes, zeros in front *)
Definition lastBytes (n : nat) (l : list Z) : list Z := let l := skipn (length l - n) l in repeat 0 (n - length l) ++ l.
(** uint256_test.go:1588-1644 TestByte20Representation, TestByte32Representation *)
Example test_Bytes20_Bytes32 : forallb (fun t =>
    match setHex t with
    | Ok b => beq (Bytes20 b) (lastBytes 20 (hex2Bytes t)) && beq (Bytes32 b) (lastBytes 32 (hex2Bytes t))
    | _ => false
    end) [
  "1337fafafa0e320219838e859b2f9f18b72e3d4073ca50b37d";
  "fafafa0e320219838e859b2f9f18b72e3d4073ca50b37d";
  "0e320219838e859b2f9f18b72e3d4073ca50b37d";
  "320219838e859b2f9f18b72e3d4073ca50b37d";
  "838e859b2f9f18b72e3d4073ca50b37d";
  "38e859b2f9f18b72e3d4073ca50b37d";
  "f18b72e3d4073ca50b37d";
  "b37d";
  "01";
  "";
  "00"] = true.
Proof. vm_compute. reflexivity. Qed.

(** conversion_test.go:20-76 TestFromBig (the minimal bytes of the number, and the overflow flag) *)
Example test_FromBig : forallb (fun t => let '(a, o, e) := t in
    let '(z, v) := FromBig a in Bool.eqb v o && beq (Bytes z) (hex2Bytes e)) [
  (0, false, ""); (1, false, "01"); (0x1000000000000000, false, "1000000000000000"); (0x1234, false, "1234");
  (2 ^ 256, true, "");
  (2 ^ 256 - 1, false, "ffffffffffffffffffffffffffffffffffffffffffffffffffffffffffffffff")] = true.
Proof. vm_compute. reflexivity. Qed.

(** conversion_test.go:78-92 TestFromBigOverflow *)
Example test_FromBigOverflow :
  (snd (FromBig (numval 256 (hex2Bytes "ababee444444444444ffcc333333333333ddaa222222222222bb8811111111111199"))),
   snd (FromBig (numval 256 (hex2Bytes "ee444444444444ffcc333333333333ddaa222222222222bb8811111111111199"))),
   snd (FromBig (- numval 256 (hex2Bytes "ee444444444444ffcc333333333333ddaa222222222222bb8811111111111199"))))
  = (true, false, false).
Proof. vm_compute. reflexivity. Qed.

(** conversion_test.go:183-198 TestSetBytes: every length from 0 to 34, the rest of the buffer behind it *)
Example test_SetBytes :
  let buf := hex2Bytes "aaaa12131415161718191a1b1c1d1e1f202122232425262728292a2b2c2d2e2f3031bbbb" in
  forallb (fun i => okInt (SetBytes (mkSlice (firstn i buf) (skipn i buf))) (Ok (fst (FromBig (numval 256 (firstn i buf)))))) (seq 0 35) = true.
Proof. vm_compute. reflexivity. Qed.

(** conversion_test.go:282-571 TestRlpEncode (all 257 rows, and nil) *)
Example test_RlpEncode : okBytes (EncodeRLP None) (hex2Bytes "80") = true /\ forallb (fun t => let '(v, e) := t in
    okBytes (do z <- setHex v; EncodeRLP (Some z)) (hex2Bytes e)) [
  ("", "80");
  ("01", "01");
  ("02", "02");
  ("04", "04");
  ("08", "08");
  ("10", "10");
  ("20", "20");
  ("40", "40");
  ("80", "8180");
  ("0100", "820100");
  ("0200", "820200");
  ("0400", "820400");
  ("0800", "820800");
  ("1000", "821000");
  ("2000", "822000");
  ("4000", "824000");
  ("8000", "828000");
  ("010000", "83010000");
  ("020000", "83020000");
  ("040000", "83040000");
  ("080000", "83080000");
  ("100000", "83100000");
  ("200000", "83200000");
  ("400000", "83400000");
  ("800000", "83800000");
  ("01000000", "8401000000");
  ("02000000", "8402000000");
  ("04000000", "8404000000");
  ("08000000", "8408000000");
  ("10000000", "8410000000");
  ("20000000", "8420000000");
  ("40000000", "8440000000");
  ("80000000", "8480000000");
  ("0100000000", "850100000000");
  ("0200000000", "850200000000");
  ("0400000000", "850400000000");
  ("0800000000", "850800000000");
  ("1000000000", "851000000000");
  ("2000000000", "852000000000");
  ("4000000000", "854000000000");
  ("8000000000", "858000000000");
  ("010000000000", "86010000000000");
  ("020000000000", "86020000000000");
  ("040000000000", "86040000000000");
  ("080000000000", "86080000000000");
  ("100000000000", "86100000000000");
  ("200000000000", "86200000000000");
  ("400000000000", "86400000000000");
  ("800000000000", "86800000000000");
  ("01000000000000", "8701000000000000");
  ("02000000000000", "8702000000000000");
  ("04000000000000", "8704000000000000");
  ("08000000000000", "8708000000000000");
  ("10000000000000", "8710000000000000");
  ("20000000000000", "8720000000000000");
  ("40000000000000", "8740000000000000");
  ("80000000000000", "8780000000000000");
  ("0100000000000000", "880100000000000000");
  ("0200000000000000", "880200000000000000");
  ("0400000000000000", "880400000000000000");
  ("0800000000000000", "880800000000000000");
  ("1000000000000000", "881000000000000000");
  ("2000000000000000", "882000000000000000");
  ("4000000000000000", "884000000000000000");
  ("8000000000000000", "888000000000000000");
  ("010000000000000000", "89010000000000000000");
  ("020000000000000000", "89020000000000000000");
  ("040000000000000000", "89040000000000000000");
  ("080000000000000000", "89080000000000000000");
  ("100000000000000000", "89100000000000000000");
  ("200000000000000000", "89200000000000000000");
  ("400000000000000000", "89400000000000000000");
  ("800000000000000000", "89800000000000000000");
  ("01000000000000000000", "8a01000000000000000000");
  ("02000000000000000000", "8a02000000000000000000");
  ("04000000000000000000", "8a04000000000000000000");
  ("08000000000000000000", "8a08000000000000000000");
  ("10000000000000000000", "8a10000000000000000000");
  ("20000000000000000000", "8a20000000000000000000");
  ("40000000000000000000", "8a40000000000000000000");
  ("80000000000000000000", "8a80000000000000000000");
  ("0100000000000000000000", "8b0100000000000000000000");
  ("0200000000000000000000", "8b0200000000000000000000");
  ("0400000000000000000000", "8b0400000000000000000000");
  ("0800000000000000000000", "8b0800000000000000000000");
  ("1000000000000000000000", "8b1000000000000000000000");
  ("2000000000000000000000", "8b2000000000000000000000");
  ("4000000000000000000000", "8b4000000000000000000000");
  ("8000000000000000000000", "8b8000000000000000000000");
  ("010000000000000000000000", "8c010000000000000000000000");
  ("020000000000000000000000", "8c020000000000000000000000");
  ("040000000000000000000000", "8c040000000000000000000000");
  ("080000000000000000000000", "8c080000000000000000000000");
  ("100000000000000000000000", "8c100000000000000000000000");
  ("200000000000000000000000", "8c200000000000000000000000");
  ("400000000000000000000000", "8c400000000000000000000000");
  ("800000000000000000000000", "8c800000000000000000000000");
  ("01000000000000000000000000", "8d01000000000000000000000000");
  ("02000000000000000000000000", "8d02000000000000000000000000");
  ("04000000000000000000000000", "8d04000000000000000000000000");
  ("08000000000000000000000000", "8d08000000000000000000000000");
  ("10000000000000000000000000", "8d10000000000000000000000000");
  ("20000000000000000000000000", "8d20000000000000000000000000");
  ("40000000000000000000000000", "8d40000000000000000000000000");
  ("80000000000000000000000000", "8d80000000000000000000000000");
  ("0100000000000000000000000000", "8e0100000000000000000000000000");
  ("0200000000000000000000000000", "8e0200000000000000000000000000");
  ("0400000000000000000000000000", "8e0400000000000000000000000000");
  ("0800000000000000000000000000", "8e0800000000000000000000000000");
  ("1000000000000000000000000000", "8e1000000000000000000000000000");
  ("2000000000000000000000000000", "8e2000000000000000000000000000");
  ("4000000000000000000000000000", "8e4000000000000000000000000000");
  ("8000000000000000000000000000", "8e8000000000000000000000000000");
  ("010000000000000000000000000000", "8f010000000000000000000000000000");
  ("020000000000000000000000000000", "8f020000000000000000000000000000");
  ("040000000000000000000000000000", "8f040000000000000000000000000000");
  ("080000000000000000000000000000", "8f080000000000000000000000000000");
  ("100000000000000000000000000000", "8f100000000000000000000000000000");
  ("200000000000000000000000000000", "8f200000000000000000000000000000");
  ("400000000000000000000000000000", "8f400000000000000000000000000000");
  ("800000000000000000000000000000", "8f800000000000000000000000000000");
  ("01000000000000000000000000000000", "9001000000000000000000000000000000");
  ("02000000000000000000000000000000", "9002000000000000000000000000000000");
  ("04000000000000000000000000000000", "9004000000000000000000000000000000");
  ("08000000000000000000000000000000", "9008000000000000000000000000000000");
  ("10000000000000000000000000000000", "9010000000000000000000000000000000");
  ("20000000000000000000000000000000", "9020000000000000000000000000000000");
  ("40000000000000000000000000000000", "9040000000000000000000000000000000");
  ("80000000000000000000000000000000", "9080000000000000000000000000000000");
  ("0100000000000000000000000000000000", "910100000000000000000000000000000000");
  ("0200000000000000000000000000000000", "910200000000000000000000000000000000");
  ("0400000000000000000000000000000000", "910400000000000000000000000000000000");
  ("0800000000000000000000000000000000", "910800000000000000000000000000000000");
  ("1000000000000000000000000000000000", "911000000000000000000000000000000000");
  ("2000000000000000000000000000000000", "912000000000000000000000000000000000");
  ("4000000000000000000000000000000000", "914000000000000000000000000000000000");
  ("8000000000000000000000000000000000", "918000000000000000000000000000000000");
  ("010000000000000000000000000000000000", "92010000000000000000000000000000000000");
  ("020000000000000000000000000000000000", "92020000000000000000000000000000000000");
  ("040000000000000000000000000000000000", "92040000000000000000000000000000000000");
  ("080000000000000000000000000000000000", "92080000000000000000000000000000000000");
  ("100000000000000000000000000000000000", "92100000000000000000000000000000000000");
  ("200000000000000000000000000000000000", "92200000000000000000000000000000000000");
  ("400000000000000000000000000000000000", "92400000000000000000000000000000000000");
  ("800000000000000000000000000000000000", "92800000000000000000000000000000000000");
  ("01000000000000000000000000000000000000", "9301000000000000000000000000000000000000");
  ("02000000000000000000000000000000000000", "9302000000000000000000000000000000000000");
  ("04000000000000000000000000000000000000", "9304000000000000000000000000000000000000");
  ("08000000000000000000000000000000000000", "9308000000000000000000000000000000000000");
  ("10000000000000000000000000000000000000", "9310000000000000000000000000000000000000");
  ("20000000000000000000000000000000000000", "9320000000000000000000000000000000000000");
  ("40000000000000000000000000000000000000", "9340000000000000000000000000000000000000");
  ("80000000000000000000000000000000000000", "9380000000000000000000000000000000000000");
  ("0100000000000000000000000000000000000000", "940100000000000000000000000000000000000000");
  ("0200000000000000000000000000000000000000", "940200000000000000000000000000000000000000");
  ("0400000000000000000000000000000000000000", "940400000000000000000000000000000000000000");
  ("0800000000000000000000000000000000000000", "940800000000000000000000000000000000000000");
  ("1000000000000000000000000000000000000000", "941000000000000000000000000000000000000000");
  ("2000000000000000000000000000000000000000", "942000000000000000000000000000000000000000");
  ("4000000000000000000000000000000000000000", "944000000000000000000000000000000000000000");
  ("8000000000000000000000000000000000000000", "948000000000000000000000000000000000000000");
  ("010000000000000000000000000000000000000000", "95010000000000000000000000000000000000000000");
  ("020000000000000000000000000000000000000000", "95020000000000000000000000000000000000000000");
  ("040000000000000000000000000000000000000000", "95040000000000000000000000000000000000000000");
  ("080000000000000000000000000000000000000000", "95080000000000000000000000000000000000000000");
  ("100000000000000000000000000000000000000000", "95100000000000000000000000000000000000000000");
  ("200000000000000000000000000000000000000000", "95200000000000000000000000000000000000000000");
  ("400000000000000000000000000000000000000000", "95400000000000000000000000000000000000000000");
  ("800000000000000000000000000000000000000000", "95800000000000000000000000000000000000000000");
  ("01000000000000000000000000000000000000000000", "9601000000000000000000000000000000000000000000");
  ("02000000000000000000000000000000000000000000", "9602000000000000000000000000000000000000000000");
  ("04000000000000000000000000000000000000000000", "9604000000000000000000000000000000000000000000");
  ("08000000000000000000000000000000000000000000", "9608000000000000000000000000000000000000000000");
  ("10000000000000000000000000000000000000000000", "9610000000000000000000000000000000000000000000");
  ("20000000000000000000000000000000000000000000", "9620000000000000000000000000000000000000000000");
  ("40000000000000000000000000000000000000000000", "9640000000000000000000000000000000000000000000");
  ("80000000000000000000000000000000000000000000", "9680000000000000000000000000000000000000000000");
  ("0100000000000000000000000000000000000000000000", "970100000000000000000000000000000000000000000000");
  ("0200000000000000000000000000000000000000000000", "970200000000000000000000000000000000000000000000");
  ("0400000000000000000000000000000000000000000000", "970400000000000000000000000000000000000000000000");
  ("0800000000000000000000000000000000000000000000", "970800000000000000000000000000000000000000000000");
  ("1000000000000000000000000000000000000000000000", "971000000000000000000000000000000000000000000000");
  ("2000000000000000000000000000000000000000000000", "972000000000000000000000000000000000000000000000");
  ("4000000000000000000000000000000000000000000000", "974000000000000000000000000000000000000000000000");
  ("8000000000000000000000000000000000000000000000", "978000000000000000000000000000000000000000000000");
  ("010000000000000000000000000000000000000000000000", "98010000000000000000000000000000000000000000000000");
  ("020000000000000000000000000000000000000000000000", "98020000000000000000000000000000000000000000000000");
  ("040000000000000000000000000000000000000000000000", "98040000000000000000000000000000000000000000000000");
  ("080000000000000000000000000000000000000000000000", "98080000000000000000000000000000000000000000000000");
  ("100000000000000000000000000000000000000000000000", "98100000000000000000000000000000000000000000000000");
  ("200000000000000000000000000000000000000000000000", "98200000000000000000000000000000000000000000000000");
  ("400000000000000000000000000000000000000000000000", "98400000000000000000000000000000000000000000000000");
  ("800000000000000000000000000000000000000000000000", "98800000000000000000000000000000000000000000000000");
  ("01000000000000000000000000000000000000000000000000", "9901000000000000000000000000000000000000000000000000");
  ("02000000000000000000000000000000000000000000000000", "9902000000000000000000000000000000000000000000000000");
  ("04000000000000000000000000000000000000000000000000", "9904000000000000000000000000000000000000000000000000");
  ("08000000000000000000000000000000000000000000000000", "9908000000000000000000000000000000000000000000000000");
  ("10000000000000000000000000000000000000000000000000", "9910000000000000000000000000000000000000000000000000");
  ("20000000000000000000000000000000000000000000000000", "9920000000000000000000000000000000000000000000000000");
  ("40000000000000000000000000000000000000000000000000", "9940000000000000000000000000000000000000000000000000");
  ("80000000000000000000000000000000000000000000000000", "9980000000000000000000000000000000000000000000000000");
  ("0100000000000000000000000000000000000000000000000000", "9a0100000000000000000000000000000000000000000000000000");
  ("0200000000000000000000000000000000000000000000000000", "9a0200000000000000000000000000000000000000000000000000");
  ("0400000000000000000000000000000000000000000000000000", "9a0400000000000000000000000000000000000000000000000000");
  ("0800000000000000000000000000000000000000000000000000", "9a0800000000000000000000000000000000000000000000000000");
  ("1000000000000000000000000000000000000000000000000000", "9a1000000000000000000000000000000000000000000000000000");
  ("2000000000000000000000000000000000000000000000000000", "9a2000000000000000000000000000000000000000000000000000");
  ("4000000000000000000000000000000000000000000000000000", "9a4000000000000000000000000000000000000000000000000000");
  ("8000000000000000000000000000000000000000000000000000", "9a8000000000000000000000000000000000000000000000000000");
  ("010000000000000000000000000000000000000000000000000000", "9b010000000000000000000000000000000000000000000000000000");
  ("020000000000000000000000000000000000000000000000000000", "9b020000000000000000000000000000000000000000000000000000");
  ("040000000000000000000000000000000000000000000000000000", "9b040000000000000000000000000000000000000000000000000000");
  ("080000000000000000000000000000000000000000000000000000", "9b080000000000000000000000000000000000000000000000000000");
  ("100000000000000000000000000000000000000000000000000000", "9b100000000000000000000000000000000000000000000000000000");
  ("200000000000000000000000000000000000000000000000000000", "9b200000000000000000000000000000000000000000000000000000");
  ("400000000000000000000000000000000000000000000000000000", "9b400000000000000000000000000000000000000000000000000000");
  ("800000000000000000000000000000000000000000000000000000", "9b800000000000000000000000000000000000000000000000000000");
  ("01000000000000000000000000000000000000000000000000000000", "9c01000000000000000000000000000000000000000000000000000000");
  ("02000000000000000000000000000000000000000000000000000000", "9c02000000000000000000000000000000000000000000000000000000");
  ("04000000000000000000000000000000000000000000000000000000", "9c04000000000000000000000000000000000000000000000000000000");
  ("08000000000000000000000000000000000000000000000000000000", "9c08000000000000000000000000000000000000000000000000000000");
  ("10000000000000000000000000000000000000000000000000000000", "9c10000000000000000000000000000000000000000000000000000000");
  ("20000000000000000000000000000000000000000000000000000000", "9c20000000000000000000000000000000000000000000000000000000");
  ("40000000000000000000000000000000000000000000000000000000", "9c40000000000000000000000000000000000000000000000000000000");
  ("80000000000000000000000000000000000000000000000000000000", "9c80000000000000000000000000000000000000000000000000000000");
  ("0100000000000000000000000000000000000000000000000000000000", "9d0100000000000000000000000000000000000000000000000000000000");
  ("0200000000000000000000000000000000000000000000000000000000", "9d0200000000000000000000000000000000000000000000000000000000");
  ("0400000000000000000000000000000000000000000000000000000000", "9d0400000000000000000000000000000000000000000000000000000000");
  ("0800000000000000000000000000000000000000000000000000000000", "9d0800000000000000000000000000000000000000000000000000000000");
  ("1000000000000000000000000000000000000000000000000000000000", "9d1000000000000000000000000000000000000000000000000000000000");
  ("2000000000000000000000000000000000000000000000000000000000", "9d2000000000000000000000000000000000000000000000000000000000");
  ("4000000000000000000000000000000000000000000000000000000000", "9d4000000000000000000000000000000000000000000000000000000000");
  ("8000000000000000000000000000000000000000000000000000000000", "9d8000000000000000000000000000000000000000000000000000000000");
  ("010000000000000000000000000000000000000000000000000000000000", "9e010000000000000000000000000000000000000000000000000000000000");
  ("020000000000000000000000000000000000000000000000000000000000", "9e020000000000000000000000000000000000000000000000000000000000");
  ("040000000000000000000000000000000000000000000000000000000000", "9e040000000000000000000000000000000000000000000000000000000000");
  ("080000000000000000000000000000000000000000000000000000000000", "9e080000000000000000000000000000000000000000000000000000000000");
  ("100000000000000000000000000000000000000000000000000000000000", "9e100000000000000000000000000000000000000000000000000000000000");
  ("200000000000000000000000000000000000000000000000000000000000", "9e200000000000000000000000000000000000000000000000000000000000");
  ("400000000000000000000000000000000000000000000000000000000000", "9e400000000000000000000000000000000000000000000000000000000000");
  ("800000000000000000000000000000000000000000000000000000000000", "9e800000000000000000000000000000000000000000000000000000000000");
  ("01000000000000000000000000000000000000000000000000000000000000", "9f01000000000000000000000000000000000000000000000000000000000000");
  ("02000000000000000000000000000000000000000000000000000000000000", "9f02000000000000000000000000000000000000000000000000000000000000");
  ("04000000000000000000000000000000000000000000000000000000000000", "9f04000000000000000000000000000000000000000000000000000000000000");
  ("08000000000000000000000000000000000000000000000000000000000000", "9f08000000000000000000000000000000000000000000000000000000000000");
  ("10000000000000000000000000000000000000000000000000000000000000", "9f10000000000000000000000000000000000000000000000000000000000000");
  ("20000000000000000000000000000000000000000000000000000000000000", "9f20000000000000000000000000000000000000000000000000000000000000");
  ("40000000000000000000000000000000000000000000000000000000000000", "9f40000000000000000000000000000000000000000000000000000000000000");
  ("80000000000000000000000000000000000000000000000000000000000000", "9f80000000000000000000000000000000000000000000000000000000000000");
  ("0100000000000000000000000000000000000000000000000000000000000000", "a00100000000000000000000000000000000000000000000000000000000000000");
  ("0200000000000000000000000000000000000000000000000000000000000000", "a00200000000000000000000000000000000000000000000000000000000000000");
  ("0400000000000000000000000000000000000000000000000000000000000000", "a00400000000000000000000000000000000000000000000000000000000000000");
  ("0800000000000000000000000000000000000000000000000000000000000000", "a00800000000000000000000000000000000000000000000000000000000000000");
  ("1000000000000000000000000000000000000000000000000000000000000000", "a01000000000000000000000000000000000000000000000000000000000000000");
  ("2000000000000000000000000000000000000000000000000000000000000000", "a02000000000000000000000000000000000000000000000000000000000000000");
  ("4000000000000000000000000000000000000000000000000000000000000000", "a04000000000000000000000000000000000000000000000000000000000000000");
  ("8000000000000000000000000000000000000000000000000000000000000000", "a08000000000000000000000000000000000000000000000000000000000000000")] = true.
Proof. refine (conj _ _); vm_compute; reflexivity. Qed.

(** conversion_test.go:613-620, 673-682 TestEncode *)
Example test_Encode : forallb (fun t => let '(v, e) := t in okBytes (Hex (fst (FromBig v))) (bytes e)) [
  (0x0, "0x0");
  (0x1, "0x1");
  (0xff, "0xff");
  (0x112233445566778899aabbccddeeff, "0x112233445566778899aabbccddeeff");
  (0x80a7f2c1bcc396c00, "0x80a7f2c1bcc396c00")] = true.
Proof. vm_compute. reflexivity. Qed.

(** conversion_test.go:622-654, 684-715 TestDecode *)
Example test_Decode_errors : map (fun s => FromHex (bytes s)) [
  ""; "0"; "0x"; "0x01"; "0xx"; "0x1zz01"; "0x10000000000000000000000000000000000000000000000000000000000000000"]
  = [
  inr ErrEmptyString; inr ErrMissingPrefix; inr ErrEmptyNumber; inr ErrLeadingZero; inr ErrSyntax; inr ErrSyntax; inr ErrBig256Range].
Proof. vm_compute. reflexivity. Qed.
Example test_Decode : forallb (fun t => let '(s, v) := t in match FromHex (bytes s) with inl z => ToBig z =? v | inr _ => false end) [
  ("0x0", 0);
  ("0x2", 0x2);
  ("0x2F2", 0x2f2);
  ("0X2F2", 0x2f2);
  ("0x1122aaff", 0x1122aaff);
  ("0xbBb", 0xbbb);
  ("0xfffffffff", 0xfffffffff);
  ("0x112233445566778899aabbccddeeff", 0x112233445566778899aabbccddeeff);
  ("0xffffffffffffffffffffffffffffffffffff", 0xffffffffffffffffffffffffffffffffffff);
  ("0xffffffffffffffffffffffffffffffffffffffffffffffffffffffffffffffff", 0xffffffffffffffffffffffffffffffffffffffffffffffffffffffffffffffff)] = true.
Proof. vm_compute. reflexivity. Qed.
(** the values handed to UnmarshalJSON for the field Foo; encoding/json itself refuses the first document *)
Example test_Decode_json :
  snd (UnmarshalJSON Clear (bytes "1")) <> None /\ snd (UnmarshalJSON Clear (34 :: 34 :: nil)) <> None
  /\ UnmarshalJSON Clear (34 :: bytes "0x1" ++ [34]) = (SetUint64 1, None).
Proof. refine (conj _ (conj _ _)); vm_compute; first [discriminate | reflexivity]. Qed.

(** mod_test.go:9-50 TestLeadingZeros *)
Example test_leadingZeros : forallb (fun x => let z := leadingZeros x in
    if (0 <=? z) && (z <? 256) then IsZero (Rsh x (256 - z)) && ieq (Rsh x (255 - z)) SetOne
    else (z =? 256) && IsZero x) [
  mkInt 0 0 0 0;
  mkInt 1 0 0 0;
  mkInt 0x7fffffffffffffff 0 0 0;
  mkInt 0x8000000000000000 0 0 0;
  mkInt 0xffffffffffffffff 0 0 0;
  mkInt 0 1 0 0;
  mkInt 0 0x7fffffffffffffff 0 0;
  mkInt 0 0x8000000000000000 0 0;
  mkInt 0 0xffffffffffffffff 0 0;
  mkInt 0 0 1 0;
  mkInt 0 0 0x7fffffffffffffff 0;
  mkInt 0 0 0x8000000000000000 0;
  mkInt 0 0 0xffffffffffffffff 0;
  mkInt 0 0 0 1;
  mkInt 0 0 0 0x7fffffffffffffff;
  mkInt 0 0 0 0x8000000000000000;
  mkInt 0 0 0 0xffffffffffffffff] = true.
Proof. vm_compute. reflexivity. Qed.
