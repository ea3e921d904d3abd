(** U256Conv.v -- the byte, text and math/big codecs of /repo/uint256 (conversion.go and the byte
    methods of uint256.go).

    Bytes are integers 0..255; a Go string is the list of its bytes.  A Go byte slice is its visible
    part (what [len] counts) and the rest of its backing array up to the capacity: an index
    expression must stay inside the visible part, a slice expression [in[i:j]] only inside the
    capacity (Go specification, "Slice expressions").
    Functions of encoding/binary, math/big and io.Writer are modelled by their documentation. *)
From Verif Require Import Base U256.

Record slice : Type := mkSlice { vis : list Z; hid : list Z }.
Definition data (b : slice) : list Z := vis b ++ hid b.

(** [in[i]] *)
Definition idx (b : slice) (i : nat) : res Z := geti (vis b) i.
(** [in[i:j]] *)
Definition sub (b : slice) (i j : nat) : res slice :=
  if ((i <=? j) && (j <=? length (data b)))%nat
  then Ok (mkSlice (firstn (j - i) (skipn i (data b))) (skipn j (data b)))
  else Panic.

(** the number denoted by a list of base-[b] digits, most significant first *)
Definition numval (b : Z) (l : list Z) : Z := fold_left (fun a d => a * b + d) l 0.
(** the [n] lowest base-[b] digits of [v], most significant first *)
Fixpoint digits (b : Z) (n : nat) (v : Z) : list Z :=
  match n with
  | O => []
  | S k => (v / b ^ Z.of_nat k) mod b :: digits b k v
  end.

(** binary.BigEndian.Uint16/32/64 ([n] = 2/4/8): the big-endian number in the first [n] bytes; panics
    when there are fewer. *)
Definition beUint (n : nat) (b : slice) : res Z :=
  do _ <- idx b (n - 1); Ok (numval 256 (firstn n (vis b))).
(** binary.BigEndian.PutUint64(buf, v): the eight bytes written *)
Definition PutUint64 (v : Z) : list Z := digits 256 8 v.
Definition PutUint32 (v : Z) : list Z := digits 256 4 v.

(** conversion.go:442-458 *)
Definition bigEndianUint40 (b : slice) : res Z :=
  do b4 <- idx b 4; do b3 <- idx b 3; do b2 <- idx b 2; do b1 <- idx b 1; do b0 <- idx b 0;
  Ok (Z.lor (Z.lor (Z.lor (Z.lor b4 (wshl b3 8)) (wshl b2 16)) (wshl b1 24)) (wshl b0 32)).
Definition bigEndianUint48 (b : slice) : res Z :=
  do b5 <- idx b 5; do b4 <- idx b 4; do b3 <- idx b 3; do b2 <- idx b 2; do b1 <- idx b 1; do b0 <- idx b 0;
  Ok (Z.lor (Z.lor (Z.lor (Z.lor (Z.lor b5 (wshl b4 8)) (wshl b3 16)) (wshl b2 24)) (wshl b1 32)) (wshl b0 40)).
Definition bigEndianUint56 (b : slice) : res Z :=
  do b6 <- idx b 6; do b5 <- idx b 5; do b4 <- idx b 4; do b3 <- idx b 3; do b2 <- idx b 2; do b1 <- idx b 1;
  do b0 <- idx b 0;
  Ok (Z.lor (Z.lor (Z.lor (Z.lor (Z.lor (Z.lor b6 (wshl b5 8)) (wshl b4 16)) (wshl b3 24)) (wshl b2 32))
        (wshl b1 40)) (wshl b0 48)).

(** the decoders applied to [in[i:j]] *)
Definition be16 (b : slice) (i j : nat) : res Z := do s <- sub b i j; beUint 2 s.
Definition be32 (b : slice) (i j : nat) : res Z := do s <- sub b i j; beUint 4 s.
Definition be64 (b : slice) (i j : nat) : res Z := do s <- sub b i j; beUint 8 s.
Definition be40 (b : slice) (i j : nat) : res Z := do s <- sub b i j; bigEndianUint40 s.
Definition be48 (b : slice) (i j : nat) : res Z := do s <- sub b i j; bigEndianUint48 s.
Definition be56 (b : slice) (i j : nat) : res Z := do s <- sub b i j; bigEndianUint56 s.

(** conversion.go:210-214 *)
Definition SetBytes1 (b : slice) : res Int :=
  do z0 <- idx b 0;
  Ok (mkInt z0 0 0 0).

(** conversion.go:242-247 *)
Definition SetBytes2 (b : slice) : res Int :=
  do _ <- idx b 1;
  do z0 <- be16 b 0 2;
  Ok (mkInt z0 0 0 0).

(** conversion.go:275-280 *)
Definition SetBytes3 (b : slice) : res Int :=
  do _ <- idx b 2;
  do h <- be16 b 1 3;
  do t <- idx b 0;
  let z0 := Z.lor h (wshl t 16) in
  Ok (mkInt z0 0 0 0).

(** conversion.go:308-313 *)
Definition SetBytes4 (b : slice) : res Int :=
  do _ <- idx b 3;
  do z0 <- be32 b 0 4;
  Ok (mkInt z0 0 0 0).

(** conversion.go:341-346 *)
Definition SetBytes5 (b : slice) : res Int :=
  do _ <- idx b 4;
  do z0 <- be40 b 0 5;
  Ok (mkInt z0 0 0 0).

(** conversion.go:374-379 *)
Definition SetBytes6 (b : slice) : res Int :=
  do _ <- idx b 5;
  do z0 <- be48 b 0 6;
  Ok (mkInt z0 0 0 0).

(** conversion.go:407-412 *)
Definition SetBytes7 (b : slice) : res Int :=
  do _ <- idx b 6;
  do z0 <- be56 b 0 7;
  Ok (mkInt z0 0 0 0).

(** conversion.go:175-180 *)
Definition SetBytes8 (b : slice) : res Int :=
  do _ <- idx b 7;
  do z0 <- be64 b 0 8;
  Ok (mkInt z0 0 0 0).

(** conversion.go:216-222 *)
Definition SetBytes9 (b : slice) : res Int :=
  do _ <- idx b 8;
  do z1 <- idx b 0;
  do z0 <- be64 b 1 9;
  Ok (mkInt z0 z1 0 0).

(** conversion.go:249-255 *)
Definition SetBytes10 (b : slice) : res Int :=
  do _ <- idx b 9;
  do z1 <- be16 b 0 2;
  do z0 <- be64 b 2 10;
  Ok (mkInt z0 z1 0 0).

(** conversion.go:282-288 *)
Definition SetBytes11 (b : slice) : res Int :=
  do _ <- idx b 10;
  do h <- be16 b 1 3;
  do t <- idx b 0;
  let z1 := Z.lor h (wshl t 16) in
  do z0 <- be64 b 3 11;
  Ok (mkInt z0 z1 0 0).

(** conversion.go:315-321 *)
Definition SetBytes12 (b : slice) : res Int :=
  do _ <- idx b 11;
  do z1 <- be32 b 0 4;
  do z0 <- be64 b 4 12;
  Ok (mkInt z0 z1 0 0).

(** conversion.go:348-354 *)
Definition SetBytes13 (b : slice) : res Int :=
  do _ <- idx b 12;
  do z1 <- be40 b 0 5;
  do z0 <- be64 b 5 13;
  Ok (mkInt z0 z1 0 0).

(** conversion.go:381-387 *)
Definition SetBytes14 (b : slice) : res Int :=
  do _ <- idx b 13;
  do z1 <- be48 b 0 6;
  do z0 <- be64 b 6 14;
  Ok (mkInt z0 z1 0 0).

(** conversion.go:414-420 *)
Definition SetBytes15 (b : slice) : res Int :=
  do _ <- idx b 14;
  do z1 <- be56 b 0 7;
  do z0 <- be64 b 7 15;
  Ok (mkInt z0 z1 0 0).

(** conversion.go:183-189 *)
Definition SetBytes16 (b : slice) : res Int :=
  do _ <- idx b 15;
  do z1 <- be64 b 0 8;
  do z0 <- be64 b 8 16;
  Ok (mkInt z0 z1 0 0).

(** conversion.go:224-231 *)
Definition SetBytes17 (b : slice) : res Int :=
  do _ <- idx b 16;
  do z2 <- idx b 0;
  do z1 <- be64 b 1 9;
  do z0 <- be64 b 9 17;
  Ok (mkInt z0 z1 z2 0).

(** conversion.go:257-264 *)
Definition SetBytes18 (b : slice) : res Int :=
  do _ <- idx b 17;
  do z2 <- be16 b 0 2;
  do z1 <- be64 b 2 10;
  do z0 <- be64 b 10 18;
  Ok (mkInt z0 z1 z2 0).

(** conversion.go:290-297 *)
Definition SetBytes19 (b : slice) : res Int :=
  do _ <- idx b 18;
  do h <- be16 b 1 3;
  do t <- idx b 0;
  let z2 := Z.lor h (wshl t 16) in
  do z1 <- be64 b 3 11;
  do z0 <- be64 b 11 19;
  Ok (mkInt z0 z1 z2 0).

(** conversion.go:323-330 *)
Definition SetBytes20 (b : slice) : res Int :=
  do _ <- idx b 19;
  do z2 <- be32 b 0 4;
  do z1 <- be64 b 4 12;
  do z0 <- be64 b 12 20;
  Ok (mkInt z0 z1 z2 0).

(** conversion.go:356-363 *)
Definition SetBytes21 (b : slice) : res Int :=
  do _ <- idx b 20;
  do z2 <- be40 b 0 5;
  do z1 <- be64 b 5 13;
  do z0 <- be64 b 13 21;
  Ok (mkInt z0 z1 z2 0).

(** conversion.go:389-396 *)
Definition SetBytes22 (b : slice) : res Int :=
  do _ <- idx b 21;
  do z2 <- be48 b 0 6;
  do z1 <- be64 b 6 14;
  do z0 <- be64 b 14 22;
  Ok (mkInt z0 z1 z2 0).

(** conversion.go:422-429 *)
Definition SetBytes23 (b : slice) : res Int :=
  do _ <- idx b 22;
  do z2 <- be56 b 0 7;
  do z1 <- be64 b 7 15;
  do z0 <- be64 b 15 23;
  Ok (mkInt z0 z1 z2 0).

(** conversion.go:192-199 *)
Definition SetBytes24 (b : slice) : res Int :=
  do _ <- idx b 23;
  do z2 <- be64 b 0 8;
  do z1 <- be64 b 8 16;
  do z0 <- be64 b 16 24;
  Ok (mkInt z0 z1 z2 0).

(** conversion.go:233-240 *)
Definition SetBytes25 (b : slice) : res Int :=
  do _ <- idx b 24;
  do z3 <- idx b 0;
  do z2 <- be64 b 1 9;
  do z1 <- be64 b 9 17;
  do z0 <- be64 b 17 25;
  Ok (mkInt z0 z1 z2 z3).

(** conversion.go:266-273 *)
Definition SetBytes26 (b : slice) : res Int :=
  do _ <- idx b 25;
  do z3 <- be16 b 0 2;
  do z2 <- be64 b 2 10;
  do z1 <- be64 b 10 18;
  do z0 <- be64 b 18 26;
  Ok (mkInt z0 z1 z2 z3).

(** conversion.go:299-306 *)
Definition SetBytes27 (b : slice) : res Int :=
  do _ <- idx b 26;
  do h <- be16 b 1 3;
  do t <- idx b 0;
  let z3 := Z.lor h (wshl t 16) in
  do z2 <- be64 b 3 11;
  do z1 <- be64 b 11 19;
  do z0 <- be64 b 19 27;
  Ok (mkInt z0 z1 z2 z3).

(** conversion.go:332-339 *)
Definition SetBytes28 (b : slice) : res Int :=
  do _ <- idx b 27;
  do z3 <- be32 b 0 4;
  do z2 <- be64 b 4 12;
  do z1 <- be64 b 12 20;
  do z0 <- be64 b 20 28;
  Ok (mkInt z0 z1 z2 z3).

(** conversion.go:365-372 *)
Definition SetBytes29 (b : slice) : res Int :=
  do _ <- idx b 23;
  do z3 <- be40 b 0 5;
  do z2 <- be64 b 5 13;
  do z1 <- be64 b 13 21;
  do z0 <- be64 b 21 29;
  Ok (mkInt z0 z1 z2 z3).

(** conversion.go:398-405 *)
Definition SetBytes30 (b : slice) : res Int :=
  do _ <- idx b 29;
  do z3 <- be48 b 0 6;
  do z2 <- be64 b 6 14;
  do z1 <- be64 b 14 22;
  do z0 <- be64 b 22 30;
  Ok (mkInt z0 z1 z2 z3).

(** conversion.go:431-438 *)
Definition SetBytes31 (b : slice) : res Int :=
  do _ <- idx b 30;
  do z3 <- be56 b 0 7;
  do z2 <- be64 b 7 15;
  do z1 <- be64 b 15 23;
  do z0 <- be64 b 23 31;
  Ok (mkInt z0 z1 z2 z3).

(** conversion.go:201-208 *)
Definition SetBytes32 (b : slice) : res Int :=
  do _ <- idx b 31;
  do z3 <- be64 b 0 8;
  do z2 <- be64 b 8 16;
  do z1 <- be64 b 16 24;
  do z0 <- be64 b 24 32;
  Ok (mkInt z0 z1 z2 z3).

(** the decoder for [n] bytes, to quantify over the family *)
Definition SetBytesN (n : nat) (b : slice) : res Int :=
  match n with
  | 1%nat => SetBytes1 b
  | 2%nat => SetBytes2 b
  | 3%nat => SetBytes3 b
  | 4%nat => SetBytes4 b
  | 5%nat => SetBytes5 b
  | 6%nat => SetBytes6 b
  | 7%nat => SetBytes7 b
  | 8%nat => SetBytes8 b
  | 9%nat => SetBytes9 b
  | 10%nat => SetBytes10 b
  | 11%nat => SetBytes11 b
  | 12%nat => SetBytes12 b
  | 13%nat => SetBytes13 b
  | 14%nat => SetBytes14 b
  | 15%nat => SetBytes15 b
  | 16%nat => SetBytes16 b
  | 17%nat => SetBytes17 b
  | 18%nat => SetBytes18 b
  | 19%nat => SetBytes19 b
  | 20%nat => SetBytes20 b
  | 21%nat => SetBytes21 b
  | 22%nat => SetBytes22 b
  | 23%nat => SetBytes23 b
  | 24%nat => SetBytes24 b
  | 25%nat => SetBytes25 b
  | 26%nat => SetBytes26 b
  | 27%nat => SetBytes27 b
  | 28%nat => SetBytes28 b
  | 29%nat => SetBytes29 b
  | 30%nat => SetBytes30 b
  | 31%nat => SetBytes31 b
  | 32%nat => SetBytes32 b
  | _ => Panic
  end.

(** uint256.go:30-99 *)
Definition SetBytes (buf : slice) : res Int :=
  match length (vis buf) with
  | O => Ok Clear
  | 1%nat => SetBytes1 buf
  | 2%nat => SetBytes2 buf
  | 3%nat => SetBytes3 buf
  | 4%nat => SetBytes4 buf
  | 5%nat => SetBytes5 buf
  | 6%nat => SetBytes6 buf
  | 7%nat => SetBytes7 buf
  | 8%nat => SetBytes8 buf
  | 9%nat => SetBytes9 buf
  | 10%nat => SetBytes10 buf
  | 11%nat => SetBytes11 buf
  | 12%nat => SetBytes12 buf
  | 13%nat => SetBytes13 buf
  | 14%nat => SetBytes14 buf
  | 15%nat => SetBytes15 buf
  | 16%nat => SetBytes16 buf
  | 17%nat => SetBytes17 buf
  | 18%nat => SetBytes18 buf
  | 19%nat => SetBytes19 buf
  | 20%nat => SetBytes20 buf
  | 21%nat => SetBytes21 buf
  | 22%nat => SetBytes22 buf
  | 23%nat => SetBytes23 buf
  | 24%nat => SetBytes24 buf
  | 25%nat => SetBytes25 buf
  | 26%nat => SetBytes26 buf
  | 27%nat => SetBytes27 buf
  | 28%nat => SetBytes28 buf
  | 29%nat => SetBytes29 buf
  | 30%nat => SetBytes30 buf
  | 31%nat => SetBytes31 buf
  | l => do t <- sub buf (l - 32) l; SetBytes32 t
  end.

(** uint256.go:103-111 *)
Definition Bytes32 (z : Int) : list Z := PutUint64 (l3 z) ++ PutUint64 (l2 z) ++ PutUint64 (l1 z) ++ PutUint64 (l0 z).
(** uint256.go:114-121 *)
Definition Bytes20 (z : Int) : list Z :=
  PutUint32 (l2 z mod 4294967296) ++ PutUint64 (l1 z) ++ PutUint64 (l0 z).
(** uint256.go:124-127 *)
Definition Bytes (z : Int) : list Z := skipn (32 - Z.to_nat (ByteLen z)) (Bytes32 z).

(** [byte(z[i/8] >> uint64(8*(i%8)))]; a limb index above 3 panics *)
Definition byteAt (z : Int) (i : nat) : res Z :=
  do w <- limb z (Z.of_nat i / 8); Ok (wshr w (8 * (Z.of_nat i mod 8)) mod 256).
(** [l[i] = v] *)
Fixpoint put (l : list Z) (i : nat) (v : Z) : res (list Z) :=
  match l, i with
  | [], _ => Panic
  | _ :: t, O => Ok (v :: t)
  | x :: t, S k => do t' <- put t k v; Ok (x :: t')
  end.
(** the loop [for i := ...; i < i+n; i++ { dest[top-i] = byte i of z }] *)
Fixpoint writeLoop (z : Int) (top : nat) (n i : nat) (dest : list Z) : res (list Z) :=
  match n with
  | O => Ok dest
  | S k => do v <- byteAt z i; do dest <- put dest (top - i) v; writeLoop z top k (S i) dest
  end.
(** uint256.go:134-144; [end := len(dest)-1] capped to 31; an empty dest runs no iteration *)
Definition WriteToSlice (z : Int) (dest : list Z) : res (list Z) :=
  let e := Nat.min (length dest) 32 in
  writeLoop z (e - 1) e 0 dest.
(** uint256.go:149-160 *)
Definition WriteToArray32 (z : Int) (dest : list Z) : res (list Z) := writeLoop z 31 32 0 dest.
Definition WriteToArray20 (z : Int) (dest : list Z) : res (list Z) := writeLoop z 19 20 0 dest.
(** uint256.go:260-267; [make([]byte, n)] panics for a negative [n] *)
Definition PaddedBytes (z : Int) (n : Z) : res (list Z) :=
  if n <? 0 then Panic
  else let n := Z.to_nat n in writeLoop z (n - 1) (Nat.min n 32) 0 (repeat 0 n).

(** * math/big: a big.Int is an integer *)

(** big.Int.Bits(): the 64-bit words of the absolute value, least significant first, without leading
    zero words *)
Definition bigLen (b : Z) : Z := (len64 (Z.abs b) + 63) / 64.
Definition bigWord (b : Z) (i : Z) : Z := (Z.abs b / W ^ i) mod W.

(** conversion.go:47-64 (64-bit architecture) *)
Definition ToBig (z : Int) : Z := l0 z + W * (l1 z + W * (l2 z + W * l3 z)).
(** conversion.go:27-44 *)
Definition SToBig (z : Int) : Z :=
  let b := ToBig z in
  if Sign z <? 0 then
    let a := Xor (mkInt (W-1) (W-1) (W-1) (W-1)) z in
    let a := Add a (SetUint64 1) in
    ToBig a * -1
  else b.
(** conversion.go:119-157 (64-bit architecture) *)
Definition SetFromBig (b : Z) : Int * bool :=
  let n := bigLen b in
  let overflow := 4 <? n in
  let z := mkInt (if 0 <? n then bigWord b 0 else 0) (if 1 <? n then bigWord b 1 else 0)
                 (if 2 <? n then bigWord b 2 else 0) (if 3 <? n then bigWord b 3 else 0) in
  ((if Z.sgn b =? -1 then Neg z else z), overflow).
(** conversion.go:67-71 *)
Definition FromBig (b : Z) : Int * bool := SetFromBig b.

(** * Hexadecimal text *)

(** conversion.go:506 *)
Definition hextable : list Z :=
  [
   48; 49; 50; 51; 52; 53; 54; 55; 56; 57; 97; 98; 99; 100; 101; 102].
(** conversion.go:507 *)
Definition bintable : list Z :=
  [
   255; 255; 255; 255; 255; 255; 255; 255; 255; 255; 255; 255; 255; 255; 255; 255;
   255; 255; 255; 255; 255; 255; 255; 255; 255; 255; 255; 255; 255; 255; 255; 255;
   255; 255; 255; 255; 255; 255; 255; 255; 255; 255; 255; 255; 255; 255; 255; 255;
   0; 1; 2; 3; 4; 5; 6; 7; 8; 9; 255; 255; 255; 255; 255; 255;
   255; 10; 11; 12; 13; 14; 15; 255; 255; 255; 255; 255; 255; 255; 255; 255;
   255; 255; 255; 255; 255; 255; 255; 255; 255; 255; 255; 255; 255; 255; 255; 255;
   255; 10; 11; 12; 13; 14; 15; 255; 255; 255; 255; 255; 255; 255; 255; 255;
   255; 255; 255; 255; 255; 255; 255; 255; 255; 255; 255; 255; 255; 255; 255; 255;
   255; 255; 255; 255; 255; 255; 255; 255; 255; 255; 255; 255; 255; 255; 255; 255;
   255; 255; 255; 255; 255; 255; 255; 255; 255; 255; 255; 255; 255; 255; 255; 255;
   255; 255; 255; 255; 255; 255; 255; 255; 255; 255; 255; 255; 255; 255; 255; 255;
   255; 255; 255; 255; 255; 255; 255; 255; 255; 255; 255; 255; 255; 255; 255; 255;
   255; 255; 255; 255; 255; 255; 255; 255; 255; 255; 255; 255; 255; 255; 255; 255;
   255; 255; 255; 255; 255; 255; 255; 255; 255; 255; 255; 255; 255; 255; 255; 255;
   255; 255; 255; 255; 255; 255; 255; 255; 255; 255; 255; 255; 255; 255; 255; 255;
   255; 255; 255; 255; 255; 255; 255; 255; 255; 255; 255; 255; 255; 255; 255; 255].

(** conversion.go:547-555 *)
Inductive hexErr : Type :=
| ErrEmptyString | ErrSyntax | ErrMissingPrefix | ErrEmptyNumber | ErrLeadingZero | ErrBig256Range | ErrNonString.

(** conversion.go:557-573; [None] = nil error *)
Definition checkNumberS (input : list Z) : option hexErr :=
  match input with
  | [] => Some ErrEmptyString
  | [_] => Some ErrMissingPrefix
  | c0 :: c1 :: rest =>
      if negb (c0 =? 48) || (negb (c1 =? 120) && negb (c1 =? 88)) then Some ErrMissingPrefix
      else match rest with
           | [] => Some ErrEmptyNumber
           | c2 :: r => if (0 <? length r)%nat && (c2 =? 48) then Some ErrLeadingZero else None
           end
  end.

Definition setLimb (z : Int) (i : nat) (v : Z) : Int :=
  match i with
  | O => mkInt v (l1 z) (l2 z) (l3 z)
  | 1%nat => mkInt (l0 z) v (l2 z) (l3 z)
  | 2%nat => mkInt (l0 z) (l1 z) v (l3 z)
  | _ => mkInt (l0 z) (l1 z) (l2 z) v
  end.
Definition getLimb (z : Int) (i : nat) : Z :=
  match i with O => l0 z | 1%nat => l1 z | 2%nat => l2 z | _ => l3 z end.

(** conversion.go:88-95, the inner loop over the characters of one limb: the new limb, and whether all
    characters were digits.  A byte indexes [bintable] (256 entries) without a panic. *)
Fixpoint hexLimb (w : Z) (cs : list Z) : Z * bool :=
  match cs with
  | [] => (w, true)
  | c :: r =>
      let nib := nth (Z.to_nat c) bintable 255 in
      if nib =? 255 then (w, false) else hexLimb (wadd (wshl w 4) nib) r
  end.

(** conversion.go:83-98, [n] iterations left, the first of them on limb [i] *)
Fixpoint hexLoop (hex : list Z) (n i e : nat) (z : Int) : Int * option hexErr :=
  match n with
  | O => (z, None)
  | S k =>
      let start := Nat.max 2 (e - 16) in
      let '(w, ok) := hexLimb (getLimb z i) (firstn (e - start) (skipn start hex)) in
      let z := setLimb z i w in
      if ok then hexLoop hex k (S i) start z else (z, Some ErrSyntax)
  end.

(** conversion.go:74-100: the new contents of the receiver and the error *)
Definition fromHex (z : Int) (hex : list Z) : Int * option hexErr :=
  match checkNumberS hex with
  | Some e => (z, Some e)
  | None => if (66 <? length hex)%nat then (z, Some ErrBig256Range) else hexLoop hex 4 0 (length hex) z
  end.

(** conversion.go:104-110; [inl] = the number, [inr] = nil and the error *)
Definition FromHex (hex : list Z) : Int + hexErr :=
  match fromHex Clear hex with
  | (z, None) => inl z
  | (_, Some e) => inr e
  end.
(** conversion.go:113-115 *)
Definition UnmarshalText (z : Int) (input : list Z) : Int * option hexErr := fromHex z input.
(** conversion.go:493-498 *)
Definition UnmarshalJSON (z : Int) (input : list Z) : Int * option hexErr :=
  if (length input <? 2)%nat || negb (hd 0 input =? 34) || negb (last input 0 =? 34) then (z, Some ErrNonString)
  else UnmarshalText z (firstn (length input - 2) (skipn 1 input)).

(** [hextable[byte(w >> sh) & 0xf]] *)
Definition hexChar (w sh : Z) : Z := nth (Z.to_nat (Z.land (wshr w sh mod 256) 15)) hextable 0.
(** conversion.go:524-541, the sixteen assignments for one limb *)
Fixpoint hexLine (w : Z) (n : nat) (pos : nat) (sh : Z) (out : list Z) : res (list Z) :=
  match n with
  | O => Ok out
  | S k => do out <- put out pos (hexChar w sh); hexLine w k (S pos) (sh - 4) out
  end.
(** conversion.go:522-542, limbs [n-1] down to 0 *)
Fixpoint hexOut (z : Int) (n : nat) (out : list Z) : res (list Z) :=
  match n with
  | O => Ok out
  | S i => do out <- hexLine (getLimb z i) 16 ((3 - i) * 16 + 2) 60 out; hexOut z i out
  end.
(** conversion.go:512-546 *)
Definition Hex (z : Int) : res (list Z) :=
  let output := repeat 0 66 in
  let nibbles := (BitLen z + 3) / 4 in
  let nibbles := if nibbles =? 0 then 1 else nibbles in
  let zWord := (nibbles - 1) / 16 in
  let n := Z.to_nat nibbles in
  do output <- hexOut z (Z.to_nat zWord + 1) output;
  do output <- put output (64 - n) 48;
  do output <- put output (65 - n) 120;
  Ok (skipn (64 - n) output).
(** conversion.go:488-490, 501-503 *)
Definition MarshalText (z : Int) : res (list Z) := Hex z.
Definition StringOf (z : Int) : res (list Z) := Hex z.

(** conversion.go:462-485; [None] = a nil pointer; the bytes written *)
Definition EncodeRLP (z : option Int) : res (list Z) :=
  match z with
  | None => Ok [128]
  | Some z =>
      let nBits := BitLen z in
      if nBits =? 0 then Ok [128]
      else if nBits <=? 7 then Ok [l0 z mod 256]
      else
        let nBytes := ((nBits + 7) / 8) mod 256 in
        let b := 0 :: PutUint64 (l3 z) ++ PutUint64 (l2 z) ++ PutUint64 (l1 z) ++ PutUint64 (l0 z) in
        do b <- put b (32 - Z.to_nat nBytes) ((128 + nBytes) mod 256);
        Ok (skipn (32 - Z.to_nat nBytes) b)
  end.
