(** TickMath.v -- /repo/lib/tickmath/tickmath.go on 256-bit integers.  Go [int] values are [Z]; none of the
    int computations here leaves the 64-bit range for the ticks in question.
    getTickAtSqrtRatio (tickmath.go:163-200) is in TickLog.v. *)
From Verif Require Import Base U256Z.

(** tickmath.go:12-14 *)
Definition MinTick : Z := -887272.
Definition MaxTick : Z := 887272.
Definition TotalTicks : Z := MaxTick - MinTick + 1.

(** tickmath.go:18-21 *)
Definition Q32 : Z := 2 ^ 32.
Definition MinSqrtRatio : Z := 4295128739.
Definition MaxSqrtRatio : Z := 1461446703485210103287273052203988822378723970342.

(** two's complement reading; uint256.go SMod (C07) *)
Definition usigned (a : Z) : Z := if a <? T255 then a else a - T256.
Definition usmod (a b : Z) : Z := if b =? 0 then 0 else (Z.rem (usigned a) (usigned b)) mod T256.

(** tickmath.go:214-218.  This is [ursh (umul val mulBy) 128] (mulShift_ops in TickMathFacts.v), written so that
    evaluating it costs little: no division, and a reduction only when the product overflows. *)
Definition mulShift (val mulBy : Z) : Z :=
  let product := val * mulBy in
  Z.shiftr (if (0 <=? product) && (product <? T256) then product else product mod T256) 128.

(** tickmath.go:88: the factor of the lowest bit *)
Definition c0 : Z := 0xfffcb933bd6fad37aa2d162d1a594001.
(** tickmath.go:92-149: the masks and factors of the other bits, in the order of the code *)
Definition factors : list (Z * Z) :=
  [(0x2, 0xfff97272373d413259a46990580e213a);
   (0x4, 0xfff2e50f5f656932ef12357cf3c7fdcc);
   (0x8, 0xffe5caca7e10e4e61c3624eaa0941cd0);
   (0x10, 0xffcb9843d60f6159c9db58835c926644);
   (0x20, 0xff973b41fa98c081472e6896dfb254c0);
   (0x40, 0xff2ea16466c96a3843ec78b326b52861);
   (0x80, 0xfe5dee046a99a2a811c461f1969c3053);
   (0x100, 0xfcbe86c7900a88aedcffc83b479aa3a4);
   (0x200, 0xf987a7253ac413176f2b074cf7815e54);
   (0x400, 0xf3392b0822b70005940c7a398e4b70f3);
   (0x800, 0xe7159475a2c29b7443b29c7fa6e889d9);
   (0x1000, 0xd097f3bdfd2022b8845ad8f792aa5825);
   (0x2000, 0xa9f746462d870fdf8a65dc1f90e061e5);
   (0x4000, 0x70d869a156d2a1b890bb3df62baf32f7);
   (0x8000, 0x31be135f97d08fd981231505542fcfa6);
   (0x10000, 0x9aa508b5b7a84e1c677de54f3e99bc9);
   (0x20000, 0x5d6af8dedb81196699c329225ee604);
   (0x40000, 0x2216e584f5fa1ea926041bedfe98);
   (0x80000, 0x48a170391f7dc42444e8fa2)].

(** tickmath.go:81-160 *)
Definition getSqrtRatioAtTick (tick : Z) : res Z :=
  let absTick := if tick <? 0 then - tick else tick in
  do _ <- invariant (absTick <=? MaxTick);
  let ratio := if negb (Z.land absTick 0x1 =? 0) then c0 else 0x100000000000000000000000000000000 in
  let ratio := fold_left (fun ratio f =>
                 if negb (Z.land absTick (fst f) =? 0) then mulShift ratio (snd f) else ratio) factors ratio in
  let ratio := if 0 <? tick then udiv MaxUint256 ratio else ratio in
  if 0 <? usign (usmod ratio Q32) then Ok (uadd (udiv ratio Q32) 1) else Ok (udiv ratio Q32).

(** The table built by initTickMath, tickmath.go:24-37; reading an entry outside the array panics. *)
Definition ticks (i : Z) : res Z :=
  if (0 <=? i) && (i <? TotalTicks) then getSqrtRatioAtTick (i + MinTick) else Panic.

(** tickmath.go:57-59 *)
Definition GetSqrtRatioAtTick (tick : Z) : res Z := ticks (tick + MaxTick).

(** tickmath.go:65-73: the loop *)
Fixpoint searchTick (fuel : nat) (price l r : Z) : res Z :=
  match fuel with
  | O => OutOfFuel
  | S fuel' =>
    if l <? r then
      let mid := Z.quot (l + r + 1) 2 in
      do t <- ticks mid;
      if price <? t then searchTick fuel' price l (mid - 1) else searchTick fuel' price mid r
    else Ok l
  end.
(** tickmath.go:60-75.  21 iterations halve the 1774545 entries to one. *)
Definition tickFuel : nat := 22.
Definition GetTickAtSqrtRatioF (fuel : nat) (price : Z) : res Z :=
  do _ <- invariant ((MinSqrtRatio <=? price) && (price <? MaxSqrtRatio));
  do l <- searchTick fuel price 0 (TotalTicks - 1);
  Ok (l + MinTick).
Definition GetTickAtSqrtRatio (price : Z) : res Z := GetTickAtSqrtRatioF tickFuel price.

(** tickmath.go:202-212.  [Exp(2, power)] is 2^power (C11). *)
Definition MostSignificantBit (x : Z) : Z :=
  snd (fold_left (fun xm power =>
         let '(x, msb) := (xm : Z * Z) in
         if 2 ^ power <=? x then (ursh x power, msb + power) else (x, msb))
       [128; 64; 32; 16; 8; 4; 2; 1] (x, 0)).
