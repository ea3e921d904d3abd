(** U256Div.v -- limb-level model of the division code: /repo/uint256/div.go and
    /repo/uint256/uint256.go:407-725, 1214-1245. *)
From Verif Require Import Base U256.

(** div.go:10-13.  [bits.Div64(^d, ^uint64(0), d)] panics unless d > ^d. *)
Definition reciprocal2by1 (d : Z) : res Z :=
  do qr <- div64 (wnot d) (W - 1) d;
  Ok (fst qr).

(** div.go:19-38 *)
Definition udivrem2by1 (uh ul d reciprocal : Z) : Z * Z :=
  let '(qh, ql) := mul64 reciprocal uh in
  let '(ql, carry) := add64 ql ul 0 in
  let '(qh, _) := add64 qh uh carry in
  let qh := wadd qh 1 in
  let r := wsub ul (wmul qh d) in
  let '(qh, r) := if ql <? r then (wsub qh 1, wadd r d) else (qh, r) in
  let '(qh, r) := if d <=? r then (wadd qh 1, wsub r d) else (qh, r) in
  (qh, r).

(** uint256.go:409-415: x += y on the first len(y) words; reading past the end of x panics. *)
Fixpoint addTo_loop (x y : list Z) (carry : Z) {struct y} : res (list Z * Z) :=
  match y, x with
  | [], _ => Ok (x, carry)
  | _ :: _, [] => Panic
  | yi :: y', xi :: x' =>
      let '(s, c) := add64 xi yi carry in
      do r <- addTo_loop x' y' c;
      Ok (s :: fst r, snd r)
  end.
Definition addTo (x y : list Z) : res (list Z * Z) := addTo_loop x y 0.

(** uint256.go:419-430: x -= y * multiplier on the first len(y) words. *)
Fixpoint subMulTo_loop (x y : list Z) (multiplier borrow : Z) {struct y} : res (list Z * Z) :=
  match y, x with
  | [], _ => Ok (x, borrow)
  | _ :: _, [] => Panic
  | yi :: y', xi :: x' =>
      let '(s, carry1) := sub64 xi borrow 0 in
      let '(ph, pl) := mul64 yi multiplier in
      let '(t, carry2) := sub64 s pl 0 in
      do r <- subMulTo_loop x' y' multiplier (wadd (wadd ph carry1) carry2);
      Ok (t :: fst r, snd r)
  end.
Definition subMulTo (x y : list Z) (multiplier : Z) : res (list Z * Z) :=
  subMulTo_loop x y multiplier 0.

(** The loop body of udivremBy1 for j = k-1 down to 0 (uint256.go:437-439). *)
Fixpoint by1_loop (k : nat) (quot u : list Z) (d reciprocal rem : Z) : res (list Z * Z) :=
  match k with
  | O => Ok (quot, rem)
  | S j =>
      do uj <- geti u j;
      let '(q, rem) := udivrem2by1 rem uj d reciprocal in
      do quot <- seti quot j q;
      by1_loop j quot u d reciprocal rem
  end.

(** uint256.go:434-441 *)
Definition udivremBy1 (quot u : list Z) (d : Z) : res (list Z * Z) :=
  do reciprocal <- reciprocal2by1 d;
  match length u with
  | O => Panic
  | S k => do rem <- geti u k; by1_loop k quot u d reciprocal rem
  end.

(** The loop body of udivremKnuth for one j (uint256.go:452-476).  [u[j:]] is a slice of the same
    array: the callee updates the words from index j on. *)
Definition knuth_step (j : nat) (quot u d : list Z) (dh dl reciprocal : Z) : res (list Z * list Z) :=
  let n := length d in
  do u2 <- geti u (j + n);
  do u1 <- geti u (j + n - 1);
  do u0 <- geti u (j + n - 2);
  let qhat :=
    if dh <=? u2 then W - 1
    else
      let '(qhat, rhat) := udivrem2by1 u2 u1 dh reciprocal in
      let '(ph, pl) := mul64 qhat dl in
      if (rhat <? ph) || ((ph =? rhat) && (u0 <? pl)) then wsub qhat 1 else qhat in
  do xb <- subMulTo (skipn j u) d qhat;
  let '(x, borrow) := xb in
  do u <- seti (firstn j u ++ x) (j + n) (wsub u2 borrow);
  do qu <- (if u2 <? borrow then
              do xc <- addTo (skipn j u) d;
              let '(x, carry) := xc in
              let u := firstn j u ++ x in
              do top <- geti u (j + n);
              do u <- seti u (j + n) (wadd top carry);
              Ok (wsub qhat 1, u)
            else Ok (qhat, u));
  let '(qhat, u) := qu in
  do quot <- seti quot j qhat;
  Ok (quot, u).

Fixpoint knuth_loop (k : nat) (quot u d : list Z) (dh dl reciprocal : Z) : res (list Z * list Z) :=
  match k with
  | O => Ok (quot, u)
  | S j =>
      do qu <- knuth_step j quot u d dh dl reciprocal;
      knuth_loop j (fst qu) (snd qu) d dh dl reciprocal
  end.

(** uint256.go:446-478.  The loop runs for j = len(u)-len(d)-1 down to 0. *)
Definition udivremKnuth (quot u d : list Z) : res (list Z * list Z) :=
  match length d with
  | S (S m) =>
      do dh <- geti d (S m);
      do dl <- geti d m;
      do reciprocal <- reciprocal2by1 dh;
      knuth_loop (length u - length d) quot u d dh dl reciprocal
  | _ => Panic
  end.

(** number of significant words: the loops uint256.go:486-491 and 502-507 *)
Fixpoint siglen (l : list Z) : nat :=
  match l with
  | [] => O
  | a :: t => match siglen t with
              | O => if a =? 0 then O else 1%nat
              | S k => S (S k)
              end
  end.

(** dn[i] = (d[i] << shift) | (d[i-1] >> (64 - shift)), dn[0] = d[0] << shift (uint256.go:496-500, and
    the same for un, 511-514); [prev] is d[i-1]. *)
Fixpoint shl_words (s prev : Z) (l : list Z) : list Z :=
  match l with
  | [] => []
  | a :: t => Z.lor (wshl a s) (wshr prev (64 - s)) :: shl_words s a t
  end.
(** rem[i] = (un[i] >> shift) | (un[i+1] << (64 - shift)), the last one un[i] >> shift
    (uint256.go:527-530) *)
Fixpoint shr_words (s : Z) (l : list Z) : list Z :=
  match l with
  | [] => []
  | [a] => [wshr a s]
  | a :: (b :: _) as t => Z.lor (wshr a s) (wshl b (64 - s)) :: shr_words s t
  end.

Definition limbs (x : Int) : list Z := [l0 x; l1 x; l2 x; l3 x].
(** the array of four words whose first words are [l] *)
Definition of_words (l : list Z) : Int :=
  mkInt (nth 0 l 0) (nth 1 l 0) (nth 2 l 0) (nth 3 l 0).

(** uint256.go:484-533: returns the updated quotient slice and the remainder. *)
Definition Udivrem (quot u : list Z) (d : Int) : res (list Z * Int) :=
  let dLen := siglen (limbs d) in
  match dLen with
  | O => Panic                                  (* d[-1] *)
  | S dm =>
      do dtop <- geti (limbs d) dm;
      let shift := lz64 dtop in
      let dn := shl_words shift 0 (firstn dLen (limbs d)) in
      let uLen := siglen u in
      match uLen with
      | O => Panic                              (* u[-1] *)
      | S um =>
          if (9 <? S uLen)%nat then Panic        (* unStorage[:uLen+1] *)
          else
            do utop <- geti u um;
            let un := shl_words shift 0 (firstn uLen u) ++ [wshr utop (64 - shift)] in
            match dn with
            | [dn0] =>
                do qr <- udivremBy1 quot un dn0;
                Ok (fst qr, SetUint64 (wshr (snd qr) shift))
            | _ =>
                do qu <- udivremKnuth quot un dn;
                let '(quot, un) := qu in
                if (length un <? dLen)%nat then Panic   (* un[dLen-1] in the remainder loop *)
                else Ok (quot, of_words (shr_words shift (firstn dLen un)))
            end
      end
  end.

(** uint256.go:539-557 *)
Definition Div (x y : Int) : res Int :=
  if IsZero y || Gt y x then Ok Clear
  else if Eq x y then Ok SetOne
  else if IsUint64 x then
    if l0 y =? 0 then Panic else Ok (SetUint64 (l0 x / l0 y))
  else
    do qr <- Udivrem [0; 0; 0; 0] (limbs x) y;
    Ok (of_words (fst qr)).

(** uint256.go:561-588 *)
Definition Mod (x y : Int) : res Int :=
  if IsZero x || IsZero y then Ok Clear
  else
    let c := Cmp x y in
    if c =? -1 then Ok x
    else if c =? 0 then Ok Clear
    else if IsUint64 x then
      if l0 y =? 0 then Panic else Ok (SetUint64 (l0 x mod l0 y))
    else
      do qr <- Udivrem [0; 0; 0; 0] (limbs x) y;
      Ok (snd qr).

(** uint256.go:593-610 *)
Definition SMod (x y : Int) : res Int :=
  let ys := Sign y in
  let xs := Sign x in
  let x := if xs =? -1 then Neg x else x in
  let y := if ys =? -1 then Neg y else y in
  do z <- Mod x y;
  Ok (if xs =? -1 then Neg z else z).

(** uint256.go:697-719 *)
Definition SDiv (n d : Int) : res Int :=
  if 0 <? Sign n then
    if 0 <? Sign d then Div n d
    else do z <- Div n (Neg d); Ok (Neg z)
  else if Sign d <? 0 then Div (Neg n) (Neg d)
  else do z <- Div (Neg n) d; Ok (Neg z).

(** uint256.go:197-244 *)
Definition AddMod (x y m : Int) : res Int :=
  if negb (l3 m =? 0) && (l3 x <=? l3 m) && (l3 y <=? l3 m) then
    let s := (let '(d, o) := SubOverflow x m in if o then x else d) in
    let t := (let '(d, o) := SubOverflow y m in if o then y else d) in
    let s := (let '(a, o) := AddOverflow s t in if o then Sub a m else a) in
    Ok (let '(d, o) := SubOverflow s m in if o then s else d)
  else if IsZero m then Ok Clear
  else
    let '(z, o) := AddOverflow x y in
    if o then
      do qr <- Udivrem [0; 0; 0; 0; 0] (limbs z ++ [1]) m;
      Ok (snd qr)
    else Mod z m.

(** One-bit right shift inlined in Sqrt, uint256.go:1229-1235 *)
Definition rsh1 (z : Int) : Int :=
  let a := wshl (l3 z) 63 in
  let z3 := wshr (l3 z) 1 in
  let b := wshl (l2 z) 63 in
  let z2 := Z.lor (wshr (l2 z) 1) a in
  let a := wshl (l1 z) 63 in
  let z1 := Z.lor (wshr (l1 z) 1) b in
  mkInt (Z.lor (wshr (l0 z) 1) a) z1 z2 z3.

(** uint256.go:1225-1244 *)
Fixpoint sqrt_loop (fuel : nat) (x z1 : Int) : res Int :=
  match fuel with
  | O => OutOfFuel
  | S f =>
      do z2 <- Div x z1;
      let z2 := rsh1 (Add z2 z1) in
      if 0 <=? Cmp z2 z1 then Ok z1 else sqrt_loop f x z2
  end.

(** uint256.go:1214-1245 *)
Definition Sqrt (fuel : nat) (x : Int) : res Int :=
  if LtUint64 x 2 then Ok x
  else sqrt_loop fuel x (Lsh SetOne ((BitLen x + 1) / 2)).
