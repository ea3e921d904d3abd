(** Prop_Mod.v -- property C10 of /repo/uint256: modular multiplication, its Newton-Raphson
    reciprocal and the Barrett reduction. *)
From Verif Require Import Base U256 U256Facts U256Div U256DivSpec U256Mod U256ModSpec.
Ltac Zify.zify_post_hook ::= idtac.

(** MulMod is exact for every triple, with 0 for a zero modulus; it neither panics nor loops. *)
Theorem C10_mulmod x y m : wf x -> wf y -> wf m -> exists z, MulMod x y m = Ok z /\ wf z /\
  toZ z = if toZ m =? 0 then 0 else (toZ x * toZ y) mod toZ m.
Proof. exact (MulMod_spec x y m). Qed.
Print Assumptions C10_mulmod.
(* Barrett path, division path with a high half, division path without *)
Example C10_case : let a := mkInt 7 (2 ^ 63) 11 (W - 5) in let b := mkInt (W - 1) 3 (2 ^ 40) (2 ^ 63 + 9) in
  let m := mkInt 1 0 5 77 in
  MulMod a b m = Ok (ofZ ((toZ a * toZ b) mod toZ m)) /\
  MulMod a b (mkInt 9 0 4 0) = Ok (ofZ ((toZ a * toZ b) mod toZ (mkInt 9 0 4 0))) /\
  MulMod (mkInt 9 0 0 0) (mkInt 7 0 0 0) (mkInt 10 0 0 0) = Ok (mkInt 3 0 0 0) /\
  MulMod a b (mkInt 0 0 0 0) = Ok (mkInt 0 0 0 0).
Proof. vm_compute. auto. Qed.

(** The reciprocal of a modulus of at least 2^192: a 320-bit mu with 2^512/m - 4 < mu <= 2^512/m.
    A smaller modulus gives 0. *)
Theorem C10_reciprocal m : wf m ->
  (l3 m <> 0 -> exists mu, Reciprocal m = Ok mu /\ wf5 mu /\
     val5 mu * toZ m <= 2 ^ 512 /\ 2 ^ 512 < (val5 mu + 4) * toZ m) /\
  (l3 m = 0 -> Reciprocal m = Ok (0, 0, 0, 0, 0)).
Proof.
  intros H. split; [exact (Reciprocal_spec m H)|]. intros e. unfold Reciprocal. rewrite e. reflexivity.
Qed.
Print Assumptions C10_reciprocal.
Example C10_reciprocal_case : l3 (mkInt 1 0 5 77) <> 0 /\
  exists mu, Reciprocal (mkInt 1 0 5 77) = Ok mu /\ val5 mu = 2 ^ 512 / toZ (mkInt 1 0 5 77).
Proof. split; [discriminate|]. eexists. split; vm_compute; reflexivity. Qed.
(* the bound is not an equality: a power of two gets 2^512/m - 1 *)
Example C10_reciprocal_pow2 :
  exists mu, Reciprocal (mkInt 0 0 0 64) = Ok mu /\ val5 mu = 2 ^ 512 / toZ (mkInt 0 0 0 64) - 1.
Proof. eexists. split; vm_compute; reflexivity. Qed.

(** Barrett reduction with any mu in that range returns the residue of every 512-bit number, within
    ten rounds of the final subtraction loop. *)
Theorem C10_reduce4 x m mu : length x = 8%nat -> Forall is_w x -> wf m -> l3 m <> 0 -> wf5 mu ->
  val5 mu * toZ m <= 2 ^ 512 /\ 2 ^ 512 < (val5 mu + 4) * toZ m ->
  exists z, reduce4 x m mu = Ok z /\ wf z /\ toZ z = lval x mod toZ m.
Proof. exact (reduce4_spec x m mu). Qed.
Print Assumptions C10_reduce4.
Example C10_reduce4_case : val5 (W - 1, W - 1, W - 1, W - 1, 288230376151711743) * toZ (mkInt 0 0 0 64) <= 2 ^ 512 /\
  2 ^ 512 < (val5 (W - 1, W - 1, W - 1, W - 1, 288230376151711743) + 4) * toZ (mkInt 0 0 0 64) /\
  reduce4 [1; 2; 3; 4; 5; 6; 7; 8] (mkInt 0 0 0 64) (W - 1, W - 1, W - 1, W - 1, 288230376151711743) = Ok (mkInt 1 2 3 4).
Proof. vm_compute. intuition discriminate. Qed.

(** MulModWithReciprocal given the true reciprocal. *)
Theorem C10_with_reciprocal x y m mu : wf x -> wf y -> wf m -> Reciprocal m = Ok mu ->
  exists z, MulModWithReciprocal x y m mu = Ok z /\ wf z /\
    toZ z = if toZ m =? 0 then 0 else (toZ x * toZ y) mod toZ m.
Proof.
  intros Hx Hy Hm E. destruct (MulMod_spec x y m Hx Hy Hm) as (z & Ez & H). exists z. split; [|exact H].
  rewrite <- Ez. unfold MulModWithReciprocal, MulMod. rewrite E. reflexivity.
Qed.
Print Assumptions C10_with_reciprocal.
(* a stale reciprocal is not detected: the function then returns a value that is not x*y mod m *)
Example C10_stale_reciprocal : exists mu z, Reciprocal (mkInt 1 0 5 (2 ^ 60)) = Ok mu /\
  MulModWithReciprocal (mkInt 1 0 0 (2 ^ 62)) (mkInt 1 0 0 0) (mkInt 1 0 5 77) mu = z /\
  z <> Ok (ofZ (toZ (mkInt 1 0 0 (2 ^ 62)) mod toZ (mkInt 1 0 5 77))).
Proof. do 2 eexists. split; [vm_compute; reflexivity|]. split; [vm_compute; reflexivity|]. vm_compute. discriminate. Qed.

(** leadingZeros counts the zero bits above the top set bit: 256 for 0, otherwise the s with
    2^255 <= x*2^s < 2^256. *)
Theorem C10_leadingZeros x : wf x ->
  (toZ x = 0 -> leadingZeros x = 256) /\
  (toZ x <> 0 -> 0 <= leadingZeros x < 256 /\ 2 ^ 255 <= toZ x * 2 ^ leadingZeros x < 2 ^ 256).
Proof. exact (leadingZeros_spec x). Qed.
Print Assumptions C10_leadingZeros.
Example C10_leadingZeros_case : leadingZeros (mkInt 0 0 5 0) = 125.
Proof. reflexivity. Qed.
