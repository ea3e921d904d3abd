(** Prop_Fuzz.v -- C78: the fuzzing harness reports no crash on any input, and it would report a wrong method.

    [vis buf] are the bytes of the argument, [data buf] the bytes up to its capacity.  [fine a r]: the call
    returns [a]; a crash is a panic.  The memory [h] before the call is arbitrary. *)
From Verif Require Import Base U256 U256Facts U256Div U256Mod U256Conv U256ConvFacts U256HexFacts Alias AliasFacts Fuzz FuzzFacts.
Ltac Zify.zify_post_hook ::= idtac.

Theorem C78_fuzz fuel buf h : (130 <= fuel)%nat -> Forall is_byte (data buf) ->
  exists h', Fuzz fuel buf h = Ok (if (length (vis buf) <? 32)%nat then 0 else 1, h').
Proof. exact (fuzz_fine fuel buf h). Qed.
Print Assumptions C78_fuzz.
(** the switch after the first test is dead: inputs of 64 and of 96 bytes only test the square root *)
Theorem C78_only_sqrt fuel buf : (32 <= length (vis buf))%nat -> Fuzz fuel buf = fuzzUnaryOp fuel buf.
Proof. intros H. unfold Fuzz. destruct (Nat.ltb_spec (length (vis buf)) 32); [lia|reflexivity]. Qed.
Print Assumptions C78_only_sqrt.

(** the checks that are never run would pass as well *)
Theorem C78_binary buf h : Forall is_byte (data buf) -> (32 <= length (vis buf))%nat ->
  exists h', fuzzBinaryOp buf h = Ok (1, h').
Proof. exact (binary_fine buf h). Qed.
Print Assumptions C78_binary.
Theorem C78_ternary buf h : Forall is_byte (data buf) -> (64 <= length (vis buf))%nat ->
  exists h', fuzzTernaryOp buf h = Ok (if numval 256 (skipn 64 (vis buf)) mod 2 ^ 256 =? 0 then 0 else 1, h').
Proof. exact (ternary_fine buf h). Qed.
Print Assumptions C78_ternary.

(** [op] is arbitrary from here on.  A check that returns has seen the right number in a fresh receiver, in a
    receiver holding garbage and in a receiver that is an operand, and unchanged operands in the first two. *)
Definition right (m : mem) (p : ptr) (n : Z) : Prop := toZ (cell m p) = n mod 2 ^ 256.
Lemma right_of m p n : cell m p = fst (FromBig n) -> right m p n.
Proof. intros E. unfold right. rewrite E. exact (proj1 (proj2 (FromBig_spec n))). Qed.

Theorem C78_detects_unary op bigOp x h h' : checkUnaryOp op bigOp x h = Ok (tt, h') ->
  let p := length h in let n := bigOp (toZ x) in
  exists m1 m2 m3, op (S p) p (h ++ [x; Clear]) = Ok (S p, m1) /\ right m1 (S p) n /\ cell m1 p = x /\
    let q := length m1 in
    mSub q q (S q) (m1 ++ [Clear; mkInt 1 0 0 0]) = Ok (tt, m2) /\
    op q p m2 = Ok (q, m3) /\ right m3 q n /\ op p p m3 = Ok (p, h') /\ right h' p n.
Proof.
  intros H. apply seen1 in H. cbv zeta in *. rewrite ToBig_spec in H. destruct H as (m1 & m2 & m3 & H1 & H2 & H3 & H4 & H5 & H6 & H7 & H8).
  exists m1, m2, m3. apply right_of in H2, H6, H8. repeat (split; [assumption|]). assumption.
Qed.
Print Assumptions C78_detects_unary.

Theorem C78_detects_binary op bigOp x y h h' : checkDualArgOp op bigOp x y h = Ok (tt, h') ->
  let p := length h in let n := bigOp (toZ x) (toZ y) in
  exists m1 m2 m3 m4, op (p + 3)%nat p (S p) (h ++ [x; y; x; Clear]) = Ok ((p + 3)%nat, m1) /\
    right m1 (p + 3)%nat n /\ cell m1 p = x /\ cell m1 (S p) = y /\
    let q := length m1 in
    mXor q p (S p) (m1 ++ [Clear]) = Ok (tt, m2) /\
    op q p (S p) m2 = Ok (q, m3) /\ right m3 q n /\ cell m3 p = x /\ cell m3 (S p) = y /\
    op p p (S p) m3 = Ok (p, m4) /\ right m4 p n /\
    op (S p) (p + 2)%nat (S p) m4 = Ok (S p, h') /\ right h' (S p) n.
Proof.
  intros H. apply seen2 in H. cbv zeta in *. rewrite !ToBig_spec in H.
  destruct H as (m1 & m2 & m3 & m4 & H1 & H2 & H3 & H4 & H5 & H6 & H7 & H8 & H9 & H10 & H11 & H12 & H13).
  exists m1, m2, m3, m4. apply right_of in H2, H7, H11, H13. repeat (split; [assumption|]). assumption.
Qed.
Print Assumptions C78_detects_binary.

Theorem C78_detects_ternary op bigOp x y z h h' : checkThreeArgOp op bigOp x y z h = Ok (tt, h') ->
  let p := length h in let n := bigOp (toZ x) (toZ y) (toZ z) in
  exists m1 m2 m3 m4 m5, op (p + 5)%nat p (S p) (p + 2)%nat (h ++ [x; y; z; x; y; Clear]) = Ok ((p + 5)%nat, m1) /\
    right m1 (p + 5)%nat n /\ cell m1 p = x /\ cell m1 (S p) = y /\ cell m1 (p + 2)%nat = z /\
    let q := length m1 in
    mXor q p (S p) (m1 ++ [Clear]) = Ok (tt, m2) /\
    op q p (S p) (p + 2)%nat m2 = Ok (q, m3) /\ right m3 q n /\ cell m3 p = x /\ cell m3 (S p) = y /\ cell m3 (p + 2)%nat = z /\
    op p p (S p) (p + 2)%nat m3 = Ok (p, m4) /\ right m4 p n /\
    op (S p) (p + 3)%nat (S p) (p + 2)%nat m4 = Ok (S p, m5) /\ right m5 (S p) n /\
    op (p + 2)%nat (p + 3)%nat (p + 4)%nat (p + 2)%nat m5 = Ok ((p + 2)%nat, h') /\ right h' (p + 2)%nat n.
Proof.
  intros H. apply seen3 in H. cbv zeta in *. rewrite !ToBig_spec in H.
  destruct H as (m1 & m2 & m3 & m4 & m5 & H1 & H2 & H3 & H4 & H5 & H6 & H7 & H8 & H9 & H10 & H11 & H12 & H13 & H14 & H15 & H16 & H17).
  exists m1, m2, m3, m4, m5. apply right_of in H2, H8, H13, H15, H17. repeat (split; [assumption|]). assumption.
Qed.
Print Assumptions C78_detects_ternary.

(** a buffer of 96 bytes; and a method that is right unless its receiver is an operand, which the check reports *)
Definition buf96 : slice := mkSlice (map Z.of_nat (seq 100 96)) [7; 8].
Example C78_case_hyps : Forall is_byte (data buf96) /\ length (vis buf96) = 96%nat.
Proof. split; [|reflexivity]. repeat constructor; unfold is_byte; cbn; lia. Qed.
Definition answer {A} (r : res (A * mem)) : option A := match r with Ok (a, _) => Some a | _ => None end.
Example C78_case : answer (Fuzz 130 buf96 [Clear]) = Some 1 /\ answer (fuzzBinaryOp buf96 []) = Some 1 /\ answer (fuzzTernaryOp buf96 []) = Some 1.
Proof. vm_compute. repeat split. Qed.
Definition sloppyAdd (z x y : ptr) : cmd ptr := let! _ := mSet z x in ret (mAdd z z y) z.
Example C78_case_sloppy : checkDualArgOp sloppyAdd Z.add (mkInt 5 0 0 0) (mkInt 6 0 0 0) [] = Panic.
Proof. vm_compute. reflexivity. Qed.
Example C78_case_sloppy_fresh : answer (sloppyAdd 2%nat 0%nat 1%nat [mkInt 5 0 0 0; mkInt 6 0 0 0; Clear]) = Some 2%nat.
Proof. vm_compute. reflexivity. Qed.
