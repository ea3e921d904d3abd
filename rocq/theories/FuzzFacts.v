(** FuzzFacts.v -- the harness of fuzz.go never reports a crash, and what it would report. *)
From Verif Require Import Base U256 U256Facts U256Z U256Bits U256Shift U256Div U256DivFacts U256DivSpec U256Exp U256Mod U256ModSpec U256Conv U256ConvFacts U256HexFacts Alias AliasFacts Fuzz.
From Coq Require Import ZifyBool.
Ltac Zify.zify_post_hook ::= idtac.

Definition fine {A} (a : A) (r : res (A * mem)) : Prop := exists h, r = Ok (a, h).

Lemma same_refl a : same a a = true.
Proof. unfold same. rewrite !Z.eqb_refl. reflexivity. Qed.
Lemma same_eq a b : same a b = true -> a = b.
Proof. destruct a as [a0 a1 a2 a3], b as [b0 b1 b2 b3]. unfold same. cbn [l0 l1 l2 l3]. intros H. repeat (apply andb_prop in H as [H ?]). f_equal; lia. Qed.

(** one step of a program that reads and writes variables, seen through [cell] *)
Lemma new_step {A} v (f : ptr -> cmd A) h a :
  (forall h', length h' = S (length h) -> cell h' (length h) = v -> (forall p, (p < length h)%nat -> cell h' p = cell h p) ->
     fine a (f (length h) h')) -> fine a (cbind (new v) f h).
Proof.
  intros H. erewrite cbind_Ok by reflexivity. apply H.
  - rewrite app_length. cbn [length]. lia.
  - apply cell_last.
  - intros p Hp. apply cell_app1, Hp.
Qed.
Lemma sets_step {A B} (c : cmd A) (f : A -> cmd B) h z v r b : (z < length h)%nat -> sets c h z v r ->
  (forall h', (length h <= length h')%nat -> cell h' z = v -> (forall p, (p < length h)%nat -> p <> z -> cell h' p = cell h p) ->
     fine b (f r h')) -> fine b (cbind c f h).
Proof.
  intros Hz [g E] H. erewrite cbind_Ok by exact E. apply H.
  - len.
  - rewrite cell_app1 by len. apply cell_setn_eq, Hz.
  - intros p Hp N. rewrite cell_app1 by len. apply cell_setn_ne, N.
Qed.
Lemma expect_step {A} p v (f : unit -> cmd A) h a : (p < length h)%nat -> cell h p = v -> fine a (f tt h) ->
  fine a (cbind (expect p v) f h).
Proof.
  intros Hp E H. erewrite cbind_Ok; [exact H|]. unfold expect. erewrite cbind_Ok by (apply ldI_ok, Hp).
  rewrite E, same_refl. reflexivity.
Qed.
Lemma expect_end p v h : (p < length h)%nat -> cell h p = v -> fine tt (expect p v h).
Proof.
  intros Hp E. exists h. unfold expect. erewrite cbind_Ok by (apply ldI_ok, Hp). rewrite E, same_refl. reflexivity.
Qed.
Lemma ld_step {A} p (f : Int -> cmd A) h a : (p < length h)%nat -> fine a (f (cell h p) h) -> fine a (cbind (ldI p) f h).
Proof. intros Hp H. erewrite cbind_Ok by (apply ldI_ok, Hp). exact H. Qed.
Lemma calls_sets c h z v : sets c h z v z -> sets (calls c z) h z v tt.
Proof. intros [g E]. exists g. unfold calls. erewrite cbind_Ok by exact E. rewrite Nat.eqb_refl. reflexivity. Qed.
Lemma ret_sets c h z v : sets c h z v tt -> sets (ret c z) h z v z.
Proof. intros [g E]. exists g. unfold ret. erewrite cbind_Ok by exact E. reflexivity. Qed.

(** * The three checks pass for a method that leaves [f] of its operands in the receiver *)
Definition good1 (op : op1) (f : Int -> Int) : Prop := forall h z x, (z < length h)%nat -> (x < length h)%nat -> wf (cell h x) ->
  sets (op z x) h z (f (cell h x)) z.
Definition good2 (op : op2) (P : Int -> Prop) (f : Int -> Int -> Int) : Prop := forall h z x y, (z < length h)%nat -> (x < length h)%nat -> (y < length h)%nat ->
  wf (cell h x) -> wf (cell h y) -> P (cell h y) -> sets (op z x y) h z (f (cell h x) (cell h y)) z.
Definition good3 (op : op3) (P : Int -> Prop) (f : Int -> Int -> Int -> Int) : Prop := forall h z x y m, (z < length h)%nat -> (x < length h)%nat -> (y < length h)%nat ->
  (m < length h)%nat -> wf (cell h x) -> wf (cell h y) -> wf (cell h m) -> P (cell h m) -> sets (op z x y m) h z (f (cell h x) (cell h y) (cell h m)) z.

(** [h'] against [h]: read the cells of the newest memory down to the first one that knows them *)
Ltac back :=
  repeat match goal with
    | H : forall p, (p < length ?h)%nat -> cell ?h' p = cell ?h p |- context [cell ?h' ?q] => rewrite (H q) by lia
    | H : forall p, (p < length ?h)%nat -> p <> ?z -> cell ?h' p = cell ?h p |- context [cell ?h' ?q] => rewrite (H q) by lia
    | H : cell ?h ?q = _ |- context [cell ?h ?q] => rewrite H
    end.
Ltac newV := apply new_step; let h := fresh "m" in let L := fresh "L" in let C := fresh "C" in let O := fresh "O" in intros h L C O.
Ltac callV S := eapply sets_step; [|S|]; [lia|];
  let h := fresh "m" in let L := fresh "L" in let C := fresh "C" in let O := fresh "O" in intros h L C O.
Ltac expV := apply expect_step; [lia|first [assumption|back; reflexivity]|].
Ltac ldV := apply ld_step; [lia|].

Lemma check1 op bigOp f x h : good1 op f -> wf x -> fst (FromBig (bigOp (ToBig x))) = f x -> fine tt (checkUnaryOp op bigOp x h).
Proof.
  intros G Hx E. unfold checkUnaryOp. newV. newV.
  callV ltac:(apply calls_sets, G; [lia|lia|back; exact Hx]).
  assert (R1 : cell m1 (length m) = f x) by (rewrite C1; f_equal; back; reflexivity). clear C1.
  assert (X1 : cell m1 (length h) = x) by (back; reflexivity).
  expV. ldV. rewrite X1, E. cbv zeta. expV. newV. newV.
  callV ltac:(apply sets_of, mSub_ok; lia).
  callV ltac:(apply calls_sets, G; [lia|lia|back; exact Hx]).
  assert (X5 : cell m5 (length h) = x) by (back; reflexivity).
  assert (G5 : cell m5 (length m1) = f x) by (rewrite C4; f_equal; back; reflexivity). clear C4.
  expV.
  callV ltac:(apply calls_sets, G; [lia|lia|rewrite X5; exact Hx]).
  apply expect_end; [lia|]. rewrite C4, X5. reflexivity.
Qed.

Lemma check2 op bigOp P f x y h : good2 op P f -> wf x -> wf y -> P y -> fst (FromBig (bigOp (ToBig x) (ToBig y))) = f x y ->
  fine tt (checkDualArgOp op bigOp x y h).
Proof.
  intros G Hx Hy HP E. unfold checkDualArgOp. newV. newV. newV. newV.
  assert (X : cell m2 (length h) = x) by (back; reflexivity). assert (Y : cell m2 (length m) = y) by (back; reflexivity).
  assert (X' : cell m2 (length m0) = x) by (back; reflexivity). clear C C0 C1 O O0 O1 O2.
  callV ltac:(apply calls_sets, G; [lia|lia|lia|rewrite X; exact Hx|rewrite Y; exact Hy|rewrite Y; exact HP]).
  rewrite X, Y in C. rewrite <- (O (length h)) in X by lia. rewrite <- (O (length m)) in Y by lia. rewrite <- (O (length m0)) in X' by lia.
  expV. expV. ldV. ldV. rewrite X, Y, E. cbv zeta. expV. clear O C C2. newV.
  rewrite <- (O (length h)) in X by lia. rewrite <- (O (length m)) in Y by lia. rewrite <- (O (length m0)) in X' by lia. clear O C.
  callV ltac:(apply sets_of, mXor_ok; lia).
  rewrite <- (O (length h)) in X by lia. rewrite <- (O (length m)) in Y by lia. rewrite <- (O (length m0)) in X' by lia. clear O C.
  callV ltac:(apply calls_sets, G; [lia|lia|lia|rewrite X; exact Hx|rewrite Y; exact Hy|rewrite Y; exact HP]).
  rewrite X, Y in C. rewrite <- (O (length h)) in X by lia. rewrite <- (O (length m)) in Y by lia. rewrite <- (O (length m0)) in X' by lia. clear O.
  expV. expV. expV. clear C.
  callV ltac:(apply calls_sets, G; [lia|lia|lia|rewrite X; exact Hx|rewrite Y; exact Hy|rewrite Y; exact HP]).
  rewrite X, Y in C. clear X. rewrite <- (O (length m)) in Y by lia. rewrite <- (O (length m0)) in X' by lia. clear O.
  expV. clear C.
  callV ltac:(apply calls_sets, G; [lia|lia|lia|rewrite X'; exact Hx|rewrite Y; exact Hy|rewrite Y; exact HP]).
  rewrite X', Y in C. apply expect_end; [lia|exact C].
Qed.

Lemma check3 op bigOp P f x y z h : good3 op P f -> wf x -> wf y -> wf z -> P z ->
  fst (FromBig (bigOp (ToBig x) (ToBig y) (ToBig z))) = f x y z -> fine tt (checkThreeArgOp op bigOp x y z h).
Proof.
  intros G Hx Hy Hz HP E. unfold checkThreeArgOp. newV. newV. newV. newV. newV. newV.
  assert (X : cell m4 (length h) = x) by (back; reflexivity). assert (Y : cell m4 (length m) = y) by (back; reflexivity).
  assert (M : cell m4 (length m0) = z) by (back; reflexivity).
  assert (X' : cell m4 (length m1) = x) by (back; reflexivity). assert (Y' : cell m4 (length m2) = y) by (back; reflexivity).
  clear C C0 C1 C2 C3 C4 O O0 O1 O2 O3 O4.
  Ltac keep O X Y M X' Y' := rewrite <- O in X by lia; rewrite <- O in Y by lia; rewrite <- O in M by lia; rewrite <- O in X' by lia; rewrite <- O in Y' by lia.
  Ltac prem X Y M Hx Hy Hz HP := first [lia | rewrite X; exact Hx | rewrite Y; exact Hy | rewrite M; exact Hz | rewrite M; exact HP].
  callV ltac:(apply calls_sets, G; prem X Y M Hx Hy Hz HP).
  rewrite X, Y, M in C. keep O X Y M X' Y'.
  expV. expV. expV. ldV. ldV. ldV. rewrite X, Y, M, E. cbv zeta. expV. clear O C. newV. keep O X Y M X' Y'. clear O C.
  callV ltac:(apply sets_of, mXor_ok; lia). keep O X Y M X' Y'. clear O C.
  callV ltac:(apply calls_sets, G; prem X Y M Hx Hy Hz HP).
  rewrite X, Y, M in C. keep O X Y M X' Y'. clear O.
  expV. expV. expV. expV. clear C.
  callV ltac:(apply calls_sets, G; prem X Y M Hx Hy Hz HP).
  rewrite X, Y, M in C. clear X. rewrite <- O in Y by lia. rewrite <- O in M by lia. rewrite <- O in X' by lia. rewrite <- O in Y' by lia. clear O.
  expV. clear C.
  callV ltac:(apply calls_sets, G; prem X' Y M Hx Hy Hz HP).
  rewrite X', Y, M in C. clear Y. rewrite <- O in M by lia. rewrite <- O in X' by lia. rewrite <- O in Y' by lia. clear O.
  expV. clear C.
  callV ltac:(apply calls_sets, G; prem X' Y' M Hx Hy Hz HP).
  rewrite X', Y', M in C. apply expect_end; [lia|exact C].
Qed.

(** * The methods of the harness *)
Lemma frombig_eq b v : wf v -> toZ v = b mod 2 ^ 256 -> fst (FromBig b) = v.
Proof. intros Hv E. destruct (FromBig_spec b) as (W1 & V & _). apply toZ_inj; [exact W1|exact Hv|]. rewrite V, E. reflexivity. Qed.
Definition okv (r : res Int) : Int := match r with Ok v => v | _ => Clear end.
Lemma mod_of v : wf v -> toZ v = toZ v mod 2 ^ 256.
Proof. intros H. symmetry. apply Z.mod_small. exact (toZ_range v H). Qed.

Lemma good_sqrt fuel : (130 <= fuel)%nat -> good1 (fun z x => ret (mSqrt fuel z x) z) (fun x => okv (Sqrt fuel x)).
Proof.
  intros Hf h z x Hz Hx W1. destruct (Sqrt_floor_spec fuel _ W1 Hf) as (v & E & _). rewrite E. cbn [okv].
  apply ret_sets, mSqrt_ok; assumption.
Qed.
Lemma good_div : good2 (fun z x y => ret (mDiv z x y) z) (fun _ => True) (fun x y => okv (Div x y)).
Proof.
  intros h z x y Hz Hx Hy Wx Wy _. destruct (Div0_spec _ _ Wx Wy) as (v & E & _). rewrite E. cbn [okv].
  apply ret_sets, mDiv_ok; assumption.
Qed.
Lemma good_mod : good2 (fun z x y => ret (mMod z x y) z) (fun _ => True) (fun x y => okv (Mod x y)).
Proof.
  intros h z x y Hz Hx Hy Wx Wy _. destruct (Mod_spec _ _ Wx Wy) as (v & E & _). rewrite E. cbn [okv].
  apply ret_sets, mMod_ok; assumption.
Qed.
Lemma good_mul : good2 (fun z x y => ret (mMul z x y) z) (fun _ => True) Mul.
Proof. intros h z x y Hz Hx Hy _ _ _. apply ret_sets, mMul_ok; assumption. Qed.
Lemma good_add : good2 (fun z x y => ret (mAdd z x y) z) (fun _ => True) Add.
Proof. intros h z x y Hz Hx Hy _ _ _. apply ret_sets, sets_of, mAdd_ok; assumption. Qed.
Lemma good_sub : good2 (fun z x y => ret (mSub z x y) z) (fun _ => True) Sub.
Proof. intros h z x y Hz Hx Hy _ _ _. apply ret_sets, sets_of, mSub_ok; assumption. Qed.
Lemma good_lsh : good2 lsh (fun _ => True) (fun x y => Lsh x (l0 y)).
Proof.
  intros h z x y Hz Hx Hy _ _ _. unfold lsh. assert (S : sets (ret (mLsh z x (l0 (cell h y))) z) h z (Lsh (cell h x) (l0 (cell h y))) z).
  { apply ret_sets, sets_of, mLsh_ok; assumption. }
  destruct S as [g S]. exists g. erewrite cbind_Ok by (apply rd_ok, Hy). exact S.
Qed.
Lemma good_mulmod : good3 (fun z x y m => ret (mMulMod z x y m) z) (fun _ => True) (fun x y m => okv (MulMod x y m)).
Proof.
  intros h z x y m Hz Hx Hy Hm Wx Wy Wm _. destruct (MulMod_spec _ _ _ Wx Wy Wm) as (v & E & _). rewrite E. cbn [okv].
  apply ret_sets, mMulMod_ok; assumption.
Qed.
Lemma good_addmod : good3 (fun z x y m => ret (mAddMod z x y m) z) (fun _ => True) (fun x y m => okv (AddMod x y m)).
Proof.
  intros h z x y m Hz Hx Hy Hm Wx Wy Wm _. destruct (AddMod_spec _ _ _ Wx Wy Wm) as (v & E & _). rewrite E. cbn [okv].
  apply ret_sets, mAddMod_ok; assumption.
Qed.

(** * The fuzz functions *)
Lemma fine_bind {A B} (c : cmd A) (f : A -> cmd B) a b h : fine a (c h) -> (forall h', fine b (f a h')) -> fine b (cbind c f h).
Proof. intros [h' E] H. erewrite cbind_Ok by exact E. apply H. Qed.
Lemma setSub_ok buf i j h : Forall is_byte (data buf) -> (i <= j <= length (data buf))%nat ->
  exists x, setSub buf i j h = Ok (x, h) /\ wf x /\ toZ x = numval 256 (firstn (j - i) (skipn i (data buf))) mod 2 ^ 256.
Proof.
  intros B Hij. unfold setSub, sub. replace ((i <=? j) && (j <=? length (data buf)))%nat with true by lia.
  destruct (SetBytes_spec (mkSlice (firstn (j - i) (skipn i (data buf))) (skipn j (data buf)))) as (x & E & Wx & Vx).
  - cbn [vis hid]. apply Forall_forall. intros b Hb. rewrite Forall_forall in B. apply B.
    apply in_app_or in Hb as [Hb|Hb].
    + rewrite <- (firstn_skipn i (data buf)). apply in_or_app. right. rewrite <- (firstn_skipn (j - i) (skipn i (data buf))).
      apply in_or_app. left. exact Hb.
    + rewrite <- (firstn_skipn j (data buf)). apply in_or_app. right. exact Hb.
  - exists x. cbn [vis] in Vx. split; [|split; [exact Wx|exact Vx]]. unfold cbind, clift. rewrite E. reflexivity.
Qed.

Lemma sqrt_unique r n : 0 <= r -> r * r <= n < (r + 1) * (r + 1) -> r = Z.sqrt n.
Proof. intros Hr H. symmetry. apply Z.sqrt_unique. unfold Z.succ. exact H. Qed.
Lemma unary_fine fuel buf h : (130 <= fuel)%nat -> Forall is_byte (data buf) -> (32 <= length (vis buf))%nat -> fine 1 (fuzzUnaryOp fuel buf h).
Proof.
  intros Hf B Hl. unfold fuzzUnaryOp. assert (Hd : (32 <= length (data buf))%nat) by (unfold data; rewrite app_length; lia).
  destruct (setSub_ok buf 0 32 h B ltac:(lia)) as (x & E & Wx & _). erewrite cbind_Ok by exact E.
  apply (fine_bind _ _ tt); [|intros h'; exists h'; reflexivity].
  apply (check1 _ _ _ _ _ (good_sqrt fuel Hf) Wx).
  destruct (Sqrt_floor_spec fuel _ Wx Hf) as (v & Ev & Wv & T). rewrite Ev. cbn [okv]. apply frombig_eq; [exact Wv|].
  rewrite ToBig_spec. rewrite <- (sqrt_unique (toZ v) (toZ x)); [apply mod_of, Wv|apply toZ_range, Wv|exact T].
Qed.
Lemma binary_fine buf h : Forall is_byte (data buf) -> (32 <= length (vis buf))%nat -> fine 1 (fuzzBinaryOp buf h).
Proof.
  intros B Hl. unfold fuzzBinaryOp. assert (Hd : (length (vis buf) <= length (data buf))%nat) by (unfold data; rewrite app_length; lia).
  destruct (setSub_ok buf 0 32 h B ltac:(lia)) as (x & Ex & Wx & _). erewrite cbind_Ok by exact Ex.
  destruct (setSub_ok buf 32 (length (vis buf)) h B ltac:(lia)) as (y & Ey & Wy & _). erewrite cbind_Ok by exact Ey. clear Ex Ey.
  pose proof (toZ_range x Wx) as Rx. pose proof (toZ_range y Wy) as Ry.
  apply (fine_bind _ _ tt).
  { rewrite IsZero_spec by exact Wy. destruct (toZ y =? 0) eqn:Ez; [exists h; reflexivity|].
    apply (fine_bind _ _ tt); [|intros h'].
    - apply (check2 _ _ _ _ _ _ _ good_div Wx Wy I). destruct (Div0_spec _ _ Wx Wy) as (v & Ev & Wv & T). rewrite Ev, !ToBig_spec.
      apply frombig_eq; [exact Wv|]. rewrite Ez in T. rewrite <- T. apply mod_of, Wv.
    - apply (check2 _ _ _ _ _ _ _ good_mod Wx Wy I). destruct (Mod_spec _ _ Wx Wy) as (v & Ev & Wv & T). rewrite Ev, !ToBig_spec.
      apply frombig_eq; [exact Wv|]. rewrite Ez in T. rewrite <- T. apply mod_of, Wv. }
  intros h1. apply (fine_bind _ _ tt).
  { apply (check2 _ _ _ _ _ _ _ good_mul Wx Wy I). rewrite !ToBig_spec. destruct (Mul_spec _ _ Wx Wy). apply frombig_eq; assumption. }
  intros h2. apply (fine_bind _ _ tt).
  { apply (check2 _ _ _ _ _ _ _ good_lsh Wx Wy I). rewrite !ToBig_spec. assert (Hn : 0 <= l0 y < W) by exact (proj1 Wy).
    destruct (Lsh_spec x (l0 y) Wx (proj1 Hn)) as [WL TL]. apply frombig_eq; [exact WL|]. rewrite TL. unfold bigLsh.
    replace (toZ y mod W) with (l0 y).
    - change T256 with (2 ^ 256). cbv zeta. destruct (256 <? l0 y) eqn:El; [|reflexivity].
      replace (l0 y) with (l0 y - 256 + 256) by lia. rewrite Z.pow_add_r by lia.
      rewrite !Z.mul_assoc, !Z.mod_mul by lia. reflexivity.
    - symmetry. symmetry. apply (Z.mod_unique_pos _ _ (l1 y + W * l2 y + W2 * l3 y)); [exact Hn|]. unfold toZ. lia. }
  intros h3. apply (fine_bind _ _ tt).
  { apply (check2 _ _ _ _ _ _ _ good_add Wx Wy I). rewrite !ToBig_spec. destruct (Add_spec _ _ Wx Wy). apply frombig_eq; assumption. }
  intros h4. apply (fine_bind _ _ tt).
  { apply (check2 _ _ _ _ _ _ _ good_sub Wx Wy I). rewrite !ToBig_spec. destruct (Sub_spec _ _ Wx Wy). apply frombig_eq; assumption. }
  intros h5. exists h5. reflexivity.
Qed.
Lemma ternary_fine buf h : Forall is_byte (data buf) -> (64 <= length (vis buf))%nat ->
  fine (if numval 256 (skipn 64 (vis buf)) mod 2 ^ 256 =? 0 then 0 else 1) (fuzzTernaryOp buf h).
Proof.
  intros B Hl. unfold fuzzTernaryOp. assert (Hd : (length (vis buf) <= length (data buf))%nat) by (unfold data; rewrite app_length; lia).
  destruct (setSub_ok buf 0 32 h B ltac:(lia)) as (x & Ex & Wx & _). erewrite cbind_Ok by exact Ex.
  destruct (setSub_ok buf 32 64 h B ltac:(lia)) as (y & Ey & Wy & _). erewrite cbind_Ok by exact Ey.
  destruct (setSub_ok buf 64 (length (vis buf)) h B ltac:(lia)) as (z & Ez & Wz & Tz). erewrite cbind_Ok by exact Ez. clear Ex Ey Ez.
  assert (EZ : firstn (length (vis buf) - 64) (skipn 64 (data buf)) = skipn 64 (vis buf)).
  { unfold data. rewrite skipn_app. replace (64 - length (vis buf))%nat with 0%nat by lia. rewrite firstn_app, skipn_length.
    replace (length (vis buf) - 64 - (length (vis buf) - 64))%nat with 0%nat by lia. cbn [firstn]. rewrite app_nil_r.
    apply firstn_all2. rewrite skipn_length. lia. }
  rewrite EZ in Tz. rewrite <- Tz. rewrite IsZero_spec by exact Wz. destruct (toZ z =? 0) eqn:E0; [exists h; reflexivity|].
  apply (fine_bind _ _ tt).
  { apply (check3 _ _ _ _ _ _ _ _ good_mulmod Wx Wy Wz I). rewrite !ToBig_spec. destruct (MulMod_spec _ _ _ Wx Wy Wz) as (v & Ev & Wv & T).
    rewrite Ev. apply frombig_eq; [exact Wv|]. rewrite E0 in T. unfold bigMulMod. rewrite <- T. apply mod_of, Wv. }
  intros h1. apply (fine_bind _ _ tt).
  { apply (check3 _ _ _ _ _ _ _ _ good_addmod Wx Wy Wz I). rewrite !ToBig_spec. destruct (AddMod_spec _ _ _ Wx Wy Wz) as (v & Ev & Wv & T).
    rewrite Ev. apply frombig_eq; [exact Wv|]. rewrite E0 in T. unfold bigAddMod. rewrite <- T. apply mod_of, Wv. }
  intros h2. exists h2. reflexivity.
Qed.
Lemma fuzz_fine fuel buf h : (130 <= fuel)%nat -> Forall is_byte (data buf) ->
  fine (if (length (vis buf) <? 32)%nat then 0 else 1) (Fuzz fuel buf h).
Proof.
  intros Hf B. unfold Fuzz. destruct (length (vis buf) <? 32)%nat eqn:E; [exists h; reflexivity|]. apply unary_fine; [exact Hf|exact B|lia].
Qed.

(** * What a check that returns has seen *)
Lemma bind_back {A B} (c : cmd A) (f : A -> cmd B) h b h' : cbind c f h = Ok (b, h') -> exists a h1, c h = Ok (a, h1) /\ f a h1 = Ok (b, h').
Proof. unfold cbind. destruct (c h) as [[a h1]| |]; intros H; [|discriminate H|discriminate H]. exists a, h1. split; [reflexivity|exact H]. Qed.
Lemma ld_back p h v h' : ldI p h = Ok (v, h') -> v = cell h p /\ h' = h.
Proof.
  unfold ldI, cell. destruct (nth_error h p) eqn:E; intros H; [|discriminate H]. injection H as <- <-.
  split; [symmetry; apply nth_error_nth, E|reflexivity].
Qed.
Lemma expect_back p v h h' a : expect p v h = Ok (a, h') -> cell h p = v /\ h' = h.
Proof.
  unfold expect. intros H. apply bind_back in H as (w & h1 & E & H). apply ld_back in E as [-> ->].
  unfold crashUnless in H. destruct (same (cell h p) v) eqn:S; [|discriminate H]. injection H as _ <-. split; [apply same_eq, S|reflexivity].
Qed.
Lemma calls_back c z h h' a : calls c z h = Ok (a, h') -> c h = Ok (z, h').
Proof.
  unfold calls. intros H. apply bind_back in H as (w & h1 & E & H). unfold crashUnless in H.
  destruct (w =? z)%nat eqn:S; [|discriminate H]. injection H as _ <-. apply Nat.eqb_eq in S. subst w. exact E.
Qed.
Lemma new_back v h p h' : new v h = Ok (p, h') -> p = length h /\ h' = h ++ [v].
Proof. unfold new. intros H. injection H as <- <-. split; reflexivity. Qed.
Ltac seen H :=
  let a := fresh "a" in let g := fresh "g" in let E := fresh "E" in
  apply bind_back in H as (a & g & E & H);
  first [apply new_back in E as [-> ->] | apply expect_back in E as [E ->] | apply ld_back in E as [-> ->] | apply calls_back in E | idtac].

Lemma seen1 op bigOp x h h' : checkUnaryOp op bigOp x h = Ok (tt, h') ->
  let p := length h in let v := fst (FromBig (bigOp (ToBig x))) in
  exists m1 m2 m3, op (S p) p (h ++ [x; Clear]) = Ok (S p, m1) /\ cell m1 (S p) = v /\ cell m1 p = x /\
    let q := length m1 in
    mSub q q (S q) (m1 ++ [Clear; mkInt 1 0 0 0]) = Ok (tt, m2) /\
    op q p m2 = Ok (q, m3) /\ cell m3 q = v /\ op p p m3 = Ok (p, h') /\ cell h' p = v.
Proof.
  unfold checkUnaryOp. intros H. cbv zeta. do 12 seen H.
  apply expect_back in H as [H ->].
  rewrite <- !app_assoc in *. cbn [app] in *. rewrite !app_length in *. cbn [length] in *. rewrite !Nat.add_1_r in *.
  rewrite E0 in *.
  exists g, g0, g1. destruct a2. repeat (split; [assumption|]). assumption.
Qed.

Lemma seen2 op bigOp x y h h' : checkDualArgOp op bigOp x y h = Ok (tt, h') ->
  let p := length h in let v := fst (FromBig (bigOp (ToBig x) (ToBig y))) in
  exists m1 m2 m3 m4, op (p + 3)%nat p (S p) (h ++ [x; y; x; Clear]) = Ok ((p + 3)%nat, m1) /\
    cell m1 (p + 3)%nat = v /\ cell m1 p = x /\ cell m1 (S p) = y /\
    let q := length m1 in
    mXor q p (S p) (m1 ++ [Clear]) = Ok (tt, m2) /\
    op q p (S p) m2 = Ok (q, m3) /\ cell m3 q = v /\ cell m3 p = x /\ cell m3 (S p) = y /\
    op p p (S p) m3 = Ok (p, m4) /\ cell m4 p = v /\
    op (S p) (p + 2)%nat (S p) m4 = Ok (S p, h') /\ cell h' (S p) = v.
Proof.
  unfold checkDualArgOp. intros H. cbv zeta. do 19 seen H.
  apply expect_back in H as [H ->].
  rewrite <- !app_assoc in *. cbn [app] in *. rewrite !app_length in *. cbn [length] in *. rewrite !Nat.add_1_r in *.
  rewrite E0, E1 in *.
  exists g, g0, g1, g2. destruct a3. repeat (split; [assumption|]). assumption.
Qed.

Lemma seen3 op bigOp x y z h h' : checkThreeArgOp op bigOp x y z h = Ok (tt, h') ->
  let p := length h in let v := fst (FromBig (bigOp (ToBig x) (ToBig y) (ToBig z))) in
  exists m1 m2 m3 m4 m5, op (p + 5)%nat p (S p) (p + 2)%nat (h ++ [x; y; z; x; y; Clear]) = Ok ((p + 5)%nat, m1) /\
    cell m1 (p + 5)%nat = v /\ cell m1 p = x /\ cell m1 (S p) = y /\ cell m1 (p + 2)%nat = z /\
    let q := length m1 in
    mXor q p (S p) (m1 ++ [Clear]) = Ok (tt, m2) /\
    op q p (S p) (p + 2)%nat m2 = Ok (q, m3) /\ cell m3 q = v /\ cell m3 p = x /\ cell m3 (S p) = y /\ cell m3 (p + 2)%nat = z /\
    op p p (S p) (p + 2)%nat m3 = Ok (p, m4) /\ cell m4 p = v /\
    op (S p) (p + 3)%nat (S p) (p + 2)%nat m4 = Ok (S p, m5) /\ cell m5 (S p) = v /\
    op (p + 2)%nat (p + 3)%nat (p + 4)%nat (p + 2)%nat m5 = Ok ((p + 2)%nat, h') /\ cell h' (p + 2)%nat = v.
Proof.
  unfold checkThreeArgOp. intros H. cbv zeta. do 26 seen H.
  apply expect_back in H as [H ->].
  rewrite <- !app_assoc in *. cbn [app] in *. rewrite !app_length in *. cbn [length] in *. rewrite !Nat.add_1_r in *.
  rewrite E0, E1, E2 in *.
  exists g, g0, g1, g2, g3. destruct a4. repeat (split; [assumption|]). assumption.
Qed.
