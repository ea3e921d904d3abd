(** U256Facts.v -- the limb functions of U256.v compute the intended operations on integers. *)
From Verif Require Import Base U256 BitFacts.
From Coq Require Import ZifyBool.
Ltac Zify.zify_post_hook ::= Z.div_mod_to_equations.

(** The integer a limb quadruple denotes, and the well-formed quadruples (the values a Go
    [4]uint64 can hold). *)
Definition toZ (x : Int) : Z := l0 x + W * l1 x + W2 * l2 x + W3 * l3 x.
Definition wf (x : Int) : Prop := is_w (l0 x) /\ is_w (l1 x) /\ is_w (l2 x) /\ is_w (l3 x).
(** the quadruple denoting [v] mod 2^256 *)
Definition ofZ (v : Z) : Int :=
  mkInt (v mod W) ((v / W) mod W) ((v / W2) mod W) ((v / W3) mod W).
(** two's complement reading *)
Definition sgn256 (v : Z) : Z := if v <? T255 then v else v - T256.

Lemma wf_ofZ v : wf (ofZ v).
Proof. unfold wf, ofZ, is_w; cbn [l0 l1 l2 l3]. repeat split; lia. Qed.

Lemma toZ_ofZ v : 0 <= v < T256 -> toZ (ofZ v) = v.
Proof. unfold toZ, ofZ; cbn [l0 l1 l2 l3]. intros. lia. Qed.

Lemma toZ_range x : wf x -> 0 <= toZ x < T256.
Proof. unfold wf, is_w, toZ. lia. Qed.

Lemma toZ_inj x y : wf x -> wf y -> toZ x = toZ y -> x = y.
Proof.
  destruct x as [x0 x1 x2 x3], y as [y0 y1 y2 y3]; unfold wf, is_w, toZ; cbn [l0 l1 l2 l3]. intros. f_equal; lia.
Qed.

Lemma ofZ_toZ x : wf x -> ofZ (toZ x) = x.
Proof. intros H. apply toZ_inj; auto using wf_ofZ. apply toZ_ofZ. now apply toZ_range. Qed.

Lemma eq_ofZ x v : wf x -> toZ x = v -> x = ofZ v.
Proof. intros H <-. symmetry. now apply ofZ_toZ. Qed.

Lemma sgn256_range v : 0 <= v < T256 -> - T255 <= sgn256 v < T255.
Proof. unfold sgn256. intros. destruct (v <? T255) eqn:E; lia. Qed.
Lemma sgn256_mod v : 0 <= v < T256 -> sgn256 v mod T256 = v.
Proof. unfold sgn256. intros. destruct (v <? T255) eqn:E; lia. Qed.

(** ** Words *)
Lemma add64_spec x y c s c' : is_w x -> is_w y -> 0 <= c <= 1 -> add64 x y c = (s, c') ->
  x + y + c = s + W * c' /\ is_w s /\ 0 <= c' <= 1.
Proof. unfold add64, is_w. intros Hx Hy Hc [= <- <-]. lia. Qed.

Lemma sub64_spec x y c s c' : is_w x -> is_w y -> 0 <= c <= 1 -> sub64 x y c = (s, c') ->
  x - y - c = s - W * c' /\ is_w s /\ 0 <= c' <= 1.
Proof. unfold sub64, is_w. intros Hx Hy Hc [= <- <-]. destruct (x <? y + c) eqn:E; lia. Qed.

Lemma mul64_spec x y h l : is_w x -> is_w y -> mul64 x y = (h, l) ->
  x * y = h * W + l /\ is_w l /\ 0 <= h <= W - 2.
Proof.
  unfold mul64, is_w. intros Hx Hy [= <- <-].
  assert (0 <= x * y <= (W-1)*(W-1)) by nia. lia.
Qed.

Lemma UmulHop_spec z x y h l : is_w z -> is_w x -> is_w y -> UmulHop z x y = (h, l) ->
  z + x * y = h * W + l /\ is_w l /\ is_w h.
Proof.
  unfold UmulHop. intros Hz Hx Hy.
  destruct (mul64 x y) as [h1 p1] eqn:E1. apply mul64_spec in E1; auto.
  destruct (add64 p1 z 0) as [p2 c2] eqn:E2. apply add64_spec in E2; try tauto; try lia.
  destruct (add64 h1 0 c2) as [h3 c3] eqn:E3.
  apply add64_spec in E3; unfold is_w in *; try lia.
  intros [= <- <-]. lia.
Qed.

Lemma UmulStep_spec z x y c h l : is_w z -> is_w x -> is_w y -> is_w c -> UmulStep z x y c = (h, l) ->
  z + x * y + c = h * W + l /\ is_w l /\ is_w h.
Proof.
  unfold UmulStep. intros Hz Hx Hy Hc.
  destruct (mul64 x y) as [h1 p1] eqn:E1. apply mul64_spec in E1; auto.
  destruct (add64 p1 c 0) as [p2 c2] eqn:E2. apply add64_spec in E2; try tauto; try lia.
  destruct (add64 h1 0 c2) as [h3 c3] eqn:E3.
  apply add64_spec in E3; [|unfold is_w in *; lia ..].
  destruct (add64 p2 z 0) as [p4 c4] eqn:E4. apply add64_spec in E4; try tauto; try lia.
  destruct (add64 h3 0 c4) as [h5 c5] eqn:E5.
  apply add64_spec in E5; [|unfold is_w in *; lia ..].
  intros [= <- <-].
  assert (0 <= x * y <= (W-1)*(W-1)) by (unfold is_w in *; nia).
  unfold is_w in *. lia.
Qed.

Lemma is_w_0 : is_w 0. Proof. unfold is_w; lia. Qed.
Lemma is_w_max : is_w (W-1). Proof. unfold is_w; lia. Qed.
#[global] Hint Resolve is_w_0 is_w_max : core.

(** destruct the next word operation of the goal (or of hypothesis E) and record its meaning *)
Ltac wauto := first [assumption | lia | solve [unfold is_w in *; lia] | tauto].
Ltac word1 :=
  match goal with
  | |- context [add64 ?a ?b ?c] =>
      let E := fresh "E" in let s := fresh "s" in let k := fresh "c" in
      destruct (add64 a b c) as [s k] eqn:E; apply add64_spec in E; [|wauto ..]; destruct E as (? & ? & ?)
  | |- context [sub64 ?a ?b ?c] =>
      let E := fresh "E" in let s := fresh "s" in let k := fresh "c" in
      destruct (sub64 a b c) as [s k] eqn:E; apply sub64_spec in E; [|wauto ..]; destruct E as (? & ? & ?)
  | |- context [mul64 ?a ?b] =>
      let E := fresh "E" in let s := fresh "h" in let k := fresh "l" in
      destruct (mul64 a b) as [s k] eqn:E; apply mul64_spec in E; [|wauto ..]; destruct E as (? & ? & ?)
  | |- context [UmulHop ?a ?b ?c] =>
      let E := fresh "E" in let s := fresh "h" in let k := fresh "l" in
      destruct (UmulHop a b c) as [s k] eqn:E; apply UmulHop_spec in E; [|wauto ..]; destruct E as (? & ? & ?)
  | |- context [UmulStep ?a ?b ?c ?d] =>
      let E := fresh "E" in let s := fresh "h" in let k := fresh "l" in
      destruct (UmulStep a b c d) as [s k] eqn:E; apply UmulStep_spec in E; [|wauto ..]; destruct E as (? & ? & ?)
  end.
Ltac open_int x :=
  let a := fresh x "0" in let b := fresh x "1" in let c := fresh x "2" in let d := fresh x "3" in
  destruct x as [a b c d].
Ltac opens := unfold wf, toZ in *; cbn [l0 l1 l2 l3] in *;
  repeat match goal with H : _ /\ _ |- _ => destruct H end.

(** ** Addition and subtraction *)
Lemma Add_spec x y : wf x -> wf y -> wf (Add x y) /\ toZ (Add x y) = (toZ x + toZ y) mod T256.
Proof.
  destruct x as [x0 x1 x2 x3], y as [y0 y1 y2 y3]. unfold Add. intros; opens. repeat word1. opens.
  split; [tauto|]. unfold is_w in *. lia.
Qed.

Lemma AddOverflow_spec x y : wf x -> wf y ->
  wf (fst (AddOverflow x y)) /\ toZ (fst (AddOverflow x y)) = (toZ x + toZ y) mod T256 /\
  snd (AddOverflow x y) = (T256 <=? toZ x + toZ y).
Proof.
  destruct x as [x0 x1 x2 x3], y as [y0 y1 y2 y3]. unfold AddOverflow. intros; opens. repeat word1. cbn [fst snd]. opens.
  unfold is_w in *. split; [tauto|]. split; lia.
Qed.

Lemma AddUint64_spec x y : wf x -> is_w y ->
  wf (AddUint64 x y) /\ toZ (AddUint64 x y) = (toZ x + y) mod T256.
Proof.
  destruct x as [x0 x1 x2 x3]. unfold AddUint64. intros; opens. repeat word1. opens.
  unfold is_w in *. split; [tauto|]. lia.
Qed.

Lemma SubUint64_spec x y : wf x -> is_w y ->
  wf (SubUint64 x y) /\ toZ (SubUint64 x y) = (toZ x - y) mod T256.
Proof.
  destruct x as [x0 x1 x2 x3]. unfold SubUint64. intros; opens. repeat word1. opens.
  unfold is_w in *. split; [tauto|]. lia.
Qed.

Lemma Sub_spec x y : wf x -> wf y -> wf (Sub x y) /\ toZ (Sub x y) = (toZ x - toZ y) mod T256.
Proof.
  destruct x as [x0 x1 x2 x3], y as [y0 y1 y2 y3]. unfold Sub. intros; opens. repeat word1. opens.
  split; [tauto|]. unfold is_w in *. lia.
Qed.

Lemma SubOverflow_spec x y : wf x -> wf y ->
  wf (fst (SubOverflow x y)) /\ toZ (fst (SubOverflow x y)) = (toZ x - toZ y) mod T256 /\
  snd (SubOverflow x y) = (toZ x <? toZ y).
Proof.
  destruct x as [x0 x1 x2 x3], y as [y0 y1 y2 y3]. unfold SubOverflow. intros; opens. repeat word1. cbn [fst snd]. opens.
  unfold is_w in *. split; [tauto|]. split; lia.
Qed.

Lemma wf_Clear : wf Clear. Proof. repeat split; unfold is_w; cbn; lia. Qed.
Lemma wf_SetOne : wf SetOne. Proof. repeat split; unfold is_w; cbn; lia. Qed.
Lemma wf_SetAllOne : wf SetAllOne. Proof. repeat split; unfold is_w; cbn; lia. Qed.
Lemma toZ_Clear : toZ Clear = 0. Proof. reflexivity. Qed.
Lemma toZ_SetOne : toZ SetOne = 1. Proof. reflexivity. Qed.
Lemma toZ_SetAllOne : toZ SetAllOne = T256 - 1. Proof. reflexivity. Qed.
Lemma wf_SetUint64 v : is_w v -> wf (SetUint64 v). Proof. repeat split; unfold is_w in *; cbn; lia. Qed.
Lemma toZ_SetUint64 v : toZ (SetUint64 v) = v. Proof. unfold toZ; cbn [l0 l1 l2 l3 SetUint64]. lia. Qed.
#[global] Hint Resolve wf_Clear wf_SetOne wf_SetAllOne wf_SetUint64 : core.

Lemma Neg_spec x : wf x -> wf (Neg x) /\ toZ (Neg x) = (- toZ x) mod T256.
Proof.
  intros H. unfold Neg. destruct (Sub_spec Clear x) as [H1 H2]; auto.
Qed.

(** ** Multiplication *)
Lemma Umul_spec x y : wf x -> wf y ->
  exists p0 p1 p2 p3 p4 p5 p6 p7,
    Umul x y = [p0; p1; p2; p3; p4; p5; p6; p7] /\
    Forall is_w (Umul x y) /\ lval (Umul x y) = toZ x * toZ y.
Proof.
  destruct x as [x0 x1 x2 x3], y as [y0 y1 y2 y3]. unfold Umul. intros; opens. repeat word1.
  do 8 eexists. split; [reflexivity|]. split.
  { repeat first [apply Forall_nil | apply Forall_cons; [assumption|]]. }
  cbn [lval]. 
  match goal with |- ?L = ?R => assert (L - R = 0); [|lia] end. 
  lia.
Qed.

Lemma wmul_word x y : is_w (wmul x y).
Proof. unfold is_w, wmul. lia. Qed.
Lemma wadd_word x y : is_w (wadd x y).
Proof. unfold is_w, wadd. lia. Qed.

Lemma wadd_eq x y : exists k, wadd x y = x + y - W * k.
Proof. exists ((x + y) / W). unfold wadd. lia. Qed.
Lemma wmul_eq x y : exists k, wmul x y = x * y - W * k.
Proof. exists ((x * y) / W). unfold wmul. lia. Qed.

Ltac wop1 :=
  match goal with
  | |- context [wmul ?a ?b] =>
      let E := fresh "E" in let k := fresh "k" in
      pose proof (wmul_word a b); destruct (wmul_eq a b) as [k E];
      let v := fresh "v" in set (v := wmul a b) in *; clearbody v
  | |- context [wadd ?a ?b] =>
      let E := fresh "E" in let k := fresh "k" in
      pose proof (wadd_word a b); destruct (wadd_eq a b) as [k E];
      let v := fresh "v" in set (v := wadd a b) in *; clearbody v
  | _ : context [wmul ?a ?b] |- _ =>
      let E := fresh "E" in let k := fresh "k" in
      pose proof (wmul_word a b); destruct (wmul_eq a b) as [k E];
      let v := fresh "v" in set (v := wmul a b) in *; clearbody v
  | _ : context [wadd ?a ?b] |- _ =>
      let E := fresh "E" in let k := fresh "k" in
      pose proof (wadd_word a b); destruct (wadd_eq a b) as [k E];
      let v := fresh "v" in set (v := wadd a b) in *; clearbody v
  end.

Lemma Mul_spec x y : wf x -> wf y -> wf (Mul x y) /\ toZ (Mul x y) = (toZ x * toZ y) mod T256.
Proof.
  destruct x as [x0 x1 x2 x3], y as [y0 y1 y2 y3]. unfold Mul. intros; opens.
  repeat word1. repeat wop1. opens. split; [tauto|].
  apply Z.mod_unique_pos with
    (q := k+k0+k1+k2+k3+k4+k5+k6+k7+k8 + x1*y3 + x2*y2 + x3*y1 + W*(x2*y3 + x3*y2) + W2*(x3*y3)).
  { unfold is_w in *; lia. }
  lia.
Qed.

Lemma squared_spec x : wf x -> wf (squared x) /\ toZ (squared x) = (toZ x * toZ x) mod T256.
Proof.
  destruct x as [x0 x1 x2 x3]. unfold squared. intros; opens.
  repeat word1. repeat wop1. opens. split; [tauto|].
  apply Z.mod_unique_pos with
    (q := k+k0+k3+k4+2*(k1+k2+k5) + x1*x3 + x2*x2 + x3*x1 + W*(x2*x3 + x3*x2) + W2*(x3*x3)).
  { unfold is_w in *; lia. }
  lia.
Qed.

Lemma lor3_zero a b c : (Z.lor (Z.lor a b) c =? 0) = (a =? 0) && (b =? 0) && (c =? 0).
Proof.
  destruct (Z.lor (Z.lor a b) c =? 0) eqn:E.
  - apply Z.eqb_eq in E. apply Z.lor_eq_0_iff in E as [E ->].
    apply Z.lor_eq_0_iff in E as [-> ->]. reflexivity.
  - destruct ((a =? 0) && (b =? 0) && (c =? 0)) eqn:E2; [|reflexivity].
    apply andb_true_iff in E2 as [E2 E3]. apply andb_true_iff in E2 as [E1 E2].
    apply Z.eqb_eq in E1, E2, E3. subst. discriminate.
Qed.
Lemma lor4_zero a b c d :
  (Z.lor (Z.lor (Z.lor a b) c) d =? 0) = (a =? 0) && (b =? 0) && (c =? 0) && (d =? 0).
Proof.
  rewrite lor3_zero.
  destruct (Z.lor a b =? 0) eqn:E.
  - apply Z.eqb_eq in E. apply Z.lor_eq_0_iff in E as [-> ->]. reflexivity.
  - destruct (a =? 0) eqn:Ea; destruct (b =? 0) eqn:Eb; try reflexivity.
    apply Z.eqb_eq in Ea, Eb. subst. discriminate.
Qed.

Lemma MulOverflow_spec x y : wf x -> wf y ->
  wf (fst (MulOverflow x y)) /\ toZ (fst (MulOverflow x y)) = (toZ x * toZ y) mod T256 /\
  snd (MulOverflow x y) = (T256 <=? toZ x * toZ y).
Proof.
  intros Hx Hy. unfold MulOverflow.
  destruct (Umul_spec x y Hx Hy) as (p0 & p1 & p2 & p3 & p4 & p5 & p6 & p7 & E & HF & HV).
  rewrite E in *. cbn [lval] in HV. cbn [fst snd].
  repeat match goal with H : Forall _ (_ :: _) |- _ => inversion H; clear H; subst end.
  rewrite lor4_zero. set (p := toZ x * toZ y) in *. clearbody p.
  unfold wf, toZ; cbn [l0 l1 l2 l3]. unfold is_w in *.
  split; [tauto|]. split; lia.
Qed.

(** ** Comparisons *)
Lemma Lt_spec x y : wf x -> wf y -> Lt x y = (toZ x <? toZ y).
Proof.
  destruct x as [x0 x1 x2 x3], y as [y0 y1 y2 y3]. unfold Lt. intros; opens. repeat word1.
  unfold is_w in *. lia.
Qed.
Lemma Gt_spec x y : wf x -> wf y -> Gt x y = (toZ y <? toZ x).
Proof. intros. unfold Gt. now apply Lt_spec. Qed.
Lemma Eq_spec x y : wf x -> wf y -> Eq x y = (toZ x =? toZ y).
Proof.
  destruct x as [x0 x1 x2 x3], y as [y0 y1 y2 y3]. unfold Eq. intros; opens. unfold is_w in *. lia.
Qed.
Lemma Cmp_spec x y : wf x -> wf y ->
  Cmp x y = match toZ x ?= toZ y with Datatypes.Lt => -1 | Datatypes.Eq => 0 | Datatypes.Gt => 1 end.
Proof.
  destruct x as [x0 x1 x2 x3], y as [y0 y1 y2 y3]. unfold Cmp. intros; opens. repeat word1.
  rewrite lor4_zero. unfold is_w in *.
  match goal with |- context [?a ?= ?b] => destruct (Z.compare_spec a b) end.
  all: match goal with |- context [?c =? 1] => destruct (c =? 1) eqn:E1 end; try lia.
  all: match goal with |- (if ?c then _ else _) = _ => destruct c eqn:E2 end; lia.
Qed.
Lemma IsZero_spec x : wf x -> IsZero x = (toZ x =? 0).
Proof. destruct x as [x0 x1 x2 x3]. unfold IsZero. rewrite lor4_zero. intros; opens. unfold is_w in *; lia. Qed.
Lemma IsUint64_spec x : wf x -> IsUint64 x = (toZ x <? W).
Proof. destruct x as [x0 x1 x2 x3]. unfold IsUint64. rewrite lor3_zero. intros; opens. unfold is_w in *; lia. Qed.
Lemma LtUint64_spec x n : wf x -> is_w n -> LtUint64 x n = (toZ x <? n).
Proof. destruct x as [x0 x1 x2 x3]. unfold LtUint64. rewrite lor3_zero. intros; opens. unfold is_w in *; lia. Qed.
Lemma GtUint64_spec x n : wf x -> is_w n -> GtUint64 x n = (n <? toZ x).
Proof. destruct x as [x0 x1 x2 x3]. unfold GtUint64. rewrite lor3_zero. intros; opens. unfold is_w in *; lia. Qed.
Lemma Uint64WithOverflow_spec x : wf x -> 
  fst (Uint64WithOverflow x) = toZ x mod W /\ snd (Uint64WithOverflow x) = (W <=? toZ x).
Proof.
  destruct x as [x0 x1 x2 x3]. unfold Uint64WithOverflow; cbn [fst snd]. rewrite lor3_zero.
  intros; opens. unfold is_w in *; lia.
Qed.
Lemma Sign_spec x : wf x -> Sign x = Z.sgn (sgn256 (toZ x)).
Proof.
  intros Hx. unfold Sign. rewrite IsZero_spec by assumption. unfold sgn256.
  destruct x as [x0 x1 x2 x3]; opens. unfold is_w in *.
  destruct (x0 + W * x1 + W2 * x2 + W3 * x3 =? 0) eqn:E1.
  - apply Z.eqb_eq in E1. rewrite E1. reflexivity.
  - destruct (x3 <? 9223372036854775808) eqn:E2;
    destruct (x0 + W * x1 + W2 * x2 + W3 * x3 <? T255) eqn:E3; lia.
Qed.
Lemma Slt_spec x y : wf x -> wf y -> Slt x y = (sgn256 (toZ x) <? sgn256 (toZ y)).
Proof.
  intros Hx Hy. unfold Slt. rewrite !Sign_spec, Lt_spec by assumption.
  pose proof (toZ_range x Hx); pose proof (toZ_range y Hy).
  unfold sgn256. destruct (toZ x <? T255) eqn:E1; destruct (toZ y <? T255) eqn:E2;
  match goal with |- (if ?c then _ else _) = _ => destruct c eqn:E3 end; try lia;
  match goal with |- (if ?c then _ else _) = _ => destruct c eqn:E4 end; lia.
Qed.
Lemma Sgt_spec x y : wf x -> wf y -> Sgt x y = (sgn256 (toZ y) <? sgn256 (toZ x)).
Proof.
  intros Hx Hy. unfold Sgt. rewrite !Sign_spec, Gt_spec by assumption.
  pose proof (toZ_range x Hx); pose proof (toZ_range y Hy).
  unfold sgn256. destruct (toZ x <? T255) eqn:E1; destruct (toZ y <? T255) eqn:E2;
  match goal with |- (if ?c then _ else _) = _ => destruct c eqn:E3 end; try lia;
  match goal with |- (if ?c then _ else _) = _ => destruct c eqn:E4 end; lia.
Qed.
Lemma Abs_spec x : wf x -> wf (Abs x) /\ toZ (Abs x) = (Z.abs (sgn256 (toZ x))) mod T256.
Proof.
  intros Hx. unfold Abs, sgn256. pose proof (toZ_range x Hx) as Hr.
  destruct (l3 x <? 9223372036854775808) eqn:E.
  - assert (E2 : toZ x <? T255 = true).
    { destruct x as [x0 x1 x2 x3]; opens. unfold is_w in *. lia. }
    rewrite E2. split; [assumption|]. lia.
  - assert (E2 : toZ x <? T255 = false).
    { destruct x as [x0 x1 x2 x3]; opens. unfold is_w in *. lia. }
    rewrite E2. destruct (Sub_spec Clear x) as [H1 H2]; auto. rewrite toZ_Clear in H2.
    split; [assumption|]. lia.
Qed.

(** ** Bitwise operations *)
Lemma toZ_nested x : toZ x = l0 x + 2 ^ 64 * (l1 x + 2 ^ 64 * (l2 x + 2 ^ 64 * l3 x)).
Proof. unfold toZ. change (2 ^ 64) with W. lia. Qed.

Lemma And_spec x y : wf x -> wf y -> wf (And x y) /\ toZ (And x y) = Z.land (toZ x) (toZ y).
Proof.
  intros (?&?&?&?) (?&?&?&?). rewrite !toZ_nested. cbn [And l0 l1 l2 l3].
  unfold is_w in *. rewrite W_pow in *.
  split. { unfold wf, is_w, And; cbn [l0 l1 l2 l3]; rewrite W_pow; refine (conj _ (conj _ (conj _ _))); apply land_range; lia. }
  rewrite !land_split by lia. reflexivity.
Qed.
Lemma Or_spec x y : wf x -> wf y -> wf (Or x y) /\ toZ (Or x y) = Z.lor (toZ x) (toZ y).
Proof.
  intros (?&?&?&?) (?&?&?&?). rewrite !toZ_nested. cbn [Or l0 l1 l2 l3].
  unfold is_w in *. rewrite W_pow in *.
  split. { unfold wf, is_w, Or; cbn [l0 l1 l2 l3]; rewrite W_pow; refine (conj _ (conj _ (conj _ _))); apply lor_range; lia. }
  rewrite !lor_split by lia. reflexivity.
Qed.
Lemma Xor_spec x y : wf x -> wf y -> wf (Xor x y) /\ toZ (Xor x y) = Z.lxor (toZ x) (toZ y).
Proof.
  intros (?&?&?&?) (?&?&?&?). rewrite !toZ_nested. cbn [Xor l0 l1 l2 l3].
  unfold is_w in *. rewrite W_pow in *.
  split. { unfold wf, is_w, Xor; cbn [l0 l1 l2 l3]; rewrite W_pow; refine (conj _ (conj _ (conj _ _))); apply lxor_range; lia. }
  rewrite !lxor_split by lia. reflexivity.
Qed.
Lemma Not_spec x : wf x -> wf (Not x) /\ toZ (Not x) = T256 - 1 - toZ x.
Proof.
  destruct x as [x0 x1 x2 x3]. intros; opens. unfold Not, wnot, is_w in *; cbn [l0 l1 l2 l3]. lia.
Qed.

