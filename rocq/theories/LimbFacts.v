(** LimbFacts.v -- the functions of LimbMath.v on the words of uint256.Int compute what the functions of SwapMath.v,
    TickMath.v, TickLog.v and Prices.v compute on integers, and panic when those do. *)
From Coq Require Import ZifyBool String.
From Verif Require Import Base U256 BitFacts U256Facts U256Shift U256Bits U256Div U256DivFacts U256Udivrem U256DivSpec U256Exp U256Conv U256HexFacts
  U256Z LibBridge SwapMath TickMath TickMathFacts TickLog Prices LimbMath.
Ltac Zify.zify_post_hook ::= idtac.
Open Scope Z_scope.

(** the words [x] are those of the integer [v] *)
Definition is (x : Int) (v : Z) : Prop := wf x /\ toZ x = v.

(** two computations end alike, with related values *)
Definition sim {A B} (R : A -> B -> Prop) (m : res A) (r : res B) : Prop :=
  match m, r with
  | Ok x, Ok v => R x v
  | Panic, Panic => True
  | OutOfFuel, OutOfFuel => True
  | _, _ => False
  end.

Lemma is_range x v : is x v -> 0 <= v < T256.
Proof. intros [H E]. rewrite <- E. apply toZ_range. exact H. Qed.
Lemma is_eq x v : is x v <-> x = ofZ v /\ 0 <= v < T256.
Proof.
  split.
  - intros H. split; [apply eq_ofZ; apply H|exact (is_range _ _ H)].
  - intros [E H]. subst x. split; [apply wf_ofZ|apply toZ_ofZ; exact H].
Qed.
Lemma is_wf x : wf x -> is x (toZ x).
Proof. intros H. split; [exact H|reflexivity]. Qed.

Lemma sim_bind {A B C D} (R : A -> B -> Prop) (S : C -> D -> Prop) m r k l :
  sim R m r -> (forall x v, R x v -> sim S (k x) (l v)) -> sim S (bind m k) (bind r l).
Proof. destruct m, r; cbn [sim bind]; intros H K; try contradiction; auto. Qed.
Lemma sim_bindl {A B C D} (R : A -> B -> Prop) (S : C -> D -> Prop) m v k r :
  sim R m (Ok v) -> (forall x, R x v -> sim S (k x) r) -> sim S (bind m k) r.
Proof. destruct m; cbn [sim bind]; intros H K; try contradiction; auto. Qed.
Lemma sim_if {A B} (R : A -> B -> Prop) (b c : bool) m1 m2 r1 r2 : b = c ->
  (c = true -> sim R m1 r1) -> (c = false -> sim R m2 r2) -> sim R (if b then m1 else m2) (if c then r1 else r2).
Proof. intros -> H1 H2. destruct c; auto. Qed.
Lemma is_if (b c : bool) m1 m2 r1 r2 : b = c ->
  is m1 r1 -> is m2 r2 -> is (if b then m1 else m2) (if c then r1 else r2).
Proof. intros -> H1 H2. destruct c; auto. Qed.
Lemma sim_inv b c : b = c -> sim eq (invariant b) (invariant c).
Proof. intros ->. destruct c; cbn; auto. Qed.
Lemma sim_rmap (m : res Int) (r : res Z) : m = rmap ofZ r -> (forall v, r = Ok v -> 0 <= v < T256) -> sim is m r.
Proof. intros -> H. destruct r; cbn; auto. apply is_eq. auto. Qed.

(** the operations *)
Section Ops.
Context (x y : Int) (a b : Z) (X : is x a) (Y : is y b).

Lemma is_Add : is (Add x y) (uadd a b).
Proof. destruct X as [Hx <-], Y as [Hy <-]. split; [apply Add_spec; auto|apply (ops_bridge x y 0); auto; lia]. Qed.
Lemma is_Sub : is (Sub x y) (usub a b).
Proof. destruct X as [Hx <-], Y as [Hy <-]. split; [apply Sub_spec; auto|apply (ops_bridge x y 0); auto; lia]. Qed.
Lemma is_Mul : is (Mul x y) (umul a b).
Proof. destruct X as [Hx <-], Y as [Hy <-]. split; [apply Mul_spec; auto|apply (ops_bridge x y 0); auto; lia]. Qed.
Lemma is_Neg : is (Neg x) (uneg a).
Proof. destruct X as [Hx <-]. split; [apply Neg_spec; auto|apply (ops_bridge x x 0); auto; lia]. Qed.
Lemma is_And : is (And x y) (Z.land a b).
Proof. destruct X as [Hx <-], Y as [Hy <-]. exact (And_spec x y Hx Hy). Qed.
Lemma is_Or : is (Or x y) (Z.lor a b).
Proof. destruct X as [Hx <-], Y as [Hy <-]. exact (Or_spec x y Hx Hy). Qed.
Lemma is_Lsh n : 0 <= n -> is (Lsh x n) (ulsh a n).
Proof. intros Hn. destruct X as [Hx <-]. split; [apply Lsh_spec; auto|apply (ops_bridge x x n); auto]. Qed.
Lemma is_Rsh n : 0 <= n -> is (Rsh x n) (ursh a n).
Proof. intros Hn. destruct X as [Hx <-]. split; [apply Rsh_spec; auto|apply (ops_bridge x x n); auto]. Qed.
Lemma is_Abs : is (Abs x) (uabs a).
Proof.
  destruct X as [Hx <-]. destruct (Abs_spec x Hx) as [H E]. split; [exact H|]. rewrite E. unfold uabs, uneg, sgn256.
  pose proof (toZ_range x Hx) as R. destruct (toZ x <? T255) eqn:C.
  - rewrite Z.abs_eq by lia. apply Z.mod_small. exact R.
  - rewrite Z.abs_neq by lia. replace (- (toZ x - T256)) with (- toZ x + 1 * T256) by lia. apply Z.mod_add. discriminate.
Qed.
Lemma is_Exp : is (Exp x y) (a ^ b mod T256).
Proof. destruct X as [Hx <-], Y as [Hy <-]. exact (Exp_spec x y Hx Hy). Qed.
Lemma sim_Div : sim is (Div x y) (Ok (udiv a b)).
Proof.
  destruct X as [Hx <-], Y as [Hy <-]. destruct (ops_bridge x y 0 Hx Hy (Z.le_refl 0)) as (_ & _ & _ & _ & (z & E & H) & _).
  rewrite E. exact H.
Qed.
Lemma sim_SMod : sim is (SMod x y) (Ok (usmod a b)).
Proof.
  destruct X as [Hx <-], Y as [Hy <-]. destruct (SMod_spec x y Hx Hy) as (z & E & H & V). rewrite E. split; [exact H|].
  rewrite V. unfold usmod. destruct (toZ y =? 0); reflexivity.
Qed.
Lemma sim_Sqrt fuel : (130 <= fuel)%nat -> sim is (Sqrt fuel x) (Ok (usqrt a)).
Proof.
  intros F. destruct X as [Hx <-]. destruct (Sqrt_floor_spec fuel x Hx F) as (r & E & H & V). rewrite E. split; [exact H|].
  unfold usqrt. symmetry. apply Z.sqrt_unique. unfold Z.succ. exact V.
Qed.

Lemma b_cmp_ge : (0 <=? Cmp x y) = (b <=? a).
Proof. destruct X as [Hx <-], Y as [Hy <-]. rewrite Cmp_spec by auto. destruct (Z.compare_spec (toZ x) (toZ y)); lia. Qed.
Lemma b_cmp_gt : (0 <? Cmp x y) = (b <? a).
Proof. destruct X as [Hx <-], Y as [Hy <-]. rewrite Cmp_spec by auto. destruct (Z.compare_spec (toZ x) (toZ y)); lia. Qed.
Lemma b_cmp_le : (Cmp x y <=? 0) = (a <=? b).
Proof. destruct X as [Hx <-], Y as [Hy <-]. rewrite Cmp_spec by auto. destruct (Z.compare_spec (toZ x) (toZ y)); lia. Qed.
Lemma b_cmp_lt : (Cmp x y <? 0) = (a <? b).
Proof. destruct X as [Hx <-], Y as [Hy <-]. rewrite Cmp_spec by auto. destruct (Z.compare_spec (toZ x) (toZ y)); lia. Qed.
Lemma b_cmp_eq : (Cmp x y =? 0) = (a =? b).
Proof. destruct X as [Hx <-], Y as [Hy <-]. rewrite Cmp_spec by auto. destruct (Z.compare_spec (toZ x) (toZ y)); lia. Qed.
Lemma b_eq : Eq x y = (a =? b).
Proof. destruct X as [Hx <-], Y as [Hy <-]. apply Eq_spec; auto. Qed.
Lemma b_zero : IsZero x = (a =? 0).
Proof. destruct X as [Hx <-]. apply IsZero_spec; auto. Qed.
Lemma sign_is : Sign x = usign a.
Proof. destruct X as [Hx <-]. apply (ops_bridge x x 0); auto; lia. Qed.
Lemma uint64_is : Uint64 x = a mod W.
Proof. destruct X as [Hx <-]. exact (proj1 (Uint64WithOverflow_spec x Hx)). Qed.
Lemma tobig_is : ToBig x = a.
Proof. destruct X as [Hx <-]. apply ToBig_spec. Qed.

Lemma sim_MulDiv z c : is z c -> sim is (MulDivL x y z) (MulDiv a b c).
Proof.
  intros Zc. pose proof (MulDivL_spec x y z (proj1 X) (proj1 Y) (proj1 Zc)) as E.
  destruct X as [_ <-], Y as [_ <-], Zc as [_ <-]. apply sim_rmap; [exact E|]. intros v. unfold MulDiv.
  destruct ((toZ x =? 0) || (toZ y =? 0)); [intros K; injection K as <-; split; [discriminate|reflexivity]|].
  destruct (udivrem5_ok _ _); [|discriminate]. intros K. injection K as <-. apply Z.mod_pos_bound. reflexivity.
Qed.
Lemma sim_MulDivUp z c : is z c -> sim is (MulDivRoundingUpL x y z) (MulDivRoundingUp a b c).
Proof.
  intros Zc. pose proof (MulDivRoundingUpL_spec x y z (proj1 X) (proj1 Y) (proj1 Zc)) as E.
  destruct X as [_ <-], Y as [_ <-], Zc as [_ <-]. apply sim_rmap; [exact E|]. intros v. unfold MulDivRoundingUp.
  destruct ((toZ x =? 0) || (toZ y =? 0)); [intros K; injection K as <-; split; [discriminate|reflexivity]|].
  destruct (udivrem5_ok _ _); [|discriminate]. intros K. injection K as <-.
  destruct (negb _); [unfold uadd|]; apply Z.mod_pos_bound; reflexivity.
Qed.
End Ops.

Lemma is_const x v : (let w u := (0 <=? u) && (u <? W) in w (l0 x) && w (l1 x) && w (l2 x) && w (l3 x) && (toZ x =? v)) = true -> is x v.
Proof.
  cbv zeta. intros H. apply andb_prop in H. destruct H as [H V]. split; [|apply Z.eqb_eq; exact V].
  destruct x as [x0 x1 x2 x3]. cbn [l0 l1 l2 l3] in *. unfold wf, is_w. cbn [l0 l1 l2 l3]. lia.
Qed.
Lemma is_NewInt v : 0 <= v < W -> is (NewInt v) v.
Proof. intros H. split; [apply wf_SetUint64; exact H|apply toZ_SetUint64]. Qed.

(** the constants, which the code computes or reads from text *)
Lemma limb_constants : is OneL 1 /\ is ZeroL 0 /\ is MaxUint256L MaxUint256 /\ is Q96L Q96 /\ is Q192L (2 ^ 192) /\
  is MaxUint160L MaxUint160 /\ is MaxFeeL MaxFee /\ is Q32L Q32 /\ is MinSqrtRatioL MinSqrtRatio /\ is MaxSqrtRatioL MaxSqrtRatio.
Proof. repeat match goal with |- _ /\ _ => refine (conj _ _) end; apply is_const; vm_compute; reflexivity. Qed.

Lemma is_One : is OneL 1. Proof. apply limb_constants. Qed.
Lemma is_Zero : is ZeroL 0. Proof. apply limb_constants. Qed.
Lemma is_Max : is MaxUint256L MaxUint256. Proof. apply limb_constants. Qed.
Lemma is_Q96 : is Q96L Q96. Proof. apply limb_constants. Qed.
Lemma is_Max160 : is MaxUint160L MaxUint160. Proof. apply limb_constants. Qed.
Lemma is_MaxFee : is MaxFeeL MaxFee. Proof. apply limb_constants. Qed.
Lemma is_Q32 : is Q32L Q32. Proof. apply limb_constants. Qed.
Lemma is_MinRatio : is MinSqrtRatioL MinSqrtRatio. Proof. apply limb_constants. Qed.
Lemma is_MaxRatio : is MaxSqrtRatioL MaxSqrtRatio. Proof. apply limb_constants. Qed.

Create HintDb limb.
#[export] Hint Resolve is_Add is_Sub is_Mul is_Neg is_And is_Or is_Abs is_One is_Zero is_Max is_Q96 is_Max160 is_MaxFee is_Q32 is_MinRatio
  is_MaxRatio is_if b_cmp_ge b_cmp_gt b_cmp_le b_cmp_lt b_cmp_eq b_eq b_zero sim_MulDiv sim_MulDivUp sim_Div : limb.
#[export] Hint Extern 1 (is (Lsh _ _) _) => (apply is_Lsh; [|lia]) : limb.
#[export] Hint Extern 1 (is (Rsh _ _) _) => (apply is_Rsh; [|lia]) : limb.

(** one step through two computations of the same shape *)
Ltac lstep :=
  lazymatch goal with
  | |- sim _ (Ok _) (Ok _) => cbn [sim]
  | |- sim _ (if _ then _ else _) (if _ then _ else _) => apply sim_if; [eauto 8 with limb|intros _|intros _]
  | |- sim _ (bind (Div _ _) _) _ => eapply sim_bindl; [solve [eauto 12 with limb]|intros ? ?]
  | |- sim _ (bind _ _) (bind _ _) => eapply sim_bind; [|intros ? ? ?]
  | |- sim _ _ _ => solve [eauto 12 with limb]
  end.
Ltac limb := repeat lstep; eauto 12 with limb.

(** * sqrtprice_math *)
Lemma is_mul256 x y a b : is x a -> is y b -> is (multiplyIn256L x y) (multiplyIn256 a b).
Proof. unfold multiplyIn256L, multiplyIn256. eauto with limb. Qed.
Lemma is_add256 x y a b : is x a -> is y b -> is (addIn256L x y) (addIn256 a b).
Proof. unfold addIn256L, addIn256. eauto with limb. Qed.
#[export] Hint Resolve is_mul256 is_add256 : limb.

Definition both {A B C D} (R : A -> B -> Prop) (S : C -> D -> Prop) (p : A * C) (q : B * D) : Prop := R (fst p) (fst q) /\ S (snd p) (snd q).
Lemma is_ordered x y a b : is x a -> is y b -> both is is (orderedL x y) (ordered a b).
Proof.
  intros X Y. unfold orderedL, ordered. rewrite (b_cmp_gt x y a b X Y). destruct (b <? a); split; assumption.
Qed.
Ltac order x y a b :=
  let H := fresh "O" in
  assert (H : both is is (orderedL x y) (ordered a b)) by (apply is_ordered; assumption);
  let p := fresh "lo" in let q := fresh "hi" in let p' := fresh "lo'" in let q' := fresh "hi'" in
  destruct (orderedL x y) as [p q], (ordered a b) as [p' q']; destruct H as [? ?]; cbn [fst snd] in *.

Lemma sim_Amount0 x y l a b v up : is x a -> is y b -> is l v -> sim is (GetAmount0DeltaL x y l up) (GetAmount0Delta a b v up).
Proof. intros X Y L. unfold GetAmount0DeltaL, GetAmount0Delta. order x y a b. destruct up; limb. Qed.
Lemma sim_Amount1 x y l a b v up : is x a -> is y b -> is l v -> sim is (GetAmount1DeltaL x y l up) (GetAmount1Delta a b v up).
Proof. intros X Y L. unfold GetAmount1DeltaL, GetAmount1Delta. order x y a b. destruct up; limb. Qed.
#[export] Hint Resolve sim_Amount0 sim_Amount1 : limb.

Lemma sim_next0 p l x a v b add : is p a -> is l v -> is x b ->
  sim is (getNextSqrtPriceFromAmount0RoundingUpL p l x add) (getNextSqrtPriceFromAmount0RoundingUp a v b add).
Proof.
  intros P L X. unfold getNextSqrtPriceFromAmount0RoundingUpL, getNextSqrtPriceFromAmount0RoundingUp. cbv zeta.
  lstep; [limb|]. destruct add; [|limb].
  eapply sim_bindl; [eauto with limb|]. intros q Q. rewrite (b_eq _ _ _ _ Q P).
  destruct (udiv (multiplyIn256 b a) b =? a); cbn [andb]; limb.
Qed.
Lemma sim_next1 p l x a v b add : is p a -> is l v -> is x b ->
  sim is (getNextSqrtPriceFromAmount1RoundingDownL p l x add) (getNextSqrtPriceFromAmount1RoundingDown a v b add).
Proof.
  intros P L X. unfold getNextSqrtPriceFromAmount1RoundingDownL, getNextSqrtPriceFromAmount1RoundingDown. cbv zeta.
  destruct add; [|limb]. rewrite (b_cmp_le _ _ _ _ X is_Max160). destruct (b <=? MaxUint160); limb.
Qed.
#[export] Hint Resolve sim_next0 sim_next1 : limb.

Lemma sim_input p l x a v b z : is p a -> is l v -> is x b -> sim is (GetNextSqrtPriceFromInputL p l x z) (GetNextSqrtPriceFromInput a v b z).
Proof.
  intros P L X. unfold GetNextSqrtPriceFromInputL, GetNextSqrtPriceFromInput. rewrite (sign_is _ _ P), (sign_is _ _ L).
  eapply sim_bind; [apply sim_inv; reflexivity|intros _ _ _]. eapply sim_bind; [apply sim_inv; reflexivity|intros _ _ _]. destruct z; limb.
Qed.
Lemma sim_output p l x a v b z : is p a -> is l v -> is x b -> sim is (GetNextSqrtPriceFromOutputL p l x z) (GetNextSqrtPriceFromOutput a v b z).
Proof.
  intros P L X. unfold GetNextSqrtPriceFromOutputL, GetNextSqrtPriceFromOutput. rewrite (sign_is _ _ P), (sign_is _ _ L).
  eapply sim_bind; [apply sim_inv; reflexivity|intros _ _ _]. eapply sim_bind; [apply sim_inv; reflexivity|intros _ _ _]. destruct z; limb.
Qed.
#[export] Hint Resolve sim_input sim_output : limb.

Lemma sim_Rounded0 x y l a b v : is x a -> is y b -> is l v -> sim is (GetAmount0DeltaRoundedL x y l) (GetAmount0DeltaRounded a b v).
Proof. intros X Y L. unfold GetAmount0DeltaRoundedL, GetAmount0DeltaRounded. rewrite (sign_is _ _ L). destruct (usign v =? -1); limb. Qed.
Lemma sim_Rounded1 x y l a b v : is x a -> is y b -> is l v -> sim is (GetAmount1DeltaRoundedL x y l) (GetAmount1DeltaRounded a b v).
Proof. intros X Y L. unfold GetAmount1DeltaRoundedL, GetAmount1DeltaRounded. rewrite (sign_is _ _ L). destruct (usign v =? -1); limb. Qed.

(** * swapmath *)
Definition is_step (p : Int * Int * Int * Int) (s : StepResult) : Prop :=
  let '(next, amountIn, amountOut, fee) := p in is next (stNext s) /\ is amountIn (stIn s) /\ is amountOut (stOut s) /\ is fee (stFee s).

Lemma sim_step c t l x a b v w fee : is c a -> is t b -> is l v -> is x w ->
  sim is_step (ComputeSwapStepL c t l x fee) (ComputeSwapStep a b v w fee).
Proof.
  intros C T L X. unfold ComputeSwapStepL, ComputeSwapStep. cbv zeta.
  assert (F : is (NewInt (fee mod W)) (fee mod W)) by (apply is_NewInt; apply Z.mod_pos_bound; reflexivity).
  rewrite (b_cmp_ge _ _ _ _ C T), (sign_is _ _ X). set (z := b <=? a). set (e := 0 <=? usign w). clearbody z e.
  eapply (sim_bind (both (both is is) is)).
  { destruct e.
    - eapply sim_bindl; [eauto with limb|]. intros q Q. destruct z.
      + eapply sim_bind; [eauto with limb|]. intros i i' I. eapply sim_bind; [limb|]. intros n n' N. repeat split; cbn; eauto with limb; apply N || apply I || apply is_Zero.
      + eapply sim_bind; [eauto with limb|]. intros i i' I. eapply sim_bind; [limb|]. intros n n' N. repeat split; cbn; eauto with limb; apply N || apply I || apply is_Zero.
    - destruct z.
      + eapply sim_bind; [eauto with limb|]. intros i i' I. eapply sim_bind; [limb|]. intros n n' N. repeat split; cbn; eauto with limb; apply N || apply I || apply is_Zero.
      + eapply sim_bind; [eauto with limb|]. intros i i' I. eapply sim_bind; [limb|]. intros n n' N. repeat split; cbn; eauto with limb; apply N || apply I || apply is_Zero. }
  intros [[n i] o] [[n' i'] o'] [[N I] O]. cbn [fst snd] in N, I, O.
  rewrite (b_cmp_eq _ _ _ _ T N), (b_cmp_eq _ _ _ _ N T).
  eapply (sim_bind is).
  { destruct ((b =? n') && e); [exact I|]. destruct z; limb. }
  intros i2 i2' I2. eapply (sim_bind is).
  { destruct ((b =? n') && negb e); [exact O|]. destruct z; limb. }
  intros o2 o2' O2. eapply (sim_bind is).
  { destruct (e && negb (n' =? b)); limb. }
  intros f f' FE. rewrite (b_cmp_gt _ _ _ _ O2 (is_Neg _ _ X)).
  cbn [sim is_step stNext stIn stOut stFee]. repeat split; try apply N; try apply I2; try apply FE;
    destruct (negb e && (uneg w <? o2')); apply O2 || apply (is_Neg _ _ X).
Qed.

(** * liquidity_amounts *)
Lemma sim_liq0 x y z a b v : is x a -> is y b -> is z v -> sim is (getLiquidityForAmount0L x y z) (getLiquidityForAmount0 a b v).
Proof. intros X Y Z. unfold getLiquidityForAmount0L, getLiquidityForAmount0. order x y a b. limb. Qed.
Lemma sim_liq1 x y z a b v : is x a -> is y b -> is z v -> sim is (getLiquidityForAmount1L x y z) (getLiquidityForAmount1 a b v).
Proof. intros X Y Z. unfold getLiquidityForAmount1L, getLiquidityForAmount1. order x y a b. limb. Qed.
Lemma sim_amt0 x y z a b v : is x a -> is y b -> is z v -> sim is (getAmount0ForLiquidityL x y z) (getAmount0ForLiquidity a b v).
Proof. intros X Y Z. unfold getAmount0ForLiquidityL, getAmount0ForLiquidity. order x y a b. limb. Qed.
Lemma sim_amt1 x y z a b v : is x a -> is y b -> is z v -> sim is (getAmount1ForLiquidityL x y z) (getAmount1ForLiquidity a b v).
Proof. intros X Y Z. unfold getAmount1ForLiquidityL, getAmount1ForLiquidity. order x y a b. limb. Qed.
#[export] Hint Resolve sim_liq0 sim_liq1 sim_amt0 sim_amt1 : limb.

Lemma sim_liquidity p x y m n s a b v w : is p s -> is x a -> is y b -> is m v -> is n w ->
  sim is (GetLiquidityForAmountL p x y m n) (GetLiquidityForAmount s a b v w).
Proof. intros P X Y M N. unfold GetLiquidityForAmountL, GetLiquidityForAmount. order x y a b. limb. Qed.
Lemma sim_amounts p x y l s a b v : is p s -> is x a -> is y b -> is l v ->
  sim (both is is) (GetAmountsForLiquidityL p x y l) (GetAmountsForLiquidity s a b v).
Proof.
  intros P X Y L. unfold GetAmountsForLiquidityL, GetAmountsForLiquidity. order x y a b.
  lstep; [|lstep]; repeat (eapply sim_bind; [eauto with limb|intros ? ? ?]); cbn [sim]; split; eauto with limb.
Qed.

(** * tickmath *)
Definition is_factor (f : Z * string) (g : Z * Z) : Prop := fst f = fst g /\ is (hexInt (snd f)) (snd g).
Lemma factors_are : Forall2 is_factor factorsL factors.
Proof.
  unfold factorsL, factors.
  repeat match goal with
  | |- Forall2 _ nil nil => apply Forall2_nil
  | |- Forall2 _ _ _ => apply Forall2_cons; [split; [reflexivity|apply is_const; vm_compute; reflexivity]|]
  end.
Qed.

Lemma fold_factors t fs gs : Forall2 is_factor fs gs -> forall x a, is x a ->
  is (fold_left (fun r f => if negb (Z.land t (fst f) =? 0) then mulShiftL r (snd f) else r) fs x)
     (fold_left (fun r f => if negb (Z.land t (fst f) =? 0) then mulShift r (snd f) else r) gs a).
Proof.
  induction 1 as [|f g fs gs [E H] _ IH]; intros x a X; cbn [fold_left]; [exact X|]. apply IH. rewrite E.
  apply is_if; [reflexivity| |exact X]. rewrite mulShift_ops. unfold mulShiftL. eauto with limb.
Qed.

Lemma sim_ratio t : sim is (getSqrtRatioAtTickL t) (getSqrtRatioAtTick t).
Proof.
  unfold getSqrtRatioAtTickL, getSqrtRatioAtTick. cbv zeta. set (u := if t <? 0 then - t else t). clearbody u.
  eapply sim_bind; [apply sim_inv; reflexivity|intros _ _ _].
  pose proof (fold_factors u _ _ factors_are (if negb (Z.land u 1 =? 0) then hexInt "0xfffcb933bd6fad37aa2d162d1a594001"
    else hexInt "0x100000000000000000000000000000000") (if negb (Z.land u 1 =? 0) then c0 else 0x100000000000000000000000000000000)) as F.
  match type of F with ?A -> _ => assert (A) as A1 end.
  { apply is_if; [reflexivity| |]; apply is_const; vm_compute; reflexivity. }
  specialize (F A1). clear A1. revert F.
  match goal with |- is ?x ?v -> _ => generalize x v end. intros x v X.
  assert (Y : sim is (if 0 <? t then Div MaxUint256L x else Ok x) (Ok (if 0 <? t then udiv MaxUint256 v else v))).
  { destruct (0 <? t); [eauto with limb|exact X]. }
  eapply sim_bindl; [exact Y|]. clear x X Y. intros x X. revert X. generalize (if 0 <? t then udiv MaxUint256 v else v).
  clear v. intros v X.
  eapply sim_bindl; [exact (sim_SMod _ _ _ _ X is_Q32)|]. intros r R.
  eapply sim_bindl; [exact (sim_Div _ _ _ _ X is_Q32)|]. intros q Q.
  rewrite (sign_is _ _ R). destruct (0 <? usign (usmod v Q32)); cbn [sim]; eauto with limb.
Qed.

Lemma sim_ticks i : sim is (ticksL i) (ticks i).
Proof. unfold ticksL, ticks. destruct ((0 <=? i) && (i <? TotalTicks)); [apply sim_ratio|exact I]. Qed.

Lemma sim_refl {A} (m : res A) : sim eq m m.
Proof. destruct m; cbn; auto. Qed.
Lemma sim_eq {A} (m r : res A) : sim eq m r -> m = r.
Proof. destruct m, r; cbn; intros H; try contradiction; congruence. Qed.

Lemma sim_search fuel p a : is p a -> forall l r, searchTickL fuel p l r = searchTick fuel a l r.
Proof.
  intros P. induction fuel as [|fuel IH]; intros l r; cbn [searchTickL searchTick]; [reflexivity|].
  destruct (l <? r); [|reflexivity]. cbv zeta. apply sim_eq. eapply sim_bind; [apply sim_ticks|]. intros t t' T.
  rewrite (b_cmp_gt _ _ _ _ T P). destruct (a <? t'); rewrite IH; apply sim_refl.
Qed.
Lemma sim_tick fuel p a : is p a -> GetTickAtSqrtRatioFL fuel p = GetTickAtSqrtRatioF fuel a.
Proof.
  intros P. unfold GetTickAtSqrtRatioFL, GetTickAtSqrtRatioF.
  rewrite (b_cmp_ge _ _ _ _ P is_MinRatio), (b_cmp_lt _ _ _ _ P is_MaxRatio).
  destruct (invariant _); cbn [bind]; [|reflexivity|reflexivity]. rewrite (sim_search fuel p a P). reflexivity.
Qed.

Lemma is_msb ps : Forall (fun n => 0 <= n < 256) ps -> forall x a m, is x a ->
  both is eq
    (fold_left (fun xm power => let '(x, msb) := (xm : Int * Z) in let min := Exp (NewInt 2) (NewInt power) in
                 if 0 <=? Cmp x min then (Rsh x power, msb + power) else (x, msb)) ps (x, m))
    (fold_left (fun xm power => let '(x, msb) := (xm : Z * Z) in
                 if 2 ^ power <=? x then (ursh x power, msb + power) else (x, msb)) ps (a, m)).
Proof.
  induction 1 as [|n ps Hn _ IH]; intros x a m X; cbn [fold_left]; [split; [exact X|reflexivity]|]. cbv zeta.
  assert (E : is (Exp (NewInt 2) (NewInt n)) (2 ^ n)).
  { rewrite <- (Z.mod_small (2 ^ n) T256).
    - apply is_Exp; apply is_NewInt; change W with (2 ^ 64); lia.
    - split; [apply Z.pow_nonneg; lia|]. change T256 with (2 ^ 256). apply Z.pow_lt_mono_r; lia. }
  rewrite (b_cmp_ge _ _ _ _ X E). destruct (2 ^ n <=? a); apply IH; [|exact X]. apply is_Rsh; [exact X|lia].
Qed.
Lemma msb_is x a : is x a -> MostSignificantBitL x = MostSignificantBit a.
Proof.
  intros X. unfold MostSignificantBitL, MostSignificantBit. apply is_msb; [|exact X].
  repeat constructor; lia.
Qed.
Lemma msb_range ps : Forall (fun n => 0 <= n) ps -> forall x m, m <=
  snd (fold_left (fun xm power => let '(x, msb) := (xm : Z * Z) in
         if 2 ^ power <=? x then (ursh x power, msb + power) else (x, msb)) ps (x, m)) <= m + fold_right Z.add 0 ps.
Proof.
  induction 1 as [|n ps Hn _ IH]; intros x m; cbn [fold_left fold_right snd]; [lia|].
  destruct (2 ^ n <=? x); [specialize (IH (ursh x n) (m + n))|specialize (IH x m)]; lia.
Qed.
Lemma msb_small x : 0 <= MostSignificantBit x <= 255.
Proof. unfold MostSignificantBit. pose proof (msb_range [128; 64; 32; 16; 8; 4; 2; 1] ltac:(repeat constructor; lia) x 0) as H. cbn [fold_right] in H. lia. Qed.

Lemma is_loop n : forall i x y a b, 0 <= i -> i + Z.of_nat n <= 64 -> is x a -> is y b -> both is is (logLoopL n i (x, y)) (logLoop n i (a, b)).
Proof.
  induction n as [|n IH]; intros i x y a b Hi Hn X Y; cbn [logLoopL logLoop]; [split; assumption|].
  unfold logBitL, logBit. cbv zeta. rewrite Nat2Z.inj_succ in Hn.
  assert (R : is (Rsh (Mul x x) 127) (ursh (umul a a) 127)) by eauto with limb.
  assert (F : is (Rsh (Rsh (Mul x x) 127) 128) (ursh (ursh (umul a a) 127) 128)) by eauto with limb.
  apply IH; [lia|lia| |].
  - rewrite (uint64_is _ _ F). apply is_Rsh; [exact R|]. apply Z.mod_pos_bound. reflexivity.
  - apply is_Or; [exact Y|]. apply is_Lsh; [exact F|lia].
Qed.

Lemma sim_ticklog p a : is p a -> getTickAtSqrtRatioL p = getTickAtSqrtRatio a.
Proof.
  intros P. unfold getTickAtSqrtRatioL, getTickAtSqrtRatio, logStart, tickCandidates. cbv zeta.
  assert (H : is (Lsh p 32) (ulsh a 32)) by eauto with limb.
  rewrite (msb_is _ _ H). pose proof (msb_small (ulsh a 32)) as M. revert M. generalize (MostSignificantBit (ulsh a 32)). intros m M.
  assert (N : is (NewInt m) m) by (apply is_NewInt; change W with (2 ^ 64); lia).
  assert (K : is (NewInt 128) 128) by (apply is_NewInt; change W with (2 ^ 64); lia).
  rewrite (b_cmp_ge _ _ _ _ N K).
  assert (R : is (if 128 <=? m then Rsh (Lsh p 32) (m - 127) else Lsh (Lsh p 32) (127 - m)) (if 128 <=? m then ursh (ulsh a 32) (m - 127) else ulsh (ulsh a 32) (127 - m))).
  { destruct (128 <=? m) eqn:C; [apply is_Rsh|apply is_Lsh]; try assumption; lia. }
  assert (L : is (Lsh (Sub (NewInt m) (NewInt 128)) 64) (ulsh (usub m 128) 64)) by eauto with limb.
  pose proof (is_loop 14 0 _ _ _ _ ltac:(lia) ltac:(lia) R L) as [_ Q].
  destruct (logLoopL 14 0 _) as [x y], (logLoop 14 0 _) as [x' y']. cbn [snd] in Q. clear x x' R L N K M H.
  assert (M1 : is (hexInt "0x3627A301D71055774C85") magicSqrt10001) by (apply is_const; vm_compute; reflexivity).
  assert (M2 : is (hexInt "0x28F6481AB7F045A5AF012A19D003AAA") magicTickLow) by (apply is_const; vm_compute; reflexivity).
  assert (M3 : is (hexInt "0xDB2DF09E81959A81455E260799A0632F") magicTickHigh) by (apply is_const; vm_compute; reflexivity).
  revert M1 M2 M3. generalize (hexInt "0x3627A301D71055774C85"), (hexInt "0x28F6481AB7F045A5AF012A19D003AAA"), (hexInt "0xDB2DF09E81959A81455E260799A0632F").
  intros m1 m2 m3 M1 M2 M3.
  rewrite (uint64_is (Rsh (Sub (Mul y m1) m2) 128) (ursh (usub (umul y' magicSqrt10001) magicTickLow) 128)) by eauto with limb.
  rewrite (uint64_is (Rsh (Add (Mul y m1) m3) 128) (ursh (uadd (umul y' magicSqrt10001) magicTickHigh) 128)) by eauto with limb.
  match goal with |- context [if ?c then _ else _] => destruct c end; [reflexivity|].
  apply sim_eq. eapply sim_bind; [apply sim_ratio|]. intros t t' T. rewrite (b_cmp_le _ _ _ _ T P). apply sim_refl.
Qed.

(** * prices *)
Definition is_prices (p : PricesL) (q : Prices) : Prop :=
  Forall2 is (plPrices p) (prPrices q) /\ plIndex p = prIndex q /\ plLength p = prLength q.

Lemma sim_NewPrices n : sim is_prices (NewPricesL n) (NewPrices n).
Proof.
  unfold NewPricesL, NewPrices. eapply sim_bind; [apply sim_inv; reflexivity|intros _ _ _]. split; [|split; reflexivity].
  cbn [plPrices prPrices]. induction (Z.to_nat n); cbn [repeat]; constructor; auto. apply is_NewInt. split; [discriminate|reflexivity].
Qed.

Lemma sim_set ps qs : Forall2 is ps qs -> forall i x a, is x a ->
  match seti ps i x, setNth qs i a with Ok ps', Some qs' => Forall2 is ps' qs' | Panic, None => True | _, _ => False end.
Proof.
  induction 1 as [|p q ps qs P F IH]; intros i x a X; destruct i; cbn [seti setNth]; auto.
  specialize (IH i x a X). destruct (seti ps i x), (setNth qs i a); auto.
Qed.

Lemma sim_AddPrice p q x a : is_prices p q -> is x a -> sim is_prices (AddPriceL p x) (AddPrice q a).
Proof.
  intros (F & I & L) X. unfold AddPriceL, AddPrice. cbv zeta. assert (S : is (Mul x x) (umul a a)) by eauto with limb.
  rewrite (b_zero _ (ursh (umul a a) 230)) by eauto with limb.
  eapply sim_bind; [apply sim_inv; reflexivity|intros _ _ _]. rewrite I, L. destruct (prIndex q <? 0); [exact Logic.I|].
  pose proof (sim_set _ _ F (Z.to_nat (prIndex q)) _ _ S) as K.
  destruct (seti _ _ _), (setNth _ _ _); try contradiction; cbn [bind sim]; auto. split; [exact K|split; reflexivity].
Qed.

Lemma is_sum ps qs : Forall2 is ps qs -> forall x a, is x a -> is (fold_left Add ps x) (fold_left uadd qs a).
Proof. induction 1 as [|p q ps qs P _ IH]; intros x a X; cbn [fold_left]; [exact X|]. apply IH. eauto with limb. Qed.

Lemma sim_Average p q : is_prices p q -> sim is (AverageL p) (Ok (Average q)).
Proof.
  intros (F & I & L). unfold AverageL, Average. cbv zeta. rewrite L. apply sim_Div; [apply is_sum; [exact F|exact is_Zero]|].
  apply is_NewInt. apply Z.mod_pos_bound. reflexivity.
Qed.

Lemma squares_are x a ps qs : is x a -> Forall2 is ps qs -> forall s,
  fold_left (fun s price => do sum <- s; let diffBig := ToBig (Abs (Sub price x)) in
     do _ <- invariant (0 <=? Z.sgn diffBig); Ok (sum + diffBig * diffBig)) ps (Ok s)
  = Ok (fold_left (fun s price => let diff := uabs (usub price a) in s + diff * diff) qs s).
Proof.
  intros X. induction 1 as [|p q ps qs P _ IH]; intros s; cbn [fold_left]; [reflexivity|]. cbv zeta. cbn [bind].
  assert (D : is (Abs (Sub p x)) (uabs (usub q a))) by eauto with limb.
  rewrite (tobig_is _ _ D). pose proof (is_range _ _ D) as R.
  replace (0 <=? Z.sgn (uabs (usub q a))) with true by lia. cbn [invariant bind]. apply IH.
Qed.

Lemma sim_Volatility p q : is_prices p q -> sim is (VolatilityL p) (Volatility q).
Proof.
  intros H. pose proof (sim_Average p q H) as A. destruct H as (F & I & L). unfold VolatilityL, Volatility. cbv zeta.
  eapply sim_bindl; [exact A|]. intros x X. rewrite (squares_are _ _ _ _ X F). cbn [bind]. rewrite L.
  destruct (isub (prLength q) 1 =? 0); [exact Logic.I|].
  match goal with |- context [Z.sgn (isub (prLength q) 1) * ?s] => generalize (Z.sgn (isub (prLength q) 1) * s) end. intros v.
  eapply sim_bind; [apply sim_inv|intros _ _ _]. { lia. }
  pose proof (Z.sqrt_nonneg v). replace (0 <=? Z.sgn (Z.sqrt v)) with true by lia. cbn [invariant bind sim].
  destruct (FromBig_spec (Z.sqrt v)) as (W1 & V & _). split; [exact W1|exact V].
Qed.
