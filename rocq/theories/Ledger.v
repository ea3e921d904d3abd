(** Ledger.v -- what a history of mints and burns adds up to, independently of the pool code.
    An entry (lower, upper, delta) is a mint (delta > 0) or burn (delta < 0) on a tick range. *)
From Coq Require Import ZifyBool.
From Verif Require Import Base.
Ltac Zify.zify_post_hook ::= idtac.

Record entry := mkE { eLower : Z; eUpper : Z; eDelta : Z }.
Definition hist := list entry.

(** sum of w(lower, upper) * delta *)
Fixpoint sumOn (w : Z -> Z -> Z) (h : hist) : Z :=
  match h with
  | [] => 0
  | e :: h => w (eLower e) (eUpper e) * eDelta e + sumOn w h
  end.

Definition ind (b : bool) : Z := if b then 1 else 0.

(** liquidity left on one range / referencing a tick / entering at a tick / covering a tick / in all *)
Definition minted (h : hist) (l u : Z) : Z := sumOn (fun l' u' => ind ((l' =? l) && (u' =? u))) h.
Definition gross (h : hist) (j : Z) : Z := sumOn (fun l u => ind ((l =? j) || (u =? j))) h.
Definition net (h : hist) (j : Z) : Z := sumOn (fun l u => ind (l =? j) - ind (u =? j)) h.
Definition active (h : hist) (t : Z) : Z := sumOn (fun l u => ind ((l <=? t) && (t <? u))) h.
Definition total (h : hist) : Z := sumOn (fun _ _ => 1) h.

(** no range is burnt below zero *)
Definition covered (h : hist) : Prop := forall l u, 0 <= minted h l u.
Definition proper (h : hist) : Prop := forall e, In e h -> eLower e < eUpper e.

Lemma sumOn_ext w w' h : (forall e, In e h -> w (eLower e) (eUpper e) = w' (eLower e) (eUpper e)) -> sumOn w h = sumOn w' h.
Proof.
  induction h as [|e h IH]; intros H; [reflexivity|]. cbn [sumOn]. rewrite H by (now left). rewrite IH; [reflexivity|]. intros x Hx. apply H. now right.
Qed.
Lemma sumOn_add w w' h : sumOn (fun l u => w l u + w' l u) h = sumOn w h + sumOn w' h.
Proof. induction h as [|e h IH]; [reflexivity|]. cbn [sumOn]. rewrite IH. ring. Qed.
Lemma sumOn_sub w w' h : sumOn (fun l u => w l u - w' l u) h = sumOn w h - sumOn w' h.
Proof. induction h as [|e h IH]; [reflexivity|]. cbn [sumOn]. rewrite IH. ring. Qed.

Definition same (a b : entry) : bool := (eLower a =? eLower b) && (eUpper a =? eUpper b).

Lemma sumOn_split w h e : sumOn w h = w (eLower e) (eUpper e) * minted h (eLower e) (eUpper e) + sumOn w (filter (fun x => negb (same x e)) h).
Proof.
  unfold minted. induction h as [|x h IH]; [cbn; ring|]. cbn [sumOn filter]. rewrite IH. unfold same at 2.
  destruct ((eLower x =? eLower e) && (eUpper x =? eUpper e)) eqn:C; cbn [negb sumOn ind].
  - apply andb_prop in C as [C1 C2]. apply Z.eqb_eq in C1, C2. rewrite C1, C2. ring.
  - ring.
Qed.

Lemma minted_filter h e l u : minted (filter (fun x => negb (same x e)) h) l u = if (eLower e =? l) && (eUpper e =? u) then 0 else minted h l u.
Proof.
  unfold minted. induction h as [|x h IH]; [cbn; now destruct (_ && _)|]. cbn [filter]. unfold same at 1.
  destruct ((eLower x =? eLower e) && (eUpper x =? eUpper e)) eqn:C; cbn [negb sumOn]; rewrite IH.
  - apply andb_prop in C as [C1 C2]. apply Z.eqb_eq in C1, C2. rewrite C1, C2. destruct ((eLower e =? l) && (eUpper e =? u)); cbn [ind]; ring.
  - destruct ((eLower e =? l) && (eUpper e =? u)) eqn:D; [|reflexivity]. apply andb_prop in D as [D1 D2]. apply Z.eqb_eq in D1, D2. subst l u. rewrite C. cbn [ind]. ring.
Qed.

Lemma filter_length_le {A} (f : A -> bool) l : (length (filter f l) <= length l)%nat.
Proof. induction l as [|a l IH]; [reflexivity|]. cbn. destruct (f a); cbn; lia. Qed.

(** grouping the entries by range: a sum with nonnegative weights is nonnegative *)
Lemma sumOn_nonneg w h : covered h -> (forall e, In e h -> 0 <= w (eLower e) (eUpper e)) -> 0 <= sumOn w h.
Proof.
  remember (length h) as n eqn:En. assert (length h <= n)%nat as Hn by lia. clear En. revert h Hn. induction n as [|n IH]; intros h Hn Hc Hw.
  - destruct h; [cbn; lia|cbn in Hn; lia].
  - destruct h as [|e h]; [cbn; lia|]. rewrite (sumOn_split w (e :: h) e). apply Z.add_nonneg_nonneg.
    + apply Z.mul_nonneg_nonneg; [apply Hw; now left|apply Hc].
    + apply IH.
      * cbn [filter]. unfold same at 1. rewrite !Z.eqb_refl. cbn [andb negb]. cbn in Hn. pose proof (filter_length_le (fun x => negb (same x e)) h). lia.
      * intros l u. rewrite minted_filter. destruct (_ && _); [lia|apply Hc].
      * intros x Hx. apply filter_In in Hx as [Hx _]. auto.
Qed.

Lemma sumOn_le w w' h : covered h -> (forall e, In e h -> w (eLower e) (eUpper e) <= w' (eLower e) (eUpper e)) -> sumOn w h <= sumOn w' h.
Proof.
  intros Hc H. assert (0 <= sumOn (fun l u => w' l u - w l u) h); [|rewrite sumOn_sub in *; lia].
  apply sumOn_nonneg; [assumption|]. intros e He. specialize (H e He). lia.
Qed.

Ltac indlia := unfold ind; repeat match goal with |- context [if ?b then _ else _] => let C := fresh "C" in destruct b eqn:C end; lia.

Lemma gross_nonneg h j : covered h -> 0 <= gross h j.
Proof. intros H. apply sumOn_nonneg; [assumption|]. intros. indlia. Qed.
Lemma gross_total h j : covered h -> gross h j <= total h.
Proof. intros H. apply sumOn_le; [assumption|]. intros. indlia. Qed.
Lemma active_nonneg h t : covered h -> 0 <= active h t.
Proof. intros H. apply sumOn_nonneg; [assumption|]. intros. indlia. Qed.
Lemma active_total h t : covered h -> active h t <= total h.
Proof. intros H. apply sumOn_le; [assumption|]. intros. indlia. Qed.
Lemma minted_gross_l h l u : covered h -> minted h l u <= gross h l.
Proof. intros H. apply sumOn_le; [assumption|]. intros. indlia. Qed.
Lemma minted_gross_u h l u : covered h -> minted h l u <= gross h u.
Proof. intros H. apply sumOn_le; [assumption|]. intros. indlia. Qed.
Lemma minted_total h l u : covered h -> minted h l u <= total h.
Proof. intros H. apply sumOn_le; [assumption|]. intros. indlia. Qed.
Lemma minted_active h l u t : covered h -> l <= t < u -> minted h l u <= active h t.
Proof. intros H Ht. apply sumOn_le; [assumption|]. intros. indlia. Qed.

Lemma net_gross h j : covered h -> - gross h j <= net h j <= gross h j.
Proof.
  intros H. split.
  - assert (0 <= sumOn (fun l u => ind ((l =? j) || (u =? j)) + (ind (l =? j) - ind (u =? j))) h) as K; [apply sumOn_nonneg; [assumption|]; intros; indlia|].
    rewrite (sumOn_add (fun l u => ind ((l =? j) || (u =? j)))) in K. unfold gross, net. lia.
  - apply sumOn_le; [assumption|]. intros. indlia.
Qed.

Lemma active_step h t : proper h -> active h t = active h (t - 1) + net h t.
Proof.
  intros Hp. unfold active, net. rewrite <- sumOn_add. apply sumOn_ext. intros e He. specialize (Hp e He). indlia.
Qed.

(** the covering liquidity does not change where no tick is referenced *)
Lemma active_flat h : covered h -> proper h -> forall a b, a <= b -> (forall j, a < j <= b -> gross h j = 0) -> active h b = active h a.
Proof.
  intros Hc Hp a b Hab H. replace b with (a + Z.of_nat (Z.to_nat (b - a))) in * by lia. clear Hab.
  induction (Z.to_nat (b - a)) as [|n IH]; [f_equal; lia|]. rewrite active_step by assumption.
  pose proof (net_gross h (a + Z.of_nat (S n)) Hc). rewrite (H (a + Z.of_nat (S n))) in H0 by lia.
  replace (a + Z.of_nat (S n) - 1) with (a + Z.of_nat n) by lia. rewrite IH; [lia|]. intros j Hj. apply H. lia.
Qed.

Lemma gross_in h j : gross h j <> 0 -> exists e, In e h /\ (eLower e = j \/ eUpper e = j).
Proof.
  unfold gross. induction h as [|e h IH]; cbn [sumOn]; [lia|]. destruct ((eLower e =? j) || (eUpper e =? j)) eqn:C.
  - intros _. exists e. split; [now left|]. lia.
  - cbn [ind]. intros H. destruct IH as (x & Hx & Ex); [lia|]. exists x. split; [now right|assumption].
Qed.
Lemma minted_in h l u : minted h l u <> 0 -> exists e, In e h /\ eLower e = l /\ eUpper e = u.
Proof.
  unfold minted. induction h as [|e h IH]; cbn [sumOn]; [lia|]. destruct ((eLower e =? l) && (eUpper e =? u)) eqn:C.
  - intros _. exists e. split; [now left|]. lia.
  - cbn [ind]. intros H. destruct IH as (x & Hx & Ex); [lia|]. exists x. split; [now right|assumption].
Qed.

(** the effect of one more entry *)
Lemma gross_cons l u d h j : l < u -> gross (mkE l u d :: h) j = gross h j + (if j =? l then d else if j =? u then d else 0).
Proof. intros H. unfold gross. cbn [sumOn eLower eUpper eDelta]. unfold ind. destruct (l =? j) eqn:C1; destruct (u =? j) eqn:C2; destruct (j =? l) eqn:C3; destruct (j =? u) eqn:C4; cbn [orb]; lia. Qed.
Lemma net_cons l u d h j : l < u -> net (mkE l u d :: h) j = net h j + (if j =? l then d else if j =? u then - d else 0).
Proof. intros H. unfold net. cbn [sumOn eLower eUpper eDelta]. unfold ind. destruct (l =? j) eqn:C1; destruct (u =? j) eqn:C2; destruct (j =? l) eqn:C3; destruct (j =? u) eqn:C4; lia. Qed.
Lemma active_cons l u d h t : active (mkE l u d :: h) t = active h t + (if (l <=? t) && (t <? u) then d else 0).
Proof. unfold active. cbn [sumOn eLower eUpper eDelta]. unfold ind. destruct (_ && _); lia. Qed.
Lemma total_cons l u d h : total (mkE l u d :: h) = total h + d.
Proof. unfold total. cbn [sumOn eLower eUpper eDelta]. lia. Qed.
Lemma minted_cons l u d h l' u' : minted (mkE l u d :: h) l' u' = minted h l' u' + (if (l =? l') && (u =? u') then d else 0).
Proof. unfold minted. cbn [sumOn eLower eUpper eDelta]. unfold ind. destruct (_ && _); lia. Qed.
