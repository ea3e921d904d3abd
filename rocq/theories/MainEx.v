(** MainEx.v -- two data files. *)
From Coq Require Import String Floats.SpecFloat Lia.
From Verif Require Import Base U256 U256Facts U256Z SwapMath TickMath Float64 TickData Pool PoolOps Prices Client Strategy Executor Stats DecimalFacts Main MainFacts.
From Verif Require Decimal.
Open Scope Z_scope.

Definition mainPool : Pool := Eval vm_compute in match newPool with Ok p => p | _ => mkPool "" "" 0 0 0 0 0 0 0 (mkTickData [] 0) [] end.
Lemma mainPool_new : newPool = Ok mainPool.
Proof. vm_cast_no_check (eq_refl (Ok mainPool)). Qed.
Definition mintOnly : list Transaction := [mkTx "Mint" (10 ^ 18) 0 0 190000 200000 1620158974].
Definition month : list Transaction :=
  [mkTx "Mint" (10 ^ 18) 0 0 190000 200000 1620158974;
   mkTx "Swap" 0 (10 ^ 9) (2 ^ 256 - 3 * 10 ^ 17) 0 0 1620245374;
   mkTx "Flash" 0 (10 ^ 9) 0 0 0 1620331774;
   mkTx "Burn" (10 ^ 17) 0 0 190000 200000 1622837374;
   mkTx "Swap" 0 (2 ^ 256 - 10 ^ 9) (5 * 10 ^ 17) 0 0 1623010174].

Definition endsWith (r : res RunResult) (v : Z) : bool := match r with Ok r => encodable r && (EndAmount r =? v) | _ => false end.
Lemma endsWith_inv r v : endsWith r v = true -> exists x, r = Ok x /\ EndAmount x = v /\ encodable x = true.
Proof. unfold endsWith. destruct r as [x| |]; intros H; try discriminate H. apply andb_prop in H. destruct H as [H1 H2]. apply Z.eqb_eq in H2. eauto. Qed.

Lemma month_run : setup 24 month = Ok (1620158974, 1623010174, 65535) /\
  exists r, runAlone (fun x => x) 50 24 1620158974 month mainPool 19 = Ok r /\ EndAmount r = 2263230.
Proof.
  split; [vm_compute; reflexivity|].
  assert (endsWith (runAlone (fun x => x) 50 24 1620158974 month mainPool 19) 2263230 = true) as T by (vm_cast_no_check (eq_refl true)).
  destruct (endsWith_inv _ _ T) as (r & E1 & E2 & _). eauto.
Qed.

Lemma mintOnly_each i : endsWith (runAlone (fun x => x) 50 744 1620158974 mintOnly mainPool i) 2263269 = true.
Proof. vm_cast_no_check (eq_refl true). Qed.
Lemma mintOnly_file : exists f, mainAlone (fun x => x) 50 744 mintOnly = Ok (Some f) /\ EndTime f = 1620158974 /\
  exists r, In r (Results f) /\ EndAmount r = 2263269.
Proof.
  pose (g i := match runAlone (fun x => x) 50 744 1620158974 mintOnly mainPool i with Ok r => r | _ => zeroResult end).
  assert (forall i, runAlone (fun x => x) 50 744 1620158974 mintOnly mainPool i = Ok (g i) /\ EndAmount (g i) = 2263269 /\ encodable (g i) = true) as HG.
  { intros i. destruct (endsWith_inv _ _ (mintOnly_each i)) as (r & E1 & E2). unfold g. rewrite E1. auto. }
  clearbody g. exists (mkSave "2000000" 1620158974 1620158974 (map g (seq 0 (Z.to_nat 65535)))). split; [|split; [reflexivity|]].
  - unfold mainAlone. rewrite mainPool_new. cbn [bind]. assert (setup 744 mintOnly = Ok (1620158974, 1620158974, 65535)) as -> by (vm_compute; reflexivity). cbn [bind].
    generalize (Z.to_nat 65535). intros n. rewrite (collect_ok _ g) by (intros i _; apply HG). cbn [bind]. unfold save, saveFile.
    assert (forallb encodable (map g (seq 0 n)) = true) as ->; [|reflexivity]. apply forallb_forall. intros x Hx. apply in_map_iff in Hx. destruct Hx as (i & <- & _). apply HG.
  - cbn [Results]. exists (g 0%nat). split; [|apply HG]. apply in_map, in_seq. assert (0 < Z.to_nat 65535)%nat by lia. revert H. generalize (Z.to_nat 65535). intros n H. lia.
Qed.

Definition mintTx : Decimal.Transaction :=
  Decimal.mkTrans "Mint" (Some (mkInt 1000 0 0 0)) (Some (mkInt 5 0 0 0)) (Some (mkInt 7 0 0 0)) "0x1" (Some (mkInt 0 0 0 0)) 0 190000 200000 1620158974 false.
Lemma mint_readable : Forall complete [mintTx] /\ exists i, Decimal.MarshalJSON mintTx = Ok i /\ readable i.
Proof.
  split.
  - constructor; [|constructor]. right. left. split; [left; reflexivity|]. cbn. repeat split; try discriminate; reflexivity.
  - eexists. split; [vm_compute; reflexivity|]. split.
    + intros _. vm_compute. discriminate.
    + cbn. intros [K|K]; discriminate K.
Qed.
