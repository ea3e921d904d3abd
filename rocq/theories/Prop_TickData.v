(** Prop_TickData.v -- the tick table on its own: C31, C32, C33 and the table part of C30. *)
From Coq Require Import Sorting.Sorted.
From Verif Require Import Base U256Z TickData TickDataFacts TickSearch TickFees TickSpec.

(** a table to try things on: spacing 60, ticks at -120, 0 and 15420 (= 257 * 60) *)
Definition sample : TickData :=
  mkTickData [mkTick (-120) 7 7 5 6; mkTick 0 (T256 - 2) 9 1 2; mkTick 15420 (T256 - 5) 5 3 4] 60.
Lemma sample_sorted : StronglySorted (fun a b => tkIndex a < tkIndex b) (ticks sample).
Proof. repeat constructor. Qed.

(** GetTick finds exactly the ticks of the table; the binary search always ends *)
Theorem C30_get t j x : StronglySorted (fun a b => tkIndex a < tkIndex b) (ticks t) ->
  (GetTick t j = Ok x <-> In x (ticks t) /\ tkIndex x = j) /\
  (GetTick t j = Panic <-> ~ exists y, In y (ticks t) /\ tkIndex y = j).
Proof. exact (fun Hs => conj (get_iff t j x Hs) (get_total t j Hs)). Qed.
Print Assumptions C30_get.

(** UpdateTick never fails, keeps the table sorted and touches one tick only: an existing tick keeps its
    counters and gets the new amounts; a new one starts with the global growth if it lies at or below the
    current tick and with zero otherwise.  The flag tells that an existing tick lost its last liquidity. *)
Theorem C30_update t j cur delta g0 g1 upper : StronglySorted (fun a b => tkIndex a < tkIndex b) (ticks t) ->
  exists t' f x, UpdateTick t j cur delta g0 g1 upper = Ok (t', f) /\
    (f = true <-> (exists o, In o (ticks t) /\ tkIndex o = j) /\ tkGross x = 0) /\
    StronglySorted (fun a b => tkIndex a < tkIndex b) (ticks t') /\ tickSpacing t' = tickSpacing t /\
    (forall y, In y (ticks t') <-> (In y (ticks t) /\ tkIndex y <> j) \/ y = x) /\ tkIndex x = j /\
    (forall o, In o (ticks t) -> tkIndex o = j ->
       x = mkTick j ((tkNet o + (if upper then - delta else delta)) mod 2 ^ 256) ((tkGross o + delta) mod 2 ^ 256) (tkOut0 o) (tkOut1 o)) /\
    (0 <= delta < 2 ^ 256 -> ~ (exists o, In o (ticks t) /\ tkIndex o = j) ->
       x = mkTick j ((if upper then - delta else delta) mod 2 ^ 256) delta (if j <=? cur then g0 else 0) (if j <=? cur then g1 else 0)).
Proof. exact (update_effect t j cur delta g0 g1 upper). Qed.
Print Assumptions C30_update.

(** ClearTick removes one tick and nothing else *)
Theorem C30_clear t j : StronglySorted (fun a b => tkIndex a < tkIndex b) (ticks t) ->
  exists t', ClearTick t j = Ok t' /\ StronglySorted (fun a b => tkIndex a < tkIndex b) (ticks t') /\
    tickSpacing t' = tickSpacing t /\ forall y, In y (ticks t') <-> In y (ticks t) /\ tkIndex y <> j.
Proof. exact (clear_effect t j). Qed.
Print Assumptions C30_clear.

Example C30_table_case : GetTick sample 0 = Ok (mkTick 0 (T256 - 2) 9 1 2) /\ GetTick sample 60 = Panic /\
  UpdateTick sample 60 100 3 10 20 false =
    Ok (mkTickData [mkTick (-120) 7 7 5 6; mkTick 0 (T256 - 2) 9 1 2; mkTick 60 3 3 10 20; mkTick 15420 (T256 - 5) 5 3 4] 60, false) /\
  UpdateTick sample 0 100 (T256 - 9) 10 20 true =
    Ok (mkTickData [mkTick (-120) 7 7 5 6; mkTick 0 7 0 1 2; mkTick 15420 (T256 - 5) 5 3 4] 60, true) /\
  ClearTick sample 0 = Ok (mkTickData [mkTick (-120) 7 7 5 6; mkTick 15420 (T256 - 5) 5 3 4] 60).
Proof. vm_compute. auto 10. Qed.

(** Searching down.  A word is 256 spacings, starting at a multiple of that.  Except in the last spacing of
    a word of negative ticks the answer is the nearest initialised tick at or below, or the start of the
    word; in that last spacing (off its first tick) it is the start of the next word, above the tick. *)
Theorem C31_down t tick n b : StronglySorted (fun x y => tkIndex x < tkIndex y) (ticks t) -> 0 < tickSpacing t ->
  NextInitializedTickWithinOneWord t tick true = Ok (n, b) ->
  let s := tickSpacing t in let w := tick / (256 * s) * (256 * s) in
  if (tick <? 0) && (w + 255 * s <? tick) then n = w + 256 * s /\ b = false /\ tick < n
  else w <= n <= tick /\ (forall j, n < j <= tick -> ~ exists x, In x (ticks t) /\ tkIndex x = j) /\
       (b = true <-> exists x, In x (ticks t) /\ tkIndex x = n) /\ (b = false -> n = w).
Proof. exact (down_spec t tick n b). Qed.
Print Assumptions C31_down.
Theorem C31_up t tick n b : StronglySorted (fun x y => tkIndex x < tkIndex y) (ticks t) -> 0 < tickSpacing t ->
  NextInitializedTickWithinOneWord t tick false = Ok (n, b) ->
  tick < n /\ (forall j, tick < j < n -> ~ exists x, In x (ticks t) /\ tkIndex x = j) /\
  (b = true <-> exists x, In x (ticks t) /\ tkIndex x = n) /\
  n <= (((Z.quot tick (tickSpacing t) + 1) / 256 + 1) * 256 - 1) * tickSpacing t /\
  (b = false -> n = (((Z.quot tick (tickSpacing t) + 1) / 256 + 1) * 256 - 1) * tickSpacing t).
Proof. exact (up_spec t tick n b). Qed.
Print Assumptions C31_up.
Theorem C31_panics t tick lte : StronglySorted (fun x y => tkIndex x < tkIndex y) (ticks t) -> 0 <= tickSpacing t ->
  NextInitializedTickWithinOneWord t tick lte = Panic <-> tickSpacing t = 0 \/ ticks t = [].
Proof. exact (word_panics t tick lte). Qed.
Print Assumptions C31_panics.
Example C31_case : StronglySorted (fun x y => tkIndex x < tkIndex y) (ticks sample) /\
  NextInitializedTickWithinOneWord sample 59 true = Ok (0, true) /\
  NextInitializedTickWithinOneWord sample 15419 true = Ok (15360, false) /\
  NextInitializedTickWithinOneWord sample (-61) true = Ok (-120, true) /\
  NextInitializedTickWithinOneWord sample (-121) true = Ok (-15360, false) /\
  NextInitializedTickWithinOneWord sample 0 false = Ok (15300, false) /\
  NextInitializedTickWithinOneWord sample 15300 false = Ok (15420, true) /\
  NextInitializedTickWithinOneWord sample (-121) false = Ok (-120, true).
Proof. split; [exact sample_sorted|]. vm_compute. auto 10. Qed.
(** the claim "the answer is at or below the tick" is false *)
Theorem C31_down_refuted : ~ (forall t tick n b, StronglySorted (fun x y => tkIndex x < tkIndex y) (ticks t) -> 0 < tickSpacing t ->
  NextInitializedTickWithinOneWord t tick true = Ok (n, b) -> n <= tick).
Proof.
  intros H. specialize (H sample (-1) 0 false sample_sorted eq_refl). assert (NextInitializedTickWithinOneWord sample (-1) true = Ok (0, false)) as E by (vm_compute; reflexivity).
  specialize (H E). lia.
Qed.
Print Assumptions C31_down_refuted.

Theorem C32_additive t a b c cur g0 g1 x0 x1 y0 y1 : StronglySorted (fun x y => tkIndex x < tkIndex y) (ticks t) ->
  GetFeeGrowthInside t a b cur g0 g1 = Ok (x0, x1) -> GetFeeGrowthInside t b c cur g0 g1 = Ok (y0, y1) ->
  GetFeeGrowthInside t a c cur g0 g1 = Ok ((x0 + y0) mod 2 ^ 256, (x1 + y1) mod 2 ^ 256).
Proof. exact (inside_additive t a b c cur g0 g1 x0 x1 y0 y1). Qed.
Print Assumptions C32_additive.
(** growth below the upper tick minus growth below the lower one *)
Theorem C32_formula t a b cur g0 g1 x y : StronglySorted (fun x y => tkIndex x < tkIndex y) (ticks t) ->
  In x (ticks t) -> In y (ticks t) -> tkIndex x = a -> tkIndex y = b ->
  GetFeeGrowthInside t a b cur g0 g1 =
    Ok (((if b <=? cur then tkOut0 y else g0 - tkOut0 y) - (if a <=? cur then tkOut0 x else g0 - tkOut0 x)) mod 2 ^ 256,
        ((if b <=? cur then tkOut1 y else g1 - tkOut1 y) - (if a <=? cur then tkOut1 x else g1 - tkOut1 x)) mod 2 ^ 256).
Proof. exact (inside_formula t a b cur g0 g1 x y). Qed.
Print Assumptions C32_formula.
Theorem C32_panics t a b cur g0 g1 : StronglySorted (fun x y => tkIndex x < tkIndex y) (ticks t) ->
  GetFeeGrowthInside t a b cur g0 g1 = Panic <->
  ~ ((exists x, In x (ticks t) /\ tkIndex x = a) /\ (exists x, In x (ticks t) /\ tkIndex x = b)).
Proof. exact (inside_panics t a b cur g0 g1). Qed.
Print Assumptions C32_panics.
Example C32_case : GetFeeGrowthInside sample (-120) 0 60 100 200 = Ok (T256 - 4, T256 - 4) /\
  GetFeeGrowthInside sample 0 15420 60 100 200 = Ok (96, 194) /\ GetFeeGrowthInside sample (-120) 15420 60 100 200 = Ok (92, 190).
Proof. vm_compute. auto. Qed.

(** [cur] moves to [cur'] across [k] and across no other tick *)
Theorem C33_cross t k g0 g1 t' net cur cur' : StronglySorted (fun x y => tkIndex x < tkIndex y) (ticks t) ->
  Cross t k g0 g1 = Ok (t', net) -> (k <= cur <-> cur' < k) ->
  (forall j, (exists x, In x (ticks t) /\ tkIndex x = j) -> j <> k -> (j <= cur <-> j <= cur')) ->
  forall a b, GetFeeGrowthInside t' a b cur' g0 g1 = GetFeeGrowthInside t a b cur g0 g1.
Proof. exact (cross_flips t k g0 g1 t' net cur cur'). Qed.
Print Assumptions C33_cross.
Theorem C33_twice t k g0 g1 t' net t'' net' : StronglySorted (fun x y => tkIndex x < tkIndex y) (ticks t) ->
  (forall x, In x (ticks t) -> 0 <= tkOut0 x < 2 ^ 256 /\ 0 <= tkOut1 x < 2 ^ 256) ->
  Cross t k g0 g1 = Ok (t', net) -> Cross t' k g0 g1 = Ok (t'', net') -> t'' = t /\ net' = net.
Proof. exact (cross_back t k g0 g1 t' net t'' net'). Qed.
Print Assumptions C33_twice.
Theorem C33_effect t k g0 g1 t' net : StronglySorted (fun x y => tkIndex x < tkIndex y) (ticks t) ->
  Cross t k g0 g1 = Ok (t', net) ->
  exists x, In x (ticks t) /\ tkIndex x = k /\ net = tkNet x /\ tickSpacing t' = tickSpacing t /\
    StronglySorted (fun x y => tkIndex x < tkIndex y) (ticks t') /\
    (forall y, In y (ticks t') <-> (In y (ticks t) /\ tkIndex y <> k) \/
       y = mkTick k (tkNet x) (tkGross x) ((g0 - tkOut0 x) mod 2 ^ 256) ((g1 - tkOut1 x) mod 2 ^ 256)).
Proof. exact (cross_effect t k g0 g1 t' net). Qed.
Print Assumptions C33_effect.
Example C33_case : exists t', Cross sample 0 100 200 = Ok (t', T256 - 2) /\
  GetFeeGrowthInside sample (-120) 15420 0 100 200 = GetFeeGrowthInside t' (-120) 15420 (-1) 100 200 /\
  GetFeeGrowthInside sample (-120) 0 0 100 200 = Ok (T256 - 4, T256 - 4) /\
  GetFeeGrowthInside t' (-120) 0 (-1) 100 200 = Ok (T256 - 4, T256 - 4) /\ Cross t' 0 100 200 = Ok (sample, T256 - 2).
Proof. eexists. split; [vm_compute; reflexivity|]. vm_compute. auto. Qed.
