(** Prop_Main.v -- main.go from the data file to the file of results: C76.

    [mainUnder ln fuel schedule hours txs] is the program: [hours] is its flag, [txs] the transactions it has read, [schedule] says
    which goroutine, or main, makes each step, [ln] stands for math.Log.  It has crashed, is running, or has finished with a file
    ([None]: the encoder refused a number and the file is left empty).  [mainAlone] does the runs one after the other. *)
From Coq Require Import String Floats.SpecFloat.
From Verif Require Import Base SwapMath TickMath Float64 FloatSpec TickData Pool HeapProg PoolHeap Prices Client Strategy Executor Grid Stats CloneFacts Main MainFacts MainEx.
From Verif Require Decimal.
Open Scope Z_scope.

(** ** the file does not depend on the scheduler *)
Theorem C76_any_schedule ln fuel schedule hours txs f : mainUnder ln fuel schedule hours txs = Finished f -> mainAlone ln fuel hours txs = Ok f.
Proof. exact (main_finished ln fuel schedule hours txs f). Qed.
Print Assumptions C76_any_schedule.
(** the program crashes only if the check before the first run fails or a run by itself panics *)
Theorem C76_crash ln fuel schedule hours txs : mainUnder ln fuel schedule hours txs = Crash ->
  setup hours txs = Panic \/ exists p first last n i, newPool = Ok p /\ setup hours txs = Ok (first, last, n) /\ Z.of_nat i < n /\ runAlone ln fuel hours first txs p i = Panic.
Proof. exact (main_crash ln fuel schedule hours txs). Qed.
Print Assumptions C76_crash.
(** if the runs by themselves return, the program ends after a bounded number of steps whatever the scheduler does: nothing
    can move any more only when it has finished *)
Theorem C76_ends ln fuel hours txs f : mainAlone ln fuel hours txs = Ok f -> exists hp first last n,
  hnewPool = Ok hp /\ setup hours txs = Ok (first, last, n) /\
  exists bound, forall k s,
    steps _ _ (fun i => compile fuel (hPoolClone hp) (mainJob ln hours first txs i)) (fun _ r => snd r) (Z.to_nat n) batchSize k (start _ _ emptyHeap) s ->
    (k <= bound)%nat /\
    ((forall w, gstep _ _ (fun i => compile fuel (hPoolClone hp) (mainJob ln hours first txs i)) (fun _ r => snd r) (Z.to_nat n) batchSize w s = None) ->
      ending s first last (Z.to_nat n) = Finished f).
Proof. exact (main_ends ln fuel hours txs f). Qed.
Print Assumptions C76_ends.
(** and wherever a schedule has led it can go on to finish *)
Theorem C76_extends ln fuel hours txs f schedule : mainAlone ln fuel hours txs = Ok f -> exists more, mainUnder ln fuel (schedule ++ more) hours txs = Finished f.
Proof. exact (main_extends ln fuel hours txs f schedule). Qed.
Print Assumptions C76_extends.

(** ** the file *)
Theorem C76_file ln fuel hours txs f : mainAlone ln fuel hours txs = Ok f -> Z.abs hours < 2 ^ 50 -> (forall t r, txs = t :: r -> 0 <= txTime t < 2 ^ 62) ->
  exists p first last rs,
    NewPool "USDC" "WETH" 500 1350174849792634181862360983626536 = Ok p /\
    (exists t r, txs = t :: r /\ txTime t = first) /\ (exists t r, txs = r ++ [t] /\ txTime t = last) /\
    Z.of_nat (length rs) = 65535 /\
    f = (if forallb encodable rs then Some (mkSave "2000000" first last rs) else None) /\
    forall i, (i < length rs)%nat -> exists r q tr st values, nth_error rs i = Some r /\
      runV fuel p (Run (strategyOf (BollingerBandsFillUp (Z.of_nat i + 1))) (mkConfig (first + 2592000) 90000000000000 (hours * 3600) 3600 864) txs
        (mkSt 1000000 366874042000000 [] (mkPrices (repeat 0 100) 0 100) 0 0 0 false)) = Ok (q, tr, (st, values)) /\
      resultOf ln (Z.of_nat i + 1) 86400 (hours * 3600) values = Ok r.
Proof. exact (main_file ln fuel hours txs f). Qed.
Print Assumptions C76_file.

(** ** when the runs start, and what too little data gives *)
Theorem C76_starts hours t r u q : t :: r = q ++ [u] -> 0 < hours < 2 ^ 50 -> 0 <= txTime t < 2 ^ 62 -> 0 <= txTime u < 2 ^ 62 ->
  setup hours (t :: r) = if txTime u + hours * 3600 <=? txTime t + 2592000 then Panic else Ok (txTime t, txTime u, 65535).
Proof. exact (setup_starts hours t r u q). Qed.
Print Assumptions C76_starts.
(** with no transaction 30 days after the first, no run invests: each records one value, its untouched amounts at the last price *)
Theorem C76_short ln fuel hours txs t r f : mainAlone ln fuel hours txs = Ok f -> txs = t :: r -> Z.abs hours < 2 ^ 50 -> 0 <= txTime t < 2 ^ 62 ->
  Forall (fun x => txTime x < txTime t + 2592000) txs ->
  exists file, f = Some file /\ Z.of_nat (length (Results file)) = 65535 /\ forall res, In res (Results file) ->
    (exists x, EndAmount res = 366874042000000 * 2 ^ 192 / ((x * x) mod 2 ^ 256) + 1000000) /\ fin (Return res) 0 /\
    forall x, In x [MaxDrawdown res; StdHourly res; StdDaily res; StdWeekly res; DownHourly res; DownDaily res; DownWeekly res; VarHourly res; VarDaily res; VarWeekly res] -> x = f64_zero.
Proof. exact (main_short ln fuel hours txs t r f). Qed.
Print Assumptions C76_short.

(** ** reading the data *)
(** transactions written by MarshalJSON and read back give the same file *)
Theorem C76_written ln fuel hours ts inputs junk junk' : Forall complete ts -> Forall2 (fun t i => Decimal.MarshalJSON t = Ok i) ts inputs ->
  mainAlone ln fuel hours (getTransactions junk inputs) = mainAlone ln fuel hours (map (txOf junk') ts).
Proof. exact (main_written ln fuel hours ts inputs junk junk'). Qed.
Print Assumptions C76_written.
(** what an unreadable amount holds does not matter if the executor uses no such amount *)
Theorem C76_readable ln fuel hours inputs junk junk' : Forall readable inputs ->
  mainAlone ln fuel hours (getTransactions junk inputs) = mainAlone ln fuel hours (getTransactions junk' inputs).
Proof. exact (main_readable ln fuel hours inputs junk junk'). Qed.
Print Assumptions C76_readable.

(** ** a data file of 34 days: one of the runs; and one with a single mint: the whole program *)
Example C76_case : setup 24 month = Ok (1620158974, 1623010174, 65535) /\
  exists r, runAlone (fun x => x) 50 24 1620158974 month mainPool 19 = Ok r /\ EndAmount r = 2263230.
Proof. exact month_run. Qed.
Example C76_case_short : exists f, mainAlone (fun x => x) 50 744 mintOnly = Ok (Some f) /\ EndTime f = 1620158974 /\
  exists r, In r (Results f) /\ EndAmount r = 2263269.
Proof. exact mintOnly_file. Qed.
Example C76_case_panic : setup 24 mintOnly = Panic.
Proof. vm_compute. reflexivity. Qed.
Example C76_case_reading : Forall complete [mintTx] /\ exists i, Decimal.MarshalJSON mintTx = Ok i /\ readable i.
Proof. exact mint_readable. Qed.
