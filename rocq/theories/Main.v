(** Main.v -- /repo/main.go as a whole: from the transactions in the data file to the file of results. *)
From Coq Require Import String Floats.SpecFloat.
From Verif Require Import Base U256 U256Facts U256Z SwapMath TickMath Float64 TickData Pool PoolOps HeapProg TickHeap PoolHeap Prices Client Strategy Executor Grid Plan Stats CloneFacts.
From Verif Require Decimal.
Ltac Zify.zify_post_hook ::= idtac.
Open Scope Z_scope.

(** an amount as a number; [junk] is the value of an amount whose string could not be read *)
Definition valueOf (junk : Z) (z : option Int) : Z := match z with Some z => toZ z | None => junk end.
(** what the executor uses of a transaction *)
Definition txOf (junk : Z) (t : Decimal.Transaction) : Transaction :=
  mkTx (Decimal.tType t) (valueOf junk (Decimal.tAmount t)) (valueOf junk (Decimal.tAmount0 t)) (valueOf junk (Decimal.tAmount1 t))
    (Decimal.tTickLower t) (Decimal.tTickUpper t) (Decimal.tTimestamp t).
(** main.go:286-315: the transactions, given what json.Unmarshal reads *)
Definition getTransactions (junk : Z) (input : list Decimal.TransactionInput) : list Transaction :=
  map (fun i => txOf junk (Decimal.readTransaction i)) input.

(** main.go:42 *)
Definition updateOf (hours : Z) : Z := int64 (int64 (hours * 60) * 60).
(** main.go:61, 66, 75, 80 and 82: the arguments of CreateExecution *)
Definition duration : Z := 24 * 60 * 60.
Definition mainConfig (hours first : Z) : Config :=
  mkConfig (iadd first (60 * 60 * 24 * 30)) 90000000000000 (updateOf hours) (60 * 60) (Z.quot duration 100).
(** main.go:48-49 and 58: the price and the amount of token 1, from their decimal strings *)
Definition startPrice : Z := 1350174849792634181862360983626536.
Definition startAmount1 : Z := 366874042000000.

(** result.go:10-15 *)
Record Save := mkSave { StartAmount : string; StartTime : Z; EndTime : Z; Results : list RunResult }.
(** main.go:59 and 252-284 *)
Definition save (first last : Z) (rs : list RunResult) : option Save :=
  option_map (mkSave "2000000" first last) (saveFile rs).

Section Main.
  Variable ln : spec_float -> spec_float.
  Variable fuel : nat.

  (** main.go:79-84 and 184-214: run [i].  main makes the strategy before it starts the goroutine; that cannot panic. *)
  Definition mainJob (hours first : Z) (txs : list Transaction) (i : nat) : M RunResult :=
    let mul := Z.of_nat i + 1 in
    act s <- pure (NewStrategy (BollingerBandsFillUp mul) 1000000 startAmount1 100);
    act r <- Run (strategyOf (BollingerBandsFillUp mul)) (mainConfig hours first) txs s;
    pure (resultOf ln mul duration (updateOf hours) (snd r)).

  (** one after the other *)
  Fixpoint collect {A} (f : nat -> res A) (l : list nat) : res (list A) :=
    match l with
    | [] => Ok []
    | i :: l => do a <- f i; do r <- collect f l; Ok (a :: r)
    end.
  (** everything before the first goroutine (main.go:42-83): the first and last time and the number of runs *)
  Definition setup (hours : Z) (txs : list Transaction) : res (Z * Z * Z) :=
    match txs, rev txs with
    | first :: _, last :: _ =>
        do n <- Decimal.IntPow 20 2 16;
        do _ <- CreateExecution (mainConfig hours (txTime first)) txs;
        Ok (txTime first, txTime last, n - 1)
    | _, _ => Panic
    end.
  Definition newPool : res Pool := NewPool "USDC" "WETH" 500 startPrice.
  Definition hnewPool : res HPool := hNewPool "USDC" "WETH" 500 startPrice.

  (** the specification: every run by itself on its own new pool, one after the other *)
  Definition runAlone (hours first : Z) (txs : list Transaction) (p : Pool) (i : nat) : res RunResult :=
    do r <- runV fuel p (mainJob hours first txs i); Ok (snd r).
  Definition mainAlone (hours : Z) (txs : list Transaction) : res (option Save) :=
    do p <- newPool;
    do t <- setup hours txs;
    let '(first, last, n) := t in
    do rs <- collect (runAlone hours first txs p) (seq 0 (Z.to_nat n));
    Ok (save first last rs).

  (** the program: one goroutine per run, in batches of 5000 (main.go:76), with their memory accesses in the order of [schedule] *)
  Inductive outcome := Crash | Running | Finished (file : option Save).
  Definition batchSize : nat := Z.to_nat 5000.
  Definition grid (hours first : Z) (txs : list Transaction) (hp : HPool) (n : nat) (schedule : list (option nat)) :
      state (HPool * trace * RunResult) RunResult :=
    grun _ _ (fun i => compile fuel (hPoolClone hp) (mainJob hours first txs i)) (fun _ r => snd r) n batchSize schedule (start _ _ emptyHeap).
  (** results never written keep the zero value *)
  Definition zeroResult : RunResult :=
    mkRunResult 0 0 0 f64_zero 0 f64_zero f64_zero f64_zero f64_zero f64_zero f64_zero f64_zero f64_zero f64_zero f64_zero.
  Definition table (s : state (HPool * trace * RunResult) RunResult) (n : nat) : list RunResult :=
    map (fun i => match results _ _ s i with Some r => r | None => zeroResult end) (seq 0 n).
  Definition ending (s : state (HPool * trace * RunResult) RunResult) (first last : Z) (n : nat) : outcome :=
    if crashed _ _ s then Crash
    else match main _ _ s with Over => Finished (save first last (table s n)) | _ => Running end.
  Definition mainUnder (schedule : list (option nat)) (hours : Z) (txs : list Transaction) : outcome :=
    match hnewPool, setup hours txs with
    | Ok hp, Ok (first, last, n) => ending (grid hours first txs hp (Z.to_nat n) schedule) first last (Z.to_nat n)
    | _, _ => Crash
    end.
End Main.
