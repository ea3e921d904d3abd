(** Executor.v -- /repo/lib/executor/executor.go and the records of /repo/lib/transaction/transaction.go. *)
From Coq Require Import String.
From Verif Require Import Base U256Z SwapMath TickMath Pool PoolOps Prices Client Strategy.
Ltac Zify.zify_post_hook ::= idtac.
Open Scope Z_scope.

(** transaction.go:23-35 (ID, SqrtPriceX96, Tick and UseX96 are not used by the executor) *)
Record Transaction := mkTx {
  txType : string; txAmount : Z; txAmount0 : Z; txAmount1 : Z; txLower : Z; txUpper : Z; txTime : Z }.

(** constants.go:16 *)
Definition Q192 : Z := 2 ^ 192.

(** the strategy.Strategy interface, strategy.go:14-23; the result of Rebalance is not used *)
Record Strat (S : Type) := mkStrat {
  doInit : S -> M (S * (Z * Z)); doRebalance : S -> M S; doBurnAll : S -> M (S * (Z * Z));
  doAmounts : S -> M (Z * Z); doSnapshot : S -> M S }.
Arguments mkStrat {S}.
Arguments doInit {S}.
Arguments doRebalance {S}.
Arguments doBurnAll {S}.
Arguments doAmounts {S}.
Arguments doSnapshot {S}.
Definition strategyOf (k : Kind) : Strat St :=
  mkStrat (Init k) (fun s => act r <- Rebalance k s; done (fst r)) (BurnAll k) (GetAmounts k) (MakeSnapshot k).

(** executor.go:12-21 *)
Record Config := mkConfig {
  cStart : Z; cEnd : Z; cUpdate : Z; cSnapshot : Z; cPrice : Z }.

(** executor.go:23-40: what can panic there (an empty list, a zero interval, a negative capacity;
    a capacity beyond the memory is not modelled) *)
Definition CreateExecution (c : Config) (txs : list Transaction) : res unit :=
  match rev txs with
  | [] => Panic
  | t :: _ =>
      do _ <- invariant (negb (cUpdate c =? 0));
      invariant (0 <=? int64 (Z.quot (isub (txTime t) (cStart c)) (cUpdate c)))
  end.

(** executor.go:66-70, 95-99 and 124-128 *)
Definition valueUSD (amount0 amount1 : Z) : M Z :=
  act p <- look;
  let priceSquareX192 := umul (slPrice p) (slPrice p) in
  act amount1to0 <- pure (MulDiv amount1 Q192 priceSquareX192);
  done (uadd amount1to0 amount0).

(** executor.go:108-123 *)
Definition execTx (t : Transaction) : M (Z * Z) :=
  if String.eqb (txType t) "Mint" then call (OMint (txLower t) (txUpper t) (txAmount t))
  else if String.eqb (txType t) "Burn" then call (OBurn (txLower t) (txUpper t) (txAmount t))
  else if String.eqb (txType t) "Swap" then
    if 0 <? usign (txAmount0 t) then
      act p <- look; call (OExactInput (txAmount0 t) (slToken0 p) 0)
    else if 0 <? usign (txAmount1 t) then
      act p <- look; call (OExactInput (txAmount1 t) (slToken1 p) 0)
    else done (0, 0)
  else if String.eqb (txType t) "Flash" then call (OFlash (txAmount0 t) (txAmount1 t))
  else done (0, 0).

Section Run.
  Variable S : Type.
  Variable strat : Strat S.
  Variable c : Config.

  (** executor.go:47-52 *)
  Record Loop := mkLoop { lStarted : bool; lUpdate : Z; lSnapshot : Z; lPrice : Z; lValues : list Z }.

  (** executor.go:54-124 *)
  Fixpoint runLoop (txs : list Transaction) (s : S) (l : Loop) : M (S * Loop) :=
    match txs with
    | [] => done (s, l)
    | t :: txs =>
        if cEnd c <? txTime t then done (s, l)
        else
          act sl <-
            (if negb (lStarted l) && (cStart c <=? txTime t) then
               act r <- doInit strat s;
               let '(s, (amount0, amount1)) := r in
               act v <- valueUSD amount0 amount1;
               done (s, mkLoop true (iadd (txTime t) (cUpdate c)) (iadd (txTime t) (cSnapshot c)) (lPrice l) (lValues l ++ [v]))
             else done (s, l));
          let '(s, l) := sl in
          act sl <-
            (if lPrice l <? txTime t then
               act s <- doSnapshot strat s;
               done (s, mkLoop (lStarted l) (lUpdate l) (lSnapshot l) (iadd (lPrice l) (cPrice c)) (lValues l))
             else done (s, l));
          let '(s, l) := sl in
          act l <-
            (if lSnapshot l <=? txTime t then
               act a <- doAmounts strat s;
               act v <- valueUSD (fst a) (snd a);
               done (mkLoop (lStarted l) (lUpdate l) (iadd (lSnapshot l) (cSnapshot c)) (lPrice l) (lValues l ++ [v]))
             else done l);
          act sl <-
            (if lUpdate l <=? txTime t then
               act s <- doRebalance strat s;
               done (s, mkLoop (lStarted l) (iadd (lUpdate l) (cUpdate c)) (lSnapshot l) (lPrice l) (lValues l))
             else done (s, l));
          let '(s, l) := sl in
          act _ <- execTx t;
          runLoop txs s l
    end.

  (** executor.go:42-130: the final state of the strategy and e.AmountUSDSnapshots *)
  Definition Run (txs : list Transaction) (s : S) : M (S * list Z) :=
    act sl <- runLoop txs s (mkLoop false MaxInt64 MaxInt64 0 []);
    let '(s, l) := sl in
    act r <- doBurnAll strat s;
    let '(s, (amount0, amount1)) := r in
    act v <- valueUSD amount0 amount1;
    done (s, lValues l ++ [v]).
End Run.
Arguments runLoop {S}.
Arguments Run {S}.
