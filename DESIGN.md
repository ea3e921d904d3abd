# Formal model of ftchann/uniswap-simulator in Rocq (Coq 8.16.1)

Source: `/repo` (Go, read as text, never built or run).  Model and proofs: `rocq/theories/`.
Properties: `properties.jsonl` (C01...).  Claim status: `MANIFEST.json`.  Mutation log: `seeded/LOG.jsonl`.

Reading order: `Prop_*.v` holds one theorem per line of the manifest, each closed by `exact` with a lemma of
the same content, followed by `Print Assumptions` and by `Example`s showing that its hypotheses are met by
concrete non-trivial data.  The model files (section 2) contain definitions only, apart from a few
bookkeeping lemmas; every definition is commented with the file and lines it models.

## 1. How the code is modelled

* **Results.**  A Go function that can panic returns `res A = Ok a | Panic | OutOfFuel` (`Base.v`).
  `Panic` covers `invariant.Invariant` failures, index and slice errors, nil dereference and division by zero.
  `OutOfFuel` appears only in functions modelling unbounded `for` loops.  Theorems exclude it, or prove it
  impossible for sufficient fuel (termination), or unavoidable for every fuel (non-termination).
  A panic ends the program: `main` recovers nowhere, so states after a panic are not modelled.
* **Words.**  `uint64` is `Z` in `[0,2^64)`, `int` is `Z` (64-bit architecture); wrap-around is an explicit
  `mod` (or `int64`) where the code can reach it.  `math/bits` (`Add64`, `Sub64`, `Mul64`, `Div64`, `Len64`,
  `LeadingZeros64`) is modelled by its documentation.
* **Two levels for 256-bit numbers.**  The limb level (`U256*.v`) models `/repo/uint256` word by word.
  The library level (`lib/*`) works on `Z` values in `[0,2^256)` with operations that wrap explicitly
  (`U256Z.v`).  `LibBridge.v` proves that the limb functions compute the library-level operations, including
  their panics.  `LimbMath.v` writes the arithmetic packages out over the words a second time, and
  `LimbPool.v` the tick table, positions and pool, `LimbRun.v` the strategies and the executor; C89, C90 and C91
  prove the two versions equal.
* **Pointers.**  A method `z.Op(x, y)` is a function returning the new value of `z`.  That this is faithful
  when `z`, `x`, `y` coincide is not assumed: `Alias.v` models every in-place method again, statement by
  statement on a memory in which pointers may be equal, and C18 proves that the receiver ends with the same
  value and nothing else changes.
* **Shared memory.**  Where pointers are shared across objects (a cloned pool shares its ticks' integers with
  the original), `HeapProg.v`/`TickHeap.v`/`PoolHeap.v` model the same pool functions as programs that access
  memory cell by cell.  C46 and C53 quantify over every interleaving of these accesses.
  `C46_memory_agrees` proves that the memory programs and the value functions agree.
* **Every variable of the pool.**  `Ptr.v` writes the arithmetic packages, the tick table, positions and pool a third
  time, with every `*uint256.Int` a pointer into one memory: each `new`, `Clone`, in-place operation and shared field
  as in the code, and the exported constants as variables.  C92 proves that any calls, with the client computing in
  place between them, do to memory what the functions on values do.  The only variable of a caller that a pool keeps
  is the price given to `NewPool`, which it never writes.  `PtrRun.v` does the same for the liquidity helpers, the
  price history, all strategies and the executor, in the same memory.  C93 proves that a run there is the run on
  values, and that the back-tests of a new pool, one after the other, do not influence each other; for a pool that
  already has ticks they do, by a witness.
* **Clients of a pool.**  Strategies and the executor are trees `M` of pool calls and reads (`Client.v`).
  `runV` runs a tree on a pool value and records the calls; `compile` turns it into a memory program.
* **Concurrency.**  `Grid.v`: `main`'s launch loop, `wg.Add/Done/Wait`, the goroutines and their result slots
  are a state machine with one step per memory access.
* **Slices.**  A byte slice is its visible part and the hidden rest of its capacity, since Go bounds slice
  expressions by the capacity.  Tick slices, price buffers, transaction lists are lists.  The position map is
  an association list with the string key that the code builds.
* **Floating point.**  `float64` is the standard library's `SpecFloat` binary64 (round to nearest even),
  pure computation without axioms.  `FloatSpec.v` proves from its definition that each operation returns a
  representable number nearest to the exact value.  Operations are not fused (Go on amd64 does not, by default).

## 2. What is modelled, file by file

| file in `/repo` | model | properties |
|---|---|---|
| `uint256/fuzz.go` (the harness; the text of a crash is not modelled) | `Fuzz.v` | C78 |
| `uint256/uint256.go` arithmetic, comparison, bits, shifts, `Exp`, `Sqrt` | `U256.v`, `U256Div.v` (`Sqrt`), `Alias.v` | C01-C05, C11-C13, C18 |
| `uint256/uint256.go` `Udivrem`, Knuth division, `Div`, `Mod`, `SDiv`, `SMod`, `AddMod`; `uint256/div.go` | `U256Div.v` | C06-C09 |
| `uint256/mod.go`, `MulMod`, `MulModWithReciprocal` | `U256Mod.v` | C10 |
| `uint256/conversion.go` and the byte methods of `uint256.go` | `U256Conv.v` | C14-C17 |
| `lib/fullmath` | `U256Z.v`, `LibBridge.v`, `MathSpec.v`, `Ptr.v` | C19, C20, C92 |
| `lib/sqrtprice_math`, `lib/swapmath`, `lib/liquidity_amounts` | `SwapMath.v`, `LimbMath.v`, `Ptr.v`, `PtrRun.v` | C21-C25, C41, C57, C89, C92, C93 |
| `lib/tickmath` | `TickMath.v`, `TickConst.v`, `TickLog.v`, `Float64.v`, `LimbMath.v` | C26-C29, C56, C77, C89 |
| `lib/tickdata` | `TickData.v`, `TickHeap.v`, `LimbPool.v`, `Ptr.v` | C30-C33, C90, C92 |
| `lib/position`, `lib/pool` | `Pool.v`, `PoolHeap.v`, `LimbPool.v`, `Ptr.v` | C34-C40, C42-C46, C58, C59, C69-C72, C74, C75, C81-C88, C90, C92 |
| `lib/prices` | `Prices.v`, `LimbMath.v`, `PtrRun.v` | C47, C48, C89, C93 |
| `lib/strategy` (all twelve strategies) | `Strategy.v`, `LimbRun.v`, `PtrRun.v` | C51, C52, C60, C61, C63, C73, C79, C80, C88, C91, C93 |
| `lib/executor` | `Executor.v`, `Plan.v` (its specification), `LimbRun.v`, `PtrRun.v` | C49, C50, C62, C73, C80, C88, C91, C93 |
| `lib/transaction`, `main.go` reading side, `IntPow` | `Decimal.v` | C54, C55 |
| `main.go` grid of runs | `Grid.v` | C53 |
| `main.go` as a whole: `main`, `runAndAppend`, `getTransactions` | `Main.v` | C76, C80 |
| `main.go` statistics, `createResult`, `saveFile`; `lib/result` | `Stats.v` | C64-C68 |
| `lib/constants`, `lib/invariant` | constants and `invariant` in place | |

Simplifications, besides those above:

* `TickMath`'s lookup table of all ratios (`initTickMath`) is modelled by the function that fills it.
* The amounts inside a `Transaction` and a strategy's own fields are immutable values: the code clones them
  before writing.  Only the ticks' integers are shared between pools (`C92_a_clone_shares_the_ticks`), and those are in
  the memory model.  This is proved: C92 for the pool and everything below it, C93 for the strategies and the executor.
  The back-tests of C93 run one after the other; interleaved ones are C46 and C53.
* `math.Log` is a parameter `ln` of the statistics.  Where needed it is assumed finite and below 1024 in absolute
  value on positive finite doubles (`logarithm`), never anything about its accuracy.
* `saveFile` is reduced to which results reach the file: `Encode` writes only after everything was encoded.
* In `Grid.v` what a goroutine makes of its finished execution (`post`) is an arbitrary pure function.  In `Main.v` the
  statistics are part of the goroutine's program, so that their panics count; an amount that could not be read from
  its string has an arbitrary value.
* `big.Int`, `big.Float`, `encoding/binary`, `strconv`, `encoding/json`, `sort` and `math` are modelled by
  their documentation; for JSON, `Unmarshal` is taken to invert `Marshal` on `TransactionInput`.
* Memory accesses are atomic per 256-bit cell and sequentially consistent.  The theorem that makes this
  harmless is C46/C53 itself: distinct goroutines of `main` never touch the same cell, so no weaker memory
  model can distinguish them.

Not modelled: 32-bit architectures, the tests (section 6), `Format` (it forwards to `big.Int`), `Print`,
creating directories and files, flag parsing, wall-clock time and logging in `main.go`, the garbage collector and memory exhaustion.

## 3. Hypotheses that recur

* `wf x`: four words in `[0,2^64)`; `is_u256 v`: `0 <= v < 2^256`.  Every Go value satisfies them.
* `reach h p`: pool `p` results from `NewPool` by any sequence of exported operations that respect `allowed`:
  ends of ranges that are `placed`, no more burnt on a range than the ledger `h` has left, less than 2^128
  liquidity minted in all, swap amounts that are 256-bit values.  The code does not check these; section 4
  says what happens otherwise.  A tick is placed if it is zero or above, or a multiple of the spacing, or not in the
  last spacing of a word of 256 spacings (C30_placed); so the ranges of all strategies are covered, aligned or not,
  at the prices `main` is used for.  `h` is a ledger kept beside the pool, defined without reference to pool code.
* `trades way p p' x0 x1` (C71): any sequence of swaps and flashes from `p` to `p'`, with the net payments of the
  traders.
* `cash way keys h hs p r0 r1` (C69): the same histories with the tokens paid in less those paid out counted
  beside the pool (`r0`, `r1`).  The code keeps no such balance and no amounts for historical mints and burns; these
  pay at least, and receive at most, the exact worth of their liquidity.  `hs` is the strategies' part of the ledger.
* `account keys fuel h hs p tt h' hs' q i0 i1 o0 o1` (C73): the calls of a run with the market's payments counted
  beside them, under the same conditions as `cash`.
* `others m l u h0 p0 h p v0 v1` (C75): any history from `p0` to `p` without a call on the position `[l, u)` of
  liquidity `m`; `v0`, `v1` count what is paid into swaps and lent, and the ledger keeps its bounds after every call.
* `keepsClear` (C69-C71, C73): the downward swap does the same under some limit that no misplaced tick (C31, section 4)
  lies beyond.  By C72 this covers swaps without a limit, as the executor makes them, that stop before such a tick.
* `steady` (C80) follows a run with a ledger of all calls (`World`) and asks that every call respects `guard` and every
  placement is `aimed`.  Both speak about sizes, ticks and prices, never about whether a call returns.  `startB` decides
  them (it asks a little more: swaps stop above 2^96 downwards) and is run on two strategies.
* "on which the call returns": the statement speaks about `Ok` results.  Where panics matter they have their
  own property (C08, C20, C27, C31, C32, C43, C44, C57, C74, C75, C79).
  C80 shows that whole runs return, and with them the whole program (`mainSteady`: every run of `main` keeps to the bounds).

## 4. What the proofs found in the code

Each of these is a `_refuted` theorem with a witness, or an exact characterisation in a theorem.

* `getNextSqrtPriceFromAmount1RoundingDown` multiplies amounts of 2^160 and more by 2^96 without a wider product.
  Paying that much token1 into a deep pool buys nothing, and all of it becomes fee (C81).  `ComputeSwapStep` multiplies an amount
  by `10^6 - fee` in 256 bits, and so 2^253 units of token0 buy nothing either (C87).
* An exact output that the rest of a step's range just covers takes that whole range, though less of it would pay as much:
  asking for what an exact input yields can cost more than that input (C82).
* `ExactOutputSwap` does not negate its amount: called with an ordinary amount it is an exact input of the other token (C85).
* From negative ticks in the last slot but one of a word the upward search runs past the word's end.
  A payment split there can yield one unit more than the same payment at once (C83), and an output in two parts can cost
  two units less (C84); elsewhere, within the bounds of C83 and C84, splitting never pays.
* At a misplaced tick (C31) a downward swap takes token0 at the reciprocal price, so it can beat the pool's price (C86).
* `GetAmounts` counts the liquidity but not the fees it has earned.  So between two rebalances no recorded snapshot of a
  strategy that does not swap is above the value of having held the tokens, however much the position earns (C88).
* `position.Info.Clone` copies `TokensOwed1` into `TokensOwed0` (C46).
* `TickData.Clone` copies pointers: a clone made after ticks exist shares their counters (C46).  `main`
  clones an empty pool, for which isolation is proved.
* Position keys go through `string(rune)`: all negative ticks and all surrogates collide (C42).  Two ranges that
  share a key can then collect fees nobody paid: the balance goes negative (C69).  A strategy that holds several
  ranges below tick zero can so end a run with 10^40 times what it started with (C73).
* `NextInitializedTickWithinOneWord` truncates instead of flooring: for negative ticks in the last spacing of
  a word it returns a tick above; a downward swap can then raise the price or never end (C31, C36, C38), and
  pay out tokens the pool needs to pay its positions back (C69) and pay token 1 for moving the price up (C71).
* `MulDiv` panics on word-length conditions rather than on overflow (C20); so a position update panics when
  `0 < liquidity * growth < 2^64` (C43), and a swap step can panic above price 2^128 (C57).
* `Prices.Add` misses overflow of the square itself: price 2^128 is stored as 0 (C48).  `Average` and
  `Volatility` count empty slots as zeros; length 1 panics (C47).
* `nextPriceSnapshot` starts at 0, so with real timestamps a price is recorded at every transaction (C50).
* The executor's value squares the price modulo 2^256: at square-root price 2^128 it panics, above it is
  wrong by orders of magnitude (C62).
* `LimitOrder` places orders 10 ticks wide and `V2` uses ticks +-887270 whatever the spacing; the Bollinger and
  volatility bands are not rounded to the spacing (C63 says so).  The pool does not check alignment.  `main`'s own runs
  mint such ranges; the theorems about pools cover them, except for ends on the misplaced ticks below zero (C30).
* Three strategies keep their position list in `BurnAll`; a second `BurnAll` pays again (C52).
* `SetBytes29` tests byte 23 (C14).  `fromHex` does not clear its receiver, so `UnmarshalText` into a
  nonzero value mixes old and new digits (C15).
* `Reciprocal` is not always the floor; `MulModWithReciprocal` trusts a stale reciprocal (C10).
* `IntPow` never ends for `m = 2^63-1` and returns `n` for negative `m` (C55).
* The standard deviation is a difference of two rounded terms under a square root: constant returns can make it
  NaN (a value doubling for 21 hours does, C67).  A start value of zero makes drawdown and return NaN or infinite
  (C64).  JSON cannot encode either, `saveFile` drops the error, and all results of the program are lost (C68).
* `main` panics before the first run when the data end an update interval or more short of 30 days after their
  start.  When they end less than that short, it writes 65535 results of runs that never invested (C76).  The start
  time it saves is that of the first transaction, not that of the strategies, 30 days later.
* A band strategy panics while the price stands still, or when its band ends exactly at the maximal price; the four
  strategies with a price history panic when the run starts at the first transaction (C79).
* `Fuzz` returns before its switch: the harness only ever tests `Sqrt` (C78).
* Burning zero liquidity on an uninitialised tick leaves a tick with zero gross liquidity, and overburning
  wraps: hence `allowed`.

## 5. Trusted base

* Coq 8.16.1's kernel and `coqchk`, including the virtual machine used by `vm_compute`.
* `Print Assumptions` beneath every theorem of the manifest prints "Closed under the global context": no
  axiom is used by any of them.  `coqchk` lists, for the standard library as a whole, the seven
  `Coq.ssr.ssrunder.*` parameters of the standard library's `ssreflect` plugin files; nothing depends on them.
* The reading of `/repo` recorded in the comment of each definition, and the documented behaviour of Go and of
  the packages named in section 2.
* No axioms, no functors or module types, no kernel check switched off, nothing admitted.

## 6. How the statements were tested

For each round of `seeded/LOG.jsonl` a scratch copy of the development was edited, one definition at a time,
the way a realistic bug would, and rebuilt.  The log names the theorems that failed, and the theorems that
were tightened when none did.

Two limits of that log.  A theorem counts as failed when its proof, or one it rests on, no longer compiles; that
does not by itself show that its statement became false.  Many rounds rebuilt only the property files nearest to
the edit.  Four edits of the last round (B01, B03, B06, B08) broke no theorem in the files rebuilt, and the rebuild
of the other files was stopped unfinished, so they stand as open survivors; nothing was tightened for them.

The model itself was tested against the repository's own unit tests: `Conformance.v` replays every literal
expectation of `uint256_test.go`, `conversion_test.go` and `mod_test.go` (shifts, bytes, sign extension, the
257 rows of `TestRlpEncode`, the accepted and refused hexadecimal strings, `SetBytes` at every length) as
computed examples.  They are tests, no property rests on them.  The tests under `lib/` print without an
expectation, and the replays of transactions need data files that are not in the repository.
