{"id": "C01", "title": "256-bit addition and subtraction", "statement": "Add, Sub, Neg, AddUint64 and SubUint64 return the integer result modulo 2^256, and the overflow flags of AddOverflow and SubOverflow are set exactly when the unbounded result lies outside [0, 2^256).", "quantifier": "every pair of 256-bit operands", "why_tests_cant": "2^512 operand pairs; carry chains across four limbs fail on sparse inputs only", "anchors": ["uint256/uint256.go: Add, AddOverflow, AddUint64, Sub, SubOverflow, SubUint64, Neg"]}
{"id": "C02", "title": "256-bit multiplication", "statement": "Umul returns the exact 512-bit product, Mul and squared return it modulo 2^256, and MulOverflow's flag is set exactly when the product does not fit in 256 bits.", "quantifier": "every pair of 256-bit operands", "why_tests_cant": "carry propagation between partial products is data dependent over 2^512 inputs", "anchors": ["uint256/uint256.go: Umul, UmulStep, UmulHop, Mul, MulOverflow, squared"]}
{"id": "C03", "title": "Comparisons are the integer order", "statement": "Eq, Lt, Gt, Cmp, IsZero, LtUint64, GtUint64, IsUint64 decide the unsigned order and Slt, Sgt, Sign the two's-complement order.", "quantifier": "every pair of 256-bit operands", "why_tests_cant": "mixed-limb and sign-boundary cases cannot be enumerated", "anchors": ["uint256/uint256.go: Lt, Gt, Eq, Cmp, Slt, Sgt, Sign, LtUint64, GtUint64, IsUint64, IsZero"]}
{"id": "C04", "title": "Shifts", "statement": "Lsh returns x*2^n mod 2^256, Rsh returns floor(x/2^n), and SRsh returns the floor of the signed value over 2^n (as two's complement), for every shift count.", "quantifier": "every 256-bit value and every shift count of any size", "why_tests_cant": "256-bit values times all counts; three code paths per limb offset", "anchors": ["uint256/uint256.go: Lsh, Rsh, SRsh"]}
{"id": "C05", "title": "Bitwise operations, byte extraction and sign extension", "statement": "And, Or, Xor, Not act on every bit as documented; Byte returns the n-th big-endian byte (0 for n>=32); ExtendSign(x,b) equals the sign extension of the low b+1 bytes and is the identity for b>=31.", "quantifier": "every operand and every index", "why_tests_cant": "per-bit claims over 256-bit values", "anchors": ["uint256/uint256.go: And, Or, Xor, Not, Byte, ExtendSign"]}
{"id": "C06", "title": "Unsigned division and remainder", "statement": "Div returns floor(x/y) and Mod returns x mod y; both return 0 for y = 0; neither ever panics.", "quantifier": "every pair of 256-bit operands", "why_tests_cant": "Knuth-D corrections (qhat too large by one or two) occur with probability about 2^-63, beyond random testing", "anchors": ["uint256/uint256.go: Div, Mod, Udivrem, udivremKnuth, udivremBy1", "uint256/div.go: udivrem2by1, reciprocal2by1"]}
{"id": "C07", "title": "Signed division and remainder", "statement": "SDiv returns the truncated quotient and SMod the remainder with the dividend's sign, of the two's-complement operands, 0 for a zero divisor.", "quantifier": "every pair of 256-bit operands", "why_tests_cant": "four sign combinations over 2^512 operands, minimum-value boundary", "anchors": ["uint256/uint256.go: SDiv, SMod, Abs, Neg"]}
{"id": "C08", "title": "Multi-word division is exact or panics, and exactly when", "statement": "Udivrem on a numerator of any word length and a 256-bit divisor returns the exact quotient and remainder whenever it returns, leaving the words of the quotient slice past the quotient unchanged, and it panics exactly when the numerator or divisor is zero, the quotient slice is too short, the numerator has more than eight significant words, or the numerator has at least two words fewer than the divisor.", "quantifier": "every numerator word list and every divisor", "why_tests_cant": "rare qhat corrections and length-dependent index panics", "anchors": ["uint256/uint256.go: Udivrem, udivremKnuth, udivremBy1, subMulTo, addTo", "uint256/div.go: reciprocal2by1, udivrem2by1"]}
{"id": "C09", "title": "Modular addition", "statement": "AddMod(x,y,m) returns (x+y) mod m, 0 for m = 0, including sums over 2^256.", "quantifier": "every triple of 256-bit operands", "why_tests_cant": "fast and slow paths selected by limb patterns", "anchors": ["uint256/uint256.go: AddMod"]}
{"id": "C10", "title": "Modular multiplication", "statement": "MulMod(x,y,m) returns (x*y) mod m, 0 for m = 0, on the Barrett path as well as on the division path, and never panics. Reciprocal(m) of a modulus of at least 2^192 is a 320-bit mu with 2^512/m - 4 < mu <= 2^512/m (not always the floor: 2^512/m - 1 for powers of two), and 0 for smaller m. reduce4 with any mu in that range returns x mod m for every 512-bit x with at most ten rounds of its final loop, and MulModWithReciprocal agrees with MulMod when given Reciprocal(m); a stale mu is not detected. leadingZeros counts the zero bits above the top set bit.", "quantifier": "every triple of 256-bit operands", "why_tests_cant": "Newton-Raphson reciprocal and Barrett error bounds hold only by analysis, not by sampling", "anchors": ["uint256/uint256.go: MulMod, MulModWithReciprocal", "uint256/mod.go: Reciprocal, reduce4"]}
{"id": "C11", "title": "Exponentiation", "statement": "Exp(base, e) returns base^e mod 2^256 for every 256-bit exponent.", "quantifier": "every base and exponent", "why_tests_cant": "256-bit exponents", "anchors": ["uint256/uint256.go: Exp, squared"]}
{"id": "C12", "title": "Integer square root", "statement": "Sqrt terminates and returns floor(sqrt(x)).", "quantifier": "every 256-bit value", "why_tests_cant": "Newton iteration termination and off-by-one at perfect squares", "anchors": ["uint256/uint256.go: Sqrt"]}
{"id": "C13", "title": "Bit and byte length", "statement": "BitLen is the least n with x < 2^n; ByteLen is ceil(BitLen/8).", "quantifier": "every 256-bit value", "why_tests_cant": "boundary per limb", "anchors": ["uint256/uint256.go: BitLen, ByteLen"]}
{"id": "C14", "title": "Byte encodings round-trip", "statement": "SetBytes(Bytes32(x)) = SetBytes(Bytes(x)) = x; Bytes32 and Bytes are the big-endian form in 32 and in ByteLen bytes (no leading zero), Bytes20 that of x mod 2^160; PaddedBytes(n), WriteToSlice, WriteToArray20/32 store the big-endian low bytes that fit (zeros in front, bytes behind the 32nd untouched); SetBytes of a buffer of any length is its big-endian value modulo 2^256; SetBytesN (1..32, except 29) reads the first N bytes and panics on a shorter slice. SetBytes29 tests byte 23 instead of byte 28: it panics exactly when the length is below 24 or the capacity below 29, and otherwise reads bytes behind the end of the slice.", "quantifier": "every value, every buffer of every length", "why_tests_cant": "33 length-specialised decoders with hand-written shifts", "anchors": ["uint256/uint256.go: SetBytes, Bytes32, Bytes20, Bytes, PaddedBytes, WriteToSlice", "uint256/conversion.go: SetBytes1..SetBytes32, bigEndianUint40/48/56"]}
{"id": "C15", "title": "Hex encoding round-trips and is canonical", "statement": "FromHex(Hex(x)) = x and Hex never panics and writes the canonical lower-case form; FromHex accepts exactly the 0x/0X-prefixed strings of 1 to 64 hex digits without leading zeros (\"0x0\" allowed) and returns the number they denote; UnmarshalJSON is UnmarshalText on the inside of a quoted string and rejects anything else. UnmarshalText does not clear its receiver: limb j becomes (old * 16^(digits in limb j) + digits) mod 2^64, which is the denoted number when the receiver is zero or the string has 64 digits, and not otherwise (\"0x1\" read into 5 gives 0x51).", "quantifier": "every value and every string", "why_tests_cant": "strings of arbitrary content", "anchors": ["uint256/conversion.go: Hex, FromHex, fromHex, checkNumberS, MarshalText, UnmarshalText"]}
{"id": "C16", "title": "math/big conversions", "statement": "ToBig is the unsigned and SToBig the two's-complement value; FromBig of any integer b is b mod 2^256 with the overflow flag set exactly when |b| >= 2^256; FromBig(ToBig(x)) = FromBig(SToBig(x)) = x without overflow.", "quantifier": "every 256-bit value and every (unbounded) big integer", "why_tests_cant": "unbounded integers", "anchors": ["uint256/conversion.go: ToBig, SToBig, FromBig, SetFromBig"]}
{"id": "C17", "title": "RLP encoding is canonical and uniquely decodable", "statement": "EncodeRLP writes the canonical RLP of the minimal big-endian bytes, so two different values never have the same encoding and no encoding is a proper prefix of another.", "quantifier": "every pair of values", "why_tests_cant": "pairs of 256-bit values", "anchors": ["uint256/conversion.go: EncodeRLP"]}
{"id": "C18", "title": "Destination aliasing is harmless", "statement": "Every in-place method (Add, Sub, AddOverflow, SubOverflow, AddUint64, SubUint64, Mul, MulOverflow, squared, Exp, Div, Mod, SDiv, SMod, AddMod, MulMod, And, Or, Xor, Not, Set, Neg, Abs, Byte, ExtendSign, Lsh, Rsh, SRsh, Sqrt) leaves in its receiver the mathematical result for the operand values before the call, changes no other variable, and returns normally, whichever of receiver and operands are the same variable.", "quantifier": "every memory of 256-bit variables and every choice of live pointers for receiver and operands", "why_tests_cant": "aliasing patterns times values", "anchors": ["uint256/uint256.go: Add, Sub, Mul, Div, Mod, Lsh, Rsh, SDiv, SMod, AddMod"]}
{"id": "C19", "title": "MulDiv is exact", "statement": "Whenever MulDiv(a,b,d) returns, it returns floor(a*b/d) mod 2^256 (the exact floor when that fits in 256 bits) and MulDivRoundingUp the ceiling, with intermediate 512-bit precision.", "quantifier": "every triple of 256-bit values", "why_tests_cant": "phantom overflow needs full 512-bit reasoning", "anchors": ["lib/fullmath/fullmath.go: MulDiv, MulDivRoundingUp"]}
{"id": "C20", "title": "MulDiv panics exactly on a word-length condition", "statement": "MulDiv and MulDivRoundingUp panic exactly when the product is nonzero and the denominator is zero, or has at least two more significant 64-bit words than the product, or at least five fewer; hence never for a nonzero denominator below 2^128, or at most the product, with a fitting quotient.  The natural claim 'a nonzero denominator with a fitting quotient never panics' is false of the code (witness).", "quantifier": "every triple of 256-bit values", "why_tests_cant": "the panicking region is a length relation between product and divisor", "anchors": ["lib/fullmath/fullmath.go: MulDiv, MulDivRoundingUp", "uint256/uint256.go: Udivrem"]}
{"id": "C21", "title": "Token amount deltas are exactly rounded", "statement": "GetAmount0Delta and GetAmount1Delta return, with roundUp=false, exactly the floor and, with roundUp=true, exactly the ceiling of liquidity*2^96*(sqrtB - sqrtA)/(sqrtA*sqrtB) and liquidity*(sqrtB - sqrtA)/2^96 despite two successive roundings; they are symmetric in the two prices; the signed versions negate the floor for negative liquidity.", "quantifier": "every liquidity below 2^160 and every pair of positive prices below 2^160 on which the call returns", "why_tests_cant": "two nested roundings over 400 bits of input", "anchors": ["lib/sqrtprice_math/sqrtprice_math.go: GetAmount0Delta, GetAmount1Delta"]}
{"id": "C22", "title": "Next price rounds in favour of the pool", "statement": "GetNextSqrtPriceFromInput moves the price in the trade's direction and never further than the input pays for; GetNextSqrtPriceFromOutput moves it at least as far as the output requires.", "quantifier": "every price in [2^32, 2^160), liquidity below 2^160 and amount on which the call returns and the exact next price is positive and fits in 256 bits", "why_tests_cant": "rounding direction is a one-unit effect over 3x256-bit inputs", "anchors": ["lib/sqrtprice_math/sqrtprice_math.go: GetNextSqrtPriceFromInput, GetNextSqrtPriceFromOutput"]}
{"id": "C23", "title": "A swap step never passes its target", "statement": "ComputeSwapStep returns a price between the current price and the target price (inclusive).", "quantifier": "every current price and target in [2^32, 2^160), liquidity below 2^160, remaining amount below 2^256 and fee below 100% on which it returns", "why_tests_cant": "needs the rounding relation between two inverse formulas", "anchors": ["lib/swapmath/swapmath.go: ComputeSwapStep"]}
{"id": "C24", "title": "A swap step respects the remaining amount", "statement": "For exact input, amountIn + fee never exceeds the remaining input, and equals it when the target is not reached; for exact output, amountOut never exceeds the remaining output.", "quantifier": "every current price and target in [2^32, 2^160), liquidity below 2^160, remaining amount below 2^256 and fee below 100% on which it returns", "why_tests_cant": "one-unit overcharges", "anchors": ["lib/swapmath/swapmath.go: ComputeSwapStep"]}
{"id": "C25", "title": "A swap step collects the fee", "statement": "When the target is reached, the fee is the least integer f with f*(10^6 - feePips) >= amountIn*feePips, so the pool always gets at least its fee rate.", "quantifier": "every current price and target in [2^32, 2^160), liquidity below 2^160, remaining amount below 2^256 and fee below 100% on which it returns", "why_tests_cant": "one-unit rounding", "anchors": ["lib/swapmath/swapmath.go: ComputeSwapStep"]}
{"id": "C26", "title": "Tick to price is strictly increasing", "statement": "GetSqrtRatioAtTick is strictly increasing on all ticks in [-887272, 887272] and takes the published minimum and maximum ratios at the ends.", "quantifier": "every tick", "why_tests_cant": "1.77 million ticks, and every pair of them", "anchors": ["lib/tickmath/tickmath.go: getSqrtRatioAtTick, GetSqrtRatioAtTick, initTickMath"]}
{"id": "C27", "title": "Price to tick inverts tick to price", "statement": "For every price in [min ratio, max ratio), GetTickAtSqrtRatio terminates and returns the unique tick t with ratio(t) <= price < ratio(t+1); it panics on every other price. In particular it returns t on ratio(t).", "quantifier": "every 256-bit price", "why_tests_cant": "2^160 prices", "anchors": ["lib/tickmath/tickmath.go: GetTickAtSqrtRatio"]}
{"id": "C28", "title": "Tick price accuracy", "statement": "GetSqrtRatioAtTick(t) lies between sqrt(1.0001^t)*2^96 / sqrt(1+2^-58) and sqrt(1.0001^t)*2^96 * sqrt(1+2^-58) + 1. Each of the twenty constants is the integer nearest to 2^128 * (1/1.0001)^(2^i/2) and is multiplied in for bit i of the tick.", "quantifier": "every tick", "why_tests_cant": "real-valued bound at 1.77 million points", "anchors": ["lib/tickmath/tickmath.go: getSqrtRatioAtTick"]}
{"id": "C29", "title": "Rounding ticks to the spacing", "statement": "Round, Ceil and Floor return the nearest (ties away from zero) / next higher / next lower multiple of the tick spacing although they compute in float64.", "quantifier": "every tick below 2^51 in magnitude and every positive spacing up to 2^51", "why_tests_cant": "float64 rounding near ties", "anchors": ["lib/tickmath/tickmath.go: Round, Ceil, Floor"]}
{"id": "C30", "title": "Initialised ticks form a sorted map", "statement": "The tick table is a strictly sorted map: GetTick's binary search always ends, finds exactly the ticks present and panics on the others; UpdateTick and ClearTick change one tick only and keep the order; and after every history of exported pool operations (the ends of ranges at or above tick zero, or multiples of the spacing, or at least not in the last spacing of a word of 256 spacings; no range burnt below zero, less than 2^128 minted in all) the table holds exactly the ticks with nonzero gross liquidity, with the gross and net amounts the ledger of mints and burns gives.", "quantifier": "every sorted table; every such history of mints, burns, flashes, collects and swaps", "why_tests_cant": "list shapes of any length", "anchors": ["lib/tickdata/tickdata.go: UpdateTick, ClearTick, makeTick, binarySearch, GetTick, nextInitializedTick"]}
{"id": "C31", "title": "Next initialised tick search", "statement": "Searching up, NextInitializedTickWithinOneWord returns the nearest initialised tick above, or the end of the word with a false flag. Searching down it returns the nearest initialised tick at or below, or the start of the word with a false flag, except (violation: truncating instead of flooring division) for negative ticks in the last spacing of their 256-spacing word, off its first tick, where it returns the start of the next word, above the tick. It panics exactly for an empty table or spacing 0.", "quantifier": "every sorted tick list, tick, direction and spacing", "why_tests_cant": "every table, word boundary and sign; the exception is a thin set of ticks", "anchors": ["lib/tickdata/tickdata.go: NextInitializedTickWithinOneWord"]}
{"id": "C32", "title": "Fee growth inside is additive", "statement": "For ticks a <= b <= c, growth inside [a,b) plus growth inside [b,c) equals growth inside [a,c) modulo 2^256.", "quantifier": "every tick table, current tick and global growth", "why_tests_cant": "modular identities over 256-bit counters", "anchors": ["lib/tickdata/tickdata.go: GetFeeGrowthInside"]}
{"id": "C33", "title": "Crossing a tick does not change accrued fees", "statement": "Crossing tick t (flipping its outside counters while the current tick moves across t) leaves the fee growth inside every range unchanged; crossing twice restores the counters.", "quantifier": "every tick table, range and global growth", "why_tests_cant": "modular identity over all states", "anchors": ["lib/tickdata/tickdata.go: Cross, GetFeeGrowthInside"]}
{"id": "C34", "title": "Active liquidity equals the sum of net liquidity at or below the current tick", "statement": "After every such history the pool's liquidity is the ledger's liquidity on ranges containing the current tick, is below 2^128, and equals the sum of liquidityNet over initialised ticks <= current tick (mod 2^256).", "quantifier": "every history of pool operations from a fresh pool with ranges as in C30, no range burnt below zero and less than 2^128 minted in all", "why_tests_cant": "unbounded histories", "anchors": ["lib/pool/pool.go: Mint, Burn, swap, modifyPosition", "lib/tickdata/tickdata.go: UpdateTick, Cross"]}
{"id": "C35", "title": "Tick and price agree", "statement": "After every history, ratio(TickCurrent) <= price <= ratio(TickCurrent+1) and the price stays below MaxSqrtRatio; the right inequality is strict in a new pool and is kept strict by every operation except a downward swap.", "quantifier": "every history of pool operations", "why_tests_cant": "unbounded histories", "anchors": ["lib/pool/pool.go: NewPool, swap"]}
{"id": "C36", "title": "Swaps move the price in their direction and not past the limit", "statement": "An upward swap that returns leaves the price between the starting price and the limit. A downward swap leaves it at or above the limit, and at or below the starting price provided no tick of C31's exception lies between the limit and the current tick; without that proviso the claim is violated (witness: selling 10^15 token0 at tick -30 with spacing 60 raises the price). Swaps change no position, no tick's net or gross amounts, and only the input token's fee counter.", "quantifier": "every reachable pool, amount and limit", "why_tests_cant": "multi-step swaps over arbitrary tick tables", "anchors": ["lib/pool/pool.go: ExactInputSwap, ExactOutputSwap, swap"]}
{"id": "C37", "title": "Swap amounts respect the request", "statement": "An exact-input swap never takes more input than specified (and takes exactly that unless it stops at the limit); an exact-output swap never pays out more than specified; the other side has the opposite sign.", "quantifier": "every reachable pool, amount and limit", "why_tests_cant": "multi-step accumulation", "anchors": ["lib/pool/pool.go: swap"]}
{"id": "C38", "title": "Swaps terminate", "statement": "Upward swaps, and downward swaps without a tick of C31's exception between limit and current tick, end within 1774546 rounds. Every swap that ends at all does so within that many rounds, with the same result. The exception does occur (violation): in a reachable pool at tick -30 with spacing 60, selling 10^16 token0 never ends.", "quantifier": "every reachable pool, amount and limit", "why_tests_cant": "non-termination cannot be observed by a test", "anchors": ["lib/pool/pool.go: swap", "lib/tickdata/tickdata.go: NextInitializedTickWithinOneWord"]}
{"id": "C39", "title": "Minting then burning restores the pool", "statement": "Minting liquidity on a range and burning the same amount gives back the very same pool (every tick, counter, position); with MintStrategy and BurnStrategy all but the position's entry is restored and the burn never fails.", "quantifier": "every reachable pool, range and amount (below 2^160 for the strategy operations)", "why_tests_cant": "all tables and ranges", "anchors": ["lib/pool/pool.go: Mint, Burn", "lib/tickdata/tickdata.go: UpdateTick, ClearTick"]}
{"id": "C40", "title": "No profit from mint and burn", "statement": "Burning what was just minted returns no more of either token than minting it charged.", "quantifier": "every reachable pool, range and amount below 2^160", "why_tests_cant": "one-unit rounding leaks", "anchors": ["lib/pool/pool.go: MintStrategy, BurnStrategy", "lib/sqrtprice_math/sqrtprice_math.go: GetAmount0DeltaRounded, GetAmount1DeltaRounded"]}
{"id": "C41", "title": "Liquidity bought never costs more than the budget", "statement": "The amounts charged for the liquidity computed by GetLiquidityForAmount from a budget (amount0, amount1) never exceed that budget, so a strategy's balance never underflows.", "quantifier": "every positive price, range and budget of 256-bit values for which the liquidity is below 2^255 and the calls return", "why_tests_cant": "composition of five roundings", "anchors": ["lib/liquidity_amounts/liquidity_amounts.go: GetLiquidityForAmount", "lib/pool/pool.go: MintStrategy", "lib/strategyimplementation: mintPosition"]}
{"id": "C42", "title": "Positions are keyed by their range", "statement": "Two ranges share a position exactly when both ticks become the same code point, where everything that is not a code point (every negative tick, surrogates) becomes U+FFFD; operations on one key leave other keys alone. So distinct non-negative non-surrogate ranges are stored separately, and (violation) ranges such as [-60,60] and [-120,60] share one position.", "quantifier": "every pair of ranges", "why_tests_cant": "pairs of ranges", "anchors": ["lib/pool/pool.go: updatePosition, BurnStrategy, CollectStrategy"]}
{"id": "C43", "title": "Position fees", "statement": "Each position update that returns credits floor(liquidity*(growth - last growth)/2^128) per token (mod 2^256), stores the current growth and adds the delta; it panics exactly when a nonzero product liquidity*growth difference is below 2^64; any number of updates credits at most what one update would, and less by at most one unit per update.", "quantifier": "every position history", "why_tests_cant": "roundings over unbounded histories", "anchors": ["lib/position/position.go: Update"]}
{"id": "C44", "title": "Collect pays out exactly what is owed", "statement": "CollectStrategy pays both owed amounts in full, sets them to zero and changes nothing else; it panics exactly when the position does not exist.", "quantifier": "every pool state and range", "why_tests_cant": "all states", "anchors": ["lib/pool/pool.go: CollectStrategy"]}
{"id": "C45", "title": "A flash only changes fee growth", "statement": "Flash pays ceil(amount*fee/1e6) per token, adds floor(paid*2^128/liquidity) to each global fee counter (mod 2^256) and changes nothing else; it returns only with positive liquidity.", "quantifier": "every pool state with fee below 1e6, and all amounts", "why_tests_cant": "all states", "anchors": ["lib/pool/pool.go: Flash"]}
{"id": "C46", "title": "Cloned pools are isolated", "statement": "Operations on a pool and on clones of it, interleaved in any way, never influence each other as long as no tick was initialised when the clone was made: every client observes exactly what it observes when run alone on a pool of its own. Clone is a faithful copy exactly if owed0 = owed1 in every position (Info.Clone copies TokensOwed1 into both fields). With initialised ticks isolation fails (witness: minting on the clone changes the counters of the original), because TickData.Clone copies pointers.", "quantifier": "every number of clients, every client program, every interleaving of their memory accesses", "why_tests_cant": "schedules", "anchors": ["lib/pool/pool.go: Clone", "lib/tickdata/tickdata.go: Clone", "lib/position/position.go: Clone"]}
{"id": "C47", "title": "Price history is a ring buffer", "statement": "After any prices added to a history of length n, the buffer read from its index holds the last n of n zeros followed by the (wrapped) squares of the prices, in order; for n <= 2^26 Average is the floor of their sum over n and Volatility the floor of the sample standard deviation around that floor (zeros included while fewer than n were added); a history of length 1 has no volatility (panic).", "quantifier": "every sequence of prices and every length", "why_tests_cant": "unbounded sequences", "anchors": ["lib/prices/prices.go: NewPrices, Add, Average, Volatility"]}
{"id": "C48", "title": "Squared price overflow is detected", "statement": "Prices.Add accepts exactly the prices whose square modulo 2^256 is below 2^230 and panics on the others; below 2^128 these are the prices below 2^115, stored as exact squares. It does not detect that the square itself does not fit in 256 bits (witness: price 2^128 is accepted and stored as 0).", "quantifier": "every price", "why_tests_cant": "needs all 256-bit prices", "anchors": ["lib/prices/prices.go: Add"]}
{"id": "C49", "title": "Every transaction is executed once, in order", "statement": "An execution calls the pool with exactly the transactions up to the first one past the end time, each once and in list order, with only the strategy's own calls between them. The strategy starts at most once, at the first transaction at or after the start time, and is rebalanced only after that. For times and intervals below 2^62 the execution equals carrying out the unique schedule that satisfies the declarative rules.", "quantifier": "every transaction list and every interval configuration", "why_tests_cant": "unbounded lists and schedules", "anchors": ["lib/executor/executor.go: Run, CreateExecution"]}
{"id": "C50", "title": "Snapshot schedule", "statement": "With s the start time, value snapshot n+1 (rebalance n+1) is taken at the first transaction at or after s+(n+1)*interval, never twice, at most one per transaction; one value is recorded at the start, one per value snapshot and one at the end. Price snapshot n+1 is taken at the first transaction later than n*interval counted from time 0 - so with real timestamps at every transaction, whatever the interval.", "quantifier": "every timestamp sequence", "why_tests_cant": "unbounded lists", "anchors": ["lib/executor/executor.go: Run"]}
{"id": "C51", "title": "Strategy balances are conserved", "statement": "For every strategy, Init, Rebalance and BurnAll change each balance by exactly what their pool calls collected minus what their mints and swaps charged (mod 2^256); the recorded positions change by exactly what was minted and burnt; BurnAll and the first part of Rebalance burn and collect every recorded position once, in order, and return the resulting balances.", "quantifier": "every strategy, parameter, state and pool", "why_tests_cant": "all states", "anchors": ["lib/strategy/*.go: mintPosition, BurnAll, Rebalance, Init"]}
{"id": "C52", "title": "BurnAll twice", "statement": "BurnAll twice in a row equals BurnAll once for every strategy that empties its position list, and for all on an empty list. TwoInterval, ConstantInterval and IntervalAroundPrice keep the list: a second BurnAll burns the same liquidity again and pays the strategy twice (witness).", "quantifier": "every strategy, state and pool", "why_tests_cant": "all states", "anchors": ["lib/strategy/*.go: BurnAll"]}
{"id": "C53", "title": "Parallel runs equal sequential runs", "statement": "Running the grid of runs as goroutines in batches, under every schedule of main and the goroutines and every interleaving of their memory accesses: a written result slot holds the value of the sequential run, main gets past the last wait only when all slots are written, a panic occurs only if a sequential run panics, and if the sequential runs end then so does the program, after a bounded number of steps, without a panic and without deadlock. Never are more goroutines at work than the size of a batch.", "quantifier": "every interleaving of the goroutines", "why_tests_cant": "schedules", "anchors": ["main.go: main, runAndAppend"]}
{"id": "C54", "title": "Decimal amounts round-trip", "statement": "The decimal string written for an amount is that of its signed value and is read back as the same 256-bit value; a Swap, Mint, Burn or Flash transaction written by MarshalJSON and read by getTransactions keeps every field its type uses; any decimal string is read as its value modulo 2^256.", "quantifier": "every 256-bit amount, every transaction of the four types, every decimal string", "why_tests_cant": "2^256 strings", "anchors": ["lib/transaction/transaction.go: MarshalJSON", "main.go: stringToUint256"]}
{"id": "C55", "title": "Integer power", "statement": "IntPow(n, m) is n^m wrapped to a 64-bit int for 0 <= m < 2^63-1; it is n for a negative m, and for m = 2^63-1 the loop never ends.", "quantifier": "every base and exponent", "why_tests_cant": "unbounded exponents", "anchors": ["main.go: IntPow"]}
{"id": "C56", "title": "Most significant bit", "statement": "MostSignificantBit returns floor(log2 x) for every positive x, and 0 for 0.", "quantifier": "every 256-bit value", "why_tests_cant": "2^256 values", "anchors": ["lib/tickmath/tickmath.go: MostSignificantBit"]}
{"id": "C57", "title": "A swap step does not panic on ordinary values", "statement": "ComputeSwapStep returns for all prices in [2^32, 2^128), liquidity below 2^128, input amounts below and output amounts up to 2^128 and fees below 100%; above price 2^128 it can panic (witness).", "quantifier": "every price pair, liquidity, amount and fee in those ranges", "why_tests_cant": "the panic comes from a word-length relation between a rounded intermediate product and the price", "anchors": ["lib/swapmath/swapmath.go: ComputeSwapStep", "lib/fullmath/fullmath.go: MulDivRoundingUp", "uint256/uint256.go: Udivrem"]}
{"id": "C58", "title": "A swap's fees go to the liquidity in range", "statement": "The fees of a swap are taken round by round. Each round adds its fee, divided by the liquidity in range on the tick it started on, to the global growth of the token paid in; without liquidity in range it takes no fee. The rounds start between the ticks the swap starts and ends on (downwards: if no tick on the way is misplaced, C31). The growth inside every range between initialised ticks increases by exactly the shares of those rounds that started on a tick inside the range; the other token's growth stays. The fees together are at most the input and at least the pool's fee rate of it, and weighted by the minted liquidity the shares add up to at most the fees.", "quantifier": "every reachable pool, swap and range", "why_tests_cant": "multi-round swaps crossing arbitrary ticks with wrapping counters", "anchors": ["lib/pool/pool.go: swap", "lib/tickdata/tickdata.go: Cross, GetFeeGrowthInside"]}
{"id": "C59", "title": "Fee credits of one swap are covered by its input", "statement": "For every list of different ranges, the fees their minted liquidity earns by a swap (floored per range) add up to no more than what the trader paid in.", "quantifier": "every reachable pool, swap and list of ranges", "why_tests_cant": "sums over any number of positions", "anchors": ["lib/pool/pool.go: swap", "lib/position/position.go: Update", "lib/tickdata/tickdata.go: GetFeeGrowthInside"]}
{"id": "C60", "title": "A strategy never overdraws its balances", "statement": "Reading the calls of Init or Rebalance in order as a statement of account: every mint is charged no more of either token than the balance at that moment, every swap is asked to sell no more than the balance and takes no more than asked, collected amounts and proceeds are added, and the final balances are the strategy's; no subtraction wraps.", "quantifier": "every strategy, parameter, reachable pool, state with 256-bit balances (and, for the swapping strategy, positions covered by the ledger), on which the call returns", "why_tests_cant": "relates roundings of two different code paths (liquidity from amounts rounds down, charges round up) for every price and range", "anchors": ["lib/strategy/*.go: Init, Rebalance, mintPosition", "lib/liquidity_amounts/liquidity_amounts.go", "lib/pool/pool.go: MintStrategy"]}
{"id": "C61", "title": "The snapshot counts what burning everything would pay", "statement": "If BurnAll returns on the current pool, GetAmounts returns, without calling the pool, the balances plus exactly what those burns return (modulo 2^256); accrued fees are not counted.", "quantifier": "every strategy, reachable pool, positions with amounts in (0, 2^255)", "why_tests_cant": "two separately written formulas must agree on every price and range", "anchors": ["lib/strategy/*.go: GetAmounts, BurnAll", "lib/liquidity_amounts/liquidity_amounts.go: GetAmountsForLiquidity", "lib/pool/pool.go: modifyPositionStrategy"]}
{"id": "C62", "title": "The recorded value is amount0 plus amount1 at the pool price", "statement": "The executor's value is amount0 + floor(amount1 * 2^192 / price^2) for square-root prices below 2^128 and amounts below 2^128; from 2^128 on the square wraps: at 2^128 it panics, at 2^128+1 it is too large by a factor of 2^120 (witnesses).", "quantifier": "every pool price in [MinSqrtRatio, 2^128) and amounts", "why_tests_cant": "MulDiv panics on word-length conditions that tests do not reach", "anchors": ["lib/executor/executor.go: valueUSD", "lib/fullmath/fullmath.go: MulDiv"]}
{"id": "C63", "title": "Each strategy invests on the ranges it promises, and all it can", "statement": "Init and Rebalance mint, in order, on exactly the ranges of the strategy (multiples of the spacing nearest to tick plus or minus width, the bands of the history, the gaps beside the tick, ...), each time the liquidity the remaining balances can buy (half of it for limit orders, after selling half of the excess for the swapping strategy), skipping only amounts of zero; Rebalance does this after what BurnAll does.", "quantifier": "every strategy with widths below 2^50, reachable pool with positive spacing, state with 256-bit balances, on which the call returns", "why_tests_cant": "depends on rounding of negative ticks, on the volatility history and on wrapping sums", "anchors": ["lib/strategy/*.go: Init, Rebalance, getTicks, mintPosition", "lib/tickmath/tickmath.go: Round, Floor, Ceil"]}
{"id": "C64", "title": "Maximum drawdown is the worst relative fall", "statement": "For values with a positive first one, the computed drawdown is a finite double between -1 and 0, exactly 0 if the values never fall, and differs by at most 2^-50 from the minimum of (q-p)/p over all pairs of a value p and a later value q. If the first value is 0 it is NaN, whatever follows.", "quantifier": "every list of 256-bit values", "why_tests_cant": "rounding errors and the running maximum over lists of any length", "anchors": ["main.go: calculateMaximumDrawdown"]}
{"id": "C65", "title": "Every field of a result is the statistic of the right samples", "statement": "Hourly figures use all recorded values, daily ones the values at positions 0, 24, 48, ..., weekly ones those at 0, 168, 336, ...; the end amount is the last value. A result exists exactly if something was recorded, and every completed run records at least one value, all of them 256-bit numbers.", "quantifier": "every list of values; every strategy, configuration, transaction list and pool on which the run returns", "why_tests_cant": "relation between positions for every length, and a loop invariant of the executor", "anchors": ["main.go: runAndAppend, createResult", "lib/result/result.go: RunResult", "lib/executor/executor.go: Run"]}
{"id": "C66", "title": "Value at risk is the 5 percent order statistic", "statement": "calculateVar never panics. From three positive values on it is one of the n logarithmic returns: at most n/20 returns are smaller, more than n/20 are not larger.", "quantifier": "every list of positive 256-bit values, every logarithm that is finite below 1024 in absolute value", "why_tests_cant": "sorting and indexing for every length", "anchors": ["main.go: calculateVar, getReturns"]}
{"id": "C67", "title": "Deviations are the textbook ones up to rounding, except that the standard deviation can be NaN", "statement": "For n >= 2 returns r of positive values: the down deviation v is finite, >= 0, 0 if the values never fall, and v^2 = (sum of squares of the negative returns)/n with relative error at most n*2^-48; the standard deviation v is finite, >= 0 and v^2 is the sample variance (n*sum r^2 - (sum r)^2)/(n(n-1)) up to 2^-46*(sum r^2)*n/(n-1), or it is NaN and the sample variance is below that bound. It is NaN for a value that doubles 21 times. With two values or fewer all are 0.", "quantifier": "every list of at most 2^31 positive 256-bit values, every logarithm that is finite below 1024 in absolute value", "why_tests_cant": "accumulated rounding error of floating point sums of any length", "anchors": ["main.go: calculateDownDeviation, calculateStd"]}
{"id": "C68", "title": "The return is right and results are saved all or not at all", "statement": "For a positive start the return is finite, at least -1, has the sign of end minus start, and differs from (end-start)/start by at most 2^-50 of max(start,end)/start. With positive values only standard deviations can be undefined. saveFile writes all results if all their numbers are finite; a single NaN or infinity loses them all silently.", "quantifier": "every list of values and every list of results", "why_tests_cant": "interaction of undefined statistics with the encoder for any number of runs", "anchors": ["main.go: createResult, saveFile"]}
{"id": "C69", "title": "The pool never owes more than it was paid", "statement": "Count every token paid into a pool and every token paid out of it: mints pay in at least the exact worth of their liquidity, burns outside the position table take out at most that, MintStrategy pays in the amounts it returns, CollectStrategy takes out the amounts it returns, Flash pays its two fees, a swap pays in and takes out the two signed amounts it returns. After every such history, of any length, in which downward swaps keep clear of the misplaced ticks and a range is minted through the position table only while no other range holding liquidity there has the same key (C42), the balance of each token is nonnegative, and it covers the exact worth of all liquidity at the current price plus everything the position table owes plus all fees the positions have earned but not yet entered. Both conditions are needed: without either one a history exists after which the balance of token 1 is negative. A downward swap keeps clear of the misplaced ticks (the exception of C31) if it does the same under some price limit that none of those at or below the current tick lies beyond; by C72 that is so for every swap that stops before such a limit, whatever its own limit is.", "quantifier": "all histories of the exported operations, all pools, both tokens, all sets of ranges", "why_tests_cant": "The balance is not a variable of the program; showing it never runs dry needs the rounding direction of every mint, burn, swap round, fee share and position update to agree over histories of any length.", "anchors": ["lib/pool/pool.go:91-234", "lib/pool/pool.go:238-371", "lib/position/position.go:37-48", "lib/sqrtprice_math/sqrtprice_math.go:22-125", "lib/swapmath/swapmath.go:11-73"]}
{"id": "C70", "title": "Amounts follow the exact worth of liquidity", "statement": "Let the exact worth of liquidity on a range be the fractions L*2^96*(1/c - 1/b) of token 0 and L*(c - a)/2^96 of token 1, where a and b are the ratios at the range's ticks and c is the current ratio clamped between them. In every reachable pool the amounts MintStrategy returns are this worth rounded up and the amounts BurnStrategy returns are this worth rounded down, never off by one or more. A swap that keeps clear of the misplaced ticks takes fees f >= 0 such that the worth of all liquidity in the token paid in grows by at most the amount paid in less f, the worth in the token paid out shrinks by at least the amount paid out, and what is credited to all ranges together is at most f. (Keeping clear is defined in C69.)", "quantifier": "all reachable pools, ranges, amounts, limits and directions", "why_tests_cant": "The relation is between exact fractions and the rounded results of up to 1.7 million rounds; tests compare single values.", "anchors": ["lib/pool/pool.go:127-166", "lib/pool/pool.go:238-371", "lib/sqrtprice_math/sqrtprice_math.go:22-125"]}
{"id": "C71", "title": "Trading alone never takes both tokens out of the pool", "statement": "Let any sequence of swaps and flashes run on a reachable pool, with no mint or burn in between and every downward swap keeping clear of the misplaced ticks (defined in C69). If the price at the end is not below the price at the start, the traders have paid at least as much token 1 as they were paid; if it is not above, the same holds for token 0. So they never gain both tokens, and a sequence that ends at the price it started from gains neither. More exactly, the net payment in each token is at least the change of the exact worth of all liquidity. Without the condition on downward swaps the first sentence is false: a swap can be paid token 1 and move the price up.", "quantifier": "all reachable pools, all finite sequences of swaps and flashes with any amounts, limits and directions", "why_tests_cant": "A profitable round trip would need a particular sequence of swaps across ticks at particular liquidities; rounding gains of one wei per swap are invisible in tests with a few swaps.", "anchors": ["lib/pool/pool.go:238-371", "lib/swapmath/swapmath.go:11-73", "lib/sqrtprice_math/sqrtprice_math.go:22-125"]}
{"id": "C72", "title": "A price limit that is not reached makes no difference", "statement": "If a swap returns and the price it ends at is not its limit, then with any limit farther away (and inside the allowed prices), or with none, it returns the same pool and the same amounts in the same number of rounds. This is so although a farther limit changes the target of the last round and the target enters the amounts, the branch taken and the fee there, and a division that rounds up panics for some operands. A limit that is reached does make a difference.", "quantifier": "all reachable pools, both directions, exact input and exact output, all amounts and pairs of limits", "why_tests_cant": "The two runs agree only because in the last round the amount to the nearer target already exceeds what is left; showing this for all prices and liquidities needs the rounding of both amount formulas to be monotone in the target.", "anchors": ["lib/pool/pool.go:238-371", "lib/swapmath/swapmath.go:11-73", "lib/sqrtprice_math/sqrtprice_math.go:22-52"]}
{"id": "C73", "title": "A whole run creates no tokens", "statement": "Let the executor run any of the twelve strategies, starting without positions, over any transactions on a pool that holds some tokens. Count what the historical market pays in and is paid out along the calls of the run: mints pay at least the exact worth of their liquidity, burns are paid at most it, swaps and flashes pay and are paid what they return. Then at the end the strategy has no liquidity left in the pool, and its two balances plus the tokens in the pool equal its starting balances plus the tokens in the pool at the start plus what the market paid in less what it was paid out. What is left in the pool still covers everything the pool owes. The calls of the run are the market's transactions up to the end time in order, and calls of the strategy. Needed: mints on ranges as in C30 with less than 2^128 liquidity minted in all, market burns of liquidity the market minted, downward swaps that keep clear of the misplaced ticks (C69), totals below 2^256, and, for the four strategies that hold several ranges at once, table keys that differ. Without the last condition the claim is false: with ranges below tick zero the fill-up strategy turns 3*10^16 of token 1 into 8*10^56 in a run with one swap.", "quantifier": "all twelve strategies with any parameters, all configurations and transaction lists, all pools with a history, all runs that return, by induction over the executor's blocks and the strategy's calls", "why_tests_cant": "Whether value leaks shows only in the sum over a whole run of the strategy, the market and the pool; the code keeps no token balance for the pool, so no test can compare against one, and the failing case needs ranges at negative ticks.", "anchors": ["lib/executor/executor.go:42-130", "lib/strategy/fill_up.go:36-114", "lib/pool/pool.go:238-371", "lib/position/position.go:37-48"]}
{"id": "C74", "title": "On values below 2^128 the operations of a pool return", "statement": "For every reachable pool with at least one tick, a price below 2^128, a limit below 2^128 on the right side of the price, and an amount to pay or to receive below 2^128: no round of the swap panics, however many rounds run; upwards, and downwards to a limit above which no tick is misplaced (C31) - any limit from price 1 up is one - the swap returns. Upwards without a limit it returns unless it would reach the price 2^128 - 1. With no tick in the table every swap panics. A mint on a range as in C30, while less than 2^128 liquidity is minted in all, returns exactly when its amount is positive and its ticks are ordered and in range. Every burn of liquidity that was minted on its range returns. A flash loan of amounts below 2^128 returns exactly when the active liquidity is positive. A strategy's mint or burn returns too if the fees due to its position are exactly 0 or at least 2^64 units of 2^-128 token, and, for the mint, the price lies outside its range or below 2^128.", "quantifier": "all reachable pools, both directions, exact input and exact output, all amounts, limits and ranges within the stated bounds, any number of rounds", "why_tests_cant": "Each round divides, multiplies and shifts 256-bit words and panics on overflow or on a zero divisor; that none of these is met from any reachable state is a statement over all prices, liquidities and tick tables, kept by an invariant of the loop.", "anchors": ["lib/pool/pool.go:238-371", "lib/fullmath/fullmath.go:8-33", "lib/position/position.go:37-48"]}
{"id": "C75", "title": "The fees of a position of ordinary size can always be settled", "statement": "Settling a position (every mint or burn by its strategy) panics when the fees due are positive but below 2^64 units of 2^-128 token (C20). This cannot happen to a position of liquidity m > 0 that is left alone, after its own mint or burn, during any number of swaps, flash loans, collects, market mints and burns, and strategy calls with other table keys, as long as its range keeps at least m, all liquidity together is at most 2^127 and at most 2^63 times m, and less than 2^128 of each token is paid into swaps and lent: the fees due are then exactly 0 or at least 2^64 units, so burning it returns, and so does minting on it while the price lies outside its range or below 2^128. Without the bound on its size the claim is false: beside 2^70 of others' liquidity a position of liquidity 1 cannot be withdrawn after one swap of 1000.", "quantifier": "all reachable pools, positions and sequences of operations, by induction over the operations and the rounds of their swaps", "why_tests_cant": "The panic depends on the exact value of a wrapping 256-bit counter after an arbitrary history of other traders; tests see only single histories.", "anchors": ["lib/position/position.go:37-48", "lib/pool/pool.go:91-181", "lib/tickdata/tickdata.go:141-166", "lib/fullmath/fullmath.go:23-33"]}
{"id": "C76", "title": "The program from data file to result file", "statement": "Given the transactions read and the flag for the update interval, main either panics, runs on, or ends with a file, and the file does not depend on the scheduler: whenever the program ends under any schedule of the 65535 goroutines in batches of 5000, it has written what the runs give one after the other. It panics only if the check before the first run or a run by itself does. If the runs by themselves return, the program ends after a bounded number of steps whatever the scheduler does. The file holds, in this order, the results for the multipliers 1 to 65535: run m is the executor on a new pool (fee 500, the hard-coded price) with the fill-up Bollinger strategy of multiplier m, one million of token 0 and 366874042000000 of token 1, a history of 100 prices, from 30 days after the first transaction, updates every given hours, snapshots every hour and prices every 864 seconds; its statistics are those of its recorded values. The check fails exactly if the last transaction comes an update interval or more before 30 days after the first. If no transaction comes 30 days after the first and the check passes, no run invests and every result is the worth of the untouched amounts at the last price, with return 0 and all other statistics 0. Transactions that were written by MarshalJSON and are read back give the same file, and unreadable amounts that the executor does not use do not matter.", "quantifier": "all transaction lists, flags, schedules and interleavings of memory accesses", "why_tests_cant": "65535 goroutines have no enumerable set of schedules, and the data of the program are a file of arbitrary length.", "anchors": ["main.go:32-95", "main.go:184-250", "main.go:252-315", "lib/executor/executor.go:21-41"]}
{"id": "C77", "title": "The tick from the logarithm is the tick from the table", "statement": "getTickAtSqrtRatio, the version of the price-to-tick conversion that approximates log base sqrt(1.0001) from 14 bits of a binary logarithm and two error constants, gives for every price from MinSqrtRatio up to but not including MaxSqrtRatio exactly the tick that the binary search in the table gives: the tick t with ratio(t) <= price < ratio(t+1). In particular it inverts GetSqrtRatioAtTick. It does not check the range: just outside of it, at MaxSqrtRatio and at MinSqrtRatio - 1, it answers 887272 and -887273 where the search panics.", "quantifier": "every price in [MinSqrtRatio, MaxSqrtRatio), about 2^160 of them", "why_tests_cant": "The error constants leave a hundredth of a tick for the error of the logarithm; only a bound on that error over all 2^160 prices and all 1774544 ticks shows that the two candidates always bracket the tick.", "anchors": ["lib/tickmath/tickmath.go: getTickAtSqrtRatio", "lib/tickmath/tickmath.go: GetTickAtSqrtRatio", "lib/tickmath/tickmath.go: MostSignificantBit", "lib/tickmath/tickmath.go: getSqrtRatioAtTick"]}
{"id": "C78", "title": "The fuzzing harness reports no crash, and would report a wrong method", "statement": "For every input Fuzz returns 0 if it is shorter than 32 bytes and 1 otherwise, and never reports a crash. It only ever tests the square root: the switch over the length after the first test is dead code. The checks it never reaches would pass too: fuzzBinaryOp returns 1 on every input of at least 32 bytes, fuzzTernaryOp on every input of at least 64 bytes returns 0 if the bytes from the 64th on denote a multiple of 2^256 and 1 otherwise. The checks are not empty: for an arbitrary method, checkUnaryOp, checkDualArgOp and checkThreeArgOp return only if the method returned its receiver and left big.Int's result modulo 2^256 in it for a fresh receiver, for a receiver holding garbage and for the receiver being each operand in turn, and left the operands of the first call (and for two or three operands of the second) unchanged.", "quantifier": "every byte slice with any capacity, any memory before the call; for the last part every method", "why_tests_cant": "A fuzzer samples inputs; here the absence of a crash is shown for all of them, including those the harness cannot reach because of the early return.", "anchors": ["uint256/fuzz.go: Fuzz", "uint256/fuzz.go: fuzzUnaryOp", "uint256/fuzz.go: fuzzBinaryOp", "uint256/fuzz.go: fuzzTernaryOp", "uint256/fuzz.go: checkUnaryOp", "uint256/fuzz.go: checkDualArgOp", "uint256/fuzz.go: checkThreeArgOp", "uint256/fuzz.go: crash"]}
{"id": "C79", "title": "When a strategy's own computations panic", "statement": "With a price in [MinSqrtRatio, 2^128) and balances below 2^128, computing the liquidity that the balances buy on the range of two ticks (the first step of every mintPosition) panics exactly if a tick lies off the scale, or the two ticks are equal and the balance that such a range would take (token 0 if the price is at or below the tick and the tick's ratio is at least 2^48, token 1 if the price is above it) is not zero. The two ticks of a band [price - width, price + width] cannot be computed exactly if its lower end is at or above MaxSqrtRatio, its upper end is below MinSqrtRatio, or its upper end equals MaxSqrtRatio (the code's comparison is off by one). Hence a price that stood still for the whole history makes the two Bollinger strategies and the volatility strategy panic at Init and at Rebalance, whatever the multiplier, if they hold both tokens; and a run of any of the four strategies with a price history that starts at the first transaction panics.", "quantifier": "every pool, balances, pair of ticks, price, width, multiplier, history length up to 2^26 (any length for the start), list of transactions", "why_tests_cant": "A panic set is exact only if every other input returns: that is a statement about all prices, balances and tick pairs at once, through two 512-bit divisions that panic on word lengths. Tests with moving prices never see a flat band.", "anchors": ["lib/liquidity_amounts/liquidity_amounts.go:8-43", "lib/strategy/bollinger_bands.go:73-117", "lib/strategy/bollinger_fill_up.go:74-147", "lib/strategy/volatility_sized_intervals.go:73-115", "lib/strategy/interval_around_average.go:72-105", "lib/executor/executor.go:54-79"]}
{"id": "C80", "title": "In an ordinary market a run never panics and ends", "statement": "A run of any of the twelve strategies over any list of transactions, from a pool reached by calls, returns (no panic, no endless loop) if each call made along the way stays within these bounds: market mints and burns have ticks that land on their own bitmap bit, positive liquidity within a cap of at most 2^127, and burns are covered; swaps stop before square-root price 2^128 and before a misplaced negative tick; tokens ever put in stay below 2^128; each strategy position has at least cap/2^63 liquidity and a key of its own; and each time the strategy places positions it aims at ranges that exist (lower tick below upper tick, on the scale). None of these bounds presupposes that any call or computation of the run returns. A program checks them for given transactions, and is proved right. If all the runs started by main keep to the bounds, main does not crash under any schedule and every run returns.", "quantifier": "every strategy kind and its parameters, configuration, list of transactions of any length, reachable pool with its history, balances, cap", "why_tests_cant": "That a long simulation never panics is a statement about every intermediate state of every run: dozens of 256-bit divisions, table lookups and subtractions that panic on particular word lengths or missing keys. A run that passed says nothing about the next data file.", "anchors": ["lib/executor/executor.go:54-172", "lib/strategy/*.go: Init, Rebalance, BurnAll, GetAmounts, MakeSnapshot", "lib/pool/pool.go:92-360", "lib/position/position.go", "lib/prices/prices.go", "main.go:28-134"]}
{"id": "C81", "title": "A larger swap goes at least as far", "statement": "From the same pool, in the same direction and under the same limit: of two exact-input swaps that return, the larger moves the price at least as far, takes at least as much and pays out at least as much; the same holds of two exact-output swaps. Inputs must be below 2^236 when selling token0 and below 2^160 when selling token1, and a downward swap's way must be clear of C31's exception. Both conditions are needed: paying slightly more than 2^160 token1 into a pool of liquidity 2^127 buys nothing, because amount*2^96 wraps and the whole payment becomes fee, while half of it buys 2.3*10^21; and at a misplaced tick a larger sale of token0 ends at a higher price.", "quantifier": "every reachable pool and history, direction, limit, pair of amounts, any numbers of loop rounds", "why_tests_cant": "A test compares a few amounts on one pool; rounding, branches of the price formula and tick crossings differ for each pair of amounts, and the violation appears only in a deep pool from 2^160 on.", "anchors": ["lib/pool/pool.go:238-371", "lib/sqrtprice_math/sqrtprice_math.go:52-109", "lib/swapmath/swapmath.go:11-73"]}
{"id": "C82", "title": "Exact-input and exact-output swaps agree", "statement": "From the same pool, in the same direction and under the same limit: if an exact input yields Y, then an exact-output swap that asks for any y < Y and returns pays y in full, costs no more than that input, and moves the price no farther. Conversely, if an exact output costs X, then an exact-input swap of X that returns yields at least what the output swap paid out, provided X < 2^160 (selling token1) or X*price + 2^224 <= 2^256 (selling token0). A downward swap's way must be clear of C31's exception. Asking for exactly Y can cost more: a step whose whole distance pays out exactly what is still wanted runs on to its target, so in a thin range high up six units of token0 are had for 2.32*10^27 token1, but asking for six costs 2.41*10^27.", "quantifier": "every reachable pool and history, direction, limit, pair of amounts, any numbers of loop rounds", "why_tests_cant": "The two kinds of swap use different price formulas and different rounding, so a test compares them only up to a tolerance; which side the difference falls on has to hold for every price, liquidity and number of ticks crossed.", "anchors": ["lib/pool/pool.go:238-371", "lib/sqrtprice_math/sqrtprice_math.go:52-109", "lib/swapmath/swapmath.go:11-73"]}
{"id": "C83", "title": "Splitting a swap does not pay, except at certain negative ticks", "statement": "Two exact inputs a and b in the same direction and under the same limit, the second from the pool the first has left, yield together at most what one exact input of a+b yields from the first pool, cost together at least as much, and move the price no farther, whenever the three swaps return. Conditions: downwards (a+b)*price + 2^224 <= 2^256 and a way clear of C31's exception; upwards a+b < 2^160 and the pool in between not at a negative tick t with 254*s < t mod (256*s) < 255*s (s the tick spacing). At such a tick the upward search runs past the end of its word, the two ways stop at different prices, and the split can pay: a pool with 10^7 of liquidity yields one unit of token0 more for the same token1 paid in two parts.", "quantifier": "every reachable pool and history, direction, limit, pair of amounts, any numbers of loop rounds", "why_tests_cant": "The advantage, where it exists, is one unit that depends on the fractions left over in three rounded divisions; a test with a tolerance cannot see it, and a test without one would have to meet one of the few ticks of a word whose search differs.", "anchors": ["lib/pool/pool.go:238-371", "lib/tickdata/tickdata.go:167-189", "lib/sqrtprice_math/sqrtprice_math.go:52-109", "lib/swapmath/swapmath.go:11-73"]}
{"id": "C84", "title": "Splitting an exact output does not save, except at certain negative ticks", "statement": "Two exact outputs a and b in the same direction and under the same limit, the second from the pool the first has left, cost together at least what one exact output of a+b costs from the first pool, pay out together at most as much, and move the price at least as far, whenever the three swaps return. Conditions: a and b positive, a+b <= 2^255; downwards a way clear of C31's exception; upwards the pool in between not at a negative tick t with 254*s < t mod (256*s) < 255*s (s the tick spacing). At such a tick the split can save: a pool with 10^7 of liquidity gives 253280 units of token0 in two parts for two units of token1 less than at once.", "quantifier": "every reachable pool and history, direction, limit, pair of amounts, any numbers of loop rounds", "why_tests_cant": "As for C83: the difference is a unit or two of rounding that falls on the right side for every price, liquidity and number of ticks crossed, except at a few ticks that a random test practically never stops at.", "anchors": ["lib/pool/pool.go:238-371", "lib/tickdata/tickdata.go:167-189", "lib/sqrtprice_math/sqrtprice_math.go:52-109", "lib/swapmath/swapmath.go:11-73"]}
{"id": "C85", "title": "ExactOutputSwap takes an ordinary amount as an input of the other token", "statement": "On every pool with two different tokens, ExactOutputSwap of an amount of one token is the same call as ExactInputSwap of that amount of the other token. On every reachable pool an amount below 2^255 given to ExactOutputSwap bounds what is paid in, and is all paid in unless the price reaches the limit; only an amount y above, in two's complement, makes it pay out 2^256 - y, all of it unless the limit is reached. So asking for 2*10^16 units of token1 pays out another amount.", "quantifier": "every pool, history, token, amount, limit, number of loop rounds", "why_tests_cant": "Nothing in the repository calls ExactOutputSwap, and both calls return plausible amounts near a price of one.", "anchors": ["lib/pool/pool.go:194-202", "lib/pool/pool.go:238-371"]}
{"id": "C86", "title": "A swap never beats the price it starts from, less the fee", "statement": "What a swap pays out is at most what it is paid, less the fee, exchanged at the price before the swap: selling token0, out * 10^6 * 2^192 <= in * (10^6 - fee) * price^2; selling token1, out * 10^6 * price^2 <= in * (10^6 - fee) * 2^192 (prices are square roots scaled by 2^96). This holds for exact input and exact output, over any number of ticks crossed. A downward swap's way must be clear of C31's exception: at a misplaced tick a downward swap takes token0 at the reciprocal price, and in a reachable pool pays 998997845101455 where 994013631108956 would be the most for 10^15.", "quantifier": "every reachable pool and history, direction, amount of either sign, limit, number of loop rounds", "why_tests_cant": "Rounding at every tick crossed could add up; the inequality is exact, over all prices and all numbers of rounds.", "anchors": ["lib/pool/pool.go:238-371", "lib/swapmath/swapmath.go:11-73", "lib/sqrtprice_math/sqrtprice_math.go:13-50"]}
{"id": "C87", "title": "A swap never does worse than the price it ends at, up to rounding", "statement": "What a swap pays out is at least what it is paid, less the fee, exchanged at the price it ends at, or at any price beyond such as its limit. With n the number of rounds (ticks or words of ticks passed) and M a bound on the liquidity in range, selling token0 down to a price c: (in * (10^6 - fee) - 2n * 10^6) * (c-1)^2 <= 10^6 * ((out + n) * 2^192 + M * 2^96); selling token1 up to a price c: (in * (10^6 - fee) - 2n * 10^6) * 2^192 <= 10^6 * ((out + n) * c^2 + M * 2^96). So each round costs at most two units of the input and one of the output, and the last one at most what moves the price by one unit. This holds for exact input (below 2^236 of token0, 2^160 of token1) and exact output; a downward swap's way must be clear of C31's exception. Above these bounds it is false: in a reachable pool 2^253 units of token0 buy nothing and leave the price as it is, and so does a certain amount of token1 above 2^160.", "quantifier": "every reachable pool and history, direction, amount of either sign, limit, number of loop rounds", "why_tests_cant": "A loss of a unit per tick is within the tolerance of any test that compares amounts; the wrapping products need amounts no test uses.", "anchors": ["lib/pool/pool.go:238-371", "lib/swapmath/swapmath.go:11-73", "lib/sqrtprice_math/sqrtprice_math.go:53-109"]}
{"id": "C88", "title": "Liquidity without its fees is never worth more than the tokens it was made of", "statement": "Whatever a mint charged is worth at least what burning the same liquidity pays, at the price of the burn, for all later pools and prices. For every strategy but the swapping one, what GetAmounts counts after Init is, at any later price, worth at most the starting balances, and after Rebalance at most what Rebalance withdrew; so the value the executor's formula puts on it (square-root prices below 2^128) is at most amount0 + floor(amount1 * 2^192 / price^2) of the held tokens. Right after the placement GetAmounts returns, and nothing is missing but at most one unit of each token per position. For the strategy that swaps first the claim is false.", "quantifier": "every strategy and parameter, every starting balance, every reachable pool at the placement and every reachable pool at the valuation, any price history; positions below 2^128", "why_tests_cant": "The bound concerns every pair of prices; a test compares one entry and one exit, and a snapshot a unit too high at some price goes unnoticed.", "anchors": ["lib/strategy/fill_up.go:36-48", "lib/strategy/2_interval_around_price.go:40-52", "lib/pool/pool.go:135-187", "lib/liquidity_amounts/liquidity_amounts.go:43-77", "lib/executor/executor.go:75-90"]}
{"id": "C89", "title": "The price, tick and swap arithmetic on 64-bit words is the arithmetic on integers", "statement": "Written out over the four words of uint256.Int, call by call as in the code, the functions of sqrtprice_math, swapmath, liquidity_amounts, tickmath (the table, its search, the logarithm and the hexadecimal constants read from text) and prices end as the integer-level functions of the other properties do: both return and the words spell the integer, or both panic. The same for Sqrt and Abs as the strategies use them.", "quantifier": "every value of the four words of every argument, every fee, tick, rounding direction and price history", "why_tests_cant": "There are 2^256 values per argument, and a carry or a borrow lost between words changes the result only at values a test does not reach.", "anchors": ["lib/sqrtprice_math/sqrtprice_math.go:10-125", "lib/swapmath/swapmath.go:9-73", "lib/liquidity_amounts/liquidity_amounts.go:9-77", "lib/tickmath/tickmath.go:12-218", "lib/prices/prices.go:9-68", "lib/constants/constants.go:8-19"]}
{"id": "C90", "title": "The pool on 64-bit words is the pool on integers", "statement": "Written out over the four words of uint256.Int, the tick table, the positions and the pool behave as the integer-level pool of the other properties does: NewPool, Mint, Burn, MintStrategy, BurnStrategy, CollectStrategy, Flash, both swaps and Clone, given pools and arguments whose words spell the integers, both return pools and amounts whose words spell the integers, or both panic, or neither ends within the fuel. Hence any sequence of these operations on a new pool, and every property of reachable pools holds of the words; for instance the words of the pool's liquidity spell the sum of the positions in range.", "quantifier": "every sequence of exported operations of any length, on every new pool, with every value of the four words of every argument", "why_tests_cant": "A history is a sequence of unbounded length over arguments of 256 bits; net liquidities and fee growths are two's complement or wrapped numbers whose upper words are exercised only by particular histories.", "anchors": ["lib/tickdata/tickdata.go:10-165", "lib/position/position.go:9-48", "lib/pool/pool.go:25-371", "lib/tickmath/tickmath.go:60-75"]}
{"id": "C91", "title": "A back-test on 64-bit words is the back-test on integers", "statement": "Written out over the four words of uint256.Int, call by call as in the code (Cmp, IsZero, Sign and the flags of AddOverflow and SubOverflow instead of comparisons of integers), each of the twelve strategies and the executor make the same calls on the pool, with arguments and results that the words spell, as the integer-level model of the other properties: the same final pool, balances, positions, price history and list of values, or both panic, or neither ends within the fuel.", "quantifier": "every strategy and its parameters, every configuration, list of transactions of any length, starting balances and pool, with every value of the four words of every number", "why_tests_cant": "The length of the transaction list is unbounded, and the twelve strategies compare 256-bit numbers through wrapped differences and flags whose wrong reading shows only at values a test does not reach.", "anchors": ["lib/strategy/strategy.go:8-23", "lib/strategy/2_interval_around_price.go:29-143", "lib/strategy/bollinger_bands.go:24-131", "lib/strategy/bollinger_fill_up.go:25-147", "lib/strategy/constant_intervall_strategy.go:26-117", "lib/strategy/fill_up.go:26-112", "lib/strategy/interval_around_average.go:24-113", "lib/strategy/interval_around_current_price.go:30-122", "lib/strategy/limit_order.go:21-144", "lib/strategy/no_provision.go:15-50", "lib/strategy/swap_half_constant_interval_current_price.go:30-136", "lib/strategy/v2_strategy.go:21-96", "lib/strategy/volatility_sized_intervals.go:24-129", "lib/executor/executor.go:23-130"]}
{"id": "C92", "title": "With pointers, calls on a pool compute what they compute on values", "statement": "With every *uint256.Int a pointer into one memory (every new, Clone, in-place operation and shared field as in the code, the exported constants being variables too), any sequence of Mint, Burn, MintStrategy, BurnStrategy, CollectStrategy, Flash and swaps, whose arguments and results are variables of a client that computes in place between the calls, ends like the same sequence on values: same pool, same client's variables, or both panic, or neither ends within the fuel. The results are new variables that the pool does not keep, and no other variable changes: not the exported constants, not another pool's. The one variable of a caller a pool keeps is the price given to NewPool, which it never writes and replaces at the first swap. A clone shares the ticks' variables with the original and nothing else.", "quantifier": "every memory, pool and client whose variables are separate (as they are after NewPool), every sequence of calls of any length, every amount, range, token, limit and in-place operation of the client", "why_tests_cant": "An aliased write changes a number far from the statement that causes it, often many calls later, and only if the two pointers happen to be shared on that path; tests look at the results of the calls, not at the variables that should not have changed.", "anchors": ["lib/pool/pool.go:25-371", "lib/position/position.go:9-48", "lib/tickdata/tickdata.go:60-165", "lib/swapmath/swapmath.go", "lib/sqrtprice_math/sqrtprice_math.go", "lib/fullmath/fullmath.go:23-60", "lib/constants/constants.go"]}
{"id": "C93", "title": "With pointers, a back-test computes what it computes on values", "statement": "With every *uint256.Int of the strategies, the price history, the liquidity helpers and the executor a pointer into the memory that the pool lives in, a run of the executor with any strategy ends like the run on values: same pool, same balances, positions and history, same values, or both panic, or neither ends within the fuel. Besides the pool's variables only the strategy's two balances change. A back-test (the constructor, which copies the pool and the start amounts, and the run) changes nothing that existed before except variables of the cloned pool's ticks. So any number of back-tests of a new pool, one after the other in one memory as in main.go, have the results that each has alone, and leave the start amounts and the transactions as they were. For a pool that already has ticks this fails: the same back-test twice gives two different results, shown by a witness.", "quantifier": "every strategy and configuration, every memory, pool and strategy state whose variables are separate (as they are after the constructors), every list of transactions with amounts that are not negative, every number of back-tests, every start price and amounts", "why_tests_cant": "The strategies pass pointers on: the position keeps the liquidity pointer that the pool was given, BurnAll returns copies, GetAmounts adds in place. A missing Clone shows only in a later snapshot or in the next back-test of the same pool; the tests run one strategy at a time and look at its final amounts.", "anchors": ["lib/strategy/*.go", "lib/prices/prices.go", "lib/liquidity_amounts/liquidity_amounts.go", "lib/executor/executor.go:42-130", "main.go:51-88"]}
