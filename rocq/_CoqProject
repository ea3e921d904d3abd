-Q theories Verif
theories/Base.v
theories/U256.v
theories/BitFacts.v
theories/U256Facts.v
theories/U256Shift.v
theories/U256Bits.v
theories/U256Exp.v
theories/U256Div.v
theories/U256DivFacts.v
theories/U256Udivrem.v
theories/U256DivSpec.v
theories/U256Mod.v
theories/U256ModMul.v
theories/U256ModFacts.v
theories/U256ModNewton.v
theories/U256ModSpec.v
theories/Prop_Mod.v
theories/Prop_U256.v
theories/U256Z.v
theories/LibBridge.v
theories/FullMathFacts.v
theories/SwapMath.v
theories/SwapMathFacts.v
theories/SwapStep.v
theories/SwapStepReturns.v
theories/LiqFacts.v
theories/MathSpec.v
theories/Prop_Math.v
theories/TickMath.v
theories/TickMathFacts.v
theories/TickAccuracy.v
theories/TickConst.v
theories/Float64.v
theories/Float64Facts.v
theories/Prop_Tick.v
theories/TickData.v
theories/TickDataFacts.v
theories/TickSearch.v
theories/TickFees.v
theories/Pool.v
theories/Ledger.v
theories/PoolTable.v
theories/PoolInv.v
theories/PoolSwap.v
theories/PoolLoop.v
theories/PoolStuck.v
theories/PoolHist.v
theories/PoolOps.v
theories/PoolMint.v
theories/PoolFees.v
theories/TickSpec.v
theories/Prop_TickData.v
theories/PoolPos.v
theories/PoolSpec.v
theories/Prop_Pool.v
theories/HeapProg.v
theories/TickHeap.v
theories/PoolHeap.v
theories/Prices.v
theories/Client.v
theories/Strategy.v
theories/Executor.v
theories/Plan.v
theories/StrategyFacts.v
theories/Grid.v
theories/CloneFacts.v
theories/PricesFacts.v
theories/ReplayFacts.v
theories/Prop_Prices.v
theories/Prop_Strategy.v
theories/Prop_Executor.v
theories/Prop_Clone.v
theories/U256Conv.v
theories/U256ConvFacts.v
theories/U256HexFacts.v
theories/Decimal.v
theories/DecimalFacts.v
theories/Prop_Conv.v
theories/Alias.v
theories/AliasFacts.v
theories/Prop_Alias.v
theories/StrategyBudget.v
theories/StrategyPlace.v
theories/ValueFacts.v
theories/Prop_Budget.v
theories/FloatSpec.v
theories/Stats.v
theories/StatsFacts.v
theories/StatsRisk.v
theories/StatsError.v
theories/StatsRun.v
theories/Prop_Stats.v
theories/PoolLimit.v
theories/Prop_Limit.v
theories/PoolMono.v
theories/PoolQuote.v
theories/PoolReturns.v
theories/Prop_Returns.v
theories/PoolSettle.v
theories/Prop_Settle.v
theories/Solvency.v
theories/Cash.v
theories/Prop_Cash.v
theories/Prop_Mono.v
theories/Prop_Quote.v
theories/PoolSplit.v
theories/Prop_Split.v
theories/PoolSplitOut.v
theories/Prop_SplitOut.v
theories/PoolRate.v
theories/PoolSlip.v
theories/Prop_Rate.v
theories/Prop_Slip.v
theories/Trades.v
theories/Prop_Trades.v
theories/Money.v
theories/MoneyEx.v
theories/Prop_Money.v
theories/Main.v
theories/MainFacts.v
theories/MainEx.v
theories/Prop_Main.v
theories/TickLog.v
theories/TickLogFacts.v
theories/Prop_TickLog.v
theories/Fuzz.v
theories/FuzzFacts.v
theories/Prop_Fuzz.v
theories/StrategyPanics.v
theories/Prop_Panics.v
theories/World.v
theories/RunReturns.v
theories/RunCheck.v
theories/MainReturns.v
theories/Prop_RunReturns.v
theories/PoolHold.v
theories/Prop_Hold.v
theories/LimbMath.v
theories/LimbFacts.v
theories/Prop_Limb.v
theories/Conformance.v
theories/LimbPool.v
theories/LimbPoolFacts.v
theories/Prop_LimbPool.v
theories/LimbRun.v
theories/LimbRunFacts.v
theories/Prop_LimbRun.v
theories/Ptr.v
theories/PtrFacts.v
theories/PtrPoolFacts.v
theories/Prop_Ptr.v
theories/PtrRun.v
theories/PtrRunFacts.v
theories/Prop_PtrRun.v
