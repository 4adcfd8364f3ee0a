-Q theories Verif

theories/Base.v
theories/Decimal.v
theories/SqrtPrice.v
theories/Clamm.v
theories/Log.v
theories/FeeGrowth.v
theories/Types.v
theories/Tick.v
theories/Pool.v
theories/Position.v
theories/Tickmap.v
theories/Keys.v
theories/State.v
theories/Swap.v
theories/Exec.v
theories/Query.v
theories/QueryMsg.v
theories/Event.v
theories/DecLib.v
theories/Vectors.v
theories/PriceProofs.v
theories/LogPow.v
theories/LogProofs.v
theories/PropPrice.v
theories/Tactics.v
theories/ClammProofs.v
theories/PropClamm.v
theories/BitmapProofs.v
theories/PropBitmap.v
theories/KeysProofs.v
theories/PropKeys.v
theories/Frame.v
theories/Handlers.v
theories/History.v
theories/Basic.v
theories/PosList.v
theories/Ledger.v
theories/Scenario.v
theories/SwapInv.v
theories/PropAuth.v
theories/PropConfig.v
theories/SwapGeo.v
theories/SwapLoop.v
theories/Modify.v
theories/PSum.v
theories/LiqInv.v
theories/Geo.v
theories/Ops.v
theories/Clean.v
theories/CleanSuff.v
theories/PropTrade.v
theories/PropLiq.v
theories/PropSwap.v
theories/PropQuery.v
theories/Growth.v
theories/Value.v
theories/Fund.v
theories/Flow.v
theories/PropSolv.v
theories/Forward.v
theories/PropExit.v
theories/PropFees.v
theories/PropFunds.v
theories/PropProt.v
theories/PropBlock.v
theories/Sdk.v
theories/Extra.v
theories/PropSdk.v
theories/PropSdkLiq.v
theories/PropArb.v
theories/PropOthers.v
theories/PropNft.v
theories/PropFall.v
theories/PropTime.v
theories/PropPerm.v
theories/PropEvent.v
theories/PropDec.v
theories/PropExtra.v
theories/PropMove.v
theories/PropLocal.v
theories/PropClock.v
theories/PropExp.v
theories/PropTicks.v
theories/PropOk.v
theories/PropMono.v
theories/PropSplit.v
theories/World.v
theories/PropWorld.v
theories/PropSolo.v
theories/PropClient.v
theories/PropShare.v
theories/Reentry.v
theories/PropReentry.v
theories/PropFair.v
theories/PropCost.v
theories/PropDrift.v
theories/Replay.v
theories/ReplayMath.v
theories/ReplayStore.v
theories/ReplayApp.v
theories/ReplayApp2.v
theories/ReplayDec.v
theories/PropOffer.v
theories/PropWork.v
theories/PropPair.v
theories/PropOut.v
theories/PropReach.v
theories/PropRate.v
theories/PropOrder.v
theories/PropMore.v
theories/PropAsk.v
theories/PropLeave.v
theories/PropOften.v
theories/PropBlind.v
theories/PropGauge.v
theories/PropState.v
theories/PropTrace.v
theories/PropMix.v
theories/PropCurve.v
theories/PropName.v
theories/PropLess.v
theories/PropTwin.v
theories/PropRange.v
theories/PropUndo.v
theories/PropReply.v
theories/PropTell.v
theories/PropSay.v
theories/PropGuard.v
theories/PropGov.v
theories/PropRule.v
theories/PropTerms.v
theories/PropGrant.v
