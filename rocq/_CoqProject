-Q theories Verif
theories/Base.v
theories/Mem.v
theories/Loop.v
theories/Backend.v
theories/Args.v
theories/Drivers.v
theories/Functors.v
theories/MemFuns.v
theories/Pan.v
theories/Spec.v
theories/LoopFacts.v
theories/MemFacts.v
theories/KaryFacts.v
theories/DriverFacts.v
theories/RampFacts.v
theories/FaultFacts.v
theories/ExData.v
theories/DriverClaims.v
theories/OverlapFacts.v
theories/DriverClaims2.v
theories/Prop_Drivers.v
theories/BlockFacts.v
theories/MemFunFacts.v
theories/CopyFacts.v
theories/PanFacts.v
theories/MemClaims.v
theories/Prop_Memory.v
theories/Float.v
theories/Lanes.v
theories/LaneOps.v
theories/Reduce.v
theories/FloatOps.v
theories/SpecReduce.v
theories/FloatFacts.v
theories/LaneFacts.v
theories/ReduceFacts.v
theories/ReduceRun.v
theories/ReduceSim.v
theories/ReduceFloat.v
theories/ReduceMore.v
theories/AltivecFacts.v
theories/LaneMore.v
theories/ExFloat.v
theories/ReduceClaims.v
theories/Prop_Reduce.v
theories/FloatRound.v
theories/SpecRamp.v
theories/RampFloat.v
theories/RampClaims.v
theories/ExRamp.v
theories/Prop_Ramp.v
theories/ScalarMath.v
theories/VecMath.v
theories/FloatFuns.v
theories/SpecLane.v
theories/VecFacts.v
theories/VecMore.v
theories/VecMore2.v
theories/LaneClaims.v
theories/ExLane.v
theories/Prop_Lane.v
theories/SpecRound.v
theories/RoundFacts.v
theories/RoundMore.v
theories/RoundMore2.v
theories/IntVec.v
theories/SpecInt.v
theories/IntFacts.v
theories/LdexpFacts.v
theories/ExRound.v
theories/RoundClaims.v
theories/Prop_Round.v
theories/TransMath.v
theories/TransFuns.v
theories/TransConst.v
theories/TransFacts.v
theories/ErrFacts.v
theories/ErrTac.v
theories/RealMath.v
theories/ExpFacts.v
theories/ExpMore.v
theories/RealTanh.v
theories/LastStep.v
theories/TanhFacts.v
theories/NearFacts.v
theories/RealLog.v
theories/LogFacts.v
theories/PowFacts.v
theories/RecipFacts.v
theories/RealUnit.v
theories/UnitFacts.v
theories/SpecMath.v
theories/MathMore.v
theories/ExMath.v
theories/MathClaims.v
theories/Prop_Math.v
theories/AccuracyClaims.v
theories/Prop_Accuracy.v
theories/RealTrig.v
theories/TrigFacts.v
theories/SinFacts.v
theories/OddFacts.v
theories/TanFacts.v
theories/RealArc.v
theories/ArcFacts.v
theories/AtanFacts.v
theories/TrigMore.v
theories/TrigClaims.v
theories/Prop_Trig.v
theories/Utils.v
theories/Estimate.v
theories/Libm.v
theories/SpecLib.v
theories/UtilFacts.v
theories/RealUnit2.v
theories/LibUnit.v
theories/LibLog.v
theories/LibMore.v
theories/ExLib.v
theories/LibClaims.v
theories/Prop_Lib.v
theories/SpecEst.v
theories/EstFacts.v
theories/EstNeon.v
theories/EstSpecial.v
theories/EstAlti.v
theories/ExEst.v
theories/EstimateClaims.v
theories/Prop_Estimate.v
theories/SpecDrift.v
theories/SumErr.v
theories/DriverFree.v
theories/RampErr.v
theories/ExpErr.v
theories/SoftErr.v
theories/ExDrift.v
theories/DriftClaims.v
theories/Prop_Drift.v
theories/SpecBlocks.v
theories/BlockRun.v
theories/Confine.v
theories/BlocksClaims.v
theories/Prop_Blocks.v
theories/SpecOrder.v
theories/MonoFacts.v
theories/ArcOrder.v
theories/RealOrder.v
theories/TrigOrder.v
theories/SinOrder.v
theories/TanOrder.v
theories/AtanOrder.v
theories/OrderMore.v
theories/OrderClaims.v
theories/Prop_Order.v
theories/RealOrder2.v
theories/LogOrder.v
theories/ExpOrder.v
theories/TanhOrder.v
theories/LogOrder2.v
theories/Order2Claims.v
theories/Prop_Order2.v
theories/NanFacts.v
theories/NanClaims.v
theories/Prop_Nan.v
theories/SpecAgree.v
theories/RealAgree.v
theories/AgreeFacts.v
theories/AgreeClaims.v
theories/Prop_Agree.v
theories/TruncFuns.v
theories/SpecTrunc.v
theories/TruncFacts.v
theories/TruncClaims.v
theories/Prop_Trunc.v
theories/SpecNeutral.v
theories/NeutralFacts.v
theories/NeutralClaims.v
theories/Prop_Neutral.v
theories/SpecKeep.v
theories/KeepFacts.v
theories/KeepClaims.v
theories/Prop_Keep.v
theories/SpecAlike.v
theories/AlikeFacts.v
theories/AlikeClaims.v
theories/Prop_Alike.v
theories/SpecTrip.v
theories/RealTrip.v
theories/TripFacts.v
theories/IdentFacts.v
theories/TripClaims.v
theories/Prop_Trip.v
theories/SameFacts.v
theories/SameClaims.v
theories/Prop_Same.v
theories/SpecSwap.v
theories/SwapFacts.v
theories/SwapClaims.v
theories/Prop_Swap.v
theories/SpecGain.v
theories/GainFacts.v
theories/GainClaims.v
theories/Prop_Gain.v
theories/SpecChain.v
theories/ChainFacts.v
theories/ChainClaims.v
theories/Prop_Chain.v
theories/SpecParts.v
theories/PartsFacts.v
theories/PartsClaims.v
theories/Prop_Parts.v
theories/CallsFacts.v
theories/CallsClaims.v
theories/Prop_Calls.v
theories/SpecBus.v
theories/BusFacts.v
theories/BusClaims.v
theories/Prop_Bus.v
theories/SpecQuiet.v
theories/QuietFacts.v
theories/QuietEx.v
theories/QuietClaims.v
theories/Prop_Quiet.v
