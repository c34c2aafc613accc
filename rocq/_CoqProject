-Q theories Verif
theories/Base.v
theories/CType.v
theories/Utility.v
theories/SafeCompare.v
theories/CheckedInteger.v
theories/CheckedResultOps.v
theories/Interval.v
theories/ExceptionPolicy.v
theories/Promotion.v
theories/SafeBase.v
theories/Spec.v
theories/CTypeFacts.v
theories/UtilityFacts.v
theories/CheckedIntegerFacts.v
theories/SafeConvFacts.v
theories/SafeBitFacts.v
theories/SafeTraceFacts.v
theories/SafePortFacts.v
theories/PropsCheckedProofs.v
theories/PropsChecked.v
theories/CheckedResultFacts.v
theories/IntervalFacts.v
theories/IntervalOpsFacts.v
theories/PropsIntervalProofs.v
theories/PropsInterval.v
theories/SafeSpec.v
theories/SafeFacts.v
theories/SafeDivFacts.v
theories/SafeShiftFacts.v
theories/PropsArithProofs.v
theories/PropsArith.v
theories/PropsConvProofs.v
theories/PropsConv.v
theories/PropsPolicyProofs.v
theories/PropsPolicy.v
theories/Program.v
theories/ProgramSpec.v
theories/ProgramFacts.v
theories/PropsProgramProofs.v
theories/PropsProgram.v
theories/BuiltinSpec.v
theories/BuiltinFacts.v
theories/PropsBuiltin.v
theories/Stream.v
theories/StreamSpec.v
theories/StreamFacts.v
theories/PropsStreamProofs.v
theories/PropsStream.v
theories/StaticSpec.v
theories/SafeStaticFacts.v
theories/IntervalTotal.v
theories/PlainCheck.v
theories/PlainFacts.v
theories/PropsStaticProofs.v
theories/PropsStatic.v
theories/TrapSpec.v
theories/TrapFacts.v
theories/TrapPolicyFacts.v
theories/PropsTrapProofs.v
theories/PropsTrap.v
theories/RetypeSpec.v
theories/PropsRetypeProofs.v
theories/PropsRetype.v
theories/CheckedShiftSpec.v
theories/CheckedShiftFacts.v
theories/PropsCheckedShift.v
theories/ConformanceDefs.v
theories/ConformanceNativeArith.v
theories/ConformanceNativeRest.v
theories/ConformanceAutomaticArith.v
theories/ConformanceAutomaticRest.v
theories/ConformanceChecked.v
theories/ConformanceInterval.v
theories/ConformanceMisc.v
theories/SafeIgnoreFacts.v
theories/PropsIgnore.v
theories/SafePortMoreFacts.v
theories/SafePortDivFacts.v
theories/SafePortModFacts.v
theories/PortProofs.v
theories/PropsPort.v
theories/PropsNativeOps.v
theories/AutoFacts.v
theories/AutoDivFacts.v
theories/PropsAuto.v
theories/CompileSpec.v
theories/CompileFacts.v
theories/PropsCompile.v
theories/ComposeSpec.v
theories/ComposeFacts.v
theories/PropsCompose.v
theories/BuiltinAllSpec.v
theories/BuiltinAllFacts.v
theories/PropsBuiltinAll.v
theories/Limits.v
theories/LimitsSpec.v
theories/LimitsFacts.v
theories/PropsLimits.v
theories/FloatCast.v
theories/FloatSpec.v
theories/FloatFacts.v
theories/PropsFloat.v
theories/AutoShiftFacts.v
theories/PropsAutoShift.v
theories/TrapAllSpec.v
theories/TrapAllFacts.v
theories/PropsTrapAll.v
theories/IntervalModFacts.v
theories/PropsIntervalMod.v
theories/ValueFacts.v
theories/MotorSpec.v
theories/Motor.v
theories/MotorFacts.v
theories/MotorStepFacts.v
theories/MotorRunFacts.v
theories/MotorStayFacts.v
theories/PropsMotor.v
theories/LawSpec.v
theories/LawFacts.v
theories/LawProgFacts.v
theories/MulExactFacts.v
theories/PropsLaws.v
theories/OutcomeSpec.v
theories/ShrOutcomeFacts.v
theories/ShlOutcomeFacts.v
theories/DivOutcomeFacts.v
theories/PropsOutcome.v
theories/OrderSpec.v
theories/OrderFacts.v
theories/PropsOrder.v
theories/NarrowSpec.v
theories/NarrowFacts.v
theories/PropsNarrow.v
theories/Threads.v
theories/ThreadsSpec.v
theories/ThreadsFacts.v
theories/PropsThreads.v
theories/Interleave.v
theories/InterleaveFacts.v
theories/PropsInterleave.v
theories/Fine.v
theories/FineSpec.v
theories/FineFacts.v
theories/FineFacts2.v
theories/FineFacts3.v
theories/PropsFine.v
theories/IOProgram.v
theories/IOProgramSpec.v
theories/IOProgramFacts.v
theories/PropsIO.v
theories/IOLossSpec.v
theories/IOLossFacts.v
theories/PropsIOLoss.v
theories/ArrayProgram.v
theories/ArraySpec.v
theories/ArrayFacts.v
theories/PropsArray.v
theories/ErrorText.v
theories/ErrorTextFacts.v
theories/PropsErrorText.v
theories/PortIOSpec.v
theories/PortIOFacts.v
theories/PropsPortAll.v
theories/EmulationSpec.v
theories/EmulationFacts.v
theories/EmulationExec.v
theories/EmulationBack.v
theories/PropsEmulation.v
theories/StreamCharFacts.v
theories/PropsStreamChar.v
theories/FunProgram.v
theories/FunSpec.v
theories/FunFacts.v
theories/FunExampleFacts.v
theories/PropsFun.v
theories/FunLossSpec.v
theories/FunLossFacts.v
theories/PropsFunLoss.v
theories/ConstSpec.v
theories/ConstFacts.v
theories/PropsConst.v
theories/BoolConv.v
theories/BoolSpec.v
theories/BoolFacts.v
theories/PropsBool.v
theories/BitExactFacts.v
theories/PropsBits.v
theories/PortBitFacts.v
theories/PropsPortBits.v
theories/Motor2.v
theories/Motor2Facts.v
theories/Motor2Spec.v
theories/Motor2StepFacts.v
theories/Motor2TurnFacts.v
theories/Motor2RunFacts.v
theories/Motor2PureFacts.v
theories/Motor2LoopFacts.v
theories/Motor2MoveFacts.v
theories/PropsMotor2.v
theories/TermSpec.v
theories/TermFacts.v
theories/PropsTerm.v
theories/ElemInterval.v
theories/ElemIntervalSpec.v
theories/ElemIntervalFacts.v
theories/ElemShiftFacts.v
theories/PropsElemInterval.v
theories/Powm.v
theories/PowmFacts.v
theories/PropsPowm.v
theories/QuotFacts.v
theories/PropsQuot.v
theories/TightFacts.v
theories/PropsTight.v
theories/IvOrderSpec.v
theories/IvOrderFacts.v
theories/PropsIvOrder.v
theories/ChainProgram.v
theories/ChainSpec.v
theories/ChainFacts.v
theories/PropsChain.v
theories/ToldSpec.v
theories/ToldFacts.v
theories/PropsTold.v
theories/NamedPolicy.v
theories/NamedSpec.v
theories/NamedFacts.v
theories/PropsNamed.v
theories/BaseStream.v
theories/BaseStreamSpec.v
theories/BaseStreamFacts.v
theories/PropsBaseStream.v
theories/BaseProgram.v
theories/BaseProgramSpec.v
theories/BaseProgramFacts.v
theories/PropsBaseProgram.v
theories/BaseLossSpec.v
theories/BaseLossFacts.v
theories/PropsBaseLoss.v
theories/ToldMoreSpec.v
theories/ToldMoreFacts.v
theories/PropsToldMore.v
theories/ToldProgSpec.v
theories/ToldProgFacts.v
theories/PropsToldProg.v
