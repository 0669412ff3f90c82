-Q theories Verif
theories/Base.v
theories/Spec.v
theories/Portable.v
theories/Simd.v
theories/SimdGen.v
theories/SimdHash.v
theories/Sse41.v
theories/Avx2.v
theories/Platform.v
theories/Lib.v
theories/BaseFacts.v
theories/CompressFacts.v
theories/SimdFacts.v
theories/RowFacts.v
theories/RowCompress.v
theories/ManySpec.v
theories/ManyFacts.v
theories/TreeFacts.v
theories/SpecFacts.v
theories/ChunkFacts.v
theories/LibFacts.v
theories/HasherFacts.v
theories/SessionSpec.v
theories/Session.v
theories/ApiFacts.v
theories/HexSpec.v
theories/HashFacts.v
theories/SplitFacts.v
theories/Samples.v
theories/Prop_Spec.v
theories/OneShotFacts.v
theories/StreamFacts.v
theories/SimdProps.v
theories/Schedule.v
theories/ScheduleFacts.v
theories/Calls.v
theories/SecurityFacts.v
theories/Prop_OneShot.v
theories/Prop_Hasher.v
theories/Prop_Output.v
theories/Prop_Simd.v
theories/Prop_Schedule.v
theories/Prop_Security.v
theories/LibCalls.v
theories/TraceFacts.v
theories/WeightFacts.v
theories/StreamWeights.v
theories/CallFacts.v
theories/Prop_Calls.v
theories/Extract.v
theories/ExtractFacts.v
theories/Prop_Extract.v
theories/CostFacts.v
theories/Prop_Cost.v
theories/WrapSpec.v
theories/WrapFacts.v
theories/BeyondFacts.v
theories/Prop_Beyond.v
theories/SecretSpec.v
theories/SecretFacts.v
theories/Prop_Secret.v
theories/TSession.v
theories/TSessionFacts.v
theories/Prop_TSession.v
theories/Unsafe.v
theories/UnsafeFacts.v
theories/Prop_Unsafe.v
theories/PermFacts.v
theories/Prop_Perm.v
theories/Io.v
theories/IoSpec.v
theories/IoFacts.v
theories/Prop_Io.v
theories/Widths.v
theories/WidthFacts.v
theories/Prop_Widths.v
theories/Cli.v
theories/CliSpec.v
theories/CliFacts.v
theories/CliBigFacts.v
theories/Prop_Cli.v
theories/CliOut.v
theories/CliOutFacts.v
theories/Prop_CliOut.v
theories/CliMain.v
theories/CliMainFacts.v
theories/Prop_CliMain.v
theories/RefImpl.v
theories/RefFacts.v
theories/Prop_Ref.v
theories/PyImpl.v
theories/PyFacts.v
theories/Prop_Py.v
theories/Span.v
theories/SpanFacts.v
theories/Prop_Span.v
theories/LimitFacts.v
theories/Prop_Limits.v
theories/CSimd.v
theories/CSimdFacts.v
theories/CSimdProps.v
theories/Prop_CSimd.v
theories/CImpl.v
theories/CImplFacts.v
theories/CSpec.v
theories/CImplProps.v
theories/Prop_CHasher.v
theories/Cpu.v
theories/CpuFacts.v
theories/Prop_Cpu.v
theories/CCalls.v
theories/CTraceFacts.v
theories/CWeights.v
theories/CCallFacts.v
theories/Prop_CCalls.v
theories/CSecretFacts.v
theories/Prop_CSecret.v
theories/CBeyondFacts.v
theories/Prop_CBeyond.v
theories/CSessionSpec.v
theories/CSession.v
theories/CSessionFacts.v
theories/Prop_CSession.v
theories/NSession.v
theories/NSessionFacts.v
theories/Prop_NSession.v
theories/CSafe.v
theories/CSafeFacts.v
theories/Prop_CSafe.v
theories/CByteOrder.v
theories/CByteOrderFacts.v
theories/Prop_ByteOrder.v
theories/CCostFacts.v
theories/Prop_CCost.v
theories/Steps.v
theories/StepsSpec.v
theories/StepsFacts.v
theories/Prop_Steps.v
theories/VOps.v
theories/VSimdGen.v
theories/VSteps.v
theories/LibSteps.v
theories/VStepsSpec.v
theories/VStepsFacts.v
theories/LibStepsFacts.v
theories/VCountFacts.v
theories/Prop_VSteps.v
theories/VMemSpec.v
theories/VMemFacts.v
theories/Prop_VMem.v
theories/AgreeSpec.v
theories/AgreeFacts.v
theories/Prop_Agree.v
theories/CVSteps.v
theories/CVMemSpec.v
theories/CVStepsFacts.v
theories/CVMemFacts.v
theories/CVCountFacts.v
theories/Prop_CVSteps.v
theories/CHSteps.v
theories/CHStepsSpec.v
theories/CHStepsFacts.v
theories/CHMemFacts.v
theories/CHMemSpec.v
theories/CHBoundFacts.v
theories/Prop_CHSteps.v
theories/LibReadFacts.v
theories/Prop_LibReads.v
theories/EndSpec.v
theories/EndFacts.v
theories/Prop_Ends.v
theories/C64Mem.v
theories/C64MemSpec.v
theories/C64MemFacts.v
theories/Prop_C64Mem.v
theories/C64Order.v
theories/C64OrderFacts.v
theories/Prop_C64Order.v
theories/Spec64.v
theories/Simd64.v
theories/Simd64Gen.v
theories/Portable64.v
theories/C64.v
theories/Compress64Facts.v
theories/Simd64Facts.v
theories/Row64Facts.v
theories/C64Facts.v
theories/C64KeyFacts.v
theories/Prop_C64.v
