-Q theories Verif
theories/Base.v
theories/Constants32.v
theories/Karatsuba32.v
theories/KaratsubaSquare32.v
theories/BigNumber.v
theories/ScalarModel.v
theories/Niels.v
theories/CombTable.v
theories/WnafTable.v
theories/Errors.v
theories/ExtendedPoint.v
theories/Eddsa.v
theories/Goldilocks.v
theories/Lib.v
theories/Text.v
theories/Trace.v
theories/TestVectors.v
theories/UnitTests.v
theories/SpecField.v
theories/SpecBytes.v
theories/Arith.v
theories/Bytes.v
theories/NumTheory.v
theories/PrimeP.v
theories/Field.v
theories/LimbKara.v
theories/LimbMul.v
theories/LimbOps.v
theories/LimbOps2.v
theories/LimbSer.v
theories/LimbDeser.v
theories/FieldOps.v
theories/SpecScalar.v
theories/ScalarProofs.v
theories/SpecCurve.v
theories/Edwards.v
theories/Isogeny.v
theories/PointOps.v
theories/PointMul.v
theories/CombMul.v
theories/FastF.v
theories/BaseHints.v
theories/BaseTables.v
theories/Recode.v
theories/DoubleMul.v
theories/SpecDecode.v
theories/Decode.v
theories/Total.v
theories/SpecEd448.v
theories/Ed448.v
theories/SpecTrace.v
theories/TraceProofs.v
theories/SpecEvents.v
theories/TraceWhole.v
theories/SpecVerify.v
theories/Verify.v
theories/PrimeQ.v
theories/Order.v
theories/Equation.v
theories/Facts.v
theories/Witness.v
theories/SpecHex.v
theories/SpecApi.v
theories/TextProofs.v
theories/Api.v
theories/SpecShake.v
theories/Shake.v
theories/SpecUniform.v
theories/Uniform.v
theories/ConstFacts.v
theories/Count.v
theories/SpecInternal.v
theories/Internal.v
theories/Checks.v
theories/Sound.v
theories/Torsion.v
theories/Kernel.v
theories/Alias.v
theories/Bind.v
theories/Samples.v
theories/Samples2.v
theories/ApiMore.v
theories/Interop.v
theories/SpecProtocol.v
theories/Protocol.v
theories/Structure.v
theories/SpecStructure.v
theories/SmallKeys.v
theories/SpecQueries.v
theories/Queries.v
theories/Samples4.v
theories/Transcripts.v
theories/Cost.v
theories/SpecCost.v
theories/CostProofs.v
theories/CostCases.v
theories/Unbias.v
theories/Panics.v
theories/Release.v
theories/ReleaseProofs.v
theories/ReleaseApi.v
theories/Samples3.v
theories/Blocks.v
theories/Claims.v
theories/Target32.v
theories/TargetProofs.v
theories/TargetApi.v
theories/SpecForger.v
theories/Forking.v
theories/Forger.v
theories/ForgerCase.v
theories/Game.v
theories/GameFork.v
theories/GameHop.v
theories/GameReal.v
theories/GameCase.v
theories/Complete.v
theories/CompleteCase.v
theories/GameExpanded.v
theories/GameExpandedCase.v
theories/Prepare.v
theories/PrepareProofs.v
theories/SpecRepeat.v
theories/Repeat.v
theories/RepeatCase.v
theories/Disclose.v
theories/DiscloseCase.v
theories/SpecLeak.v
theories/LeakCount.v
theories/LeakKey.v
theories/Advantage.v
theories/AdvantageCase.v
theories/Seen.v
theories/Simulate.v
theories/SimulateCase.v
theories/SeedSecret.v
theories/SpecBinding.v
theories/SpecTraps.v
theories/Traps.v
theories/Binding.v
theories/BindingCase.v
theories/Prefix.v
theories/SeedWitness.v
theories/ShakeWitness.v
theories/NonceWitness.v
theories/Properties.v
theories/Properties2.v
theories/Properties3.v
