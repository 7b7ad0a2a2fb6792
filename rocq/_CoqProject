-Q theories Verif
theories/Machine.v
theories/FieldModel.v
theories/Spec.v
theories/MachineFacts.v
theories/FieldLimb.v
theories/FieldMul.v
theories/FieldOps.v
theories/FieldBytes.v
theories/FastMul.v
theories/NumTheory.v
theories/Primes.v
theories/Fp.v
theories/FieldF.v
theories/FieldInv.v
theories/FieldStmt.v
theories/PropField.v
theories/ScalarModel.v
theories/ScalarLimb.v
theories/ScalarOps.v
theories/ScalarBits.v
theories/ScalarNaf.v
theories/ScalarStmt.v
theories/PropScalar.v
theories/EdwardsModel.v
theories/TableModel.v
theories/RistrettoModel.v
theories/Curve.v
theories/CurveGroup.v
theories/EdwardsF.v
theories/PointMul.v
theories/EdwardsY.v
theories/EdwardsStmt.v
theories/PropEdwards.v
theories/Rist.v
theories/RistF.v
theories/RistE.v
theories/RistSpec.v
theories/RistrettoStmt.v
theories/PropRistretto.v
theories/GroupData.v
theories/GroupCheck.v
theories/GroupOrder.v
theories/GroupStmt.v
theories/PropGroup.v
theories/MiscStmt.v
theories/PropMisc.v
theories/LimbFull.v
theories/LawsStmt.v
theories/PropLaws.v
theories/ExampleModel.v
theories/ProtoStmt.v
theories/PropProto.v
theories/CodeSpec.v
theories/CodeStmt.v
theories/PropCode.v
theories/ApiModel.v
theories/ApiSpec.v
theories/ApiStmt.v
theories/PropApi.v
theories/NafSpec.v
theories/NafStmt.v
theories/PropNaf.v
theories/WidthStmt.v
theories/PropWidth.v
theories/ProgModel.v
theories/ProgSpec.v
theories/ProgStmt.v
theories/PropProg.v
theories/RandSpec.v
theories/RandStmt.v
theories/PropRand.v
theories/AccessModel.v
theories/AccessSpec.v
theories/AccessStmt.v
theories/PropAccess.v
theories/ToolsModel.v
theories/ToolsStmt.v
theories/PropTools.v
theories/EllPre.v
theories/EllStmt.v
theories/PropEll.v
theories/TraceModel.v
theories/TraceSpec.v
theories/TraceStmt.v
theories/PropTrace.v
theories/ScriptModel.v
theories/Tonelli.v
theories/ScriptStmt.v
theories/PropScript.v
theories/DocModel.v
theories/Forms.v
theories/DocPrimes.v
theories/DocFacts.v
theories/DocStmt.v
theories/PropDoc.v
theories/DocTestModel.v
theories/DocTestStmt.v
theories/PropDocTest.v
theories/TestModel.v
theories/TestStmt.v
theories/PropTest.v
theories/BranchModel.v
theories/BranchSpec.v
theories/BranchStmt.v
theories/PropBranch.v
theories/SafeModel.v
theories/SafeStmt.v
theories/PropSafe.v
theories/SageModel.v
theories/SageStmt.v
theories/PropSage.v
theories/LeakModel.v
theories/LeakStmt.v
theories/PropLeak.v
theories/LeakPtStmt.v
theories/PropLeakPt.v
theories/WideMul.v
theories/WideStmt.v
theories/PropWide.v
theories/BuildStmt.v
theories/PropBuild.v
theories/LogStmt.v
theories/PropLog.v
theories/BenchModel.v
theories/BenchStmt.v
theories/PropBench.v
theories/RawSpec.v
theories/RawStmt.v
theories/PropRaw.v
theories/SearchModel.v
theories/SearchSpec.v
theories/SearchStmt.v
theories/PropSearch.v
theories/OverSpec.v
theories/OverStmt.v
theories/PropOver.v
theories/OffSpec.v
theories/OffStmt.v
theories/PropOff.v
theories/RelStmt.v
theories/PropRel.v
theories/VectorData.v
theories/Vectors.v
