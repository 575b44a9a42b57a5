-Q theories Verif
theories/Word.v
theories/Spec_Sha1.v
theories/Spec_UbcTable.v
theories/Spec_DV.v
theories/Spec_Cd.v
theories/Model_Ubc.v
theories/Gen_UbcGo.v
theories/Gen_UbcC.v
theories/Gen_DvsGo.v
theories/Gen_DvsC.v
theories/Model_Go.v
theories/WordFacts.v
theories/Sha1Facts.v
theories/DvFacts.v
theories/UbcReflect.v
theories/GoCheck.v
theories/GoBlock.v
theories/GoApi.v
theories/Spec_Api.v
theories/Model_Api.v
theories/GoStore.v
theories/Model_Asm.v
theories/Model_Amd64.v
theories/Gen_Amd64.v
theories/Model_Arm64.v
theories/Gen_Arm64.v
theories/AsmSym.v
theories/Amd64Sym.v
theories/Arm64Sym.v
theories/GoAmd64.v
theories/GoArm64.v
theories/Model_Block.v
theories/GoAsm.v
theories/GoProps.v
theories/GoProps2.v
theories/GoDetect.v
theories/Data_Shambles.v
theories/GoRefute.v
theories/Model_Slice.v
theories/GoSlices.v
theories/GoProps3.v
theories/Properties_Go.v
theories/Examples_Go.v
theories/Model_Trace.v
theories/AsmTrace.v
theories/Properties_Asm.v
theories/Examples_Asm.v
theories/Model_CSteps.v
theories/Gen_CSteps.v
theories/Model_C.v
theories/Model_CBuild.v
theories/Spec_C.v
theories/Model_CApi.v
theories/CSteps.v
theories/CProcess.v
theories/CCtx.v
theories/CGo.v
theories/CProps.v
theories/Properties_C.v
theories/Examples_C.v
theories/Model_Build.v
theories/Gen_Build.v
theories/Model_Cpu.v
theories/BuildFacts.v
theories/Spec_Build.v
theories/Model_CDead.v
theories/CDead.v
theories/Model_Table.v
theories/GoTable.v
theories/Properties_Build.v
theories/Examples_Build.v
theories/Model_Iface.v
theories/Gen_Methods.v
theories/Model_Hasher.v
theories/Spec_Iface.v
theories/IfaceFacts.v
theories/Properties_Iface.v
theories/Examples_Iface.v
theories/Spec_Asm.v
theories/AsmPaths.v
theories/Properties_Paths.v
theories/Examples_Paths.v
theories/Spec_Collide.v
theories/Collide.v
theories/Properties_Collide.v
theories/Examples_Collide.v
theories/Spec_Work.v
theories/Model_Work.v
theories/GoWork.v
theories/MoreWork.v
theories/Properties_Work.v
theories/Examples_Work.v
theories/Data_Vectors.v
theories/Examples_Vectors.v
theories/Spec_Doc.v
theories/DocFacts.v
theories/AsmMulti.v
theories/AsmMultiArm.v
theories/MultiFacts.v
theories/Properties_Multi.v
theories/Examples_Multi.v
theories/Properties_Doc.v
theories/Examples_Doc.v
theories/Model_Conc.v
theories/Spec_Conc.v
theories/ConcFacts.v
theories/ConcAsm.v
theories/Model_Buffer.v
theories/Spec_Buffer.v
theories/BufferFacts.v
theories/BufferAsm.v
theories/Properties_Conc.v
theories/Examples_Conc.v
theories/Spec_Marks.v
theories/Model_Program.v
theories/TableApi.v
theories/Properties_Program.v
theories/Examples_Program.v
theories/Spec_Fetch.v
theories/Model_Fetch.v
theories/FetchFacts.v
theories/FetchApi.v
theories/Properties_Fetch.v
theories/Examples_Fetch.v
theories/Model_CTypes.v
theories/Gen_CTyped.v
theories/CTypes.v
theories/CMacros.v
theories/Model_CTyped.v
theories/CTyped.v
theories/Properties_CTypes.v
theories/Examples_CTypes.v
theories/Model_CMem.v
theories/Spec_CMem.v
theories/CMem.v
theories/Properties_CMem.v
theories/Examples_CMem.v
theories/Model_Race.v
theories/Spec_Race.v
theories/Race.v
theories/Properties_Race.v
theories/Examples_Race.v
theories/Model_CRace.v
theories/Spec_CRace.v
theories/CRace.v
theories/Properties_CRace.v
theories/Examples_CRace.v
theories/Model_CEff.v
theories/Spec_CEff.v
theories/CEff.v
theories/Properties_CEff.v
theories/Examples_CEff.v
theories/Model_Tests.v
theories/Spec_Tests.v
theories/Tests.v
theories/Properties_Tests.v
theories/Examples_Tests.v
theories/Model_Bench.v
theories/Spec_Bench.v
theories/Bench.v
theories/BenchRefute.v
theories/Properties_Bench.v
theories/Examples_Bench.v
theories/Spec_Extend.v
theories/Extend.v
theories/Properties_Extend.v
theories/Examples_Extend.v
theories/Spec_CPass.v
theories/CPass.v
theories/Properties_CPass.v
theories/Examples_CPass.v
theories/Model_CInit.v
theories/Spec_CInit.v
theories/CInit.v
theories/Properties_CInit.v
theories/Examples_CInit.v
theories/Model_Leak.v
theories/Spec_Leak.v
theories/Leak.v
theories/LeakTrace.v
theories/Properties_Leak.v
theories/Examples_Leak.v
theories/Model_LeakAsm.v
theories/LeakAsm.v
theories/Properties_LeakAsm.v
theories/Examples_LeakAsm.v
theories/Model_Rectify.v
theories/Rectify.v
theories/Properties_Rectify.v
theories/Examples_Rectify.v
