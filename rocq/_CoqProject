-Q theories Verif

theories/Types.v
theories/FloatBits.v
theories/Syntax.v
theories/Interp.v
theories/ProgRecip.v
theories/ProgLoad.v
theories/ProgStore.v
theories/ProgAdd.v
theories/ProgSub.v
theories/ProgMul.v
theories/ProgShift.v
theories/ProgPerm.v
theories/ProgBit.v
theories/ProgRev.v
theories/Library.v
theories/Header.v
theories/ExecLemmas.v
theories/Lane.v
theories/Spec.v
theories/Ew.v
theories/Sym.v
theories/Tables.v
theories/P_AddSub.v
theories/P_SubMore.v
theories/P_AddHigh.v
theories/P_Mul.v
theories/P_Shift.v
theories/P_Bit.v
theories/P_Perm.v
theories/P_Cast.v
theories/P_Tbl.v
theories/P_Bsl.v
theories/Local.v
theories/P_Mem.v
theories/FloatSpec.v
theories/FloatR.v
theories/P_Float.v
theories/P_Recip.v
theories/P_Recps.v
theories/P_Qsub64.v
theories/P_Laws.v
theories/P_Halves.v
theories/P_Laws2.v
theories/P_Bool.v
theories/PropBase.v
theories/PropertiesMem.v
theories/PropertiesArith.v
theories/PropertiesMove.v
theories/PropertiesShift.v
theories/PropertiesBit.v
theories/P_FloatMore.v
theories/P_FloatWit.v
theories/PropertiesFloat.v
theories/Abs.v
theories/AbsSound.v
theories/MetaSpec.v
theories/P_Meta.v
theories/P_Valid.v
theories/Fuel.v
theories/Frame.v
theories/Wrapv.v
theories/P_Valid2.v
theories/P_Lanes.v
theories/P_Det.v
theories/P_Header.v
theories/P_Meta2.v
theories/PropertiesMeta.v
theories/Conformance.v
theories/Typing.v
theories/P_Exact.v
theories/PropertiesExact.v
theories/Client.v
theories/P_Client.v
theories/P_Threads.v
theories/P_Kernels.v
theories/P_Parallel.v
theories/PropertiesClient.v
theories/Compose.v
theories/P_Compose.v
theories/P_Compose2.v
theories/P_Compose3.v
theories/PropertiesCompose.v
theories/Micro.v
theories/P_Micro.v
theories/P_Micro2.v
theories/P_Micro3.v
theories/P_Race.v
theories/P_Once.v
theories/P_Parallel2.v
theories/P_Sched.v
theories/PropertiesMicro.v
theories/SourceH.v
theories/SourceCpp.v
theories/Frontend.v
theories/P_Frontend.v
theories/PropertiesFrontend.v
theories/P_Newton.v
theories/PropertiesFloat2.v
theories/Order.v
theories/P_Order.v
theories/PropertiesOrder.v
theories/P_Nan.v
theories/NanSpec.v
theories/P_Nan2.v
theories/PropertiesNan.v
theories/TestUtil.v
theories/TestSpec.v
theories/P_TestUtil.v
theories/PropertiesTest.v
theories/TypeSound.v
theories/Contract.v
theories/P_Contract.v
theories/ContractSpec.v
theories/P_Contract2.v
theories/P_Contract3.v
theories/PropertiesContract.v
theories/Diag.v
theories/DiagSpec.v
theories/P_Diag.v
theories/PropertiesDiag.v
theories/Excess.v
theories/P_Round.v
theories/P_Excess.v
theories/P_Excess2.v
theories/P_Excess3.v
theories/PropertiesExcess.v
theories/Host.v
theories/P_Host.v
theories/P_Host2.v
theories/HostSpec.v
theories/P_Host3.v
theories/PropertiesHost.v
theories/Transpose.v
theories/P_Transpose.v
theories/P_Transpose2.v
theories/PropertiesTranspose.v
theories/Pixels.v
theories/P_Pixels.v
theories/P_Pixels2.v
theories/PropertiesPixels.v
theories/Runner.v
theories/RunnerSpec.v
theories/P_Runner.v
theories/P_Runner2.v
theories/PropertiesRunner.v
theories/SuiteSource.v
theories/Suite.v
theories/SuiteSpec.v
theories/P_Suite.v
theories/PropertiesSuite.v
theories/UtilSource.v
theories/UtilFront.v
theories/P_UtilFront.v
theories/PropertiesUtil.v
theories/Sorting.v
theories/P_Sorting.v
theories/P_Sorting2.v
theories/PropertiesSorting.v
theories/FloatSum.v
theories/P_FloatSum.v
theories/P_FloatSum2.v
theories/P_FloatSumWit.v
theories/PropertiesFloatSum.v
theories/Checked.v
theories/P_Checked.v
theories/P_Checked2.v
theories/PropertiesChecked.v
theories/Fenv.v
theories/P_Fenv.v
theories/FenvSpec.v
theories/P_Fenv2.v
theories/P_Fenv3.v
theories/P_Fenv4.v
theories/PropertiesFenv.v
theories/P_Suite2.v
theories/PropertiesSuite2.v
theories/Overlap.v
theories/P_Overlap.v
theories/P_Overlap2.v
theories/PropertiesOverlap.v
theories/Xml.v
theories/XmlSpec.v
theories/P_Xml.v
theories/P_Xml2.v
theories/PropertiesXml.v
theories/HelperSource.v
theories/Helper.v
theories/HelperSpec.v
theories/P_Helper.v
theories/PropertiesHelper.v
theories/Alloc.v
theories/AllocSpec.v
theories/P_Alloc.v
theories/PropertiesAlloc.v
theories/Clock.v
theories/ClockSpec.v
theories/P_Clock.v
theories/PropertiesClock.v
theories/Near.v
theories/P_Near.v
theories/Strings.v
theories/StringsSpec.v
theories/P_Strings.v
theories/PropertiesNear.v
