-Q theories Verif
theories/Base.v
theories/Config.v
theories/Spline.v
theories/Storage.v
theories/DB.v
theories/Recovery.v
theories/VarData.v
theories/Util.v
theories/Schema.v
theories/Query.v
theories/Spec.v
theories/SpecUtil.v
theories/Run.v
theories/BaseFacts.v
theories/UtilFacts.v
theories/CompareFacts.v
theories/SpecSpline.v
theories/SplineFacts.v
theories/SpecPage.v
theories/LogFacts.v
theories/PageFacts.v
theories/SearchFacts.v
theories/SpecStore.v
theories/StoreFacts.v
theories/PutFacts.v
theories/GetFacts.v
theories/BinFacts.v
theories/SpecRun.v
theories/RunFacts.v
theories/ReachFacts.v
theories/StoreThms.v
theories/SpecVar.v
theories/TapeFacts.v
theories/VarFacts.v
theories/VarPutFacts.v
theories/ImageFacts.v
theories/VarReadFacts.v
theories/VarRunFacts.v
theories/VarGetFacts.v
theories/VarThms.v
theories/SpecIter.v
theories/IterFacts.v
theories/IterThms.v
theories/SpecIndex.v
theories/IndexFacts.v
theories/SpecQuery.v
theories/QueryFacts.v
theories/AggFacts.v
theories/JoinFacts.v
theories/QueryThms.v
theories/SpecReopen.v
theories/SpecReopenIdx.v
theories/SpecReopenBm.v
theories/IdxRecFacts.v
theories/RecoverFacts.v
theories/ReopenThms.v
theories/ReopenIdxThms.v
theories/IdxBmFacts.v
theories/ReopenBmThms.v
theories/SpecVarReopen.v
theories/VarRecFacts.v
theories/VarReopenThms.v
theories/VarStoreThms.v
theories/SpecRlc.v
theories/RlcFacts.v
theories/RlcOps.v
theories/RlcRecFacts.v
theories/RlcThms.v
theories/SpecFault.v
theories/FaultFacts.v
theories/SpecInit.v
theories/InitFacts.v
theories/SpecFlash.v
theories/FlashFacts.v
theories/FlashThms.v
theories/Drivers.v
theories/SpecDrivers.v
theories/DriverFacts.v
theories/ExFacts.v
theories/ExIter.v
theories/ExIndex.v
theories/ExReopen.v
theories/ExReopenIdx.v
theories/ExReopenBm.v
theories/ExQuery.v
theories/ExVar.v
theories/ExVarReopen.v
theories/ExRlc.v
theories/ExDrivers.v
theories/Props_Util.v
theories/Props_Spline.v
theories/Props_Store.v
theories/Props_Iter.v
theories/Props_Index.v
theories/Props_Reopen.v
theories/Props_ReopenIdx.v
theories/Props_ReopenBm.v
theories/Props_Query.v
theories/Heap.v
theories/Resource.v
theories/SpecHeap.v
theories/HeapFacts.v
theories/Props_Heap.v
theories/SpecResource.v
theories/ResourceFacts.v
theories/Props_Var.v
theories/Props_VarReopen.v
theories/Props_VarStore.v
theories/Props_Rlc.v
theories/Props_Init.v
theories/Props_Fault.v
theories/FaultReadFacts.v
theories/Props_FaultRead.v
theories/Props_Flash.v
theories/SpecTerm.v
theories/TermFacts.v
theories/ExTerm.v
theories/Props_Term.v
theories/ResetFacts.v
theories/Props_Reset.v
theories/SpecRlcVar.v
theories/Props_Drivers.v
theories/SpecAny.v
theories/AnyFacts.v
theories/Props_Any.v
theories/Fp.v
theories/SpecFp.v
theories/NearFacts.v
theories/FpFacts.v
theories/FpRunFacts.v
theories/FpOpenFacts.v
theories/FpVarFacts.v
theories/ExFp.v
theories/Props_Fp.v
theories/Refuted.v
theories/Refuted_Fp.v
theories/Refuted_Iter.v
theories/Refuted_ReopenIdx.v
theories/Refuted_Query.v
theories/Refuted_Heap.v
theories/Props_Resource.v
theories/Refuted_Resource.v
theories/Refuted_Var.v
theories/Refuted_VarReopen.v
theories/Refuted_Rlc.v
theories/Refuted_RlcVar.v
theories/RlcVarFacts.v
theories/RlcVarThms.v
theories/ExRlcVar.v
theories/Props_RlcVar.v
theories/Refuted_Init.v
theories/Refuted_Fault.v
theories/Refuted_Flash.v
theories/Refuted_Drivers.v
theories/Refuted_Term.v
theories/Refuted_Any.v
theories/SpecFlashLife.v
theories/FlashLifeFacts.v
theories/Props_FlashLife.v
theories/Buffers.v
theories/SpecBuffers.v
theories/BuffersFacts.v
theories/Props_Buffers.v
theories/Refuted_Buffers.v
theories/VarFlushFacts.v
theories/Props_VarFlush.v
theories/SplineBuild.v
theories/SplineBuildFacts.v
theories/Props_SplineBuild.v
theories/FileObj.v
theories/SpecFileObj.v
theories/FileObjFacts.v
theories/Props_FileObj.v
theories/Refuted_FileObj.v
theories/FaultVarFacts.v
theories/FaultVarThms.v
theories/Props_FaultVar.v
theories/Refuted_FaultVar.v
theories/SpecAnyRlc.v
theories/AnyRlcFacts.v
theories/Props_AnyRlc.v
theories/SpecAnyVar.v
theories/AnyVarFacts.v
theories/Props_AnyVar.v
theories/AnyScanFacts.v
theories/Props_AnyScan.v
theories/SpecDriverFault.v
theories/DriverFaultFacts.v
theories/Props_DriverFault.v
theories/SpecAnyNext.v
theories/AnyNextFacts.v
theories/Props_AnyNext.v
theories/DriverRead.v
theories/SpecDriverRead.v
theories/DriverReadFacts.v
theories/Props_DriverRead.v
theories/Refuted_DriverRead.v
