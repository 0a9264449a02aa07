-Q theories Verif
theories/Py.v
theories/PyFacts.v
theories/FunModel.v
theories/FunSpec.v
theories/FunProofs.v
theories/Prop_Fun.v
theories/DeltaModel.v
theories/DeltaSpec.v
theories/DeltaProofs.v
theories/DeltaLast.v
theories/ChunkProofs.v
theories/Prop_Delta.v
theories/DeltaReaderModel.v
theories/StreamSpec.v
theories/DeltaReaderProofs.v
theories/DeltaSheetSpec.v
theories/DeltaSheetProofs.v
theories/Prop_DeltaReader.v
theories/IndexModel.v
theories/IndexSpec.v
theories/IndexProofs.v
theories/IndexSearch.v
theories/Prop_Index.v
theories/ZlibModel.v
theories/ZlibProofs.v
theories/ReaderModel.v
theories/ReaderProofs.v
theories/CrossProofs.v
theories/QuietProofs.v
theories/RewindSpec.v
theories/RewindProofs.v
theories/Prop_Reader.v
theories/Crc32.v
theories/Crc32Proofs.v
theories/PackModel.v
theories/PackSpec.v
theories/SimProofs.v
theories/PackProofs.v
theories/PackChainProofs.v
theories/PackCheckProofs.v
theories/PackWriteProofs.v
theories/RleModel.v
theories/RleProofs.v
theories/PackTop.v
theories/PackBig.v
theories/PackIterProofs.v
theories/Prop_Pack.v
theories/Prop_Walk.v
theories/AllocModel.v
theories/AllocProofs.v
theories/LazyDeltaModel.v
theories/LazyDeltaSpec.v
theories/LazyDeltaProofs.v
theories/OldZlibModel.v
theories/OldZlibProofs.v
theories/Prop_OldZlib.v
theories/Prop_Alloc.v
theories/Prop_LazyDelta.v
theories/Prop_PackIter.v
theories/LazyModel.v
theories/LazySpec.v
theories/LazyProofs.v
theories/Prop_Lazy.v
theories/OsModel.v
theories/OsProofs.v
theories/LooseModel.v
theories/DbNames.v
theories/LooseSpec.v
theories/LooseProofs.v
theories/LooseTop.v
theories/LooseLive.v
theories/LooseQuery.v
theories/LooseConc.v
theories/LooseMain.v
theories/StoreAny.v
theories/StoreShort.v
theories/LooseReader.v
theories/Prop_Loose.v
theories/Prop_LooseRead.v
theories/Prop_Ostream.v
theories/LockModel.v
theories/LockSpec.v
theories/LockProofs.v
theories/LockTop.v
theories/LockFail.v
theories/Prop_Lock.v
theories/OstreamModel.v
theories/OstreamSpec.v
theories/OstreamProofs.v
theories/MemModel.v
theories/MemSpec.v
theories/MemProofs.v
theories/MemRewind.v
theories/MemCopy.v
theories/MemRaw.v
theories/Prop_Mem.v
theories/PackDbModel.v
theories/PackDbSpec.v
theories/PackDbProofs.v
theories/PackDbTop.v
theories/PackDbFail.v
theories/Prop_PackDb.v
theories/ErrorSpec.v
theories/ErrorProofs.v
theories/GlobModel.v
theories/GlobSpec.v
theories/GlobProofs.v
theories/Prop_Glob.v
theories/GitAbbrModel.v
theories/GitAbbrSpec.v
theories/GitAbbrProofs.v
theories/GitShort.v
theories/Prop_GitAbbr.v
theories/PackOrderSpec.v
theories/PackOrderProofs.v
theories/Prop_PackOrder.v
theories/CompoundModel.v
theories/CompoundSpec.v
theories/CompoundProofs.v
theories/CompoundErrors.v
theories/GitModel.v
theories/GitSpec.v
theories/GitProofs.v
theories/GitTop.v
theories/GitBare.v
theories/GitMain.v
theories/GitGrow.v
theories/GitRoots.v
theories/GitFinal.v
theories/Prop_Git.v
theories/CreateModel.v
theories/CreateSpec.v
theories/CreateProofs.v
theories/CreateConc.v
theories/CreateLeft.v
theories/CreateRead.v
theories/CreateShort.v
theories/CreateGap.v
theories/Prop_Create.v
theories/GitStoreModel.v
theories/GitStoreSpec.v
theories/GitStoreProofs.v
theories/Prop_GitStore.v
theories/TextModel.v
theories/TextSpec.v
theories/TextProofs.v
theories/LooseList.v
theories/Prop_List.v
theories/Prop_Text.v
theories/Prop_Errors.v
theories/SystemErrors.v
theories/Prop_SystemErrors.v
theories/DeflateModel.v
theories/DeflateProofs.v
theories/DeflateDense.v
theories/DeflateQuiet.v
theories/Prop_Deflate.v
theories/Sha1.v
theories/Fixtures.v
theories/RecordModel.v
theories/UtilModel.v
theories/RecordSpec.v
theories/Prop_Record.v
theories/CompressModel.v
theories/CutProofs.v
theories/StoredBlocks.v
theories/StoredReads.v
theories/CutTop.v
theories/Prop_Cut.v
theories/Prop_Stored.v
theories/NameSpec.v
theories/Prop_Name.v
theories/StopSpec.v
theories/StopProofs.v
theories/StopZlib.v
theories/StopPack.v
theories/Prop_Stop.v
theories/DepthModel.v
theories/DepthSpec.v
theories/DepthProofs.v
theories/DepthDeep.v
theories/Prop_Depth.v
theories/DurableSpec.v
theories/DurableProofs.v
theories/Prop_Durable.v
theories/CreateDurable.v
theories/MoveSpec.v
theories/MoveProofs.v
theories/RightsSpec.v
theories/RightsProofs.v
theories/RightsTop.v
theories/Prop_PackDurable.v
theories/RepackSpec.v
theories/RepackProofs.v
theories/Prop_Repack.v
theories/ClosedModel.v
theories/ClosedSpec.v
theories/ClosedProofs.v
theories/CountModel.v
theories/CountProofs.v
theories/Prop_Closed.v
theories/Prop_Count.v
theories/Prop_Rights.v
theories/Prop_Move.v
theories/AltSpec.v
theories/AltProofs.v
theories/Prop_Alt.v
theories/MissingModel.v
theories/MissingProofs.v
theories/Prop_Missing.v
