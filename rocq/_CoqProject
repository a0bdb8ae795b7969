-Q theories Verif

theories/Base.v
theories/Utf.v
theories/Types.v
theories/Stream.v
theories/Parse.v
theories/Find.v
theories/Write.v
theories/TagApi.v
theories/BaseLemmas.v
theories/UtfLemmas.v
theories/TagOps.v
theories/TagSpec.v
theories/TagOpsSpec.v
theories/TagLemmas.v
theories/TagProofs.v
theories/TagAccess.v
theories/TagRefine.v
theories/Props_Tag.v
theories/FileSpec.v
theories/ParseLemmas.v
theories/ReadProofs.v
theories/ExampleFile.v
theories/ForeignSpec.v
theories/ForeignProofs.v
theories/ReadMore.v
theories/ReadSpec.v
theories/ReadFacts.v
theories/WriteBytes.v
theories/NewMeans.v
theories/ReadBad.v
theories/ReadLayout.v
theories/ReadErr.v
theories/Modes.v
theories/ReadTerm.v
theories/Props_Read.v
theories/Props_ReadErr.v
theories/DumpProofs.v
theories/Props_Dump.v
theories/WriteState.v
theories/ScanProofs.v
theories/AdjustProofs.v
theories/FramesProofs.v
theories/WriteProofs.v
theories/WriteMain.v
theories/UpdateMeans.v
theories/UpdateTwice.v
theories/EditSpec.v
theories/EditProofs.v
theories/OffsetProofs.v
theories/WriteExample.v
theories/StoreSpec.v
theories/StoreProofs.v
theories/SizeProofs.v
theories/Props_Write.v
theories/Props_Write2.v
theories/Props_Write3.v
theories/FailSpec.v
theories/FailProofs.v
theories/Props_Fail.v
theories/ScanFwd.v
theories/WriteAny.v
theories/CallsAny.v
theories/Props_Any.v
theories/WriteTerm.v
theories/WritePanic.v
theories/Props_Term.v
theories/Display.v
theories/DisplaySpec.v
theories/DisplayProofs.v
theories/DisplayText.v
theories/Props_Display.v
theories/Fault.v
theories/FaultProofs.v
theories/Props_Fault.v
theories/Props_Session.v
theories/Accept.v
theories/Samples.v
theories/Props_Samples.v
theories/ReadIO.v
theories/IoProofs.v
theories/IoCost.v
theories/IoForward.v
theories/IoHang.v
theories/IoDevice.v
theories/IoWalk.v
theories/IoScan.v
theories/Props_IO.v
theories/WhereSpec.v
theories/WhereProofs.v
theories/WhereRepeat.v
theories/Props_Where.v
theories/BufRead.v
theories/BufProofs.v
theories/Props_Buf.v
theories/Extend.v
theories/FineWrite.v
theories/FineProofs.v
theories/Props_Fine.v
theories/Paths.v
theories/Props_Path.v
theories/PanicSpec.v
theories/PanicProofs.v
theories/Props_Panic.v
theories/WPanicSpec.v
theories/WPanicProofs.v
theories/Props_WPanic.v
theories/Described.v
theories/DescribedIs.v
theories/ErrSpec.v
theories/ErrProofs.v
theories/Props_Err.v
theories/ErrExact.v
theories/Props_Exact.v
theories/DescribedWrite.v
theories/LayoutSpec.v
theories/LayoutProofs.v
theories/LayoutWrite.v
theories/LayoutTables.v
theories/LayoutRun.v
theories/LayoutExact.v
theories/Props_Layout.v
theories/TreeSpec.v
theories/TreeProofs.v
theories/ReadCalm.v
theories/Props_Tree.v
theories/Values.v
theories/Props_Values.v
theories/UserIdent.v
theories/Props_Ident.v
theories/ErrText.v
theories/Props_ErrText.v
theories/FirstSpec.v
theories/FirstUnique.v
theories/FirstProofs.v
theories/Props_First.v
theories/OutSpec.v
theories/OutUnique.v
theories/OutBase.v
theories/OutProofs.v
theories/OutModes.v
theories/Props_Out.v
theories/ChunkSpec.v
theories/ChunkProofs.v
theories/Props_Chunk.v
theories/WOutSpec.v
theories/WOutScan.v
theories/WOutUnique.v
theories/WOutPlan.v
theories/WOutRun.v
theories/WOutModes.v
theories/Props_WOut.v
theories/CycleSpec.v
theories/CycleProofs.v
theories/Props_Cycle.v
theories/UnicodeSpec.v
theories/UnicodeProofs.v
theories/Props_Unicode.v
theories/Macro.v
theories/MacroSpec.v
theories/MacroProofs.v
theories/Props_Macro.v
theories/WireSpec.v
theories/WireProofs.v
theories/Props_Wire.v
theories/PowerSpec.v
theories/PowerProofs.v
theories/Props_Power.v
theories/CostSpec.v
theories/CostProofs.v
theories/Props_Cost.v
theories/Reader.v
theories/ReaderProofs.v
theories/Props_Reader.v
theories/FragSpec.v
theories/FragProofs.v
theories/Props_Frag.v
theories/LookSpec.v
theories/LookProofs.v
theories/LookScan.v
theories/Props_Look.v
theories/Utf16Proofs.v
theories/Props_Utf16.v
theories/SurviveSpec.v
theories/SurviveProofs.v
theories/Props_Survive.v
theories/Props_Length.v
theories/Props_WhenTrue.v
theories/LenSum.v
theories/Props_LenSum.v
theories/RepairSpec.v
theories/RepairProofs.v
theories/Props_Repair.v
theories/LastSpec.v
theories/LastProofs.v
theories/LastWrite.v
theories/LastMeans.v
theories/LastTwice.v
theories/Props_Last.v
theories/LastSize.v
theories/Props_Copy.v
theories/SpillSpec.v
theories/SpillProofs.v
theories/SpillPlace.v
theories/SpillMain.v
theories/SpillChunks.v
theories/SpillRead.v
theories/SpillTail.v
theories/Props_Spill.v
theories/TidySpec.v
theories/TidyProofs.v
theories/TidyRead.v
theories/TidyMeans.v
theories/Props_Tidy.v
theories/LiveSpec.v
theories/LiveProofs.v
theories/Props_Live.v
theories/AcceptAll.v
theories/Props_Accept.v
theories/Props_Ftyp.v
theories/ChunkLive.v
theories/Props_LiveChunk.v
theories/Props_LiveFrag.v
theories/Props_LiveWire.v
theories/Props_LiveCrash.v
theories/Utf16Last.v
theories/Props_Utf16Last.v
theories/Props_LiveMore.v
theories/Props_LiveCost.v
theories/Interfere.v
theories/InterfereProofs.v
theories/InterfereFront.v
theories/LateProofs.v
theories/Props_Interfere.v
theories/LateTwo.v
theories/Props_TwoWriters.v
theories/SharedRead.v
theories/SharedReadProofs.v
theories/Props_SharedRead.v
theories/SharedBuf.v
theories/SharedBufProofs.v
theories/Props_SharedBuf.v
theories/SharedScan.v
theories/SharedScanProofs.v
theories/SharedFront.v
theories/ScanLooked.v
theories/SharedTables.v
theories/SharedTablesProofs.v
theories/SharedTablesAlone.v
theories/SharedFails.v
theories/Props_SharedScan.v
