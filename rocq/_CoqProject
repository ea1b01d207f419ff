-Q theories Verif
theories/AggregateProofs.v
theories/AgreeProofs.v
theories/AgreeSpec.v
theories/AgreeWitness.v
theories/Api.v
theories/Base.v
theories/CApiProofs.v
theories/CApiWitness.v
theories/CCallSpec.v
theories/CDecoder.v
theories/CEncSpec.v
theories/CEncodeWitness.v
theories/CEncoder.v
theories/CFrames.v
theories/Codec.v
theories/ColumnInfo.v
theories/ColumnProofs.v
theories/CommandLine.v
theories/CommandLineSpec.v
theories/CommandLineWitness.v
theories/Compact.v
theories/CompactSpec.v
theories/CompactWitness.v
theories/Comparator.v
theories/ComparatorProofs.v
theories/ComparatorSpec.v
theories/CompareWitness.v
theories/Copy.v
theories/CopyProofs.v
theories/CopySpec.v
theories/CopyWitness.v
theories/Csv.v
theories/CsvRefuseSpec.v
theories/P_CsvRefuse.v
theories/CsvRefuseWitness.v
theories/CsvRows.v
theories/CsvSpec.v
theories/CsvText.v
theories/CsvWitness.v
theories/CutProofs.v
theories/DecodeProofs.v
theories/DecodeWitness.v
theories/DispatchNames.v
theories/DispatchProofs.v
theories/DispatchRun.v
theories/DispatchSpec.v
theories/DispatchWitness.v
theories/Dispatcher.v
theories/EncodeWitness.v
theories/Encoder.v
theories/Filter.v
theories/FilterSpec.v
theories/FilterWitness.v
theories/FlagProofs.v
theories/Fortran.v
theories/FortranSpec.v
theories/FortranWitness.v
theories/Fp.v
theories/FpCompare.v
theories/FpNearest.v
theories/FpProofs.v
theories/Frame.v
theories/FrameDecode.v
theories/FrameProofs.v
theories/FramesProofs.v
theories/FramesSpec.v
theories/FramesWitness.v
theories/GatherProofs.v
theories/Golden.v
theories/GoldenData.v
theories/Header.v
theories/HeaderProofs.v
theories/HeaderSize.v
theories/HeaderTool.v
theories/HeaderToolSpec.v
theories/HeaderToolWitness.v
theories/Index.v
theories/IndexSpec.v
theories/IndexWitness.v
theories/IntProofs.v
theories/Iterators.v
theories/LoadProofs.v
theories/LookupProofs.v
theories/LsSpec.v
theories/LsTool.v
theories/LsWitness.v
theories/Md5.v
theories/MdDecode.v
theories/MdProofs.v
theories/MdSet.v
theories/MdSetWitness.v
theories/MdSpec.v
theories/MdValues.v
theories/MemDecode.v
theories/MemProofs.v
theories/Merge.v
theories/MergeSpec.v
theories/MergeWitness.v
theories/Meta.v
theories/NanProofs.v
theories/OdaOut.v
theories/OdaSpec.v
theories/OdaWitness.v
theories/OldApi.v
theories/OldSpec.v
theories/OldWitness.v
theories/OrdinaryProofs.v
theories/P_Agree.v
theories/P_AgreeWritten.v
theories/P_CApi.v
theories/P_CApiRoundtrip.v
theories/P_CCalls.v
theories/P_CEncode.v
theories/P_CEncodeRead.v
theories/P_ColumnInfo.v
theories/P_CommandLine.v
theories/P_Compact.v
theories/P_Compare.v
theories/P_CompareSym.v
theories/P_Copy.v
theories/P_Csv.v
theories/P_Decode.v
theories/P_Dispatch.v
theories/P_DispatchOne.v
theories/P_Encode.v
theories/P_Filter.v
theories/P_FilterFrame.v
theories/P_FilterRefuse.v
theories/P_FilterRows.v
theories/P_Fortran.v
theories/P_FortranArray.v
theories/P_Frame.v
theories/P_Frames.v
theories/P_Header.v
theories/P_HeaderText.v
theories/P_HeaderTool.v
theories/P_Index.v
theories/P_Ls.v
theories/P_LsText.v
theories/P_MdSet.v
theories/P_MdValues.v
theories/P_Memory.v
theories/P_Merge.v
theories/P_Numbers.v
theories/P_Oda.v
theories/P_Old.v
theories/P_OldPlaces.v
theories/P_OldSession.v
theories/P_Project.v
theories/P_Query.v
theories/P_Reader.v
theories/P_Reals.v
theories/P_Scan.v
theories/P_Select.v
theories/P_SelectOld.v
theories/P_Set.v
theories/P_Shared.v
theories/P_Span.v
theories/P_SqlTable.v
theories/P_Stream.v
theories/P_Strided.v
theories/P_Strings.v
theories/P_Tables.v
theories/P_Threads.v
theories/P_ToolMain.v
theories/P_ToolMd.v
theories/P_ToolMore.v
theories/P_ToolRest.v
theories/P_ToolSet.v
theories/P_ToolShow.v
theories/P_ToolSplit.v
theories/P_Verify.v
theories/P_VerifyClean.v
theories/P_Writer.v
theories/ProjectProofs.v
theories/Query.v
theories/QuerySpec.v
theories/QueryWitness.v
theories/Quick.v
theories/ReadSpec.v
theories/Reader.v
theories/ReaderProofs.v
theories/ReaderWitness.v
theories/RealColumn.v
theories/RealProofs.v
theories/Roundtrip.v
theories/RowList.v
theories/RowReader.v
theories/RowSpec.v
theories/Scan.v
theories/ScanSpec.v
theories/ScanWitness.v
theories/SelectOut.v
theories/SelectSpec.v
theories/SelectWitness.v
theories/SetSpec.v
theories/SetWitness.v
theories/Setter.v
theories/SharedHandle.v
theories/Span.v
theories/SpanProofs.v
theories/SpanTable.v
theories/SpanWitness.v
theories/Spec.v
theories/SqlOut.v
theories/SqlOutSpec.v
theories/P_SqlOut.v
theories/SqlOutWitness.v
theories/SqlTable.v
theories/SqlTableSpec.v
theories/SqlTableWitness.v
theories/Stream.v
theories/StreamLocal.v
theories/StreamProofs.v
theories/Strided.v
theories/StringProofs.v
theories/Table.v
theories/TableProofs.v
theories/ThreadProofs.v
theories/ThreadWitness.v
theories/Through.v
theories/ToolMain.v
theories/ToolMore.v
theories/ToolMoreWitness.v
theories/ToolRest.v
theories/ToolRestWitness.v
theories/ToolSpec.v
theories/ToolWitness.v
theories/Verify.v
theories/VerifySpec.v
theories/VerifyWitness.v
theories/Writer.v
theories/WriterProofs.v
theories/WriterRead.v
theories/WriterRun.v
theories/WriterSpec.v
theories/WriterWitness.v
