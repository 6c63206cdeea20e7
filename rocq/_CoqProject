-Q theories Verif
theories/Base.v
theories/BaseFacts.v
theories/NumSpec.v
theories/Scan.v
theories/ScanProofs.v
theories/Base64.v
theories/Base64Spec.v
theories/Base64Proofs.v
theories/CalSpec.v
theories/Dates.v
theories/DatesProofs.v
theories/Properties_Codec.v
theories/Types.v
theories/ListFacts.v
theories/ChunkProofs.v
theories/ScalarSpec.v
theories/ScalarProofs.v
theories/RingProofs.v
theories/DetectProofs.v
theories/ShownProofs.v
theories/RoundtripProofs.v
theories/JoinProofs.v
theories/SizeProofs.v
theories/EscapeProofs.v
theories/CompareProofs.v
theories/Properties_Types.v
theories/Sort.v
theories/SortSpec.v
theories/SortProofs.v
theories/QsortProofs.v
theories/Properties_Sort.v
theories/Sha1Spec.v
theories/Sha1.v
theories/Sha1Proofs.v
theories/Sha1StreamProofs.v
theories/Properties_Sha1.v
theories/Text.v
theories/TextSpec.v
theories/TextProofs.v
theories/PathProofs.v
theories/Properties_Text.v
theories/Symtab.v
theories/SymtabSpec.v
theories/SymtabProofs.v
theories/Properties_Symtab.v
theories/Xb.v
theories/XbSpec.v
theories/XbFacts.v
theories/XbSymProofs.v
theories/Properties_Load.v
theories/XbWrite.v
theories/DocSpec.v
theories/WriteProofs.v
theories/FillProofs.v
theories/InitProofs.v
theories/OpenProofs.v
theories/SteadyProofs.v
theories/ReadSpec.v
theories/ReadProofs.v
theories/DocExamples.v
theories/Properties_Doc.v
theories/NavSpec.v
theories/NavProofs.v
theories/Properties_Nav.v
theories/CheckSpec.v
theories/CheckProofs.v
theories/Properties_Check.v
theories/BufferSpec.v
theories/BufferProofs.v
theories/Properties_Buffer.v
theories/Append.v
theories/AppendSpec.v
theories/AppendProofs.v
theories/AppendExamples.v
theories/Properties_Append.v
theories/Packer.v
theories/PackFacts.v
theories/MarkProofs.v
theories/PackProofs.v
theories/PackDoc.v
theories/PackRead.v
theories/PackSpec.v
theories/PackedProofs.v
theories/PackReadProofs.v
theories/PackExamples.v
theories/Properties_Pack.v
theories/Bw.v
theories/BwFacts.v
theories/BwRing.v
theories/BwSpec.v
theories/BwHist.v
theories/BwAlloc.v
theories/BwProofs.v
theories/BwRead.v
theories/BwTop.v
theories/BwSym.v
theories/BwFile.v
theories/BwExamples.v
theories/Properties_Bw.v
theories/Jsmn.v
theories/JsmnProofs.v
theories/JsmnParse.v
theories/JsonSpec.v
theories/JsonProofs.v
theories/JsonTotal.v
theories/JsonSource.v
theories/JsonNames.v
theories/JsonTree.v
theories/JsonTop.v
theories/JsonExamples.v
theories/Properties_Json.v
theories/BwReg.v
theories/BwFileSpec.v
theories/BwRegProofs.v
theories/BwFileProofs.v
theories/BwFileExamples.v
theories/Properties_BwFile.v
theories/BwNamesSpec.v
theories/BwNamesFacts.v
theories/BwNamesInv.v
theories/BwNamesReg.v
theories/BwNamesOps.v
theories/BwNamesIndex.v
theories/BwNamesProofs.v
theories/BwNamesTop.v
theories/BwNamesExamples.v
theories/Properties_BwNames.v
theories/BwImport.v
theories/BwAlter.v
theories/BwLifeSpec.v
theories/BwDetach.v
theories/BwImportProofs.v
theories/BwLife.v
theories/BwOnly.v
theories/BwSet.v
theories/BwLifeTop.v
theories/BwSetExamples.v
theories/Properties_BwSet.v
theories/XbBin.v
theories/BinSpec.v
theories/BinProofs.v
theories/BinRead.v
theories/BinFill.v
theories/Properties_Bin.v
theories/BwAttr.v
theories/BwAttrSpec.v
theories/BwAttrProofs.v
theories/BwAttrTop.v
theories/BwRoomSpec.v
theories/BwAttrRoom.v
theories/BwAttrExamples.v
theories/Properties_BwAttr.v
theories/BwTag.v
theories/BwTagSpec.v
theories/BwTagProofs.v
theories/BwTagTop.v
theories/BwTagExamples.v
theories/Properties_BwTag.v
theories/BwCopy.v
theories/BwCopySpec.v
theories/BwCopyProofs.v
theories/BwCopyTop.v
theories/BwCopyRoom.v
theories/BwCopyExamples.v
theories/Properties_BwCopy.v
theories/BwImportSpec.v
theories/BwImportTop.v
theories/BwImportExamples.v
theories/Properties_BwImport.v
theories/BwSource.v
theories/BwSourceSpec.v
theories/BwSourceProofs.v
theories/BwSourceRoom.v
theories/BwSourceExamples.v
theories/Properties_BwSource.v
theories/XmlOut.v
theories/XmlSpec.v
theories/XmlFacts.v
theories/XmlLayout.v
theories/XmlProofs.v
theories/XmlMore.v
theories/XmlExamples.v
theories/Properties_Xml.v
theories/SrcStream.v
theories/SrcSpec.v
theories/SrcValue.v
theories/SrcLayout.v
theories/SrcProofs.v
theories/SrcExamples.v
theories/SrcTop.v
theories/Properties_Src.v
theories/BwKeys.v
theories/BwKeysSpec.v
theories/BwKeysProofs.v
theories/BwKeysTop.v
theories/BwPathProofs.v
theories/BwKeysExamples.v
theories/Properties_BwKeys.v
theories/BwMake.v
theories/BwMakeSpec.v
theories/BwMakeProofs.v
theories/BwMakeTop.v
theories/BwMakeDoc.v
theories/BwMakeExamples.v
theories/Properties_BwMake.v
theories/Walk.v
theories/WalkSpec.v
theories/WalkProofs.v
theories/WalkExamples.v
theories/Properties_Walk.v
theories/BwFind.v
theories/BwFindSpec.v
theories/BwFindProofs.v
theories/BwFindTop.v
theories/BwFindExamples.v
theories/Properties_BwFind.v
theories/BwSetStr.v
theories/BwSetStrSpec.v
theories/BwSetStrProofs.v
theories/BwSetStrTop.v
theories/BwSetStrExamples.v
theories/BwAlterSpec.v
theories/BwAlterTop.v
theories/BwAlterExamples.v
theories/Properties_BwSetStr.v
theories/Properties_BwAlter.v
theories/JsonMake.v
theories/JsonMakeSpec.v
theories/JsonMakeProofs.v
theories/JsonMakeTop.v
theories/JsonMakeExamples.v
theories/Properties_JsonMake.v
theories/Files.v
theories/FilesSpec.v
theories/FilesProofs.v
theories/FilesExamples.v
theories/Properties_Files.v
theories/Creator.v
theories/CreatorSpec.v
theories/CreatorProofs.v
theories/Properties_Creator.v
theories/SrcPrint.v
theories/SrcPrintSpec.v
theories/SrcPrintProofs.v
theories/Properties_SrcPrint.v
theories/BwAny.v
theories/BwAnyProofs.v
theories/Properties_BwAny.v
theories/PackSameSpec.v
theories/PackSame.v
theories/PackSameExamples.v
theories/LineSpec.v
theories/LineScan.v
theories/LineProofs.v
theories/StrSpec.v
theories/StrTools.v
theories/StrToolsProofs.v
theories/Properties_Line.v
theories/SelfTest.v
theories/SelfTestSpec.v
theories/SelfTestProofs.v
theories/Properties_SelfTest.v
theories/BwSetSha.v
theories/BwSetShaProofs.v
theories/BwSetShaExamples.v
theories/Properties_BwSetSha.v
theories/Share.v
theories/ShareSpec.v
theories/ShareProofs.v
theories/OutBuf.v
theories/OutBufSpec.v
theories/OutBufProofs.v
theories/Properties_Share.v
theories/XmlSrc.v
theories/XmlSrcSpec.v
theories/XmlSrcProofs.v
theories/Tools.v
theories/ToolsProofs.v
theories/Properties_XmlSrc.v
theories/XmlTripSpec.v
theories/XmlTripProofs.v
theories/Properties_XmlTrip.v
theories/JsonPool.v
theories/JsonPoolProofs.v
theories/JsonPoolExamples.v
theories/Properties_JsonPool.v
theories/IntPtr.v
theories/IntPtrSpec.v
theories/IntPtrProofs.v
theories/IntPtrExamples.v
theories/Properties_IntPtr.v
theories/BwCopyTextSpec.v
theories/BwCopyText.v
theories/BwCopyTextTop.v
theories/BwCopyTextExamples.v
theories/BwTitle.v
theories/BwOpen.v
theories/BwOpenSpec.v
theories/BwOpenProofs.v
theories/BwOpenExamples.v
theories/Properties_BwOpen.v
theories/BwWalk.v
theories/BwWalkSpec.v
theories/BwWalkProofs.v
theories/BwWalkExamples.v
theories/Properties_BwWalk.v
theories/BwCrash.v
theories/BwCrashExamples.v
theories/Properties_BwCrash.v
theories/BwCheck.v
theories/BwCheckProofs.v
theories/BwCheckExamples.v
theories/Properties_BwCheck.v
theories/BwRegSteps.v
theories/BwRegKill.v
theories/BwRegAgree.v
theories/BwRegKillTop.v
theories/Properties_BwRegKill.v
theories/BwNewSteps.v
theories/BwNewKill.v
theories/BwNewKillTop.v
theories/Properties_BwNewKill.v
