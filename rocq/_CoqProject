-Q theories Verif
theories/Go.v
theories/Utfc.v
theories/UtfcHeap.v
theories/UtfcSpec.v
theories/UtfcArith.v
theories/UtfcProofs.v
theories/UtfcHeapProofs.v
theories/UtfcMain.v
theories/Properties_Utfc.v
theories/UtfcShared.v
theories/Properties_Shared.v
theories/Properties_Tasks.v
theories/UtfcFormatSpec.v
theories/UtfcFormat.v
theories/UtfcLength.v
theories/UtfcDecodeAny.v
theories/Properties_Format.v
theories/BitPool.v
theories/BitPoolProofs.v
theories/LinkTable.v
theories/Probe.v
theories/LinkTableProofs.v
theories/Properties_Pools.v
theories/Dawg.v
theories/Tree.v
theories/DawgRep.v
theories/DawgFrozen.v
theories/DawgFix.v
theories/DawgTrie.v
theories/DawgInsert.v
theories/DawgMain.v
theories/DawgSpec.v
theories/TreeFacts.v
theories/DawgAbs.v
theories/DawgNav.v
theories/DawgThms.v
theories/DawgCanon.v
theories/Properties_Dawg.v
theories/DawgLength.v
theories/Properties_Length.v
theories/Dict.v
theories/DictUnit.v
theories/DictX.v
theories/DictGrow.v
theories/DictInv.v
theories/DictPlace.v
theories/DictBuild.v
theories/DictDfs.v
theories/DictMain.v
theories/DictRead.v
theories/DictSpec.v
theories/DictThms.v
theories/Properties_Dict.v
theories/DictRep.v
theories/Guide.v
theories/GuideProofs.v
theories/Completer.v
theories/CompleterProofs.v
theories/GuideSpec.v
theories/GuideThms.v
theories/Properties_Completer.v
theories/Index.v
theories/LoopProofs.v
theories/IndexProofs.v
theories/Properties_Index.v
theories/Ranked.v
theories/RankedProofs.v
theories/Heap.v
theories/HeapProofs.v
theories/RankedCompleter.v
theories/RankedIndexSpec.v
theories/RankedOrderSpec.v
theories/RankedCompleterProofs.v
theories/RankedSpec.v
theories/RankedThms.v
theories/Properties_Ranked.v
theories/IndexRanked.v
theories/Properties_RankedIndex.v
theories/RankedOrder.v
theories/Properties_RankedOrder.v
theories/Serial.v
theories/SerialProofs.v
theories/SerialRange.v
theories/Properties_Serial.v
theories/Utf8.v
theories/Utf8Proofs.v
theories/Cli.v
theories/Scanner.v
theories/ScannerSpec.v
theories/CliSpec.v
theories/CliProofs.v
theories/ScannerProofs.v
theories/CliThms.v
theories/CliFile.v
theories/CliSort.v
theories/CliRanked.v
theories/Properties_Cli.v
theories/CanonFile.v
theories/Properties_Canon.v
theories/Properties_Forms.v
theories/Main.v
theories/MainSpec.v
theories/MainParse.v
theories/MainText.v
theories/MainRatio.v
theories/MainBuild.v
theories/MainRun.v
theories/Properties_Main.v
theories/MainWrite.v
theories/Properties_MainWrite.v
theories/Properties_Scanner.v
theories/DictWrong.v
theories/Properties_Wrong.v
theories/IndexWrong.v
theories/Properties_Exact.v
theories/Properties_MainErr.v
theories/RepoTests.v
theories/Properties_Tests.v
theories/Utf8Range.v
theories/Properties_Runes.v
theories/DawgNul.v
theories/DawgNulAny.v
theories/DawgNulSpec.v
theories/DawgNulRun.v
theories/Properties_Nul.v
theories/UtfcSearch.v
theories/Properties_Search.v
theories/Properties_Loaded.v
theories/Properties_LoadedIndex.v
theories/DawgSize.v
theories/Properties_Size.v
theories/IndexRankedExact.v
theories/Properties_RankedExact.v
theories/GuideOther.v
theories/Properties_GuideOther.v
theories/RankedOther.v
theories/Properties_RankedOther.v
theories/BothGuides.v
theories/Properties_Both.v
theories/GuideEnds.v
theories/Properties_GuideEnds.v
theories/GuideClosed.v
theories/Properties_GuideClosed.v
theories/Properties_Plain.v
