-Q theories Verif
theories/Base.v
theories/Utils.v
theories/Stream.v
theories/Header.v
theories/Frames.v
theories/FrameList.v
theories/Tag.v
theories/File.v
theories/Compat.v
theories/Spec.v
theories/BaseFacts.v
theories/UtilsFacts.v
theories/StreamFacts.v
theories/FrameFacts.v
theories/HeaderFacts.v
theories/Benign.v
theories/ParseFacts.v
theories/AnyFacts.v
theories/KindFacts.v
theories/TagFacts.v
theories/Calls.v
theories/SpecEdit.v
theories/ListFacts.v
theories/EditFacts.v
theories/WriteFacts.v
theories/HistFacts.v
theories/ClaimFacts.v
theories/RoundFacts.v
theories/SpecFile.v
theories/FileFacts.v
theories/ExtFacts.v
theories/SpecRead.v
theories/ReadFacts.v
theories/SpecCompat.v
theories/CompatFacts.v
theories/Heap.v
theories/HeapIO.v
theories/Program.v
theories/SpecHeap.v
theories/SpecHeapIO.v
theories/HeapFacts.v
theories/HeapFrameFacts.v
theories/HeapListFacts.v
theories/HeapTagFacts.v
theories/HeapLifeFacts.v
theories/HeapEditFacts.v
theories/HeapPtrFacts.v
theories/HeapReadFacts.v
theories/HeapWriteFacts.v
theories/Tidy.v
theories/ProgramFacts.v
theories/CompatHeap.v
theories/SpecCompatHeap.v
theories/CompatHeapFacts.v
theories/CompatSetFacts.v
theories/CompatLifeFacts.v
theories/SpecSession.v
theories/SessionFacts.v
theories/CompatSessionFacts.v
theories/Samples.v
theories/PropsBasics.v
theories/PropsFrames.v
theories/PropsTag.v
theories/PropsEdit.v
theories/PropsWrite.v
theories/PropsRound.v
theories/PropsFile.v
theories/PropsRead.v
theories/PropsExt.v
theories/PropsCompat.v
theories/PropsHeap.v
theories/PropsProgram.v
theories/PropsCompatHeap.v
theories/PropsSession.v
theories/SpecMisuse.v
theories/MisuseFacts.v
theories/MisuseEditFacts.v
theories/MisuseWriteFacts.v
theories/MisuseLifeFacts.v
theories/PropsMisuse.v
theories/SpecRewrite.v
theories/RewriteFacts.v
theories/CutFacts.v
theories/PropsRewrite.v
theories/FileFail.v
theories/SpecFail.v
theories/FailFacts.v
theories/PropsFail.v
theories/SpecForeign.v
theories/ForeignFacts.v
theories/PropsForeign.v
theories/Stdio.v
theories/SpecStdio.v
theories/StdioFacts.v
theories/SysFacts.v
theories/PropsStdio.v
theories/Threads.v
theories/SpecThreads.v
theories/ThreadFacts.v
theories/PropsThreads.v
theories/Platform.v
theories/SpecPlatform.v
theories/PlatformFacts.v
theories/PlatformWriteFacts.v
theories/PropsPlatform.v
theories/Oom.v
theories/SpecOom.v
theories/OomFacts.v
theories/OomReadFacts.v
theories/OomCallFacts.v
theories/PropsOom.v
theories/SpecNeed.v
theories/NeedFacts.v
theories/NeedReadFacts.v
theories/NeedEditFacts.v
theories/PropsNeed.v
theories/Shared.v
theories/SpecShared.v
theories/SharedFacts.v
theories/SharedRunFacts.v
theories/SharedSameFacts.v
theories/SharedLikeFacts.v
theories/SharedLogFacts.v
theories/SharedChangeFacts.v
theories/SharedWalkFacts.v
theories/SharedTagFacts.v
theories/SharedOpFacts.v
theories/SharedSaveFacts.v
theories/SharedTableFacts.v
theories/SharedThreadFacts.v
theories/PropsShared.v
theories/PropsSave.v
theories/SpecStandard.v
theories/SpecRewritten.v
theories/StandardFacts.v
theories/StandardFileFacts.v
theories/StandardKeepFacts.v
theories/StandardOpenFacts.v
theories/PropsStandard.v
theories/SpecTests.v
theories/Tests.v
theories/TestFacts.v
theories/TestRunFacts.v
theories/TestEditFacts.v
theories/TestLargeFacts.v
theories/TestDeleteFacts.v
theories/TestCompatFacts.v
theories/TestMainFacts.v
theories/PropsTests.v
theories/SpecPrint.v
theories/TestUtils.v
theories/PrintFacts.v
theories/PropsPrint.v
theories/Readme.v
theories/SpecReadme.v
theories/ReadmeFacts.v
theories/PropsReadme.v
theories/SpecUnsync.v
theories/UnsyncFacts.v
theories/PropsUnsync.v
theories/SpecFlags.v
theories/FlagsFacts.v
theories/PropsFlags.v
theories/Alias.v
theories/SpecAlias.v
theories/AliasFacts.v
theories/PropsAlias.v
theories/SpecHole.v
theories/HoleFacts.v
theories/PropsHole.v
theories/SpecTotal.v
theories/TotalFacts.v
theories/TotalFileFacts.v
theories/PropsTotal.v
theories/SpecLaws.v
theories/LawFacts.v
theories/PropsLaws.v
theories/SpecSaves.v
theories/SavesFacts.v
theories/PropsSaves.v
theories/SpecLife.v
theories/LifeFacts.v
theories/PropsLife.v
theories/Race.v
theories/SpecRace.v
theories/RaceFacts.v
theories/PropsRace.v
theories/SpecBoth.v
theories/BothFacts.v
theories/PropsBoth.v
theories/Cost.v
theories/SpecCost.v
theories/CostFacts.v
theories/PropsCost.v
theories/SpecStack.v
theories/StackFacts.v
theories/PropsStack.v
theories/FaithFacts.v
theories/PropsFaith.v
theories/SpecCopy.v
theories/CopyFacts.v
theories/PropsCopy.v
theories/SpecBig.v
theories/BigFacts.v
theories/PropsBig.v
theories/SpecBigRead.v
theories/BigReadFacts.v
theories/BigStackFacts.v
theories/PropsBigRead.v
