-Q theories Verif
theories/Base.v
theories/Prim.v
theories/Values.v
theories/Records.v
theories/LinkedData.v
theories/StrHash.v
theories/IntMap.v
theories/Strings.v
theories/AStream.v
theories/BufStream.v
theories/Password.v
theories/GmsNum.v
theories/FloatAcr.v
theories/Dict.v
theories/State.v
theories/StateTac.v
theories/FileImage.v
theories/ApiCore.v
theories/ApiFile.v
theories/ApiWrite.v
theories/ApiRead.v
theories/Api.v
theories/FileFacts.v
theories/BlockFacts.v
theories/StreamFacts.v
theories/OpenFacts.v
theories/DicInv.v
theories/WriteInv.v
theories/WriteSteps.v
theories/Journal.v
theories/WriteCalls.v
theories/WriteTrace.v
theories/FileFlow.v
theories/Messages.v
theories/Footprint.v
theories/SessInv.v
theories/Sessions.v
theories/Vocab.v
theories/PropErr.v
theories/Reopen.v
theories/ReadFacts.v
theories/ReadRecs.v
theories/ReadLoops.v
theories/Cases.v
theories/PropNames.v
theories/PropMeta.v
theories/Segment.v
theories/PropStruct.v
theories/PropTexts.v
theories/PropDomain.v
theories/DomRefs.v
theories/PropRefs.v
theories/LabelFacts.v
theories/Buffered.v
theories/Contents.v
theories/MapFacts.v
theories/Domains.v
theories/Wrote.v
theories/PropRead.v
theories/PropStrings.v
theories/PropChecks.v
theories/PropWidths.v
theories/Readers.v
theories/PropSlice.v
theories/PropLabels.v
theories/PropFilter.v
theories/PropMap.v
theories/PropMarks.v
theories/Crash.v
theories/PropCrash.v
theories/PropAppend.v
theories/PropAcr.v
theories/PropOrder.v
theories/PropDisk.v
theories/FloatCmp.v
theories/Diff.v
theories/PropDiff.v
theories/Merge.v
theories/PropMerge.v
theories/PropAsk.v
theories/PropProper.v
theories/PropMerged.v
theories/Dump.v
theories/PropDump.v
theories/PropTable.v
theories/PropInterrupt.v
theories/PropHasText.v
theories/DumpData.v
theories/PropData.v
theories/DumpList.v
theories/PropList.v
theories/DumpText.v
theories/PropSetText.v
theories/DumpDecl.v
theories/PropDecl.v
theories/DumpAcro.v
theories/PropAcro.v
theories/DumpInfo.v
theories/PropInfo.v
theories/PropMsg.v
