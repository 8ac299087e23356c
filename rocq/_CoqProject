-Q theories Verif
theories/Base.v
theories/MemMap.v
theories/SpecLetters.v
theories/ProofLetters.v
theories/SpecTree.v
theories/SpecOps.v
theories/ProofDiff.v
theories/ProofDiff2.v
theories/ProofUnify.v
theories/ProofUnifyDiff.v
theories/ProofOps.v
theories/Fixtures.v
theories/ProofTrim.v
theories/ProofSummary.v
theories/ProofSummary2.v
theories/ProofSummary3.v
theories/Filter.v
theories/SpecFilter.v
theories/ProofFilter.v
theories/PropDiff.v
theories/PropUnify.v
theories/PropOps.v
theories/PropSummary.v
theories/PropFilter.v
theories/Pipeline.v
theories/SpecPipe.v
theories/ProofRegions.v
theories/ProofSplit.v
theories/FixPipe.v
theories/PropRegions.v
theories/ProofArch.v
theories/ProofTypes.v
theories/PropTypes.v
theories/SpecBuild.v
theories/ProofBuild.v
theories/ProofSyms.v
theories/ProofStrip.v
theories/ProofExpand.v
theories/ProofGet.v
theories/PropBuild.v
theories/PyStr.v
theories/MapFile.v
theories/SpecMap.v
theories/ProofPyStr.v
theories/ProofMap1.v
theories/ProofMap2.v
theories/ProofMap3.v
theories/ProofMap4.v
theories/ProofMap5.v
theories/ProofMap6.v
theories/FixMap.v
theories/PropMap.v
theories/Deps.v
theories/SpecDeps.v
theories/ProofDeps.v
theories/ProofDeps2.v
theories/ProofDot.v
theories/PropDeps.v
theories/Table.v
theories/Formats.v
theories/SpecTable.v
theories/ProofTable.v
theories/ProofTable2.v
theories/ProofTable3.v
theories/ProofFormats.v
theories/PropTable.v
theories/ElfRead.v
theories/SpecElf.v
theories/ProofElf1.v
theories/ProofElf2.v
theories/Dwarf.v
theories/SpecDwarf.v
theories/ProofDwarf1.v
theories/ProofDwarf2.v
theories/SpecDebug.v
theories/ProofDwarf3.v
theories/FixElf.v
theories/PropElf.v
theories/ProofDwarf4.v
theories/FixDebug.v
theories/PropDwarf.v
theories/Main.v
theories/SpecMain.v
theories/SpecShape.v
theories/ProofShape.v
theories/PropShape.v
theories/ProofMain.v
theories/ProofMain2.v
theories/ProofMain3.v
theories/ProofMain4.v
theories/ProofMain5.v
theories/ProofMain6.v
theories/FixMain.v
theories/PropMain.v
theories/SpecBytes.v
theories/ProofBytes.v
theories/ProofBytes2.v
theories/ProofBytes3.v
theories/Chips.v
theories/SpecChips.v
theories/ProofChips.v
theories/PropChips.v
theories/PropBytes.v
theories/SpecSyms.v
theories/ProofSyms2.v
theories/ProofSyms3.v
theories/ProofSyms4.v
theories/PropSyms.v
theories/Project.v
theories/SpecProject.v
theories/ProofProject1.v
theories/ProofProject2.v
theories/SpecEnd.v
theories/ProofEnd.v
theories/SpecOwner.v
theories/ProofOwner.v
theories/FixProject.v
theories/PropProject.v
theories/PropEnd.v
theories/PropOwner.v
theories/Command.v
theories/SpecCommand.v
theories/ProofCommand1.v
theories/ProofCommand2.v
theories/ProofCommand3.v
theories/ProofCommand4.v
theories/ProofCommand5.v
theories/ProofCommand6.v
theories/PropCommand.v
theories/SpecFail.v
theories/ProofFail1.v
theories/ProofFail2.v
theories/ProofFail3.v
theories/ProofFail4.v
theories/PropFail.v
theories/SpecReport.v
theories/ProofReport1.v
theories/ProofReport2.v
theories/ProofReport3.v
theories/ProofReport4.v
theories/ProofReport5.v
theories/ProofReport6.v
theories/PropReport.v
theories/Markup.v
theories/JsonText.v
theories/Text.v
theories/SpecText.v
theories/ProofText1.v
theories/ProofText2.v
theories/ProofText3.v
theories/ProofText4.v
theories/ProofText5.v
theories/ProofText6.v
theories/PropText.v
theories/SpecUses.v
theories/ProofUses1.v
theories/ProofUses2.v
theories/ProofUses3.v
theories/ProofUses4.v
theories/PropUses.v
theories/Names.v
theories/Dump.v
theories/SpecDump.v
theories/ProofDump1.v
theories/ProofDump2.v
theories/ProofDump3.v
theories/ProofDump4.v
theories/ProofDump5.v
theories/FixDump.v
theories/PropDump.v
theories/SpecPercent.v
theories/ProofFloat1.v
theories/ProofFloat2.v
theories/ProofFloat3.v
theories/ProofFloat4.v
theories/Percent.v
theories/ProofPercent1.v
theories/ProofPercent2.v
theories/ProofPercent3.v
theories/ProofPercent4.v
theories/PropPercent.v
theories/CommandLine.v
theories/SpecLine.v
theories/ProofLine1.v
theories/ProofLine2.v
theories/ProofLine3.v
theories/PropLine.v
theories/SpecSymbols.v
theories/ProofSymbols1.v
theories/ProofSymbols2.v
theories/ProofSymbols3.v
theories/ProofSymbols4.v
theories/ProofSymbols5.v
theories/PropSymbols.v
theories/SpecFits.v
theories/ProofFits1.v
theories/ProofFits2.v
theories/ProofFits3.v
theories/PropFits.v
theories/SpecLines.v
theories/ProofLines.v
theories/PropLines.v
theories/SpecNumber.v
theories/ProofNumber.v
theories/PropNumber.v
theories/SpecFile.v
theories/ProofFile.v
theories/PropFile.v
theories/SpecWhole.v
theories/ProofWhole1.v
theories/ProofWhole2.v
theories/ProofWhole3.v
theories/PropWhole.v
theories/SpecMerge.v
theories/ProofMerge1.v
theories/ProofMerge2.v
theories/ProofMerge3.v
theories/ProofMerge4.v
theories/ProofMerge5.v
theories/PropMerge.v
theories/SpecLayout.v
theories/ProofLayout.v
theories/PropLayout.v
theories/SpecShare.v
theories/ProofShare.v
theories/PropShare.v
theories/SpecPath.v
theories/ProofPath.v
theories/ProofPath2.v
theories/PropPath.v
theories/SpecLto.v
theories/SpecLto2.v
theories/ProofLto1.v
theories/ProofLto2.v
theories/ProofLto3.v
theories/ProofLto4.v
theories/FixLto.v
theories/PropLto.v
theories/SpecElf2.v
theories/ProofElf3.v
theories/PropElfBack.v
theories/SpecNotes.v
theories/ProofNotes.v
theories/PropNotes.v
theories/SpecDesc.v
theories/ProofDesc.v
theories/PropDesc.v
theories/SpecEmpty.v
theories/ProofEmpty.v
theories/ProofEmpty2.v
theories/PropEmpty.v
theories/SpecWords.v
theories/ProofWords.v
theories/PropWords.v
theories/SpecMarkup.v
theories/ProofMarkup.v
theories/PropMarkup.v
theories/SpecDisplay.v
theories/ProofDisplay.v
theories/PropDisplay.v
theories/SpecSwitch.v
theories/ProofSwitch.v
theories/ProofSwitch2.v
theories/PropSwitch.v
theories/SpecCsv.v
theories/ProofCsv.v
theories/PropCsv.v
theories/SpecAdds.v
theories/ProofAdds.v
theories/PropAdds.v
theories/SpecSteps.v
theories/ProofSteps.v
theories/PropSteps.v
theories/SpecTiles.v
theories/ProofTiles.v
theories/PropTiles.v
theories/SpecMoved.v
theories/ProofMoved.v
theories/PropMoved.v
theories/SpecForm.v
theories/ProofForm.v
theories/PropForm.v
theories/SpecMergeFiles.v
theories/ProofMergeFiles1.v
theories/ProofMergeFiles2.v
theories/ProofMergeFiles3.v
theories/ProofMergeFiles4.v
theories/PropMergeFiles.v
theories/SpecLtoReport.v
theories/ProofLtoReport1.v
theories/ProofLtoReport2.v
theories/ProofLtoReport3.v
theories/ProofLtoReport4.v
theories/PropLtoReport.v
theories/SpecCompare.v
theories/ProofCompare.v
theories/ProofCompare2.v
theories/PropCompare.v
theories/SpecMergeSyms.v
theories/ProofMergeSyms1.v
theories/ProofMergeSyms2.v
theories/ProofMergeSyms3.v
theories/ProofMergeSyms4.v
theories/PropMergeSyms.v
theories/SpecGroup.v
theories/ProofGroup.v
theories/ProofGroup2.v
theories/PropGroup.v
theories/SpecCompareMerged.v
theories/ProofCompareMerged.v
theories/ProofCompareMerged2.v
theories/ProofCompareMerged3.v
theories/PropCompareMerged.v
theories/SpecCompareUsage.v
theories/ProofCompareUsage.v
theories/ProofCompareUsage2.v
theories/PropCompareUsage.v
theories/SpecGroupUsage.v
theories/ProofGroupUsage.v
theories/PropGroupUsage.v
theories/SpecMakeUp.v
theories/ProofMakeUp.v
theories/PropMakeUp.v
theories/SpecSumForm.v
theories/ProofSumForm.v
theories/PropSumForm.v
theories/SpecSizes.v
theories/ProofSizes.v
theories/PropSizes.v
theories/SpecSizeSteps.v
theories/ProofSizeSteps.v
theories/PropSizeSteps.v
theories/SpecJsonDiff.v
theories/ProofJsonDiff.v
theories/PropJsonDiff.v
theories/SpecUnused.v
theories/ProofUnused.v
theories/PropUnused.v
theories/SpecUnusedRows.v
theories/ProofUnusedRows.v
theories/ProofUnusedMerged.v
theories/PropUnusedRows.v
theories/SpecOrderOnly.v
theories/ProofOrderOnly.v
theories/ProofOrderMerged.v
theories/PropOrderOnly.v
theories/SpecLayoutOrder.v
theories/ProofLayoutOrder.v
theories/PropLayoutOrder.v
theories/SpecUsageOrder.v
theories/ProofUsageOrder.v
theories/PropUsageOrder.v
theories/SpecUnchanged.v
theories/ProofUnchanged.v
theories/ProofUnchangedMerged.v
theories/PropUnchanged.v
