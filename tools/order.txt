Base MemMap SpecLetters ProofLetters SpecTree SpecOps ProofDiff ProofDiff2 ProofUnify ProofUnifyDiff ProofOps Fixtures ProofTrim ProofSummary ProofSummary2 ProofSummary3 Filter SpecFilter ProofFilter PropDiff PropUnify PropOps PropSummary PropFilter Pipeline SpecPipe ProofRegions ProofSplit FixPipe PropRegions ProofArch ProofTypes PropTypes SpecBuild ProofBuild ProofSyms ProofStrip ProofExpand ProofGet PropBuild PyStr MapFile SpecMap ProofPyStr ProofMap1 ProofMap2 ProofMap3 ProofMap4 ProofMap5 ProofMap6 FixMap PropMap Deps SpecDeps ProofDeps ProofDeps2 ProofDot PropDeps Table Formats SpecTable ProofTable ProofTable2 ProofTable3 ProofFormats PropTable ElfRead SpecElf ProofElf1 ProofElf2 Dwarf SpecDwarf ProofDwarf1 ProofDwarf2 SpecDebug ProofDwarf3 FixElf PropElf ProofDwarf4 FixDebug PropDwarf Main SpecMain SpecShape ProofShape PropShape ProofMain ProofMain2 ProofMain3 ProofMain4 ProofMain5 ProofMain6 FixMain PropMain SpecBytes ProofBytes ProofBytes2 ProofBytes3 Chips SpecChips ProofChips PropChips PropBytes SpecSyms ProofSyms2 ProofSyms3 ProofSyms4 PropSyms Project SpecProject ProofProject1 ProofProject2 SpecEnd ProofEnd SpecOwner ProofOwner FixProject PropProject PropEnd PropOwner Command SpecCommand ProofCommand1 ProofCommand2 ProofCommand3 ProofCommand4 ProofCommand5 ProofCommand6 PropCommand SpecFail ProofFail1 ProofFail2 ProofFail3 ProofFail4 PropFail SpecReport ProofReport1 ProofReport2 ProofReport3 ProofReport4 ProofReport5 ProofReport6 PropReport Markup JsonText Text SpecText ProofText1 ProofText2 ProofText3 ProofText4 ProofText5 ProofText6 PropText SpecUses ProofUses1 ProofUses2 ProofUses3 ProofUses4 PropUses Names Dump SpecDump ProofDump1 ProofDump2 ProofDump3 ProofDump4 ProofDump5 FixDump PropDump SpecPercent ProofFloat1 ProofFloat2 ProofFloat3 ProofFloat4 Percent ProofPercent1 ProofPercent2 ProofPercent3 ProofPercent4 PropPercent CommandLine SpecLine ProofLine1 ProofLine2 ProofLine3 PropLine SpecSymbols ProofSymbols1 ProofSymbols2 ProofSymbols3 ProofSymbols4 ProofSymbols5 PropSymbols SpecFits ProofFits1 ProofFits2 ProofFits3 PropFits SpecLines ProofLines PropLines SpecNumber ProofNumber PropNumber SpecFile ProofFile PropFile SpecWhole ProofWhole1 ProofWhole2 ProofWhole3 PropWhole SpecMerge ProofMerge1 ProofMerge2 ProofMerge3 ProofMerge4 ProofMerge5 PropMerge SpecLayout ProofLayout PropLayout SpecShare ProofShare PropShare SpecPath ProofPath ProofPath2 PropPath SpecLto SpecLto2 ProofLto1 ProofLto2 ProofLto3 ProofLto4 FixLto PropLto SpecElf2 ProofElf3 PropElfBack SpecNotes ProofNotes PropNotes SpecDesc ProofDesc PropDesc SpecEmpty ProofEmpty ProofEmpty2 PropEmpty SpecWords ProofWords PropWords SpecMarkup ProofMarkup PropMarkup SpecDisplay ProofDisplay PropDisplay SpecSwitch ProofSwitch ProofSwitch2 PropSwitch SpecCsv ProofCsv PropCsv SpecAdds ProofAdds PropAdds SpecSteps ProofSteps PropSteps SpecTiles ProofTiles PropTiles SpecMoved ProofMoved PropMoved SpecForm ProofForm PropForm SpecMergeFiles ProofMergeFiles1 ProofMergeFiles2 ProofMergeFiles3 ProofMergeFiles4 PropMergeFiles SpecLtoReport ProofLtoReport1 ProofLtoReport2 ProofLtoReport3 ProofLtoReport4 PropLtoReport SpecCompare ProofCompare ProofCompare2 PropCompare SpecMergeSyms ProofMergeSyms1 ProofMergeSyms2 ProofMergeSyms3 ProofMergeSyms4 PropMergeSyms SpecGroup ProofGroup ProofGroup2 PropGroup SpecCompareMerged ProofCompareMerged ProofCompareMerged2 ProofCompareMerged3 PropCompareMerged SpecCompareUsage ProofCompareUsage ProofCompareUsage2 PropCompareUsage SpecGroupUsage ProofGroupUsage PropGroupUsage SpecMakeUp ProofMakeUp PropMakeUp SpecSumForm ProofSumForm PropSumForm SpecSizes ProofSizes PropSizes SpecSizeSteps ProofSizeSteps PropSizeSteps SpecJsonDiff ProofJsonDiff PropJsonDiff SpecUnused ProofUnused PropUnused SpecUnusedRows ProofUnusedRows ProofUnusedMerged PropUnusedRows SpecOrderOnly ProofOrderOnly ProofOrderMerged PropOrderOnly SpecLayoutOrder ProofLayoutOrder PropLayoutOrder SpecUsageOrder ProofUsageOrder PropUsageOrder SpecUnchanged ProofUnchanged ProofUnchangedMerged PropUnchanged
