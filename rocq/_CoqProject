-Q theories Verif
theories/GoStr.v
theories/Num.v
theories/Types.v
theories/Lib.v
theories/XmlTok.v
theories/Marshal.v
theories/Unmarshal.v
theories/DecLemmas.v
theories/DecFuel.v
theories/Reload.v
theories/RoundTrip.v
theories/RoundTrip2.v
theories/SpecXml.v
theories/XmlFacts.v
theories/UnmarshalNum.v
theories/NumprFacts.v
theories/PropXml.v
theories/Docx.v
theories/Text.v
theories/Api.v
theories/Copy.v
theories/Keep.v
theories/History.v
theories/RegFacts.v
theories/IdFacts.v
theories/SpecApi.v
theories/SpecEdit.v
theories/SpecCopy.v
theories/ApiFacts.v
theories/HistFacts.v
theories/HistFacts2.v
theories/DrawIds.v
theories/EditFacts.v
theories/NewFacts.v
theories/CopyFacts.v
theories/CopyFacts2.v
theories/Conc.v
theories/SpecConc.v
theories/ConcFacts.v
theories/SpecNum.v
theories/SpecInt.v
theories/NumFacts.v
theories/IntFacts.v
theories/IntFacts2.v
theories/PropInt.v
theories/PropApi.v
theories/PropCore.v
theories/Merge.v
theories/SpecMerge.v
theories/MergeFacts.v
theories/MergeFacts2.v
theories/MergeFacts3.v
theories/MergeFacts4.v
theories/SpecMerge2.v
theories/MergeFacts5.v
theories/MergeFacts6.v
theories/RuleFacts.v
theories/PropMerge.v
theories/NameTab.v
theories/Lex.v
theories/SpecLex.v
theories/LexFacts.v
theories/LexFacts3.v
theories/LexFacts2.v
theories/PropLex.v
theories/Rels.v
theories/Pack.v
theories/SpecPack.v
theories/RelsFacts.v
theories/PackFacts.v
theories/PackFacts2.v
theories/PackFacts3.v
theories/PackFacts4.v
theories/Bufio.v
theories/BufioFacts.v
theories/PackFacts6.v
theories/SpecPath.v
theories/PackFacts7.v
theories/SpecDest.v
theories/BufioFacts2.v
theories/PropPack.v
theories/SpecSize.v
theories/SizeFacts.v
theories/PropSize.v
theories/SpecSkip.v
theories/ChoiceFacts.v
theories/SkipFacts.v
theories/PropSkip.v
theories/Slices.v
theories/SpecSlice.v
theories/SliceFacts.v
theories/PropSlice.v
theories/Alias.v
theories/SpecAlias.v
theories/AliasFacts.v
theories/AliasFacts2.v
theories/AliasFacts3.v
theories/AliasFacts4.v
theories/AliasFacts5.v
theories/AliasFacts6.v
theories/AliasFacts7.v
theories/AliasFacts8.v
theories/AliasFacts9.v
theories/AliasFacts10.v
theories/AliasFacts11.v
theories/PropAlias.v
theories/SpecStrict.v
theories/SpecBefore.v
theories/StrictFacts.v
theories/StrictFacts2.v
theories/LocFacts.v
theories/LocFacts2.v
theories/PropStrict.v
theories/SpecForm.v
theories/FormNames.v
theories/FormText.v
theories/FormMarkup.v
theories/FormFacts.v
theories/SpellFacts2.v
theories/PropSpell.v
theories/SpecStable.v
theories/StableFacts.v
theories/ValFacts.v
theories/ValFacts2.v
theories/StableFacts2.v
theories/PackFacts5.v
theories/PropStable.v
theories/HistInv.v
theories/SpecNs.v
theories/NsFacts.v
theories/NsFacts2.v
theories/SpecNs2.v
theories/NsFacts3.v
theories/PropNs.v
theories/SpecOrigin.v
theories/OriginFacts.v
theories/PropOrigin.v
theories/SpecGrammar.v
theories/GrammarOrder.v
theories/GrammarFacts.v
theories/GrammarFacts2.v
theories/GrammarFacts3.v
theories/PropGrammar.v
theories/SkipFacts2.v
theories/SkipFacts3.v
theories/SameWit.v
theories/PropSame.v
theories/Theme.v
theories/SpecOpc.v
theories/OpcFacts.v
theories/OpcFacts2.v
theories/PropOpc.v
theories/Par.v
theories/SpecPar.v
theories/ParFacts.v
theories/ParFacts2.v
theories/ParFacts3.v
theories/PropPar.v
theories/SpecPanic.v
theories/PanicFacts.v
theories/ValHist.v
theories/SpecReopen.v
theories/HomeFacts.v
theories/ReopenFacts.v
theories/ReopenFacts2.v
theories/PropPanic.v
theories/PropReopen.v
theories/SpecClean.v
theories/CleanFacts.v
theories/CleanFacts2.v
theories/CleanFacts3.v
theories/PropClean.v
theories/SpecRead.v
theories/ReadFacts.v
theories/ReadFacts2.v
theories/ReadFacts3.v
theories/PropRead.v
theories/SpecWrite.v
theories/WriteFacts.v
theories/WriteFacts2.v
theories/PropWrite.v
theories/SpecBreak.v
theories/BreakFacts.v
theories/SpecShow.v
theories/ShowFacts.v
theories/PropShow.v
theories/CopyMedia.v
theories/PropCopy.v
theories/PropBreak.v
theories/SpecSpace.v
theories/SpaceFacts.v
theories/PropSpace.v
theories/SpecError.v
theories/LexFuel.v
theories/SpecDecl.v
theories/DeclFacts.v
theories/PropDecl.v
theories/ErrorFacts.v
theories/WellFacts.v
theories/PropError.v
theories/LinkInv.v
theories/SpecDrawn.v
theories/DrawnFacts.v
theories/DrawnHist.v
theories/PropDrawn.v
theories/SpecJoin.v
theories/CopyTwice.v
theories/PropJoin.v
theories/RepoTests.v
theories/SpecLeft.v
theories/LeftFacts.v
theories/LeftFacts2.v
theories/LeftFacts3.v
theories/PropLeft.v
theories/PropWell.v
theories/SpecLoad.v
theories/LoadFacts.v
theories/LoadWit.v
theories/PropLoad.v
theories/Cmd.v
theories/SpecCmd.v
theories/CmdFacts.v
theories/CmdFacts2.v
theories/CmdFacts3.v
theories/CmdFacts4.v
theories/PropCmd.v
theories/SpecVerb.v
theories/VerbFacts.v
theories/SteadyInv.v
theories/PropVerb.v
theories/LawFacts.v
theories/PropLaw.v
theories/SpecDemo.v
theories/Demo.v
theories/DemoFacts.v
theories/DemoFacts2.v
theories/DemoFacts3.v
theories/DemoFacts4.v
theories/PropDemo.v
theories/SpecAlike.v
theories/AlikeFacts.v
theories/AlikeWit.v
theories/PropAlike.v
theories/SpecRelNs.v
theories/RelNsFacts.v
theories/RelNsWit.v
theories/PropRelNs.v
theories/SpecSep.v
theories/SepFacts.v
theories/PropSep.v
theories/SpecLast.v
theories/LastFacts.v
theories/PropLast.v
theories/SpecWeave.v
theories/WeaveFacts.v
theories/PropWeave.v
theories/SpecLayout.v
theories/LayoutFacts.v
theories/PropLayout.v
theories/SpecAnyTime.v
theories/AnyTimeFacts.v
theories/PropAnyTime.v
