-Q theories Verif
theories/Base.v
theories/Doc.v
theories/DocBuilder.v
theories/SpecDoc.v
theories/DocProofs.v
theories/DocProofs2.v
theories/DocProofs3.v
theories/PropertiesDoc.v
theories/Cst.v
theories/Comments.v
theories/Term.v
theories/TermProofs.v
theories/TermProofs2.v
theories/New.v
theories/Formatter.v
theories/SpecTree.v
theories/SpecComments.v
theories/CollectProofs.v
theories/CollectProofs2.v
theories/FormatProofs.v
theories/SpecRead.v
theories/NewProofs.v
theories/ReadProofs.v
theories/ReadProofs2.v
theories/ReadProofs3.v
theories/SpecWords.v
theories/Trees.v
theories/Samples.v
theories/Witnesses.v
theories/SamplesRead.v
theories/PropertiesComments.v
theories/PropertiesFormat.v
theories/PropertiesRead.v
theories/Schedule.v
theories/ScheduleProofs.v
theories/Cli.v
theories/SpecCli.v
theories/CliProofs.v
theories/CliProofs2.v
theories/SpecSchedule.v
theories/ScheduleProofs2.v
theories/SpecFormatter.v
theories/FormatterProofs.v
theories/SamplesCli.v
theories/PropertiesSchedule.v
theories/PropertiesCli.v
theories/PropertiesFormatter.v
theories/Doc32.v
theories/SpecDoc32.v
theories/Doc32Proofs.v
theories/PropertiesDoc32.v
theories/SpecText.v
theories/TextProofs.v
theories/TextProofs2.v
theories/TextProofs3.v
theories/TextProofs4.v
theories/PropertiesText.v
theories/SpecMembers.v
theories/MembersProofs.v
theories/MembersProofs2.v
theories/HashOrder.v
theories/HashProofs.v
theories/PropertiesMembers.v
theories/SpecOrder.v
theories/OrderProofs.v
theories/SpecSigns.v
theories/SignsProofs.v
theories/PropertiesSigns.v
theories/SpecPlace.v
theories/PlaceProofs.v
theories/PropertiesPlace.v
theories/SpecTokens.v
theories/BitsProofs.v
theories/TokensProofs.v
theories/SpecLoud.v
theories/TokensMarks.v
theories/TokensProofs2.v
theories/TokensProofs3.v
theories/TokensQueries.v
theories/TokensSorts1.v
theories/TokensSorts2.v
theories/TokensSorts3.v
theories/TokensSorts4.v
theories/TokensProofs4.v
theories/TokensProofs5.v
theories/TokensComments.v
theories/SamplesTokens.v
theories/PropertiesTokens.v
theories/SpecArrange.v
theories/ArrangeRun.v
theories/ArrangeItems.v
theories/ArrangeGrammar.v
theories/ArrangeFormat.v
theories/ArrangeOnce.v
theories/ArrangeOrder.v
theories/ArrangeText.v
theories/SamplesArrange.v
theories/PropertiesArrange.v
theories/WordsProofs.v
theories/WordsTerm.v
theories/WordsSorts.v
theories/WordsFormat.v
theories/SpecFilters.v
theories/FiltersProofs.v
theories/SpecLayout.v
theories/LayoutNew.v
theories/LayoutStep.v
theories/LayoutFormat.v
theories/SamplesLayout.v
theories/PropertiesLayout.v
theories/SeqTerm.v
theories/SeqEdges.v
theories/SeqHeads.v
theories/SpecReread.v
theories/SeqPlace.v
theories/SeqRows.v
theories/RereadPlace.v
theories/Reread.v
theories/SamplesReread.v
theories/PropertiesReread.v
theories/PropertiesMore.v
theories/LevelTerm.v
theories/SpecPlaces.v
theories/Reach.v
theories/Reach2.v
theories/Places.v
theories/PlacesBody.v
theories/LevelRows.v
theories/PlacesFormat.v
theories/SamplesPlaces.v
theories/PropertiesPlaces.v
theories/PropertiesCounts.v
theories/SpecTrim.v
theories/SeqComments.v
theories/TrimEdges.v
theories/TrimTame.v
theories/TrimFormat.v
theories/TrimEnds.v
theories/SamplesTrim.v
theories/SpecLexed.v
theories/WordsComments.v
theories/PropertiesWords.v
theories/PropertiesFilters.v
theories/PropertiesTrim.v
theories/PropertiesEnds.v
theories/SpecSupported.v
theories/ReadSafe.v
theories/ReadSafe2.v
theories/ReadSafe3.v
theories/SamplesSupported.v
theories/PropertiesSupported.v
theories/Loud.v
theories/SamplesLoud.v
theories/PropertiesLoud.v
theories/PropertiesWhole.v
theories/ConfTrees.v
theories/ConfStatic1.v
theories/ConfComments1.v
theories/ConfPrettier1.v
theories/ConfPrettier2.v
theories/ConfPrettier3.v
theories/ConfHypotheses.v
