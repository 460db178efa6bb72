-Q theories Verif
theories/Base.v
theories/RangeModel.v
theories/RangeSpec.v
theories/RangeProofs.v
theories/RangeLemmas.v
theories/RangeProps.v
theories/TableModel.v
theories/TableSpec.v
theories/TableProofs.v
theories/TableGenModel.v
theories/TableGenSpec.v
theories/TableGenProofs.v
theories/TableTypes.v
theories/Enums.v
theories/TablesNormal.v
theories/TablesIdna.v
theories/TablesBidi.v
theories/TablesSegment.v
theories/TablesCategory.v
theories/TablesMisc.v
theories/TablesBinary.v
theories/EnumFacts.v
theories/NameParseModel.v
theories/NameParseSpec.v
theories/NameParseProofs.v
theories/NameParseProps.v
theories/UcdModel.v
theories/UcdProofs.v
theories/TableLemmas.v
theories/TableProps.v
theories/TablePiecewise.v
theories/UcdSpec.v
theories/UcdLemmas.v
theories/UcdGroups.v
theories/UcdProps.v
theories/HangulModel.v
theories/HangulSpec.v
theories/HangulProofs.v
theories/HangulLemmas.v
theories/HangulProps.v
theories/NormModel.v
theories/NormSpec.v
theories/NormOrder.v
theories/NormBubble.v
theories/NormIter.v
theories/TableTree.v
theories/NormTables.v
theories/NormRecomp.v
theories/NormAlgebra.v
theories/NormLemmas.v
theories/NormFillerSpec.v
theories/NormFiller.v
theories/NormProps.v
theories/PunyModel.v
theories/PunySpec.v
theories/PunyProofs.v
theories/PunyDecode.v
theories/PunyEncode.v
theories/PunyLemmas.v
theories/PunyProps.v
theories/IdnaModel.v
theories/IdnaSpec.v
theories/IdnaTables.v
theories/IdnaProofs.v
theories/IdnaProcess.v
theories/IdnaLemmas.v
theories/IdnaProps.v
theories/IdnaErrorSpec.v
theories/IdnaErrors.v
theories/IdnaErrorProps.v
theories/NormStreamModel.v
theories/NormStream.v
theories/NormStreamProps.v
theories/BlockModel.v
theories/BlockSpec.v
theories/BlockProofs.v
theories/BlockProps.v
theories/IdentSpec.v
theories/IdentProofs.v
theories/IdentProps.v
theories/TextModel.v
theories/TextProofs.v
theories/CliModel.v
theories/CliSpec.v
theories/CliProofs.v
theories/CliProps.v
theories/NameModel.v
theories/NameSpec.v
theories/NameProofs.v
theories/NameProps.v
theories/BidiModel.v
theories/BidiSpec.v
theories/BidiLemmas.v
theories/BidiTables.v
theories/BidiInit.v
theories/BidiExplicit.v
theories/BidiWeak.v
theories/BidiSeqs.v
theories/BidiChars.v
theories/BidiPara.v
theories/BidiLtr.v
theories/BidiRules.v
theories/BidiIso.v
theories/BidiOrder.v
theories/BidiLine.v
theories/BidiRefute.v
theories/BidiEnd.v
theories/BidiAnyLine.v
theories/BidiProps.v
theories/BidiSkipSpec.v
theories/BidiSkip.v
theories/BidiSkipProps.v
theories/GraphModel.v
theories/GraphSpec.v
theories/SegLemmas.v
theories/GraphProofs.v
theories/GraphCursor.v
theories/GraphIter.v
theories/GraphChunks.v
theories/GraphWalk.v
theories/GraphProps.v
theories/WordModel.v
theories/WordSpec.v
theories/WordTables.v
theories/WordRules.v
theories/WordForward.v
theories/WordBackward.v
theories/WordLocal.v
theories/WordIter.v
theories/WordWitness.v
theories/WordProps.v
theories/TablesWords.v
theories/TablesNames.v
theories/NameListModel.v
theories/NameListSpec.v
theories/NameListProofs.v
theories/NameOrder.v
theories/NameListProps.v
theories/GenRegex.v
theories/GenModel.v
theories/GenSpec.v
theories/GenLemmas.v
theories/GenMap.v
theories/GenProofs.v
theories/GenBinarySpec.v
theories/GenBinary.v
theories/GenExamples.v
theories/GenProps.v
theories/GenDataModel.v
theories/GenDataSpec.v
theories/GenDataRead.v
theories/GenDataEntries.v
theories/GenDataTables.v
theories/GenDataCompose.v
theories/GenDataNames.v
theories/GenDataExamples.v
theories/GenDataProps.v
theories/GenIdnaSpec.v
theories/GenIdna.v
theories/GenListModel.v
theories/GenListSpec.v
theories/GenList.v
theories/GenListExamples.v
theories/GenListProps.v
theories/GenSegModel.v
theories/GenSegSpec.v
theories/GenSeg.v
theories/GenSegRegex.v
theories/GenSegRead.v
theories/GenSegTests.v
theories/GenSegExamples.v
theories/GenSegProps.v
theories/EchoModel.v
theories/EchoSpec.v
theories/EchoProofs.v
theories/EchoProps.v
theories/InspectSpec.v
theories/InspectProofs.v
theories/InspectProps.v
theories/RustSpec.v
theories/PrintModel.v
theories/PrintLex.v
theories/PrintProofs.v
theories/PrintFiles.v
theories/PrintSpec.v
theories/PrintEmit.v
theories/PrintExamples.v
theories/PrintProps.v
theories/SegConcat.v
theories/GraphConcat.v
theories/WordConcat.v
theories/WordConcatBack.v
theories/SegConcatProps.v
theories/BidiConcat.v
theories/BidiConcatProps.v
theories/IdnaConcat.v
theories/IdnaConcatProps.v
theories/DisplayModel.v
theories/DisplaySpec.v
theories/DisplayProofs.v
theories/DisplayProps.v
theories/PieceTables.v
theories/NormCut.v
theories/WordEdge.v
theories/NormPiecesSpec.v
theories/NormPieces.v
theories/NormPiecesProps.v
theories/ClusterState.v
theories/SpellTables.v
theories/ClusterEquivSpec.v
theories/ClusterEquiv.v
theories/ClusterEquivProps.v
theories/WordClasses.v
theories/WordEquiv.v
theories/WordEquivProps.v
theories/BidiEquiv.v
theories/BidiEquivProps.v
theories/IdnaEquivSpec.v
theories/IdnaEquiv.v
theories/IdnaEquivProps.v
theories/NestSpec.v
theories/WordCuts.v
theories/NestRules.v
theories/Nest.v
theories/NestProps.v
theories/BidiPanicSpec.v
theories/BidiPanic.v
theories/BidiPanicProps.v
theories/BidiExactSpec.v
theories/BidiExact.v
theories/BidiExactProps.v
theories/BidiBlocks.v
theories/BidiSpellSpec.v
theories/BidiSpell.v
theories/BidiSpellProps.v
theories/BidiWeakExactSpec.v
theories/BidiWeakExact.v
theories/BidiWeakExactProps.v
theories/IdnaCompatSpec.v
theories/IdnaCompat.v
theories/IdnaCompatProps.v
theories/DerivedSpec.v
theories/Derived.v
theories/DerivedProps.v
theories/KindSpec.v
theories/Kind.v
theories/KindProps.v
theories/SizeSpec.v
theories/Size.v
theories/SizeProps.v
theories/PunySize.v
theories/IdnaSize.v
theories/IdnaSizeProps.v
theories/IdnaCleanSpec.v
theories/IdnaClean.v
theories/IdnaCleanProps.v
