-Q theories Verif
theories/Base.v
theories/Regex.v
theories/Grammar.v
theories/Types.v
theories/Analyzer.v
theories/Resolver.v
theories/Messages.v
theories/Reporter.v
theories/Errors.v
theories/Context.v
theories/Elements.v
theories/Lookup.v
theories/ReplayTests.v
theories/Scan.v
theories/RegexProofs.v
theories/ScanProofs.v
theories/TokenStep.v
theories/ScanFacts.v
theories/StepProofs.v
theories/HeapFacts.v
theories/SpecRun.v
theories/AnalyzerInv.v
theories/AnalyzerLoop.v
theories/StepChange.v
theories/SpecText.v
theories/AnalyzerText.v
theories/AnalyzerTiles.v
theories/AnalyzerLines.v
theories/SpecTree.v
theories/AnalyzerTree.v
theories/AnalyzerBlocks.v
theories/AnalyzerFinal.v
theories/AnalyzerBounds.v
theories/AnalyzerCopies.v
theories/SpecResolve.v
theories/ResolverIndex.v
theories/ResolverFields.v
theories/ResolverSections.v
theories/ResolverFinal.v
theories/ReporterFacts.v
theories/ReporterTags.v
theories/ResolverComments.v
theories/ParseErrors.v
theories/ParseContext.v
theories/ParseOutcome.v
theories/LocaleFree.v
theories/SpecErrors.v
theories/ParseTexts.v
theories/PropGrammar.v
theories/PropAnalysisProofs.v
theories/PropAnalysis.v
theories/PropParseProofs.v
theories/PropParse.v
theories/SpecReport.v
theories/ReportProofs.v
theories/PropReportProofs.v
theories/PropReport.v
theories/SpecRead.v
theories/Reads.v
theories/ReadOps.v
theories/ReadLinks.v
theories/PropReadProofs.v
theories/PropRead.v
theories/SpecApi.v
theories/SpecQuery.v
theories/ApiDoc.v
theories/ApiInv.v
theories/ApiState.v
theories/ErrorCaches.v
theories/ApiOps.v
theories/Session.v
theories/SessionInv.v
theories/SpecLoad.v
theories/SessionRun.v
theories/QueryProofs.v
theories/LoadProofs.v
theories/RepeatProofs.v
theories/PropQueryProofs.v
theories/QueryExamples.v
theories/PropQuery.v
theories/SpecLinks.v
theories/ResolverLinks.v
theories/CopiesProofs.v
theories/PropCopiesProofs.v
theories/CopiesExamples.v
theories/PropCopies.v
theories/SpecRaw.v
theories/RawProofs.v
theories/PropRawProofs.v
theories/RawExamples.v
theories/PropRaw.v
theories/SpecTouch.v
theories/TouchProofs.v
theories/TouchRuns.v
theories/Frames.v
theories/TouchCalls.v
theories/SpecRequire.v
theories/RequireProofs.v
theories/PropTouchProofs.v
theories/TouchExamples.v
theories/PropTouch.v
theories/SpecLookup.v
theories/LookupDoc.v
theories/LookupProofs.v
theories/LookupFound.v
theories/LookupLines.v
theories/LookupAgree.v
theories/PropLookupProofs.v
theories/LookupExamples.v
theories/PropLookup.v
theories/CommentLines.v
theories/RegexBounds.v
theories/Faults.v
theories/SpecSelect.v
theories/SelectProofs.v
theories/Silent.v
theories/FaultProofs.v
theories/PropErrorsProofs.v
theories/ErrorExamples.v
theories/PropErrors.v
theories/SpecPrint.v
theories/PrintDoc.v
theories/PrintProofs.v
theories/PrintExamples.v
theories/PropPrint.v
theories/SpecSnippet.v
theories/SnippetRows.v
theories/SnippetCover.v
theories/SnippetFault.v
theories/SnippetExamples.v
theories/PropSnippet.v
theories/Register.v
theories/SpecRegister.v
theories/RegisterNames.v
theories/RegisterTable.v
theories/RegisterCalls.v
theories/RegisterExamples.v
theories/PropRegisterProofs.v
theories/PropRegister.v
theories/SpecInherit.v
theories/InheritProofs.v
theories/InheritExamples.v
theories/PropInherit.v
theories/SpecCanon.v
theories/CanonScan.v
theories/CanonRun.v
theories/CanonBuild.v
theories/CanonProofs.v
theories/CanonExamples.v
theories/PropCanon.v
theories/SpecNormal.v
theories/NormalProofs.v
theories/NormalExamples.v
theories/PropNormal.v
theories/SpecNumber.v
theories/NumberProofs.v
theories/SpecShow.v
theories/ShowProofs.v
theories/ShowExamples.v
theories/PropShow.v
theories/SpecLaid.v
theories/ScanLaid.v
theories/LaidProofs.v
theories/PropLaid.v
theories/NumberOrder.v
theories/SpecDraw.v
theories/ReporterFree.v
theories/DrawProofs.v
theories/DrawDoc.v
theories/DrawExamples.v
theories/PropDraw.v
theories/SpecMarks.v
theories/LayoutProofs.v
theories/LineOrder.v
theories/TagProofs.v
theories/MarkProofs.v
theories/FaultMarks.v
theories/MarkSingle.v
theories/MarkExamples.v
theories/PropMarks.v
theories/RawDoc.v
theories/AppendScan.v
theories/AppendRun.v
theories/SpecAppend.v
theories/AppendProofs.v
theories/AppendReads.v
theories/AppendExamples.v
theories/PropAppend.v
theories/SpecMerge.v
theories/ResolverMerge.v
theories/MergeProofs.v
theories/MergeExamples.v
theories/PropMerge.v
theories/SpecRemarks.v
theories/ResolverRemarks.v
theories/RemarkProofs.v
theories/RemarkExamples.v
theories/PropRemarks.v
theories/SpecWhole.v
theories/WholeProofs.v
theories/WholeExamples.v
theories/PropWhole.v
theories/SpecSaid.v
theories/SaidRun.v
theories/SaidResolve.v
theories/SaidLoop.v
theories/SaidReads.v
theories/SaidProofs.v
theories/SaidExamples.v
theories/PropSaid.v
theories/SpecWritten.v
theories/WrittenScan.v
theories/WrittenProofs.v
theories/WrittenExamples.v
theories/AgainProofs.v
theories/AgainExamples.v
theories/PropAgain.v
theories/SpecProgram.v
theories/TwinRun.v
theories/TwinProofs.v
theories/TwinExamples.v
theories/PropTwin.v
theories/SpecCount.v
theories/CountProofs.v
theories/CountSelect.v
theories/PropCount.v
theories/SpecEndings.v
theories/SpecReturns.v
theories/SpecBroken.v
theories/CrlfScan.v
theories/CrlfProofs.v
theories/CrlfRun.v
theories/CrlfReads.v
theories/BrokenLoop.v
theories/CrlfDocs.v
theories/PropEndings.v
theories/MissingRead.v
theories/PropMissing.v
theories/SpecRename.v
theories/RenameRun.v
theories/RenameReads.v
theories/RenameDocs.v
theories/PropRename.v
theories/SpecRenamed.v
theories/RenamedRun.v
theories/RenamedDocs.v
theories/PropRenamed.v
theories/SpecNotice.v
theories/NoticeProofs.v
theories/OpenKeyProofs.v
theories/NoticeRun.v
theories/PropNotice.v
theories/RefuseProofs.v
theories/SpecCrash.v
theories/CrashProofs.v
theories/CrashRun.v
theories/PropCrash.v
theories/ReadFails.v
theories/AskFails.v
theories/SpecStay.v
theories/StayProofs.v
theories/PropStay.v
theories/CopiedRaw.v
theories/HollowRaw.v
theories/SpecGround.v
theories/GroundExamples.v
