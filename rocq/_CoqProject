-Q theories Verif
theories/GoStr.v
theories/Token.v
theories/Lexer.v
theories/Ast.v
theories/Parser.v
theories/ConformParser.v
theories/ConformLexer.v
theories/ConformAst.v
theories/Diff.v
theories/ConformDiff.v
theories/Db.v
theories/DbFacts.v
theories/AppendFacts.v
theories/DiffTable.v
theories/DiffPair.v
theories/DiffSound.v
theories/Tidy.v
theories/TidyFacts.v
theories/DiffSame.v
theories/Reconcile.v
theories/ReconcileFacts.v
theories/Honest.v
theories/DiffSpec.v
theories/Justified.v
theories/Frame.v
theories/Shape.v
theories/Variants.v
theories/VariantFacts.v
theories/IndexText.v
theories/Lines.v
theories/LinesFacts.v
theories/Apply.v
theories/ApplySpec.v
theories/ApplyFacts.v
theories/LexerFacts.v
theories/LexSpec.v
theories/LexLayout.v
theories/LexKeyword.v
theories/LexPanic.v
theories/CaseSpec.v
theories/ParserTotal.v
theories/ParserCase.v
theories/ParserSafe.v
theories/ParserKeeps.v
theories/ParserConcat.v
theories/Printable.v
theories/PrintLex.v
theories/PrintToks.v
theories/PrintParse.v
theories/PrintColumn.v
theories/PrintStmt.v
theories/PrintDdl.v
theories/PropsParse.v
theories/PropsRound.v
theories/Written.v
theories/WrittenFacts.v
theories/PropsWritten.v
theories/PropsDiff.v
theories/DbDep.v
theories/DepFacts.v
theories/PropsDep.v
theories/PropsApply.v
theories/SqlRead.v
theories/ReadFacts.v
theories/ReadDiff.v
theories/SqlDb.v
theories/SqlDbFacts.v
theories/PropsRead.v
theories/Generate.v
theories/ConformGenerate.v
theories/ConformGoParse.v
theories/GenSpec.v
theories/GenFacts.v
theories/GenOrder.v
theories/GenText.v
theories/GenSafe.v
theories/Config.v
theories/Show.v
theories/ShowFacts.v
theories/PropsGenerate.v
theories/GenTold.v
theories/GenToldFacts.v
theories/GenLines.v
theories/PropsTold.v
theories/GenRead.v
theories/GenReadFacts.v
theories/GenRemarks.v
theories/PropsGenRead.v
theories/ShowRead.v
theories/ShowReadFacts.v
theories/PropsShow.v
theories/ShowPg.v
theories/ShowPgRead.v
theories/ShowPgFacts.v
theories/PropsShowPg.v
theories/ShowMy.v
theories/ShowMyRead.v
theories/ShowMyFacts.v
theories/PropsShowMy.v
theories/Resolve.v
theories/PropsWhole.v
theories/Process.v
theories/PropsProcess.v
theories/InterruptFacts.v
theories/PropsInterrupt.v
theories/GoSort.v
theories/GoSortFacts.v
theories/GoSortSorts.v
theories/PropsSort.v
theories/PropsLib.v
theories/ConformReadme.v
theories/GoTag.v
theories/TagSpec.v
theories/TagFacts.v
theories/PropsTag.v
theories/PropsRune.v
theories/Plain.v
theories/PlainText.v
theories/PlainPrint.v
theories/PlainDiff.v
theories/PropsPlain.v
theories/PlainSource.v
theories/PropsSource.v
theories/PropsPath.v
theories/PropsSize.v
theories/PropsKeep.v
theories/Placed.v
theories/Needed.v
theories/Needed2.v
theories/Needed3.v
theories/Needed4.v
theories/Needed5.v
theories/PropsExact.v
theories/Ordinary.v
theories/OrdinaryText.v
theories/OrdinaryFacts.v
theories/PropsOrdinary.v
theories/PropsMethod.v
theories/Grown.v
theories/PropsGrown.v
theories/PropsTrim.v
theories/Regular.v
theories/PropsNote.v
theories/InPlace.v
theories/InPlaceFacts.v
theories/PropsInPlace.v
theories/Method.v
theories/PrintMethod.v
theories/PropsBeyond.v
theories/PropsGrowApply.v
theories/PropsSingle.v
theories/PropsAlign.v
theories/Intact.v
theories/IntactFacts.v
theories/PropsIntact.v
theories/WarnSpec.v
theories/WarnFacts.v
theories/PropsWarn.v
theories/PropsStands.v
theories/PropsBlind.v
theories/PropsShown.v
theories/PropsSym.v
theories/DbKeyed.v
theories/KeyedFacts.v
theories/PropsKeyed.v
theories/PropsNewIndex.v
theories/PropsKeyedMore.v
theories/KeyedServer.v
theories/PropsKeyedApply.v
theories/DbRefuse.v
theories/RefuseFacts.v
theories/PropsRefuse.v
theories/MyServer.v
theories/PropsAsk.v
theories/DoomFacts.v
theories/PropsDoom.v
theories/PropsRemove.v
theories/Answer.v
theories/AnswerFacts.v
theories/PropsAnswer.v
theories/Unfinished.v
theories/PropsAllCounts.v
theories/PropsTalk.v
theories/PropsSpill.v
theories/DoomIndex.v
theories/PropsRemark.v
theories/PropsCarry.v
theories/PropsListing.v
theories/PropsAnyOrder.v
theories/DepServer.v
theories/StuckFacts.v
theories/PropsStuck.v
theories/PropsForward.v
theories/PropsDepApply.v
theories/StrictDb.v
theories/StrictFacts.v
theories/PropsStrict.v
theories/PropsDropped.v
theories/RestrictDb.v
theories/RestrictBatch.v
theories/PropsRestrict.v
theories/PropsTolerated.v
theories/PropsDecided.v
theories/PropsBatch.v
theories/PropsCrash.v
