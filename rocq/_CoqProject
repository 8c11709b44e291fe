-Q theories Verif
theories/Str.v
theories/Peg.v
theories/Grammar.v
theories/F64.v
theories/Ast.v
theories/Err.v
theories/Parser.v
theories/Analyzer.v
theories/Api.v
theories/DebugFmt.v
theories/PegFacts.v
theories/Layout.v
theories/Lex.v
theories/F64Spec.v
theories/F64Ok.v
theories/TextSpec.v
theories/DecOk.v
theories/LexRules.v
theories/AstSpec.v
theories/Shape.v
theories/ParserOk.v
theories/ParserOk2.v
theories/ParserOk3.v
theories/Rules.v
theories/RulesOk.v
theories/RulesOk2.v
theories/RulesOk3.v
theories/SpansOk.v
theories/Nodes.v
theories/NodesOk.v
theories/CheckFacts.v
theories/Samples.v
theories/ParseFacts.v
theories/ParseFacts2.v
theories/Reindex.v
theories/CheckFacts2.v
theories/Refuted.v
theories/Syntax.v
theories/Writable.v
theories/SynEval.v
theories/SynLex.v
theories/SynGram.v
theories/SynType.v
theories/SynGram2.v
theories/SynBuild.v
theories/SynBuild2.v
theories/SynMain.v
theories/SynPrint.v
theories/WritableOk.v
theories/PropsParse.v
theories/PropsCheck.v
theories/Answer.v
theories/Zap.v
theories/SynVerdict.v
theories/TextSamples.v
theories/PropsText.v
theories/PropsSyntax.v
theories/SynCut.v
theories/Spans.v
theories/SynSpan.v
theories/SynSpan2.v
theories/SynSpan3.v
theories/SynSpan4.v
theories/PropsSpans.v
theories/Report.v
theories/ReportOk.v
theories/ReportOk2.v
theories/ReportOk3.v
theories/ReportOk4.v
theories/PropsReport.v
theories/Validity.v
theories/ValidityOk.v
theories/Like.v
theories/Variants.v
theories/VariantsOk.v
theories/SynGrow.v
theories/Union.v
theories/VariantSamples.v
theories/PropsVariants.v
theories/Respelled.v
theories/RespelledOk.v
theories/PropsRespelled.v
theories/Message.v
theories/MessageSpec.v
theories/MessageOk.v
theories/ShowOk.v
theories/PropsMessage.v
theories/Golden.v
theories/Optim.v
theories/OptimOk.v
theories/Track.v
theories/TrackSpec.v
theories/TrackOk.v
theories/TrackFacts.v
theories/Shown.v
theories/ShownSpec.v
theories/ShownOk.v
theories/PropsShown.v
theories/Work.v
theories/WorkOk.v
theories/PropsWork.v
theories/Located.v
theories/LocErase.v
theories/LocUniq.v
theories/LocSound.v
theories/LocMain.v
theories/PropsLocated.v
theories/IndexSpec.v
theories/IndexOk.v
theories/PropsIndex.v
theories/PestText.v
theories/PestMeta.v
theories/PestOk.v
theories/PropsPest.v
theories/Faults.v
theories/FaultsOk.v
theories/FaultsErase.v
theories/FaultsUniq.v
theories/FaultsMain.v
theories/PropsFaults.v
theories/Complete.v
theories/CompleteOk.v
theories/PropsComplete.v
theories/OneMeaning.v
theories/PropsMeaning.v
theories/Respan.v
theories/RespanAn.v
theories/RespanBase.v
theories/RespanLoc.v
theories/RespanFaults.v
theories/RespanOk.v
theories/PropsRespan.v
theories/RespanGrow.v
theories/RespanGrowF.v
theories/RespanJoin.v
theories/RespanJoinOk.v
theories/PropsJoin.v
theories/LocCut.v
theories/Pieces.v
theories/PiecesOk.v
theories/PropsPieces.v
theories/LocSwap.v
theories/Edits.v
theories/EditsOk.v
theories/EditsMain.v
theories/PropsEdits.v
theories/Unused.v
theories/UnusedOk.v
theories/PropsUnused.v
theories/Growth.v
theories/GrowthOk.v
theories/PropsGrowth.v
theories/Renaming.v
theories/RenamingOk.v
theories/PropsRenaming.v
theories/Limits.v
theories/PropsLimits.v
theories/PropsReindex.v
theories/Size.v
theories/SizeOk.v
theories/PropsSize.v
theories/Lines.v
theories/LinesOk.v
theories/LinesMain.v
theories/PropsLines.v
theories/CheckWork.v
theories/CheckWorkSame.v
theories/CheckWorkBound.v
theories/CheckWorkBound2.v
theories/CheckWorkMain.v
theories/PropsCheckWork.v
theories/BuildWork.v
theories/BuildWorkSame.v
theories/BuildWorkBound.v
theories/BuildWorkBound2.v
theories/BuildWorkBound3.v
theories/BuildWorkMain.v
theories/PropsBuildWork.v
theories/Chars.v
theories/CharsOk.v
theories/CharsMain.v
theories/CharsValid.v
theories/CharsAst.v
theories/CharsLoc.v
theories/CharsFaults.v
theories/CharsAn.v
theories/CharsTrack.v
theories/CharsAnswer.v
theories/PropsChars.v
theories/Draw.v
theories/DrawSpec.v
theories/FirmOk.v
theories/DrawOk.v
theories/PropsDraw.v
theories/TableRefs.v
theories/PropsTableRefs.v
theories/TrackShift.v
theories/AboveSpec.v
theories/AboveOk.v
theories/PropsAbove.v
theories/LineEnds.v
theories/EndsTrack.v
theories/SameTrack.v
theories/CrlfTrack.v
theories/PropsCrlf.v
