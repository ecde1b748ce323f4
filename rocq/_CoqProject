-Q theories Verif
theories/GoBase.v
theories/SetModel.v
theories/SetSpec.v
theories/SetProofs.v
theories/SetProps.v
theories/DagModel.v
theories/DagSpec.v
theories/RelFacts.v
theories/DagWp.v
theories/DagInv.v
theories/DagOps.v
theories/DagMut.v
theories/DagString.v
theories/DagBfs.v
theories/DagReduce.v
theories/DagObs.v
theories/DagRefine.v
theories/DagFuel.v
theories/DagPropProofs.v
theories/DagExample.v
theories/DagProps.v
theories/DagMem.v
theories/DagMemFacts.v
theories/DagMemProofs.v
theories/DagMemPropProofs.v
theories/DagMemExample.v
theories/DagMemProps.v
theories/DagProg.v
theories/DagProgProofs.v
theories/DagRaceSpec.v
theories/DagRace.v
theories/DagRaceStart.v
theories/DagRaceSerial.v
theories/DagRaceFill.v
theories/DagRaceMeet.v
theories/DagRaceProofs.v
theories/DagRaceRefute.v
theories/DagRaceProps.v
theories/DagCostProofs.v
theories/DagCostProps.v
theories/DagKeepProofs.v
theories/DagKeepProps.v
theories/WalkModel.v
theories/WalkObs.v
theories/WalkProofs.v
theories/WalkPropProofs.v
theories/WalkExample.v
theories/WalkProps.v
theories/EtxAst.v
theories/EtxHeap.v
theories/EtxHeapSpec.v
theories/EtxClone.v
theories/EtxChildren.v
theories/EtxPlace.v
theories/EtxHeapPropProofs.v
theories/EtxHeapExample.v
theories/EtxHeapProps.v
theories/EtxText.v
theories/EtxTextFacts.v
theories/EtxLex.v
theories/EtxLexSpec.v
theories/EtxLexFacts.v
theories/EtxLexNest.v
theories/EtxLexOps.v
theories/EtxLexIdent.v
theories/EtxLexString.v
theories/EtxLexPropProofs.v
theories/EtxLexExample.v
theories/EtxLexProps.v
theories/EtxUtil.v
theories/EtxUtilSpec.v
theories/EtxUtilProofs.v
theories/EtxNumProofs.v
theories/EtxUtilProps.v
theories/EtxGram.v
theories/EtxParse.v
theories/EtxParseBase.v
theories/EtxParseSpec.v
theories/EtxParseStore.v
theories/EtxParseFirst.v
theories/EtxParseClean.v
theories/EtxParseLevel.v
theories/EtxParseLexed.v
theories/EtxParseTotal.v
theories/EtxParseTyped.v
theories/EtxParseNest.v
theories/EtxParsePropProofs.v
theories/EtxParseExample.v
theories/EtxParseProps.v
theories/EtxParseParts.v
theories/EtxPrecSpec.v
theories/EtxPrec.v
theories/EtxPrecParse.v
theories/EtxPrecPropProofs.v
theories/EtxPrecExample.v
theories/EtxPrecProps.v
theories/EtxShape.v
theories/EtxOrder.v
theories/EtxOrderProps.v
theories/EtxPlaceKey.v
theories/EtxPlaceKeyProps.v
theories/EtxLayout.v
theories/EtxLayoutProps.v
theories/EtxEntry.v
theories/EtxEntryProps.v
theories/EtxNumText.v
theories/EtxFormat.v
theories/EtxFormatSpec.v
theories/EtxFormatTotal.v
theories/EtxFormatPanic.v
theories/EtxFormatPropProofs.v
theories/EtxFormatExample.v
theories/EtxFormatProps.v
theories/EtxRelex.v
theories/EtxReprintSpec.v
theories/EtxReprint.v
theories/EtxReprintProofs.v
theories/EtxReprintProps.v
theories/EtxFind.v
theories/EtxRefuse.v
theories/EtxSettledSpec.v
theories/EtxSettled.v
theories/EtxSettledExample.v
theories/EtxSettledFalse.v
theories/EtxSettledProps.v
theories/EtxRuns.v
theories/DagConform.v
theories/EtxBuild.v
theories/EtxBuildSpec.v
theories/EtxBuildProofs.v
theories/EtxBuildParse.v
theories/EtxBuildProps.v
theories/EtxConformBuild.v
theories/EtxConformFormat.v
theories/EtxConformParse.v
theories/EtxBarrier.v
theories/EtxFlat.v
theories/EtxNeat.v
theories/EtxItems.v
theories/EtxDeclsSpec.v
theories/EtxBare.v
theories/EtxDecls.v
theories/EtxDeclsProps.v
theories/EtxWriteSpec.v
theories/EtxCode.v
theories/EtxSays.v
theories/EtxWriteBase.v
theories/EtxWriteLeaf.v
theories/EtxWriteExpr.v
theories/EtxWriteOps.v
theories/EtxWriteIf.v
theories/EtxWriteDecl.v
theories/EtxWriteRows.v
theories/EtxWriteFile.v
theories/EtxWriteExample.v
theories/EtxWriteProps.v
theories/EtxOrdinarySpec.v
theories/EtxOrdinaryLex.v
theories/EtxOrdinaryCaps.v
theories/EtxOrdinary.v
theories/EtxOrdinaryExample.v
theories/EtxOrdinaryProps.v
theories/EtxCycle.v
theories/EtxInkSpec.v
theories/EtxInk.v
theories/EtxCycleProps.v
theories/EtxLook.v
theories/EtxLookProofs.v
theories/EtxLookTotal.v
theories/EtxLookProps.v
theories/EtxIter.v
theories/EtxIterProofs.v
theories/EtxIterProps.v
theories/EtxCost.v
theories/EtxCostProofs.v
theories/EtxCostBound.v
theories/EtxCostProps.v
theories/EtxFloat.v
theories/EtxFloatSpec.v
theories/EtxFloatProofs.v
theories/EtxFloatError.v
theories/EtxFloatMain.v
theories/EtxFloatProps.v
theories/EtxNumTextSpec.v
theories/EtxNumTextProofs.v
theories/EtxNumTextMain.v
theories/EtxNumTextTop.v
theories/EtxNumTextProps.v
theories/EtxFinalSpec.v
theories/EtxFinal.v
theories/EtxFinalNum.v
theories/EtxFinalLex.v
theories/EtxFinalTop.v
theories/EtxFinalProps.v
theories/DagTopo.v
theories/DagTopoProps.v
theories/DagEdges.v
theories/DagEdgesProps.v
theories/DagBuild.v
theories/DagBuildProps.v
theories/DagQueue.v
theories/DagQueueProps.v
theories/WalkQueue.v
theories/WalkQueueProps.v
theories/DagCanon.v
theories/DagCanonProps.v
theories/DagUndo.v
theories/DagUndoProps.v
