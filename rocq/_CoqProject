-Q theories Verif
theories/PyBase.v
theories/Regex.v
theories/MTokenizer.v
theories/ConfTokenizer.v
theories/MUtils.v
theories/SUtils.v
theories/LBase.v
theories/LLinspace.v
theories/LUtils.v
theories/LText.v
theories/PUtils.v
theories/MTree.v
theories/STree.v
theories/LTree.v
theories/MVector.v
theories/MParser.v
theories/SParser.v
theories/MLabelled.v
theories/SVector.v
theories/SLabelled.v
theories/LParser.v
theories/LVector.v
theories/LOracle.v
theories/LParserCall.v
theories/PTree.v
theories/PParser.v
theories/POracle.v
theories/PVector.v
theories/MNgram.v
theories/MLangModel.v
theories/MSmooth.v
theories/MBuilder.v
theories/ConfLangModel.v
theories/LRanges.v
theories/SLangModel.v
theories/LUdb.v
theories/LNgram.v
theories/LLangModel.v
theories/LBuilder.v
theories/PLangModel.v
theories/LSmooth.v
theories/LCorpus.v
theories/LMkn.v
theories/LMkn2.v
theories/LKn.v
theories/PSmooth.v
theories/LSave.v
theories/LSave2.v
theories/PSave.v
theories/MNormal.v
theories/ConfNormal.v
theories/LRegex.v
theories/SNormal.v
theories/LNormal.v
theories/LNormal2.v
theories/LNormal3.v
theories/PNormal.v
theories/MNode.v
theories/MSem.v
theories/ConfLogic.v
theories/SNode.v
theories/LNode.v
theories/LNode2.v
theories/PNode.v
theories/LNode3.v
theories/PNode2.v
theories/SArgs.v
theories/LArgs.v
theories/LArgs2.v
theories/PArgs.v
theories/SSem.v
theories/LSem.v
theories/PSem.v
theories/MSentencizer.v
theories/ConfSentencizer.v
theories/LSub.v
theories/SText.v
theories/LSentencizer.v
theories/LRestore.v
theories/PText.v
theories/STok.v
theories/LTok.v
theories/LTokWords.v
theories/LDecode.v
theories/LGood.v
theories/LRule.v
theories/LStages.v
theories/LProtect.v
theories/LTokDec.v
theories/LSanit.v
theories/LTokText.v
theories/LTokEdit.v
theories/LTokSent.v
theories/PTok.v
theories/MPipeline.v
theories/SPipeline.v
theories/LLogic.v
theories/LPipeline.v
theories/PPipeline.v
theories/LLogic2.v
theories/PLogic.v
theories/MTrain.v
theories/STrain.v
theories/LTrain.v
theories/PTrain.v
theories/MFiles.v
theories/MData.v
theories/SFiles.v
theories/LFiles.v
theories/LShipped.v
theories/PFiles.v
theories/LOrder.v
theories/LOrder2.v
theories/LOrder3.v
theories/MSample.v
theories/SSample.v
theories/LSample.v
theories/PSample.v
theories/MDebug.v
theories/LDebug.v
theories/PDebug.v
theories/MBatch.v
theories/SBatch.v
theories/LBatch.v
theories/PBatch.v
theories/MWarn.v
theories/SJson.v
theories/LJson.v
theories/PWarn.v
theories/LKnSum.v
theories/PKnSum.v
theories/MFull.v
theories/SFull.v
theories/LFull.v
theories/PFull.v
theories/PReach.v
theories/SKeep.v
theories/LKeep.v
theories/PKeep.v
theories/MViews.v
theories/PViews.v
theories/LAscii.v
theories/LRun.v
theories/SEnglish.v
theories/LEnglish.v
theories/LEnglish2.v
theories/LEnglish3.v
theories/LEnglish4.v
theories/LEnglish5.v
theories/LEnglish6.v
theories/LEnglish7.v
theories/LEnglish8.v
theories/LEnglish9.v
theories/LEnglish10.v
theories/LWeb.v
theories/LEnglish11.v
theories/PEnglish.v
theories/LEnglish12.v
theories/PNgram.v
theories/LNormal4.v
theories/LNormal5.v
theories/LNormal6.v
theories/LNormal7.v
theories/PLemma.v
theories/SSpell.v
theories/LSpell.v
theories/PSpell.v
theories/SRound.v
theories/LRound.v
theories/PRound.v
theories/MNet.v
theories/SNet.v
theories/LNet.v
theories/PNet.v
theories/SFirm.v
theories/LFirm.v
theories/LFirm2.v
theories/LFirm3.v
theories/PFirm.v
