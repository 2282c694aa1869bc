-Q theories Verif

theories/Bytes.v
theories/Conform.v
theories/ModelApi.v
theories/ModelBuf.v
theories/ModelChunk.v
theories/ModelCmap.v
theories/ModelColor.v
theories/ModelContent.v
theories/ModelCrash.v
theories/ModelDoc.v
theories/ModelEnums.v
theories/ModelFloat.v
theories/ModelFontDesc.v
theories/ModelLeak.v
theories/ModelMerge.v
theories/ModelObject.v
theories/ModelOps.v
theories/ModelOverflow.v
theories/ModelPart.v
theories/ModelPdf.v
theories/ModelPs.v
theories/ModelRenumber.v
theories/ModelRoles.v
theories/ModelSmall.v
theories/ModelSwap.v
theories/ModelTw.v
theories/ModelTwAnnot.v
theories/ModelTwArgs.v
theories/ModelTwAttr.v
theories/ModelTwDoc.v
theories/ModelTwFiles.v
theories/ModelTwFonts.v
theories/ModelTwForms.v
theories/ModelTwGraphics.v
theories/ModelTwXObj.v
theories/ProofApi.v
theories/ProofArchive.v
theories/ProofAssembled.v
theories/ProofBasic.v
theories/ProofChunk.v
theories/ProofChunk2.v
theories/ProofChunkParse.v
theories/ProofCmap.v
theories/ProofCmap2.v
theories/ProofColor.v
theories/ProofContent.v
theories/ProofCost.v
theories/ProofCost2.v
theories/ProofCrash.v
theories/ProofCut.v
theories/ProofCut2.v
theories/ProofCut3.v
theories/ProofDoc.v
theories/ProofEnums.v
theories/ProofFile.v
theories/ProofFile2.v
theories/ProofFile3.v
theories/ProofFile4.v
theories/ProofFloat.v
theories/ProofFloat2.v
theories/ProofFontDesc.v
theories/ProofKeyword.v
theories/ProofLeak.v
theories/ProofLimits.v
theories/ProofLimits2.v
theories/ProofLimits3.v
theories/ProofMerge.v
theories/ProofObj.v
theories/ProofOverflow.v
theories/ProofOverflow2.v
theories/ProofParse.v
theories/ProofPart.v
theories/ProofPdf.v
theories/ProofPrint.v
theories/ProofPs.v
theories/ProofRename.v
theories/ProofRenum.v
theories/ProofRenumTree.v
theories/ProofRound.v
theories/ProofSame.v
theories/ProofSepar.v
theories/ProofSmall.v
theories/ProofStyle.v
theories/ProofSwap.v
theories/ProofText.v
theories/ProofTree.v
theories/ProofTw.v
theories/ProofTwAnnot.v
theories/ProofTwArgs.v
theories/ProofTwAttr.v
theories/ProofTwDoc.v
theories/ProofTwFiles.v
theories/ProofTwFonts.v
theories/ProofTwForms.v
theories/ProofTwGraphics.v
theories/ProofTwXObj.v
theories/ProofTyped.v
theories/ProofWithin.v
theories/ProofXref.v
theories/PropActions.v
theories/PropApi.v
theories/PropAppear.v
theories/PropArchive.v
theories/PropAssembled.v
theories/PropAttrs.v
theories/PropBack.v
theories/PropChunk.v
theories/PropCmap.v
theories/PropColor.v
theories/PropColors.v
theories/PropContent.v
theories/PropCorners.v
theories/PropCost.v
theories/PropCost2.v
theories/PropCrash.v
theories/PropCut.v
theories/PropDefaults.v
theories/PropDoc.v
theories/PropEnums.v
theories/PropExtract.v
theories/PropFaces.v
theories/PropFields.v
theories/PropFontDesc.v
theories/PropForm.v
theories/PropFunctions.v
theories/PropGlyphs.v
theories/PropGrow.v
theories/PropGuards.v
theories/PropImages.v
theories/PropInPlace.v
theories/PropInfo.v
theories/PropInto.v
theories/PropKeyword.v
theories/PropKeyword2.v
theories/PropLarge.v
theories/PropLeak.v
theories/PropLimits.v
theories/PropLimits2.v
theories/PropMarked.v
theories/PropMarks.v
theories/PropMerge.v
theories/PropMerge2.v
theories/PropMerged.v
theories/PropNames.v
theories/PropNav.v
theories/PropOnce.v
theories/PropOnto.v
theories/PropOps.v
theories/PropOverflow.v
theories/PropPages.v
theories/PropPaint.v
theories/PropPart.v
theories/PropPdf.v
theories/PropPdf2.v
theories/PropPresent.v
theories/PropPrim.v
theories/PropPs.v
theories/PropPs2.v
theories/PropRenum.v
theories/PropRenum2.v
theories/PropRoles.v
theories/PropSame.v
theories/PropSearch.v
theories/PropSepar.v
theories/PropSepar2.v
theories/PropSerial.v
theories/PropSizes.v
theories/PropSmall.v
theories/PropSmall2.v
theories/PropStates.v
theories/PropSwap.v
theories/PropTagged.v
theories/PropTree.v
theories/PropTwAnnot.v
theories/PropTwAttr.v
theories/PropTwDoc.v
theories/PropTwFiles.v
theories/PropTwFonts.v
theories/PropTwForms.v
theories/PropTwGraphics.v
theories/PropTwXObj.v
theories/PropType3.v
theories/PropWithin.v
theories/SpecActions.v
theories/SpecApi.v
theories/SpecAppear.v
theories/SpecArchive.v
theories/SpecAssembled.v
theories/SpecAttrs.v
theories/SpecBack.v
theories/SpecChunk.v
theories/SpecCmap.v
theories/SpecColor.v
theories/SpecColors.v
theories/SpecContent.v
theories/SpecCorners.v
theories/SpecCost.v
theories/SpecCrash.v
theories/SpecCut.v
theories/SpecDoc.v
theories/SpecEnums.v
theories/SpecExtract.v
theories/SpecFaces.v
theories/SpecFields.v
theories/SpecFile.v
theories/SpecFontDesc.v
theories/SpecForm.v
theories/SpecFunctions.v
theories/SpecGlyphs.v
theories/SpecGrow.v
theories/SpecImages.v
theories/SpecInfo.v
theories/SpecKeyword.v
theories/SpecLeak.v
theories/SpecLex.v
theories/SpecLimits.v
theories/SpecMarked.v
theories/SpecMarks.v
theories/SpecMeans.v
theories/SpecMerge.v
theories/SpecMerged.v
theories/SpecNames.v
theories/SpecNav.v
theories/SpecObj.v
theories/SpecOnce.v
theories/SpecOnto.v
theories/SpecOps.v
theories/SpecOverflow.v
theories/SpecPages.v
theories/SpecPaint.v
theories/SpecPart.v
theories/SpecPdf.v
theories/SpecPresent.v
theories/SpecPs.v
theories/SpecRename.v
theories/SpecRenum.v
theories/SpecRoles.v
theories/SpecSame.v
theories/SpecSearch.v
theories/SpecSerial.v
theories/SpecSizes.v
theories/SpecSmall.v
theories/SpecStates.v
theories/SpecStyle.v
theories/SpecSwap.v
theories/SpecTagged.v
theories/SpecText.v
theories/SpecTw.v
theories/SpecTwAnnot.v
theories/SpecTwArgs.v
theories/SpecTwAttr.v
theories/SpecTwDoc.v
theories/SpecTwFiles.v
theories/SpecTwFonts.v
theories/SpecTwForms.v
theories/SpecTwGraphics.v
theories/SpecTwXObj.v
theories/SpecType3.v
theories/SpecTyped.v
theories/SpecViews.v
theories/SpecWithin.v
