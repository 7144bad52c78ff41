-Q theories Verif
theories/Base.v
theories/Dec.v
theories/Json.v
theories/JsonProofs.v
theories/JsonTrunc.v
theories/PyStr.v
theories/ModelStream.v
theories/SpecStream.v
theories/InProofs.v
theories/OutProofs.v
theories/OutProofs2.v
theories/OutProofs3.v
theories/InProofs2.v
theories/CrashProofs.v
theories/PropsStreamLemmas.v
theories/PropsStream.v
theories/PropsTransfer.v
theories/ModelShared.v
theories/SpecShared.v
theories/PropsShared.v
theories/ModelRecipe.v
theories/ModelSerial.v
theories/SpecRecipe.v
theories/SerialProofs1.v
theories/SerialProofs2.v
theories/SerialProofs3.v
theories/PropsSerial.v
theories/PropsHand.v
theories/ModelOps.v
theories/SpecBind.v
theories/BindProofs.v
theories/PropsRecipe.v
theories/ModelWrap.v
theories/PropsWrap.v
theories/ModelConvert.v
theories/SpecConvert.v
theories/ConvertProofs.v
theories/PropsConvert.v
theories/ModelEval.v
theories/SpecEval.v
theories/EvalProofs.v
theories/PropsEval.v
theories/SpecCast.v
theories/PropsCast.v
theories/ModelInt.v
theories/PropsInt.v
theories/PropsExtra.v
theories/ModelDriver.v
theories/SpecDriver.v
theories/DriverProofs.v
theories/PropsDriver.v
theories/ModelConfigs.v
theories/PropsConfigs.v
theories/PropsConfigs2.v
theories/ModelOpen.v
theories/SpecOpen.v
theories/OpenProofs.v
theories/PropsOpen.v
theories/ModelNum.v
theories/NumProofs.v
theories/PropsNum.v
theories/ModelDiff.v
theories/PropsDiff.v
theories/PropsTies.v
theories/PropsSlerp.v
theories/ModelDrop.v
theories/PropsDrop.v
theories/ModelRegion.v
theories/PropsRegion.v
theories/ModelFilter.v
theories/PropsFilter.v
theories/ModelCross.v
theories/PropsCross.v
theories/ModelShape.v
theories/PropsShape.v
theories/ModelDefaults.v
theories/PropsDefaults.v
theories/ModelYaml.v
theories/PropsYaml.v
theories/ModelRank.v
theories/RankProofs.v
theories/PropsRank.v
theories/ModelProcrustes.v
theories/PropsProcrustes.v
theories/ModelRotate.v
theories/PropsRotate.v
theories/ModelDeclare.v
theories/DataMethods.v
theories/PropsDeclare.v
theories/PropsAccept.v
theories/ModelModes.v
theories/PropsDropout.v
theories/PropsModes.v
theories/PropsStock.v
theories/ModelKeys.v
theories/ModelKeyConv.v
theories/DataSd1Ldm.v
theories/DataSd1Kohya.v
theories/DataSd1Blocks.v
theories/DataSdxlSgm.v
theories/DataSdxlKohya.v
theories/DataSdxlDiffusers.v
theories/DataSdxlBlocks.v
theories/DataSd3.v
theories/DataFlux.v
theories/DataFluxDiffuser.v
theories/SpecKeys.v
theories/Index.v
theories/KeysProofs.v
theories/PropsKeys.v
theories/PropsKeysXl.v
theories/PropsBlocks.v
theories/ModelLora.v
theories/PropsLora.v
theories/ModelBytes.v
theories/PropsBytes.v
theories/ModelHeap.v
theories/PropsHeap.v
theories/ModelSelect.v
theories/PropsTopK.v
theories/PropsSelect.v
theories/PropsCosine.v
theories/SpecMedian.v
theories/MedianProofs.v
theories/PropsMedian.v
theories/ModelMerge.v
theories/SpecMerge.v
theories/MergeProofs.v
theories/PropsMerge.v
theories/ModelRound.v
theories/SpecRound.v
theories/RoundProofs.v
theories/PropsRound.v
theories/SpecKeyNames.v
theories/PropsKeyNames.v
theories/PropsRoundErr.v
theories/ModelFourier.v
theories/FourierProofs.v
theories/PropsFourier.v
theories/ModelReuse.v
theories/SpecReuse.v
theories/ReuseProofs.v
theories/PropsReuse.v
theories/ModelNumbers.v
theories/SpecNumbers.v
theories/NumbersProofs.v
theories/PropsNumbers.v
theories/ModelPaths.v
theories/SpecPaths.v
theories/PathsProofs.v
theories/PropsPaths.v
theories/ModelConfObj.v
theories/PropsConfObj.v
theories/PropsExtra2.v
theories/ModelLazy.v
theories/PropsLazy.v
theories/ModelCache.v
theories/SpecCache.v
theories/PropsCache.v
theories/SpecCommute.v
theories/PropsCommute.v
theories/PropsOrder.v
theories/PropsOrderRound.v
theories/ModelTiesRound.v
theories/PropsTiesRound.v
theories/ModelClampRound.v
theories/PropsClampRound.v
theories/ModelContains.v
theories/PropsContains.v
theories/ModelReports.v
theories/PropsReports.v
theories/ModelMaskRound.v
theories/PropsMaskRound.v
theories/PropsText.v
theories/ModelUse.v
theories/PropsUse.v
theories/ModelShare.v
theories/PropsShare.v
theories/ModelCuda.v
theories/PropsCuda.v
theories/ModelOut.v
theories/PropsOut.v
theories/ModelParam.v
theories/PropsParam.v
theories/ModelDtype.v
theories/PropsDtype.v
theories/ModelWhite.v
theories/PropsWhite.v
theories/ModelMapping.v
theories/PropsMapping.v
theories/ModelTyping.v
theories/SpecTyping.v
theories/PropsTyping.v
theories/ModelFileMap.v
theories/PropsFileMap.v
theories/ModelRecipeFile.v
theories/SpecRecipeFile.v
theories/PropsRecipeFile.v
theories/SpecDicts.v
theories/PropsDicts.v
theories/PropsErrors.v
