-Q theories Verif

theories/Base.v
theories/ModelCache.v
theories/SpecCache.v
theories/ProofCache.v
theories/ModelApi.v
theories/ProofApi.v
theories/ModelPyRepr.v
theories/ProofPyRepr.v
theories/ModelHeap.v
theories/ProofHeap.v
theories/ProofCacheApi.v
theories/PropsCache.v
theories/RList.v
theories/ModelMath.v
theories/ProofMath.v
theories/PropsMath.v
theories/ModelHeights.v
theories/ProofHeights.v
theories/PropsHeights.v
theories/ModelGeom.v
theories/SpecGeom.v
theories/ProofGeom.v
theories/PropsGeom.v
theories/ModelParams.v
theories/ProofParams.v
theories/PropsParams.v
theories/ModelHomog.v
theories/PropsHomog.v
theories/ModelStep.v
theories/ProofStep.v
theories/PropsStep.v
theories/ModelDetrend.v
theories/SpecDetrend.v
theories/ProofDetrend.v
theories/PropsDetrend.v
theories/ModelFill.v
theories/PropsFill.v
theories/ModelAfc.v
theories/ProofAfc.v
theories/PropsAfc.v
theories/PropsAfc2.v
theories/PropsAfcVolume.v
theories/PropsAfcShift.v
theories/ModelBytes.v
theories/SpecBytes.v
theories/ProofBytes.v
theories/ModelUnits.v
theories/PropsUnits.v
theories/PropsLayout.v
theories/ProofFloat.v
theories/ModelSur.v
theories/ProofSurReal.v
theories/ProofSur.v
theories/ProofCodec.v
theories/ProofSurHeader.v
theories/PropsSur.v
theories/ModelFormats.v
theories/PropsTmd.v
theories/PropsSdf.v
theories/PropsAl3d.v
theories/ModelSflz.v
theories/ProofSflz.v
theories/ProofSflzReal.v
theories/PropsSflz.v
theories/ModelDispatch.v
theories/PropsDispatch.v
theories/PropsMagic.v
theories/ModelTemplate.v
theories/PropsTemplate.v
theories/ModelBatch.v
theories/PropsBatch.v
theories/ModelCli.v
theories/PropsCli.v
theories/ModelFits.v
theories/PropsFits.v
theories/PropsXyz.v
theories/ModelAcf.v
theories/PropsAcf.v
theories/PropsDecay.v
theories/PropsStr.v
theories/PropsRdq.v
theories/ModelFourier.v
theories/ProofFourier.v
theories/PropsFourier.v
theories/PropsAngular.v
theories/ModelReaders.v
theories/SpecReaders.v
theories/ProofReaders.v
theories/PropsReaders.v
theories/PropsNms.v
theories/ExamplesReaders.v
theories/ModelVk.v
theories/PropsVk.v
theories/PropsVkValue.v
theories/ModelOpd.v
theories/SpecOpd.v
theories/PropsOpd.v
theories/ExamplesOpd.v
theories/ProofApx.v
theories/ModelDat.v
theories/SpecDat.v
theories/ProofDat.v
theories/PropsDat.v
theories/ExamplesDat.v
theories/PropsEncoding.v
theories/ModelGwy.v
theories/SpecGwy.v
theories/ProofGwy.v
theories/PropsGwy.v
theories/ProofGwySurface.v
theories/PropsGwySurface.v
theories/PropsGwyLayers.v
theories/ExamplesGwy.v
theories/ModelZip.v
theories/SpecZip.v
theories/ProofZip.v
theories/ProofFlat.v
theories/PropsX3p.v
theories/ExamplesX3p.v
theories/PropsPlux.v
theories/ExamplesPlux.v
theories/ModelCag.v
theories/SpecCag.v
theories/PropsCag.v
theories/ExamplesCag.v
theories/ModelPeriod.v
theories/SpecPeriod.v
theories/ProofPeriod.v
theories/PropsPeriod.v
theories/ModelPlot.v
theories/SpecPlot.v
theories/PropsPlot.v
theories/PropsFplot.v
theories/ExamplesPlot.v
theories/ModelFitsSurface.v
theories/SpecFits.v
theories/ProofFits.v
theories/PropsFitsSurface.v
theories/ExamplesFits.v
theories/ModelAbbottPlot.v
theories/PropsAbbottPlot.v
theories/ExamplesAbbottPlot.v
theories/ProofAfcAffine.v
theories/ModelReport.v
theories/PropsReport.v
theories/PropsReportUnits.v
theories/ModelTable.v
theories/PropsTable.v
theories/ModelCollect.v
theories/PropsCollect.v
theories/ModelRegistry.v
theories/PropsRegistry.v
theories/ModelObject.v
theories/PropsObject.v
theories/ModelSdfText.v
theories/ProofSdfText.v
theories/PropsSdfText.v
theories/ModelSurLayers.v
theories/ProofSurLayers.v
theories/PropsSurLayers.v
theories/ModelFloatParams.v
theories/ProofFloatParams.v
theories/PropsFloatParams.v
theories/ModelFloatGeom.v
theories/ProofFloatGeom.v
theories/PropsFloatGeom.v
theories/ModelFileInput.v
theories/ProofFileInput.v
theories/PropsFileInput.v
theories/ModelExamples.v
theories/PropsExamples.v
theories/ModelDepth.v
theories/ProofDepth.v
theories/PropsOrientation.v
theories/PropsDepth.v
theories/PropsNames.v
theories/ModelRender.v
theories/PropsRender.v
theories/ModelLevelling.v
theories/PropsLevelling.v
theories/PropsStable.v
theories/PropsStableFiles.v
theories/ModelDocs.v
theories/PropsDocs.v
theories/ModelRotate.v
theories/PropsRotate.v
theories/PropsSflzBytes.v
theories/PropsSflzRead.v
theories/PropsMirror.v
theories/PropsSdfSame.v
theories/PropsStepUnits.v
theories/PropsCleaning.v
theories/PropsProfileUnits.v
theories/PropsCleaning2.v
theories/PropsCleanTurn.v
