-Q theories Verif
theories/ModelBase.v
theories/ModelInput.v
theories/ModelCrc.v
theories/ModelSubframe.v
theories/ModelFrame.v
theories/ModelMetadata.v
theories/ModelLib.v
theories/ProofBase.v
theories/ProofSim.v
theories/ProofSimMeta.v
theories/SpecReader.v
theories/ProofReader.v
theories/SpecBits.v
theories/ProofBits.v
theories/ProofBits2.v
theories/SpecFlac.v
theories/ProofSub.v
theories/ProofPredict.v
theories/ProofSub2.v
theories/SpecOps.v
theories/ProofInput.v
theories/ProofSafe.v
theories/ProofStereo.v
theories/SpecEncoder.v
theories/ProofArith.v
theories/ProofGrammar.v
theories/ProofSubframe.v
theories/ProofUnsup.v
theories/SpecCrc.v
theories/ProofCrc.v
theories/SpecFrame.v
theories/SpecApi.v
theories/ProofHeader.v
theories/ProofHeader2.v
theories/ProofHeader3.v
theories/ProofHeader4.v
theories/ProofFrame.v
theories/ProofFrame2.v
theories/ProofFrame3.v
theories/ProofFrame4.v
theories/ProofStream.v
theories/ProofPrefix.v
theories/ProofLimits.v
theories/ProofFrames.v
theories/ProofBlock.v
theories/ProofSamples.v
theories/SpecEncode.v
theories/ProofEncode.v
theories/SpecTimes.v
theories/ProofTimes.v
theories/SpecMeta.v
theories/SpecFile.v
theories/ProofMeta.v
theories/ProofMeta2.v
theories/ProofMeta3.v
theories/ProofMeta4.v
theories/ProofMeta5.v
theories/ProofFile.v
theories/ProofTags.v
theories/ProofOptions.v
theories/SpecWhole.v
theories/ProofWhole.v
theories/ProofStrong.v
theories/ProofSession.v
theories/ProofPause.v
theories/ProofTotal.v
theories/PropertiesInput.v
theories/PropertiesArith.v
theories/PropertiesSubframe.v
theories/PropertiesHeader.v
theories/PropertiesFrame.v
theories/PropertiesBlock.v
theories/PropertiesMeta.v
theories/SpecAlloc.v
theories/ProofAlloc.v
theories/SpecSource.v
theories/ProofSource.v
theories/ProofBlame.v
theories/ModelHostile.v
theories/SpecHostile.v
theories/ProofSound.v
theories/ProofHostile.v
theories/ProofUnseen.v
theories/PropertiesHostile.v
theories/SpecCursor.v
theories/ProofCursor.v
theories/PropertiesCursor.v
theories/ProofTaken.v
theories/PropertiesWhole.v
theories/PropertiesAlloc.v
theories/PropertiesSource.v
theories/SpecBuild.v
theories/ProofBuild.v
theories/PropertiesBuild.v
theories/SpecFault.v
theories/ProofFault.v
theories/ProofFault2.v
theories/SpecPlay.v
theories/ProofPlay.v
theories/ProofProgress.v
theories/ProofFault3.v
theories/PropertiesFault.v
theories/PropertiesPlay.v
theories/SpecMd5.v
theories/TestsUnit.v
theories/TestsFiles.v
theories/SpecMetaFault.v
theories/ProofMetaFault.v
theories/ProofMetaFault2.v
theories/ProofMetaFault3.v
theories/ProofMetaFault4.v
theories/PropertiesMetaFault.v
theories/ModelPrograms.v
theories/SpecPrograms.v
theories/ProofPrograms.v
theories/ProofBounded.v
theories/ProofPrograms2.v
theories/ProofPrograms3.v
theories/PropertiesPrograms.v
theories/ModelFuzzing.v
theories/SpecFuzzing.v
theories/ProofReaderCap.v
theories/ProofFuzz.v
theories/ProofFuzz2.v
theories/PropertiesFuzzing.v
theories/ModelBench.v
theories/SpecBench.v
theories/ProofBench.v
theories/PropertiesBench.v
theories/ProofUnique.v
theories/PropertiesUnique.v
theories/ModelTests.v
theories/SpecTests.v
theories/ProofTests.v
theories/PropertiesTests.v
theories/SpecLoose.v
theories/ProofLoose.v
theories/ProofOverflow.v
theories/PropertiesLoose.v
theories/SpecLooseFault.v
theories/ProofLooseFault.v
theories/PropertiesLooseFault.v
theories/ModelComments.v
theories/SpecComments.v
theories/ProofComments.v
theories/PropertiesComments.v
theories/SpecAnyPlay.v
theories/ProofAnyPlay.v
theories/PropertiesAnyPlay.v
theories/ModelMains.v
theories/SpecMains.v
theories/ProofMains.v
theories/PropertiesMains.v
theories/SpecAnyContainers.v
theories/ProofAnyContainers.v
theories/ProofAnyFuzz.v
theories/PropertiesAnyContainers.v
theories/SpecRange.v
theories/ProofRange.v
theories/PropertiesRange.v
theories/ModelMains2.v
theories/SpecMains2.v
theories/ProofMains2.v
theories/PropertiesMains2.v
theories/SpecAnyFuzzing.v
theories/ProofAnyFuzzing.v
theories/ProofAnyFuzzing2.v
theories/PropertiesAnyFuzzing.v
theories/SpecCut.v
theories/ProofCut.v
theories/PropertiesCut.v
theories/SpecAnyBench.v
theories/ProofAnyBench.v
theories/PropertiesAnyBench.v
theories/SpecAnyTags.v
theories/ProofAnyTags.v
theories/PropertiesAnyTags.v
theories/SpecAnySub.v
theories/ProofAnySub.v
theories/ProofAnySub2.v
theories/PropertiesAnySub.v
theories/SpecAnyWidth.v
theories/ProofAnyWidth.v
theories/PropertiesAnyWidth.v
theories/SpecCatch.v
theories/ProofCatch.v
theories/PropertiesCatch.v
