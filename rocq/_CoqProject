-Q theories Verif
theories/Base.v
theories/BaseFacts.v
theories/ModelKey.v
theories/SpecKey.v
theories/ProofKey.v
theories/PropKey.v
theories/ModelFloat.v
theories/ModelGeom.v
theories/ModelEntry.v
theories/ModelPoint.v
theories/ProofFloat.v
theories/SpecPoint.v
theories/ProofPoint.v
theories/ProofPoint2.v
theories/ProofScale.v
theories/PropPoint.v
theories/ModelPoints.v
theories/SpecPoints.v
theories/ProofPoints.v
theories/ProofPoints2.v
theories/ProofPoints3.v
theories/PropPoints.v
theories/PropGeom.v
theories/SpecGeom.v
theories/ProofGeom.v
theories/ModelHeader.v
theories/ModelVlr.v
theories/ModelExtents.v
theories/ModelConfig.v
theories/SpecConfig.v
theories/ProofHeader.v
theories/ProofExtents.v
theories/SpecHeader.v
theories/ProofConfig.v
theories/ModelPickle.v
theories/ProofPickle.v
theories/PropConfig.v
theories/ModelStream.v
theories/ModelWriter.v
theories/SpecWriter.v
theories/SpecHier.v
theories/ProofStream.v
theories/ProofWriter.v
theories/ProofWriter2.v
theories/ProofWriter3.v
theories/ProofWriter4.v
theories/ProofTree.v
theories/ProofPages.v
theories/ProofClose.v
theories/ProofClose2.v
theories/SpecFile.v
theories/ProofSession.v
theories/ProofFile.v
theories/ProofHier.v
theories/ProofCount.v
theories/ProofResults.v
theories/SpecLaz.v
theories/ProofLaz.v
theories/SpecReject.v
theories/ProofReject.v
theories/SampleWriter.v
theories/PropWriter.v
theories/ModelReader.v
theories/SpecReader.v
theories/ProofReader.v
theories/ProofReader2.v
theories/ProofReader3.v
theories/ProofReader4.v
theories/ProofReader5.v
theories/ProofReader6.v
theories/SpecData.v
theories/ProofData.v
theories/ProofData2.v
theories/ProofData3.v
theories/ProofOpen.v
theories/ProofOpen2.v
theories/SampleReader.v
theories/PropReader.v
theories/PropData.v
theories/ModelClosed.v
theories/ModelShare.v
theories/SpecClosed.v
theories/ProofClosed.v
theories/ProofShare.v
theories/PropClosed.v
theories/SpecRound.v
theories/ProofRound.v
theories/PropRound.v
theories/SpecOpen.v
theories/ProofOpen3.v
theories/PropOpen.v
theories/ModelLazReader.v
theories/SpecLazRound.v
theories/ProofLazRound.v
theories/PropLaz.v
theories/ModelMp.v
theories/SpecMp.v
theories/ProofMp.v
theories/ProofMp2.v
theories/PropMp.v
theories/ProofMp3.v
theories/ProofMp4.v
theories/ProofMp5.v
theories/SampleMp.v
theories/PropMp2.v
theories/PropMp3.v
theories/ProofMp6.v
theories/PropMp4.v
theories/PropExtra.v
theories/ModelPy.v
theories/SpecPy.v
theories/SpecWithin.v
theories/ProofPy.v
theories/PropPy.v
theories/ModelEq.v
theories/PropEq.v
theories/ModelLazFns.v
theories/PropWriter2.v
theories/ModelAccess.v
theories/PropAccess.v
theories/ProofScale2.v
theories/PropScale.v
theories/ModelTrace.v
theories/ModelFile.v
theories/SpecCrash.v
theories/ProofTrace.v
theories/ProofTrace2.v
theories/ProofFile2.v
theories/ProofTrace3.v
theories/ProofTrace4.v
theories/ProofTrace5.v
theories/ProofTrace6.v
theories/PropCrash.v
theories/PropDisk.v
theories/ProofRetry.v
theories/PropRetry.v
theories/SpecUntrusted.v
theories/ProofUntrusted.v
theories/ProofOpen4.v
theories/PropUntrusted.v
theories/ModelCopy.v
theories/SpecCopy.v
theories/ProofCopy.v
theories/PropCopy.v
theories/ModelLife.v
theories/PropLife.v
theories/SpecOrder.v
theories/ProofOrder.v
theories/PropOrder.v
theories/ModelTrim.v
theories/SpecTrim.v
theories/ProofTrim.v
theories/PropTrim.v
theories/ModelHandles.v
theories/SpecHandles.v
theories/ProofHandles.v
theories/PropHandles.v
theories/ModelReuse.v
theories/ProofReuse.v
theories/PropReuse.v
theories/SpecTotal.v
theories/ProofTotal.v
theories/PropTotal.v
theories/ModelThin.v
theories/SpecThin.v
theories/PropThin.v
theories/ModelAssign.v
theories/SpecAssign.v
theories/PropAssign.v
theories/ModelExport.v
theories/SpecExport.v
theories/ProofExport.v
theories/PropExport.v
theories/ModelCallback.v
theories/SpecCallback.v
theories/ProofCallback.v
theories/PropCallback.v
theories/SpecValid.v
theories/PropValid.v
theories/ModelPut.v
theories/SpecPut.v
theories/PropPut.v
theories/PropCopyValid.v
theories/SpecAgain.v
theories/PropAgain.v
theories/PropRecomp.v
