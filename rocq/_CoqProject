-Q theories Verif
theories/ModelBase.v
theories/ModelTables.v
theories/ModelChunk.v
theories/ModelSection.v
theories/ModelWriter.v
theories/ModelLinker.v
theories/ModelScript.v
theories/ModelArgs.v
theories/Demo.v
theories/ProofBase.v
theories/SpecBase.v
theories/ProofEnc.v
theories/SpecStr.v
theories/ProofStr.v
theories/PropStr.v
theories/SpecHash.v
theories/ProofHash.v
theories/ProofGnuHash.v
theories/PropHash.v
theories/SpecElf.v
theories/ProofElf.v
theories/PropEnc.v
theories/SpecReloc.v
theories/ProofReloc.v
theories/SpecScan.v
theories/ProofScan.v
theories/PropReloc.v
theories/PropScan.v
theories/SpecLayout.v
theories/ProofLayout.v
theories/SpecLink.v
theories/ProofRun.v
theories/ProofWriter.v
theories/ProofInput.v
theories/ProofLink.v
theories/ProofOut.v
theories/ProofPlace.v
theories/ProofSeg.v
theories/ProofLoad.v
theories/SpecScript.v
theories/ProofScript.v
theories/PropScript.v
theories/SpecArgs.v
theories/ProofArgs.v
theories/DemoLink.v
theories/ProofResolve.v
theories/PropArgs.v
theories/PropResolve.v
theories/PropLayout.v
theories/SpecSym.v
theories/ProofSym.v
theories/PropSym.v
theories/ProofHist.v
theories/ProofLens.v
theories/ProofBytes.v
theories/ProofSize.v
theories/ProofFile.v
theories/SpecFile.v
theories/ProofStatic.v
theories/ProofNeeded.v
theories/ProofDyn.v
theories/SpecGot.v
theories/ProofTables.v
theories/ProofGot.v
theories/ProofBind.v
theories/PropFile.v
theories/PropGot.v
theories/SpecTrace.v
theories/ProofTrace.v
theories/ProofSpecial.v
theories/ProofSecs.v
theories/SpecMerge.v
theories/ProofMerge.v
theories/PropMerge.v
theories/SpecSyms.v
theories/ProofSyms.v
theories/ProofArrays.v
theories/ProofOwn.v
theories/PropSyms.v
theories/SpecLinks.v
theories/ProofLinks.v
theories/PropLinks.v
theories/SpecFields.v
theories/ProofFields.v
theories/PropFields.v
theories/SpecNames.v
theories/ProofNames.v
theories/PropNames.v
theories/SpecOrder.v
theories/ProofOrder.v
theories/PropOrder.v
theories/ModelLock.v
theories/SpecLock.v
theories/ProofLock.v
theories/PropLock.v
theories/SpecHashLink.v
theories/ProofHashLink.v
theories/ProofBound.v
theories/PropHashLink.v
theories/PropBound.v
theories/ProofImport.v
theories/PropImport.v
theories/ModelMain.v
theories/SpecMain.v
theories/ProofMain.v
theories/PropMain.v
theories/PropComplete.v
theories/SpecHeaders.v
theories/ProofHeaders.v
theories/PropHeaders.v
theories/ProofMissing.v
theories/ProofComplete.v
theories/SpecMissing.v
theories/PropMissing.v
theories/SpecRun.v
theories/ProofExec.v
theories/ProofImage.v
theories/ProofLoader.v
theories/ProofCall.v
theories/ProofProg.v
theories/PropExec.v
theories/SpecInit.v
theories/ProofInit.v
theories/PropInit.v
theories/SpecOutput.v
theories/ProofOutput.v
theories/PropOutput.v
theories/PropRefs.v
theories/SpecRepro.v
theories/ProofRepro.v
theories/PropRepro.v
theories/PropOptions.v
theories/SpecTwice.v
theories/ProofTwice.v
theories/PropTwice.v
theories/SpecArchive.v
theories/ProofArchive.v
theories/PropArchive.v
theories/SpecErrors.v
theories/ProofErrors.v
theories/PropErrors.v
theories/PropLimits.v
theories/SpecAbi.v
theories/PropAbi.v
theories/SpecTotal.v
theories/ProofTotal.v
theories/PropTotal.v
theories/SpecCrash.v
theories/ProofCrash.v
theories/PropCrash.v
theories/SpecApply.v
theories/ProofApply.v
theories/PropApply.v
theories/SpecPlt.v
theories/ProofPlt.v
theories/ProofRoom.v
theories/PropPlt.v
theories/SpecGood.v
theories/ProofGood.v
theories/PropGood.v
theories/SpecUnused.v
theories/ProofUnused.v
theories/PropUnused.v
theories/ProofAgain.v
theories/PropAgain.v
theories/SpecStub.v
theories/ProofStub.v
theories/PropStub.v
theories/SpecMembers.v
theories/ProofMembers.v
theories/PropMembers.v
