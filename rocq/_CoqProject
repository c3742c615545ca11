-Q theories Verif

theories/Base.v
theories/Compact.v
theories/Types.v
theories/Indicators.v
theories/Decode.v
theories/Sign.v
theories/Unchecked.v
theories/Storage.v
theories/Meta.v
theories/Balance.v
theories/Cards.v
theories/Blake2b.v
theories/Twox.v
theories/Address.v
theories/Patch32.v
theories/Spec.v
theories/ProofBase.v
theories/ProofCompact.v
theories/ProofUtf8.v
theories/ProofLeaf.v
theories/ProofRead.v
theories/ProofTables.v
theories/ProofPeel.v
theories/ProofSpec.v
theories/SpecSource.v
theories/ProofSafe.v
theories/ProofSafe2.v
theories/SpecWf.v
theories/ProofWf.v
theories/Api.v
theories/ProofFuel.v
theories/ProofRel.v
theories/ProofMain.v
theories/ProofCor.v
theories/Sample.v
theories/PropDecode.v
theories/SpecLabels.v
theories/ProofLabels.v
theories/ProofSim.v
theories/ProofHint.v
theories/ProofDocs.v
theories/SpecRename.v
theories/ProofRename.v
theories/PropHints.v
theories/SpecKinds.v
theories/ProofKinds.v
theories/ProofKinds2.v
theories/PropKinds.v
theories/SpecTrack.v
theories/ProofTrack.v
theories/ProofIso.v
theories/ApiSign.v
theories/SpecSign.v
theories/ProofSign.v
theories/ProofSign2.v
theories/ProofExternal.v
theories/SampleChain.v
theories/ProofMark.v
theories/PropSign.v
theories/PropTrack.v
theories/ApiStorage.v
theories/SpecStorage.v
theories/SpecKey.v
theories/ProofStorage.v
theories/ProofKey.v
theories/PropStorage.v
theories/PropKey.v
theories/SpecUnchecked.v
theories/ProofUnchecked.v
theories/PropUnchecked.v
theories/SpecMeta.v
theories/ProofMeta.v
theories/PropCompact.v
theories/TestBalance.v
theories/TestWestend.v
theories/TestStatemint.v
theories/TestAcala2012.v
theories/TestAcala2200.v
theories/TestPolkadot9430.v
theories/TestAstar.v
theories/TestBifrost.v
theories/TestPolkadot15.v
theories/TestWestmint.v
theories/TestUnchecked.v
theories/TestUnchecked15.v
theories/TestSmall.v
theories/ProofNamed.v
theories/PropMeta.v
theories/SpecBalance.v
theories/ProofBalance.v
theories/ProofBalance2.v
theories/PropBalance.v
theories/SpecCards.v
theories/ProofCards.v
theories/ProofCards2.v
theories/ProofShow.v
theories/PropCards.v
theories/SpecTransient.v
theories/SpecTransient2.v
theories/ProofTransient.v
theories/ProofTransient2.v
theories/PropTransient.v
theories/PropTransient2.v
theories/SpecPatch.v
theories/ProofPatch.v
theories/PropPatch.v
theories/SpecSize.v
theories/ProofSize.v
theories/ProofSize2.v
theories/CheckWf.v
theories/PropSize.v
theories/SpecSee.v
theories/ProofSee.v
theories/ProofSee2.v
theories/PropSee.v
theories/SpecAddress.v
theories/ProofAddress.v
theories/PropAddress.v
theories/SpecDepth.v
theories/ProofDepth.v
theories/ProofDepth2.v
theories/CheckDepth.v
theories/PropDepth.v
theories/SpecReach.v
theories/ProofReach.v
theories/PropReach.v
theories/SpecRename2.v
theories/ProofRename2.v
theories/PropRename.v
theories/PropBytes.v
theories/SpecNotes.v
theories/ProofNotes.v
theories/PropNotes.v
theories/SpecTrim.v
theories/ProofTrim.v
theories/ProofTrim2.v
theories/PropTrim.v
theories/ProofCover.v
theories/SpecHoles.v
theories/ProofHoles.v
theories/PropHoles.v
theories/ProofNeed.v
theories/ProofPrefix.v
theories/PropNeed.v
theories/Errors.v
theories/SpecErrors.v
theories/ProofErrors.v
theories/PropErrors.v
theories/SpecHusk.v
theories/ProofHusk.v
theories/PropHusk.v
theories/ProofFirm.v
theories/ProofFirm2.v
theories/PropFirm.v
theories/SpecBlame.v
theories/ProofBlame.v
theories/PropBlame.v
theories/ProofPrefixFree.v
theories/ProofUnique.v
theories/SpecFault.v
theories/SpecWhole.v
theories/CheckUsable.v
theories/ProofWhole.v
theories/PropWhole.v
theories/PropReal.v
theories/ProofFault.v
theories/ProofFault2.v
theories/PropFault.v
theories/SpecWord.v
theories/Word.v
theories/ProofAsk.v
theories/ProofWord.v
theories/PropWord.v
theories/SpecReads.v
theories/ProofReads.v
theories/ProofReads2.v
theories/PropReads.v
theories/PropInclude.v
theories/SpecRenumber.v
theories/SpecLookups.v
theories/ProofLookups.v
theories/ProofLookups2.v
theories/ProofLookups3.v
theories/PropLookups.v
theories/ProofRenumber.v
theories/ProofRenumber2.v
theories/PropRenumber.v
theories/SpecRuntime.v
theories/ProofRuntime.v
theories/PropRuntime.v
theories/SpecParts.v
theories/ProofParts.v
theories/ProofParts2.v
theories/ProofParts3.v
theories/PropParts.v
theories/SpecDisplay.v
theories/ProofDisplay.v
theories/PropDisplay.v
theories/PropReplay.v
theories/SpecTransfer.v
theories/ProofTransfer.v
theories/PropTransfer.v
theories/PropTransferReal.v
theories/SpecIncluded.v
theories/ProofIncluded.v
theories/PropIncluded.v
theories/PropIncludedReal.v
theories/SpecAccount.v
theories/PropAccount.v
theories/SpecBatch.v
theories/PropBatch.v
theories/PropBatchReal.v
theories/SpecClock.v
theories/PropClock.v
theories/PropClockReal.v
theories/SpecEvents.v
theories/PropEvents.v
theories/PropEventsReal.v
theories/PropTells.v
theories/PropTells2.v
theories/PropEntry.v
theories/SpecOrder.v
theories/PropOrder.v
theories/PropOrderReal.v
theories/PropOrderAll.v
theories/PropBlock.v
theories/PropBlockReal.v
