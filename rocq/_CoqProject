-Q theories Verif
theories/Base.v
theories/Types.v
theories/Float.v
theories/DateTime.v
theories/Buffer.v
theories/Encodings.v
theories/Header.v
theories/Page.v
theories/Column.v
theories/Metadata.v
theories/Decomp.v
theories/Data.v
theories/Reader.v
theories/Drive.v
theories/Sinks.v
theories/Print.v
theories/Utf8.v
theories/PyObjects.v
theories/Callbacks.v
theories/Python.v
theories/PyAgain.v
theories/SpecAgain.v
theories/ProofAgain.v
theories/PropAgain.v
theories/RAgain.v
theories/SpecRAgain.v
theories/ProofRAgain.v
theories/PropRAgain.v
theories/Shared.v
theories/SpecShared.v
theories/ProofShared.v
theories/PropShared.v
theories/PyProps.v
theories/RPackage.v
theories/Cli.v
theories/Lemmas.v
theories/SpecValues.v
theories/ProofFloat.v
theories/ProofValues.v
theories/PropValues.v
theories/SpecBuffer.v
theories/ProofBuffer.v
theories/SpecHeader.v
theories/ProofHeader.v
theories/PropHeader.v
theories/SpecDecomp.v
theories/SpecAsk.v
theories/ProofAsk.v
theories/PropAsk.v
theories/SpecDecode.v
theories/ProofDecomp.v
theories/ProofDecode.v
theories/PropDecomp.v
theories/ProofMetaInv.v
theories/SpecReader.v
theories/SpecDrive.v
theories/SpecFile.v
theories/Samples.v
theories/ProofReader.v
theories/ProofDrive.v
theories/PropReader.v
theories/SpecPages.v
theories/ProofPages.v
theories/ProofOpen.v
theories/SpecSource.v
theories/ProofBisim.v
theories/ProofSource.v
theories/ProofOutcome.v
theories/ProofFinite.v
theories/PropSource.v
theories/ProofCheck.v
theories/ProofInside.v
theories/ProofRows.v
theories/PyArgs.v
theories/SpecPyArgs.v
theories/SpecRules.v
theories/ProofRules.v
theories/PropPages.v
theories/SpecMeta.v
theories/ProofMeta.v
theories/ProofColumns.v
theories/ProofDispatch.v
theories/ProofFits.v
theories/PropMeta.v
theories/SpecTime.v
theories/ProofRound.v
theories/ProofCalendar.v
theories/ProofTime.v
theories/ProofText.v
theories/PropTime.v
theories/SpecSinks.v
theories/ProofCsv.v
theories/ProofPyChunks.v
theories/ProofRChunks.v
theories/ProofCli.v
theories/PropSinks.v
theories/SpecRoundtrip.v
theories/ProofWrite.v
theories/ProofWriteSubs.v
theories/ProofWriteDesc.v
theories/ProofFile.v
theories/ProofRoundtrip.v
theories/SpecConform.v
theories/ProofRoundtripC.v
theories/ProofConform.v
theories/ProofFileCheck.v
theories/PropFile.v
theories/SpecNumber.v
theories/ProofNumber.v
theories/SpecCells.v
theories/ProofBuilt.v
theories/SpecTable.v
theories/ProofCells.v
theories/ProofTable.v
theories/PropCells.v
theories/SpecUtf8.v
theories/ProofUtf8.v
theories/SpecPyObjects.v
theories/ProofPyObjects.v
theories/SpecPython.v
theories/ProofPython.v
theories/ProofPyFile.v
theories/ProofPyEnd.v
theories/ProofPyNames.v
theories/ProofPyDates.v
theories/SpecCallbacks.v
theories/ProofCallbacks.v
theories/ProofPrintFail.v
theories/PropDrive.v
theories/PropPython.v
theories/ProofPyArgs.v
theories/PropPyArgs.v
theories/RArgs.v
theories/SpecRArgs.v
theories/ProofRArgs.v
theories/PropRArgs.v
theories/PropPyObjects.v
theories/PropPyProps.v
theories/PropCallbacks.v
theories/SpecRPackage.v
theories/SpecPyProps.v
theories/ProofRPackage.v
theories/ProofRFile.v
theories/ProofRProps.v
theories/ProofPyProps.v
theories/ProofRRow.v
theories/PropRPackage.v
theories/ProofConformCheck.v
theories/ProofCut.v
theories/ProofCutAny.v
theories/ProofKinds.v
theories/ProofUnsized.v
theories/SpecTexts.v
theories/ProofTexts.v
theories/PropTexts.v
theories/SpecShort.v
theories/ProofShort.v
theories/PropShort.v
theories/PropConform.v
theories/Main.v
theories/SpecMain.v
theories/ProofMain.v
theories/PropMain.v
theories/SpecBuilds.v
theories/ProofBuilds.v
theories/PropBuilds.v
theories/PyFrom.v
theories/ProofPyFrom.v
theories/PropPyFrom.v
theories/Objects.v
theories/SpecObjects.v
theories/ProofObjects.v
theories/PropObjects.v
theories/Numbers.v
theories/SpecNumbers.v
theories/ProofNumbers.v
theories/PropNumbers.v
theories/Kept.v
theories/SpecKept.v
theories/ProofKept.v
theories/PropKept.v
theories/Disk.v
theories/SpecDisk.v
theories/ProofDisk.v
theories/PropDisk.v
theories/ColObjects.v
theories/SpecColObjects.v
theories/ProofColObjects.v
theories/PropColObjects.v
theories/Named.v
theories/SpecNamed.v
theories/ProofNamed.v
theories/PropNamed.v
theories/SpecByRow.v
theories/ProofByRow.v
theories/PropByRow.v
theories/SpecWords.v
theories/ProofWords.v
theories/PropWords.v
theories/SpecLayout.v
theories/ProofLayout.v
theories/PropLayout.v
theories/ProofBehind.v
theories/PropBehind.v
theories/SpecLost.v
theories/ProofLost.v
theories/PropLost.v
theories/SpecDamage.v
theories/ProofDamage.v
theories/PropDamage.v
theories/SpecPacked.v
theories/ProofPacked.v
theories/PropPacked.v
theories/Change.v
theories/SpecChange.v
theories/ProofChange.v
theories/PropChange.v
theories/Device.v
theories/ProofDevice.v
theories/PropDevice.v
theories/ProofOrder.v
theories/PropOrder.v
theories/SpecTinyPage.v
theories/ProofTinyPage.v
theories/PropTinyPage.v
theories/SpecForeign.v
theories/ProofForeign.v
theories/PropForeign.v
