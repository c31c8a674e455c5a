-Q theories Verif
theories/PyStr.v
theories/Regex.v
theories/Tables.v
theories/ModelTokens.v
theories/ModelConv.v
theories/ModelXml.v
theories/ModelSteps.v
theories/ModelExpat.v
theories/SpecTokens.v
theories/SpecRecovery.v
theories/SpecTree.v
theories/SpecHeap.v
theories/SpecDoc.v
theories/SpecLayout.v
theories/SpecText.v
theories/SpecShape.v
theories/SpecEquiv.v
theories/SpecSize.v
theories/SpecTeX.v
theories/SpecOrder.v
theories/SpecGlyphs.v
theories/SpecOperators.v
theories/SpecOther.v
theories/SpecMarks.v
theories/SpecObjects.v
theories/SpecShared.v
theories/SpecThreads.v
theories/SpecXml.v
theories/SpecXml2.v
theories/SpecMath.v
theories/SpecCommands.v
theories/SpecContent.v
theories/SpecExamples.v
theories/LemBase.v
theories/LemTokens.v
theories/LemRegex.v
theories/LemRefine.v
theories/LemNode.v
theories/LemMain.v
theories/LemRecovery.v
theories/LemDoc.v
theories/LemDoc2.v
theories/LemHeap.v
theories/LemText.v
theories/LemShape.v
theories/LemView.v
theories/LemEquiv.v
theories/LemSize.v
theories/LemTeX.v
theories/LemTeX2.v
theories/LemOrder.v
theories/LemGlyphs.v
theories/LemOperators.v
theories/LemOther.v
theories/LemMarks.v
theories/LemObjects.v
theories/LemShared.v
theories/LemSteps.v
theories/LemCalm.v
theories/LemThreads.v
theories/LemXml.v
theories/LemXml2.v
theories/LemXml3.v
theories/LemMath.v
theories/LemCommands.v
theories/LemContent.v
theories/PropHeap.v
theories/PropDoc.v
theories/PropRecovery.v
theories/PropTokens.v
theories/PropLayout.v
theories/PropRows.v
theories/PropShape.v
theories/PropEquiv.v
theories/PropSize.v
theories/PropTeX.v
theories/PropOrder.v
theories/PropGlyphs.v
theories/PropOperators.v
theories/PropOther.v
theories/PropMarks.v
theories/PropObjects.v
theories/PropShared.v
theories/SpecCost.v
theories/LemCost.v
theories/PropThreads.v
theories/PropCost.v
theories/PropXml.v
theories/PropXml2.v
theories/PropMath.v
theories/PropCommands.v
theories/PropContent.v
theories/Conformance.v
theories/SpecSigns.v
theories/LemSigns.v
theories/PropSigns.v
theories/ModelCount.v
theories/SpecCount.v
theories/LemCount.v
theories/LemCount2.v
theories/PropCount.v
theories/SpecBuilt.v
theories/LemBuilt.v
theories/PropBuilt.v
theories/SpecEscaped.v
theories/LemEscaped.v
theories/PropEscaped.v
theories/SpecEach.v
theories/LemEach.v
theories/PropEach.v
theories/SpecByteMark.v
theories/LemByteMark.v
theories/PropByteMark.v
theories/PySyntax.v
theories/PySource.v
theories/PyRegex.v
theories/PySem.v
theories/LemPyRegex.v
theories/LemPy.v
theories/LemPyTokens.v
theories/LemPyChars.v
theories/LemPyText.v
theories/LemPyMText.v
theories/LemPySim.v
theories/LemPyKids.v
theories/SpecHeight.v
theories/LemPyHeight.v
theories/LemPyMore.v
theories/LemPyTable.v
theories/LemPyAdapter.v
theories/LemPyErrors.v
theories/LemPyDoc.v
theories/LemPyXml.v
theories/LemPyMain.v
theories/SpecSource.v
theories/PropSource.v
theories/LemPyRename.v
theories/LemPyPar.v
theories/SpecRun.v
theories/LemPyThreads.v
theories/SpecDepth.v
theories/LemPyElements.v
theories/LemDocHeight.v
theories/LemPyLength.v
theories/LemPyNeed.v
theories/SpecParts.v
theories/LemPyParts.v
theories/LemWhole.v
theories/SpecAround.v
theories/LemAround.v
theories/SpecMade.v
theories/LemMade.v
theories/PropRun.v
theories/PropDepth.v
theories/PropParts.v
theories/PropWhole.v
theories/PropAround.v
theories/PropMade.v
