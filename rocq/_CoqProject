-Q theories Verif
theories/Base.v
theories/ModelBound.v
theories/ModelRanges.v
theories/ModelSets.v
theories/ModelAlgebra.v
theories/ModelValue.v
theories/ModelEq.v
theories/Spec.v
theories/Reach.v
theories/Order.v
theories/Cuts.v
theories/SetProofs.v
theories/AlgebraProofs.v
theories/ValueProofs.v
theories/Canon.v
theories/Instances.v
theories/Laws.v
theories/Laws2.v
theories/PropertiesAlgebra.v
theories/ModelStep.v
theories/SpecStep.v
theories/StepProofs.v
theories/StepLemmas.v
theories/InstancesStep.v
theories/PropertiesStep.v
theories/ModelIter.v
theories/SpecIter.v
theories/IterProofs.v
theories/IterProofs2.v
theories/IterProofs3.v
theories/IterProofs4.v
theories/IterLemmas.v
theories/PropertiesIter.v
theories/IterBig.v
theories/IterRelease.v
theories/IterRelease2.v
theories/IterForever.v
theories/PropertiesIter2.v
theories/IterBrim.v
theories/IterBrim2.v
theories/PropertiesIter3.v
theories/SpecBounds.v
theories/Provenance.v
theories/BoundsProofs.v
theories/EqProofs.v
theories/JointProofs.v
theories/SpecMap.v
theories/NaturalProofs.v
theories/CongProofs.v
theories/SpecFill.v
theories/FillProofs.v
theories/PropertiesEq.v
theories/ModelHash.v
theories/HashProofs.v
theories/SpecMore.v
theories/MoreProofs.v
theories/PropertiesMore.v
theories/ModelAdapt.v
theories/SpecAdapt.v
theories/AdaptProofs.v
theories/AdaptProofs2.v
theories/PropertiesAdapt.v
theories/CombineProofs.v
theories/PropertiesSets.v
theories/ModelConv.v
theories/ConvProofs.v
theories/PropertiesConv.v
theories/ModelStdIter.v
theories/SpecMove.v
theories/StdIterProofs.v
theories/PropertiesStd.v
theories/ModelPipe.v
theories/SpecPipe.v
theories/PipeProofs.v
theories/PipeProofs2.v
theories/PropertiesPipe.v
theories/PropertiesSearch2.v
theories/PropertiesDepth.v
theories/ModelCost.v
theories/PropertiesCost.v
theories/SpecContract.v
theories/ContractProofs.v
theories/PropertiesContract.v
theories/ModelSearch.v
theories/SpecSearch.v
theories/SearchProofs.v
theories/PropertiesSearch.v
theories/ModelIndex.v
theories/SpecIndex.v
theories/IndexProofs.v
theories/IndexProofs2.v
theories/PropertiesIndex.v
theories/PropertiesRelease.v
theories/ModelPartial.v
theories/PropertiesBound.v
theories/ModelSerde.v
theories/PropertiesSerde.v
theories/SpecSerde.v
theories/PropertiesSerde2.v
theories/ModelCollect.v
theories/SpecCollect.v
theories/CollectProofs.v
theories/CollectProofs2.v
theories/CollectProofs3.v
theories/PropertiesCollect.v
theories/RepoTests.v
theories/ModelUnwind.v
theories/SpecUnwind.v
theories/UnwindProofs.v
theories/UnwindProofs2.v
theories/PropertiesUnwind.v
theories/RustSyntax.v
theories/Source.v
theories/RustEval.v
theories/RustEnc.v
theories/RustTac.v
theories/RustRange.v
theories/RustSet.v
theories/RustUnb.v
theories/RustInter.v
theories/RustUnion.v
theories/RustIter.v
theories/RustIterSet.v
theories/RustIterLast.v
theories/RustStep.v
theories/RustStepChar.v
theories/RustStd.v
theories/RustPublic.v
theories/RustPublicU.v
theories/RustPublic2.v
theories/RustSays.v
theories/RustClient.v
theories/RustClient2.v
theories/RustClient3.v
theories/RustRuns.v
theories/RustIterClient.v
theories/RustIterLoop.v
theories/RustBounds.v
theories/RustForever.v
theories/PropertiesSource.v
theories/PropertiesSource2.v
theories/PropertiesSource3.v
theories/PropertiesSource4.v
theories/RustCoherence.v
theories/PropertiesSource5.v
theories/RustGives.v
theories/ClientProg.v
theories/RustProg.v
theories/ClientTypes.v
theories/RustProgEnds.v
theories/PropertiesSource6.v
theories/SpecProg.v
theories/ProgMeaning.v
theories/ProgComplete.v
theories/ProgClean.v
theories/PropertiesSource7.v
theories/ModelDebug.v
theories/SpecDebug.v
theories/DebugLemmas.v
theories/DebugCodes.v
theories/PropertiesDebug.v
theories/SpecSeam.v
theories/SeamProofs.v
theories/PropertiesSeam.v
theories/PropertiesCount.v
theories/SpecMirror.v
theories/PropertiesMirror.v
theories/SpecGaps.v
theories/PropertiesGaps.v
theories/PropertiesOverlap.v
theories/PropertiesLinked.v
theories/PropertiesChained.v
