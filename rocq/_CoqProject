-Q theories Verif
theories/Prime.v
theories/Constants.v
theories/Base.v
theories/Group.v
theories/Instances.v
theories/BlsModel.v
theories/BlsSpec.v
theories/BlsProofs.v
theories/BatchProofs.v
theories/PropBls.v
theories/BlsExamples.v
theories/CacheModel.v
theories/CacheSpec.v
theories/CacheProofs.v
theories/PropCache.v
theories/CacheExamples.v
theories/BitsModel.v
theories/BitsProofs.v
theories/Field.v
theories/Curve.v
theories/EncodingModel.v
theories/EncodingSpec.v
theories/EncodingProofs.v
theories/PropEncoding.v
theories/EncodingExamples.v
theories/Blake2.v
theories/HasherModel.v
theories/Conformance.v
theories/HasherSpec.v
theories/HasherProofs.v
theories/PropHash.v
theories/HashExamples.v
theories/PointModel.v
theories/HashCurveModel.v
theories/HashCurveSpec.v
theories/PointProofs.v
theories/HashCurveProofs.v
theories/HashLength.v
theories/PropHashCurve.v
theories/HashCurveExamples.v
theories/CodecModel.v
theories/CodecSpec.v
theories/CodecProofs.v
theories/PropCodec.v
theories/CodecExamples.v
theories/Circuit.v
theories/CircuitFacts.v
theories/GadgetModel.v
theories/GadgetSpec.v
theories/CubeFacts.v
theories/GadgetProofs.v
theories/GadgetNative.v
theories/PropGadget.v
theories/GadgetExamples.v
theories/HashGadgetModel.v
theories/HashGadgetSpec.v
theories/HashGadgetProofs.v
theories/HashGadgetNative.v
theories/PropHashGadget.v
theories/HashGadgetExamples.v
theories/EpochCircuitModel.v
theories/EpochSpec.v
theories/EpochCircuitSpec.v
theories/EpochProofs.v
theories/EpochCircuitProofs.v
theories/EpochChainProofs.v
theories/ProverModel.v
theories/ProverSpec.v
theories/ProverProofs.v
theories/EpochHonest.v
theories/EpochBinding.v
theories/PropEpoch.v
theories/PropProver.v
theories/EpochExamples.v
theories/HelperModel.v
theories/HelperSpec.v
theories/HelperProofs.v
theories/PropHelper.v
theories/HelperExamples.v
theories/FfiModel.v
theories/FfiSpec.v
theories/FfiProofs.v
theories/FfiDataProofs.v
theories/PropFfi.v
theories/FfiExamples.v
theories/FfiRestProofs.v
theories/PropFfiRest.v
theories/FfiRestExamples.v
theories/Edwards.v
theories/PedersenModel.v
theories/PedersenSpec.v
theories/PedersenProofs.v
theories/PedersenUse.v
theories/PropPedersen.v
theories/PedersenExamples.v
theories/LightSpec.v
theories/LightProofs.v
theories/PropLight.v
theories/LightExamples.v
theories/SetupModel.v
theories/ShapeSpec.v
theories/ShapeProofs.v
theories/SetupProofs.v
theories/PropSetup.v
theories/SetupExamples.v
theories/MemoryModel.v
theories/MemorySpec.v
theories/MemoryProofs.v
theories/MemoryUse.v
theories/PropMemory.v
theories/MemoryExamples.v
theories/OutcomeSpec.v
theories/OutcomeProofs.v
theories/PropOutcome.v
theories/OutcomeExamples.v
theories/Ideals.v
theories/CoordRing.v
theories/Weierstrass.v
theories/CurveGroups.v
theories/CurveSpec.v
theories/CurveProofs.v
theories/PropCurve.v
theories/CurveExamples.v
theories/OrderBound.v
theories/CurveFinite.v
theories/PointCert.v
theories/Endo.v
theories/PointData.v
theories/CurveOrder.v
theories/CubicCount.v
theories/FieldCount.v
theories/NormForm.v
theories/CurveCount.v
theories/PointCert2.v
theories/TwistData.v
theories/Frobenius.v
theories/TwistOrder.v
theories/TwistCount.v
theories/OrderSpec.v
theories/OrderProofs.v
theories/PropOrder.v
theories/OrderExamples.v
theories/TwistSpec.v
theories/TwistProofs.v
theories/PropTwist.v
theories/TwistExamples.v
theories/CurvesSpec.v
theories/CurvesProofs.v
theories/PropCurves.v
theories/HashedData.v
theories/CurvesExamples.v
theories/RealSpec.v
theories/RealModel.v
theories/RealProofs.v
theories/PropReal.v
theories/RealData.v
theories/RealExamples.v
theories/SecretSpec.v
theories/SecretProofs.v
theories/PropSecret.v
theories/SecretExamples.v
theories/RealBatchModel.v
theories/RealBatchSpec.v
theories/RealBatchProofs.v
theories/PropRealBatch.v
theories/RealBatchExamples.v
theories/KeygenModel.v
theories/KeygenSpec.v
theories/KeygenProofs.v
theories/PropKeygen.v
theories/KeygenExamples.v
theories/RealSessionModel.v
theories/RealSessionSpec.v
theories/RealSessionProofs.v
theories/PropRealSession.v
theories/RealSessionExamples.v
theories/RogueSpec.v
theories/RogueProofs.v
theories/PropRogue.v
theories/RogueExamples.v
theories/HashUniformSpec.v
theories/HashUniformProofs.v
theories/PropHashUniform.v
theories/HashUniformExamples.v
theories/KnowledgeSpec.v
theories/KnowledgeProofs.v
theories/KnowledgeLight.v
theories/PropKnowledge.v
theories/KnowledgeExamples.v
theories/BindingSpec.v
theories/BindingProofs.v
theories/PropBinding.v
theories/BindingData.v
theories/BindingExamples.v
theories/LightSessionSpec.v
theories/LightSessionProofs.v
theories/PropLightSession.v
theories/LightSessionData.v
theories/LightSessionExamples.v
theories/CompleteModel.v
theories/CompleteSpec.v
theories/CompleteProofs.v
theories/CompleteCurves.v
theories/PropComplete.v
theories/CompleteExamples.v
theories/ReductionSpec.v
theories/ReductionProofs.v
theories/PropReduction.v
theories/ReductionExamples.v
theories/ForgedProofs.v
theories/PropForged.v
theories/ForgedExamples.v
theories/JointSpec.v
theories/JointProofs.v
theories/PropJoint.v
theories/JointExamples.v
theories/ScreenSpec.v
theories/ScreenProofs.v
theories/PropScreen.v
theories/ScreenExamples.v
theories/EdFinite.v
theories/EdOrderProofs.v
theories/PropEdOrder.v
theories/EdOrderExamples.v
theories/BatchLimitProofs.v
theories/PropBatchLimit.v
theories/BatchLimitExamples.v
theories/StringsSpec.v
theories/StringsProofs.v
theories/StringsUse.v
theories/PropStrings.v
theories/StringsExamples.v
theories/NeutralProofs.v
theories/PropNeutral.v
theories/NeutralExamples.v
