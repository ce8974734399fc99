-Q theories Verif
theories/Base.v
theories/PyInt.v
theories/Stream.v
theories/Varints.v
theories/VarintSpec.v
theories/Codecs.v
theories/Uuid.v
theories/Floats.v
theories/Values.v
theories/FieldModel.v
theories/StructModel.v
theories/Spec.v
theories/SpecField.v
theories/SpecAccess.v
theories/Tac.v
theories/PyIntProofs.v
theories/StreamProofs.v
theories/VarintsProofs.v
theories/VarintsMore.v
theories/CodecsProofs.v
theories/UuidProofs.v
theories/FieldProofs.v
theories/LeafProofs.v
theories/LeafMore.v
theories/FieldMore.v
theories/ForwardProofs.v
theories/StructProofs.v
theories/FuelProofs.v
theories/ArrayProofs.v
theories/ToDictProofs.v
theories/ContainerProofs.v
theories/HistoryProofs.v
theories/ContainedProofs.v
theories/SizeProofs.v
theories/Samples.v
theories/ContainerWitness.v
theories/AccessWitness.v
theories/FloatProofs.v
theories/SpecNum.v
theories/FloatMore.v
theories/TimeProofs.v
theories/SpecEq.v
theories/EqProofs.v
theories/SpecRound.v
theories/RoundLeaf.v
theories/RoundProofs.v
theories/RoundWitness.v
theories/Decl.v
theories/SpecDecl.v
theories/DeclProofs.v
theories/DeclMore.v
theories/PepProofs.v
theories/DeclWitness.v
theories/DefaultSize.v
theories/ArgsProofs.v
theories/InjProofs.v
theories/SpecLoad.v
theories/LoadProofs.v
theories/LoadFinish.v
theories/LoadWitness.v
theories/ReportProofs.v
theories/SpecLocal.v
theories/LocalProofs.v
theories/LocalWitness.v
theories/SpecCanon.v
theories/CanonLeaf.v
theories/CanonProofs.v
theories/CanonWitness.v
theories/RebuildProofs.v
theories/RebuildWitness.v
theories/Proxy.v
theories/ProxyProofs.v
theories/VliAttrs.v
theories/FloatTies.v
theories/UuidText.v
theories/WrongType.v
theories/DetailProofs.v
theories/DetailMore.v
theories/TimeNano.v
theories/ContainerTypes.v
theories/SpecEnds.v
theories/EndsBase.v
theories/EndsProofs.v
theories/EndsWitness.v
theories/SpecDump.v
theories/DumpLeaf.v
theories/DumpErrors.v
theories/DumpWitness.v
theories/SpecWire.v
theories/WireLeaf.v
theories/WireProofs.v
theories/WireWitness.v
theories/EqRound.v
theories/EqRoundWitness.v
theories/SpecBom.v
theories/BomProofs.v
theories/BomWitness.v
theories/SpecHalt.v
theories/HaltProofs.v
theories/HaltWitness.v
theories/SpecAsk.v
theories/AskProofs.v
theories/AskWitness.v
theories/Decimal.v
theories/SpecInherit.v
theories/InheritProofs.v
theories/InheritWitness.v
theories/SpecCut.v
theories/CutProofs.v
theories/CutWitness.v
theories/SpecPatch.v
theories/PatchProofs.v
theories/PatchWitness.v
theories/SpecOld.v
theories/OldProofs.v
theories/SpecFormat.v
theories/FormatProofs.v
theories/FormatMore.v
theories/FormatBmp.v
theories/FormatCpio.v
theories/FormatStop.v
theories/FormatWitness.v
theories/NestedProofs.v
theories/NestedWitness.v
theories/SpecSettle.v
theories/SettleLeaf.v
theories/SettleProofs.v
theories/SettleWitness.v
theories/LocalTime.v
theories/Version.v
theories/SpecZone.v
theories/ZoneProofs.v
theories/ZoneWitness.v
theories/SpecStage.v
theories/StageProofs.v
theories/StageWitness.v
theories/SpecVersion.v
theories/VersionProofs.v
theories/Messages.v
theories/SpecMessages.v
theories/MessageProofs.v
theories/Annotations.v
theories/AnnotationProofs.v
theories/Heap.v
theories/SpecHeap.v
theories/HeapProofs.v
theories/Devices.v
theories/SpecDevices.v
theories/DeviceProofs.v
theories/Custom.v
theories/SpecCustom.v
theories/CustomProofs.v
theories/Writes.v
theories/SpecWrites.v
theories/WriteProofs.v
theories/Introspect.v
theories/SpecIntrospect.v
theories/IntrospectProofs.v
theories/Moods.v
theories/SpecMoods.v
theories/MoodProofs.v
theories/MoodWitness.v
theories/Warn.v
theories/SpecWarn.v
theories/WarnProofs.v
theories/WarnWitness.v
theories/SpecCosts.v
theories/CostProofs.v
theories/Hosts.v
theories/SpecHosts.v
theories/HostProofs.v
theories/HostWitness.v
theories/Readers.v
theories/SpecReaders.v
theories/ReaderProofs.v
theories/ReaderWitness.v
theories/FloatCounts.v
theories/SpecFloatCounts.v
theories/FloatCountProofs.v
theories/FloatCountWitness.v
theories/Encodings.v
theories/SpecEncodings.v
theories/EncodingProofs.v
theories/Scribbles.v
theories/SpecScribbles.v
theories/ScribbleProofs.v
theories/ScribbleWitness.v
theories/Edits.v
theories/SpecEdits.v
theories/EditProofs.v
theories/EditWitness.v
theories/Constructors.v
theories/SpecConstructors.v
theories/ConstructorProofs.v
theories/ConstructorWitness.v
theories/Json.v
theories/SpecJson.v
theories/JsonProofs.v
theories/JsonWitness.v
theories/MoodLoads.v
theories/SpecMoodLoads.v
theories/MoodLoadProofs.v
theories/MoodLoadWitness.v
theories/Identity.v
theories/SpecIdentity.v
theories/IdentityProofs.v
theories/IdentityWitness.v
theories/SpecCalm.v
theories/CalmProofs.v
theories/CalmWitness.v
theories/SpecRecords.v
theories/RecordProofs.v
theories/PropertiesVarint.v
theories/PropertiesLeaf.v
theories/PropertiesField.v
theories/PropertiesStruct.v
theories/PropertiesContainer.v
theories/PropertiesAccess.v
theories/PropertiesNum.v
theories/PropertiesEq.v
theories/PropertiesRound.v
theories/PropertiesDecl.v
theories/PropertiesLoad.v
theories/PropertiesLocal.v
theories/PropertiesCanon.v
theories/PropertiesBuild.v
theories/PropertiesProxy.v
theories/PropertiesDetail.v
theories/PropertiesTypes.v
theories/PropertiesEnds.v
theories/PropertiesDumpErrors.v
theories/PropertiesWire.v
theories/PropertiesEqRound.v
theories/PropertiesBom.v
theories/PropertiesHalt.v
theories/PropertiesAsk.v
theories/PropertiesInherit.v
theories/PropertiesCut.v
theories/PropertiesPatch.v
theories/PropertiesOld.v
theories/Conform.v
theories/ConformLeaf.v
theories/ConformBase.v
theories/ConformContainer.v
theories/ConformStruct.v
theories/ConformMore.v
theories/ConformFull.v
theories/ConformStdlib.v
theories/PropertiesFormat.v
theories/PropertiesNested.v
theories/PropertiesSettle.v
theories/PropertiesZone.v
theories/PropertiesStage.v
theories/PropertiesVersion.v
theories/PropertiesMessages.v
theories/PropertiesAnnotations.v
theories/PropertiesHeap.v
theories/PropertiesDevices.v
theories/PropertiesCustom.v
theories/PropertiesWrites.v
theories/PropertiesIntrospect.v
theories/PropertiesMoods.v
theories/PropertiesWarn.v
theories/PropertiesCosts.v
theories/PropertiesHosts.v
theories/PropertiesReaders.v
theories/PropertiesFloatCounts.v
theories/PropertiesEncodings.v
theories/PropertiesScribbles.v
theories/PropertiesEdits.v
theories/PropertiesConstructors.v
theories/PropertiesJson.v
theories/PropertiesMoodLoads.v
theories/PropertiesIdentity.v
theories/PropertiesCalm.v
theories/PropertiesRecords.v
