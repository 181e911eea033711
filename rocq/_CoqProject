-Q theories Verif
theories/GoStr.v
theories/GoStrFacts.v
theories/Names.v
theories/PathM.v
theories/Semver.v
theories/SyncFlags.v
theories/PVList.v
theories/Spec.v
theories/SpecBasic.v
theories/PathFacts.v
theories/SpecFacts.v
theories/BasicFacts.v
theories/PropBasic.v
theories/GoMap.v
theories/RegistryM.v
theories/SpecRegistry.v
theories/RegistryFacts.v
theories/PropRegistry.v
theories/FilterM.v
theories/SpecFilter.v
theories/FilterFacts.v
theories/PropFilter.v
theories/NodeM.v
theories/SpecNode.v
theories/NodeFacts.v
theories/NodePathFacts.v
theories/NodeListFacts.v
theories/NodeMoreFacts.v
theories/XmlM.v
theories/XmlFacts.v
theories/PropNode.v
theories/PathMoreFacts.v
theories/PropPath.v
theories/PoolM.v
theories/SpecPool.v
theories/PoolFacts.v
theories/PropPool.v
theories/DocM.v
theories/SpecDoc.v
theories/DocFacts.v
theories/DocPathFacts.v
theories/DocSetFacts.v
theories/DocSyncFacts.v
theories/SortFacts.v
theories/PropDoc.v
theories/ArrayM.v
theories/SpecArray.v
theories/ArrayFacts.v
theories/PropArray.v
theories/ReaderM.v
theories/SpecReader.v
theories/ReaderFacts.v
theories/PropReader.v
theories/WriterM.v
theories/WriterFacts.v
theories/PropWriter.v
theories/CodecM.v
theories/GenreTable.v
theories/SpecCodec.v
theories/CodecFacts.v
theories/CodecFacts2.v
theories/PropCodec.v
theories/TypeM.v
theories/SpecType.v
theories/TypeFacts.v
theories/PropType.v
theories/MmM.v
theories/SpecMm.v
theories/MmFacts.v
theories/PropMm.v
theories/DecodeM.v
theories/SpecDecode.v
theories/DecodeFacts.v
theories/DecodeKeepFacts.v
theories/EncodeKeepFacts.v
theories/DecodeDocFacts.v
theories/PropDecode.v
theories/TagM.v
theories/SpecTag.v
theories/TagFacts.v
theories/TinfoM.v
theories/TinfoFacts.v
theories/PropTag.v
theories/TPathM.v
theories/SpecTPath.v
theories/TPathFacts.v
theories/TPathListFacts.v
theories/PropTPath.v
theories/JsonM.v
theories/SpecJson.v
theories/JsonFacts.v
theories/SpecPanic.v
theories/PanicFacts.v
theories/PropJson.v
theories/SpecTree.v
theories/TreeFacts.v
theories/FormFacts.v
theories/TripFacts.v
theories/EncTripFacts.v
theories/XmlTripFacts.v
theories/SpecTrip.v
theories/TripSpecFacts.v
theories/JsonTripFacts.v
theories/JsonSpecFacts.v
theories/PropTrip.v
theories/NativeM.v
theories/SpecNative.v
theories/NativeFacts.v
theories/PropNative.v
theories/ModelTypes.v
theories/SpecLib.v
theories/LibFacts.v
theories/LibCheck.v
theories/PropLib.v
theories/SyncModelsM.v
theories/SpecSync.v
theories/SyncFacts.v
theories/SyncSpecFacts.v
theories/SyncSavedFacts.v
theories/SyncAgainFacts.v
theories/SyncThmFacts.v
theories/SyncLoadFacts.v
theories/SyncReadFacts.v
theories/SyncReadThm.v
theories/SyncSelfFacts.v
theories/PropSync.v
theories/DateM.v
theories/SpecDate.v
theories/DateFacts.v
theories/DateReadFacts.v
theories/DateRepairFacts.v
theories/DateThmFacts.v
theories/DateMoreFacts.v
theories/PropDate.v
theories/SliceM.v
theories/SpecSlice.v
theories/SliceFacts.v
theories/PropSlice.v
theories/ExtM.v
theories/SpecExt.v
theories/ExtFacts.v
theories/PropExt.v
theories/FormsM.v
theories/SpecForms.v
theories/FormsFacts.v
theories/PropForms.v
theories/NativeTags.v
theories/NativeTagM.v
theories/SpecNativeTag.v
theories/NativeTagFacts.v
theories/NativeTagFacts2.v
theories/PropNativeTag.v
theories/SpeedM.v
theories/PropSpeed.v
theories/NumM.v
theories/SpecNum.v
theories/NumFacts.v
theories/NumFacts2.v
theories/PropNum.v
theories/DurM.v
theories/SpecDur.v
theories/DurFacts.v
theories/DurFacts2.v
theories/PropDur.v
theories/IdSyncM.v
theories/SpecIdSync.v
theories/IdSyncFacts.v
theories/PropIdSync.v
theories/MediaM.v
theories/PropMedia.v
theories/IxmlM.v
theories/SpecIxml.v
theories/PropIxml.v
theories/SpecSafePath.v
theories/SafePathFacts.v
theories/PropSafePath.v
theories/GrowM.v
theories/PropGrow.v
theories/SpecSafeDoc.v
theories/SafeDocFacts.v
theories/PropSafeDoc.v
theories/SpecMerge.v
theories/MergeFacts.v
theories/MergeTypedFacts.v
theories/PropMerge.v
theories/RateM.v
theories/SpecRate.v
theories/RateFacts.v
theories/PropRate.v
theories/Base64M.v
theories/SpecBase64.v
theories/PropBase64.v
theories/SpecCreate.v
theories/PropCreate.v
theories/SpecMergeNew.v
theories/MergeNewFacts.v
theories/PropMergeNew.v
theories/NodeSliceM.v
theories/SpecNodeSlice.v
theories/PropNodeSlice.v
theories/PoolCloseM.v
theories/PropPoolClose.v
theories/MarkerSortM.v
theories/PropMarkerSort.v
theories/PoolStatsM.v
theories/PropPoolStats.v
theories/LogM.v
theories/PropLog.v
theories/GroupM.v
theories/PropGroup.v
theories/CmdM.v
theories/PropCmd.v
theories/DocNsM.v
theories/PropDocNs.v
theories/PropDocNsRead.v
theories/SelfRefM.v
theories/PropSelfRef.v
theories/PropHistPaths.v
theories/RefSliceM.v
theories/PropRefSlice.v
theories/LenientM.v
theories/PropLenient.v
theories/EnumM.v
theories/PropEnum.v
