-Q theories Verif
theories/Base.v
theories/Streams.v
theories/Utf8.v
theories/Types.v
theories/Traits.v
theories/Encode.v
theories/Decode.v
theories/Sized.v
theories/RepoTests.v
theories/BaseFacts.v
theories/Spec.v
theories/TypesFacts.v
theories/StreamFacts.v
theories/SpecStreams.v
theories/StreamProofs.v
theories/PropertiesStreams.v
theories/EncodeFacts.v
theories/WireFacts.v
theories/EncodeCases.v
theories/DecodeFacts.v
theories/ValEq.v
theories/DecodeLocal.v
theories/Utf8Facts.v
theories/RoundTrip.v
theories/SpecCalls.v
theories/EncodeProofs.v
theories/ItemProofs.v
theories/SpecDecode.v
theories/AcceptFacts.v
theories/DecodeProofs.v
theories/PanicProofs.v
theories/SpecValues.v
theories/NumberProofs.v
theories/ValueProofs.v
theories/SpecSize.v
theories/SizeProofs.v
theories/TightProofs.v
theories/EvolveProofs.v
theories/MacroProofs.v
theories/EqProofs.v
theories/SpecDerive.v
theories/SpecErrors.v
theories/SpecText.v
theories/DeriveProofs.v
theories/DeriveMore.v
theories/ErrorProofs.v
theories/ErrorExact.v
theories/FailureProofs.v
theories/RejectProofs.v
theories/TextProofs.v
theories/ComputeFacts.v
theories/Refutations.v
theories/CombinedProofs.v
theories/Samples.v
theories/SampleFacts.v
theories/PropertiesEncode.v
theories/PropertiesRoundTrip.v
theories/PropertiesDecode.v
theories/SpecPeak.v
theories/PeakProofs.v
theories/IntakeProofs.v
theories/PropertiesSize.v
theories/PropertiesDerive.v
theories/Slot.v
theories/SlotProofs.v
theories/PropertiesEvolve.v
theories/PropertiesMacro.v
theories/RoomProofs.v
theories/PropertiesSlot.v
theories/Mem.v
theories/SizedSlice.v
theories/SizedIter.v
theories/SizedStr.v
theories/ErrorText.v
theories/Owned.v
theories/SpecContainers.v
theories/SizedSliceProofs.v
theories/ContainerProofs.v
theories/SizedIterProofs.v
theories/SizedStrProofs.v
theories/SizedTextProofs.v
theories/CodeContainerProofs.v
theories/PropertiesContainers.v
theories/PropertiesStr.v
theories/Shared.v
theories/SpecShared.v
theories/SharedProofs.v
theories/PropertiesShared.v
theories/ProfileProofs.v
theories/SpecPortable.v
theories/PortableProofs.v
theories/SpecEvolve.v
theories/Macro.v
theories/SpecMacro.v
theories/SpecEq.v
theories/SpecWork.v
theories/WorkProofs.v
theories/Heap.v
theories/SpecHeap.v
theories/HeapProofs.v
theories/ReserveProofs.v
theories/LeakProofs.v
theories/MoreRefutations.v
theories/PropertiesMemory.v
theories/ErrorExamples.v
theories/PropertiesErrors.v
theories/RustSyntax.v
theories/Codegen.v
theories/SpecCodegen.v
theories/CodegenProofs.v
theories/CodegenExamples.v
theories/PropertiesCodegen.v
theories/Recursive.v
theories/SpecRecursive.v
theories/RecursiveFacts.v
theories/RecursiveProofs.v
theories/RecursiveLemmas.v
theories/PropertiesRecursive.v
theories/User.v
theories/SpecUser.v
theories/UserProofs.v
theories/UserSafety.v
theories/UserSize.v
theories/UserExamples.v
theories/PropertiesUser.v
theories/RepoTestsMore.v
theories/Exchange.v
theories/ExchangeProofs.v
theories/PropertiesExchange.v
theories/IterUse.v
theories/IterUseProofs.v
theories/PropertiesIterUse.v
theories/SpecForm.v
theories/FormProofs.v
theories/FormExamples.v
theories/PropertiesForm.v
theories/SpecSurvive.v
theories/SurviveProofs.v
theories/PropertiesSurvive.v
theories/Unwind.v
theories/SpecUnwind.v
theories/UnwindProofs.v
theories/PropertiesUnwind.v
theories/SpecGrow.v
theories/GrowProofs.v
theories/PropertiesGrow.v
theories/Raw.v
theories/SpecRaw.v
theories/RawProofs.v
theories/PropertiesRaw.v
theories/SpecAvail.v
theories/AvailProofs.v
theories/PropertiesAvail.v
theories/SpecAlike.v
theories/AlikeProofs.v
theories/Format.v
theories/SpecFormat.v
theories/FormatProofs.v
theories/PropertiesFormat.v
theories/ViewProofs.v
theories/PropertiesViews.v
theories/SpecReach.v
theories/SpecFallible.v
theories/ReachProofs.v
theories/PropertiesReach.v
theories/WriteProofs.v
theories/PropertiesWrite.v
theories/SlotExactProofs.v
theories/PropertiesSlotExact.v
theories/CheckedProofs.v
theories/PropertiesChecked.v
theories/SourceNames.v
theories/SourceSyntax.v
theories/SourceMeaning.v
theories/SourceEncode.v
theories/SourceDecode.v
theories/SourceSizes.v
theories/SourceSizedSlice.v
theories/SourceSizedStr.v
theories/SourceRun.v
theories/SourceTactics.v
theories/SpecSource.v
theories/SourceDecodeProofs.v
theories/SourceDecodeLoops.v
theories/SourceDecodeAll.v
theories/SourceEncodeProofs.v
theories/SourceEncodeLoops.v
theories/SourceEncodeAll.v
theories/SourceSizeProofs.v
theories/SourceUse.v
theories/PropertiesSource.v
theories/SourceErrors.v
theories/SourceDiscriminant.v
theories/SourceText.v
theories/SpecErrorSource.v
theories/ErrorSourceProofs.v
theories/PropertiesErrorSource.v
theories/SourceHeaders.v
theories/SizedTypes.v
theories/SpecHeaders.v
theories/HeaderProofs.v
theories/HeaderTypes.v
theories/SizeHeaders.v
theories/SizedTypesProofs.v
theories/PropertiesHeaders.v
theories/SourceInput.v
theories/SourceOutput.v
theories/SourceSizedIter.v
theories/SourceSlot.v
theories/SourceMemory.v
theories/SpecMemory.v
theories/MemoryRules.v
theories/MemoryCells.v
theories/MemoryStreams.v
theories/MemorySlot.v
theories/MemoryIter.v
theories/MemorySized.v
theories/MemoryStr.v
theories/RunExamples.v
theories/PropertiesRun.v
theories/MacroSyntax.v
theories/SourceMacros.v
theories/MacroRun.v
theories/SpecMacroText.v
theories/MacroTextProofs.v
theories/MacroTextBodies.v
theories/MacroTextExamples.v
theories/PropertiesMacroText.v
theories/FallibleProofs.v
theories/PropertiesFallible.v
theories/SourceTypes.v
theories/AutoTraits.v
theories/AutoProofs.v
theories/PropertiesAuto.v
theories/SpecHistory.v
theories/HistoryProofs.v
theories/PropertiesHistory.v
theories/MoreExact.v
theories/PropertiesExact.v
theories/SpecGrounded.v
theories/GroundedProofs.v
theories/PropertiesGrounded.v
theories/SpecHistorySized.v
theories/HistorySizedProofs.v
theories/PropertiesHistorySized.v
theories/ErrorLinked.v
theories/SpecPlain.v
theories/PlainProofs.v
theories/SpecBuild.v
theories/SourceBuild.v
theories/BuildProofs.v
theories/PropertiesBuild.v
theories/SpecDocPanics.v
theories/DocPanicProofs.v
theories/PropertiesDocPanics.v
theories/SpecNesting.v
theories/NestingProofs.v
theories/PropertiesNesting.v
theories/SpecRecursiveExact.v
theories/RecursiveExact.v
theories/PropertiesRecursiveExact.v
theories/SpecBorrowExact.v
theories/BorrowExact.v
theories/PropertiesBorrowExact.v
theories/SpecExchangeExact.v
theories/ExchangeExact.v
theories/PropertiesExchangeExact.v
theories/NthExact.v
theories/PropertiesNth.v
theories/SpecOwnedExact.v
theories/OwnedExact.v
theories/PropertiesOwnedExact.v
theories/SliceExact.v
theories/PropertiesSliceExact.v
theories/CopyExact.v
theories/PropertiesCopyExact.v
theories/Lazy.v
theories/SpecLazy.v
theories/LazyProofs.v
theories/PropertiesLazy.v
theories/Guards.v
theories/SpecGuards.v
theories/GuardProofs.v
theories/PropertiesGuards.v
theories/Locks.v
theories/SpecLocks.v
theories/LockProofs.v
theories/PropertiesLocks.v
theories/Cyclic.v
theories/SpecCyclic.v
theories/CyclicProofs.v
theories/PropertiesCyclic.v
theories/SourceUnsized.v
theories/SpecUnsized.v
theories/UnsizedProofs.v
theories/PropertiesUnsized.v
