-Q theories Verif
theories/AnnotatedText.v
theories/AnnotatedTextProofs.v
theories/AnnotatedTextProps.v
theories/AnnotatedTextSpec.v
theories/AttrUtils.v
theories/AttrUtilsProps.v
theories/BufferSinks.v
theories/CheckFs.v
theories/CheckFsProps.v
theories/Checkpoints.v
theories/ClassNames.v
theories/ClassNamesProps.v
theories/ClassOf.v
theories/Command.v
theories/CommandFiles.v
theories/CommandFilesWitness.v
theories/CommandMains.v
theories/CommandMainsWitness.v
theories/CommandProps.v
theories/CommandWitness.v
theories/Decimals.v
theories/DefaultWarn.v
theories/DefaultWarnProps.v
theories/DirCrash.v
theories/DirCrashProps.v
theories/DirCrashWitness.v
theories/DirFs.v
theories/DirFsKeys.v
theories/DirFsProps.v
theories/DirFsWitness.v
theories/DirHist.v
theories/DirHistProps.v
theories/DirHistWitness.v
theories/DirMains.v
theories/DirMainsWitness.v
theories/DirStopped.v
theories/DirStoppedWitness.v
theories/Entry.v
theories/EntryProps.v
theories/Fs.v
theories/FsProofs.v
theories/FsProps.v
theories/Graph.v
theories/GraphProps.v
theories/HasSpan.v
theories/Heap.v
theories/HeapMain.v
theories/HeapPairs.v
theories/HeapProps.v
theories/HeapValues.v
theories/HeapWitness.v
theories/Interp.v
theories/InterpBroken.v
theories/InterpExpand.v
theories/InterpLoop.v
theories/InterpProofs.v
theories/InterpProps.v
theories/InterpSize.v
theories/InterpSpec.v
theories/InterpWf.v
theories/Io.v
theories/IoFs.v
theories/IoFsProps.v
theories/IoFsWitness.v
theories/IoProps.v
theories/IterFail.v
theories/IterUtils.v
theories/IterUtilsProps.v
theories/KeyValue.v
theories/KeyValueProps.v
theories/KeyValueSources.v
theories/KvParams.v
theories/KvParamsProps.v
theories/Load.v
theories/LoadComplete.v
theories/LoadFs.v
theories/LoadFsProps.v
theories/LoadFsSpec.v
theories/LoadProps.v
theories/LoadSpec.v
theories/Mains.v
theories/MainsProofs.v
theories/MainsProps.v
theories/MainsRejected.v
theories/MainsRejectedWitness.v
theories/MainsSample.v
theories/MainsSampleWitness.v
theories/MainsWitness.v
theories/Memory.v
theories/Messages.v
theories/MessagesProps.v
theories/Misc.v
theories/MixedMaps.v
theories/MixedMapsProps.v
theories/MixedMapsWitness.v
theories/MixedSets.v
theories/MixedSetsProps.v
theories/MixedSetsWitness.v
theories/NanSets.v
theories/NullSink.v
theories/OpenFiles.v
theories/OpenFilesProps.v
theories/Order.v
theories/OrderQc.v
theories/OsPath.v
theories/OsPathProofs.v
theories/OsPathSpec.v
theories/OtherViews.v
theories/Params.v
theories/ParamsEq.v
theories/ParamsEval.v
theories/ParamsEvalProps.v
theories/ParamsGet.v
theories/ParamsGetProps.v
theories/ParamsPairs.v
theories/ParamsProofs.v
theories/ParamsProps.v
theories/ParamsSpec.v
theories/ParamsUnify.v
theories/PathLists.v
theories/PathListsProps.v
theories/Pathify.v
theories/PathifyProps.v
theories/Pickle.v
theories/Pipelines.v
theories/PipelinesWitness.v
theories/Preconditions.v
theories/Prelude.v
theories/Provenance.v
theories/ProvenanceWitness.v
theories/PyRepr.v
theories/PyStr.v
theories/Races.v
theories/RacesAlone.v
theories/RacesProps.v
theories/RacesWitness.v
theories/Range.v
theories/RangeFacts.v
theories/RangeLive.v
theories/RangeLiveProps.v
theories/RangeMap.v
theories/RangeMapEq.v
theories/RangeMapEqProps.v
theories/RangeMapProofs.v
theories/RangeMapProps.v
theories/RangeObjProps.v
theories/RangePartial.v
theories/RangeProofs.v
theories/RangeProofs1.v
theories/RangeProps.v
theories/RangeSet.v
theories/RangeSetHeap.v
theories/RangeSetOps.v
theories/RangeSetProofs.v
theories/RangeSetProofs2.v
theories/RangeSetProps.v
theories/Repr.v
theories/ReprProps.v
theories/ScriptCrash.v
theories/ScriptCrashProps.v
theories/ScriptCrashWitness.v
theories/ScriptRaces.v
theories/ScriptRacesProps.v
theories/ScriptRacesWitness.v
theories/Scripts.v
theories/ScriptsProps.v
theories/SortLib.v
theories/SortedDict.v
theories/Span.v
theories/SpanProofs.v
theories/SpanProps.v
theories/SubNamespaces.v
theories/TarCrash.v
theories/TarCrashProps.v
theories/TarCrashWitness.v
theories/TarLinks.v
theories/TarLinksProps.v
theories/TarLinksWitness.v
theories/TarMain.v
theories/TarMainProps.v
theories/TarReplace.v
theories/TarReplaceWitness.v
theories/TarSource.v
theories/TarSourceProps.v
theories/TarUnpack.v
theories/TextLib.v
theories/Utf8.v
theories/ValueClasses.v
theories/ZipIter.v
theories/ZipKeys.v
theories/ZipKeysProps.v
theories/ZipReuse.v
