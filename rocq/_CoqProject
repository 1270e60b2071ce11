-Q theories Verif
theories/Base.v
theories/BaseProofs.v
theories/SpaceAllocator.v
theories/SpaceAllocatorSpec.v
theories/SpaceAllocatorProofs.v
theories/PropsAlloc.v
theories/Utf8.v
theories/Utf8Proofs.v
theories/Header.v
theories/HeaderSpec.v
theories/HeaderProofs.v
theories/PropsHeader.v
theories/Entry.v
theories/EntrySpec.v
theories/EntryProofs.v
theories/PropsEntry.v
theories/MimeTypeList.v
theories/MimeTypeListSpec.v
theories/MimeTypeListProofs.v
theories/PropsMime.v
theories/PointerList.v
theories/PointerListSpec.v
theories/PointerListProofs.v
theories/PropsPointerList.v
theories/Dict.v
theories/LinkedList.v
theories/LinkedListSpec.v
theories/LinkedListProofs.v
theories/Cache.v
theories/CacheSpec.v
theories/CacheProofs.v
theories/CacheFacts.v
theories/PropsCache.v
theories/PropsCachePush.v
theories/Counter.v
theories/CounterSpec.v
theories/CounterProofs.v
theories/PropsCounter.v
theories/Infobyte.v
theories/InfobyteSpec.v
theories/InfobyteProofs.v
theories/Modifiable.v
theories/ModifiableSpec.v
theories/ModifiableProofs.v
theories/Blob.v
theories/BlobProofs.v
theories/PropsMisc.v
theories/Reader.v
theories/ReaderSpec.v
theories/ReaderProofs.v
theories/Decompressors.v
theories/DecompressorsSpec.v
theories/DecompressorsProofs.v
theories/PropsReader.v
theories/Cluster.v
theories/ClusterSpec.v
theories/ClusterProofs.v
theories/ClusterWrapper.v
theories/ClusterWrapperSpec.v
theories/ClusterWrapperProofs.v
theories/PropsCluster.v
theories/Binding.v
theories/BindingProofs.v
theories/PropsBinding.v
theories/Archive.v
theories/ArchiveSpec.v
theories/ArchiveProofs.v
theories/ArchiveWriteProofs.v
theories/ArchiveMoveProofs.v
theories/ArchiveRemoveProofs.v
theories/ArchiveFacts.v
theories/ArchiveObserve.v
theories/ArchiveLaws.v
theories/PropsArchive.v
theories/ArchiveCluster.v
theories/ArchiveClusterSpec.v
theories/ArchiveClusterProofs.v
theories/PropsArchiveCluster.v
theories/ClusterReuseProofs.v
theories/ClusterObjectSpec.v
theories/ClusterObjectProofs.v
theories/PropsClusterObject.v
theories/ArchiveSafeSpec.v
theories/ArchiveSafe.v
theories/PropsArchiveSafe.v
theories/ArchiveFrame.v
theories/ArchiveEntryCluster.v
theories/CompressionStrategy.v
theories/CompressionStrategySpec.v
theories/CompressionStrategyProofs.v
theories/PropsCompressionStrategy.v
theories/OperationBuffer.v
theories/OperationBufferSpec.v
theories/OperationBufferProofs.v
theories/PropsOperationBuffer.v
theories/Flush.v
theories/FlushSpec.v
theories/FlushProofs.v
theories/FlushTailProofs.v
theories/FlushOpenProofs.v
theories/FlushHistorySpec.v
theories/FlushHistoryProofs.v
theories/FlushCreateProofs.v
theories/PropsFlush.v
theories/PropsTitlePosition.v
theories/Iteration.v
theories/PropsIteration.v
theories/IterByCluster.v
theories/IterByClusterSpec.v
theories/IterByClusterProofs.v
theories/PropsIterByCluster.v
theories/Search.v
theories/SearchSpec.v
theories/SearchProofs.v
theories/PropsSearch.v
theories/ClusterNumbers.v
theories/PropsClusterNumbers.v
theories/ArchiveEdit.v
theories/ArchiveSever.v
theories/ArchiveEditCluster.v
theories/EntryObject.v
theories/EntryObjectSpec.v
theories/EntryObjectProofs.v
theories/PropsEntryObject.v
theories/ViewSpec.v
theories/ViewProofs.v
theories/ViewEditProofs.v
theories/ViewStepProofs.v
theories/ViewWaitProofs.v
theories/ViewHistoryProofs.v
theories/PropsView.v
theories/PropsViewChecksum.v
theories/AutoFlush.v
theories/AutoFlushSpec.v
theories/AutoFlushProofs.v
theories/PropsAutoFlush.v
theories/CrashSpec.v
theories/FlushCrashSpec.v
theories/PropsCrash.v
theories/PropsFlushCrash.v
theories/FlushWatch.v
theories/PropsFlushWatch.v
theories/FlushBufferProofs.v
theories/PropsFlushBuffer.v
theories/PropsMainPage.v
theories/Metadata.v
theories/MetadataSpec.v
theories/PropsMetadata.v
theories/Translator.v
theories/TranslatorSpec.v
theories/TranslatorProofs.v
theories/PropsTranslator.v
theories/RelinkProofs.v
theories/MainFlushProofs.v
theories/PropsTranslatorMain.v
theories/CountedArchive.v
theories/CountedSpec.v
theories/CountedProofs.v
theories/CountedStrategyProofs.v
theories/CountedStepProofs.v
theories/CountedHistoryProofs.v
theories/PropsCounted.v
theories/ReadOnly.v
theories/PropsReadOnly.v
theories/PropsRecount.v
theories/PropsReinit.v
theories/EntryCache.v
theories/EntryCacheSpec.v
theories/EntryCacheProofs.v
theories/EntryCacheClass.v
theories/EntryCacheReadProofs.v
theories/EntryCacheNoOpProofs.v
theories/PropsEntryCache.v
theories/ReserveSpec.v
theories/PropsReserve.v
theories/PropsChecksum.v
theories/Threads.v
theories/ThreadsSpec.v
theories/ThreadsProofs.v
theories/ThreadsClusterProofs.v
theories/PropsThreads.v
theories/ThreadsCache.v
theories/ThreadsCacheSpec.v
theories/ThreadsCacheProofs.v
theories/PropsThreadsCache.v
theories/Processors.v
theories/ProcessorsSpec.v
theories/ProcessorsProofs.v
theories/PropsProcessors.v
theories/Offset.v
theories/OffsetProofs.v
theories/PropsOffset.v
theories/SearchIndex.v
theories/PropsSearchIndex.v
theories/XapianSearch.v
theories/PropsXapian.v
theories/ClusterWatch.v
theories/ClusterWatchSpec.v
theories/PropsClusterWatch.v
theories/EntryHooks.v
theories/PropsEntryHooks.v
theories/RedirectWatch.v
theories/PropsRedirectWatch.v
theories/Paths.v
theories/PropsPaths.v
theories/ClusterHooks.v
theories/PropsClusterHooks.v
theories/HeaderDict.v
theories/PropsHeaderDict.v
theories/MimeTypes.v
theories/PropsMimeTypes.v
theories/Policy.v
theories/PropsPolicy.v
