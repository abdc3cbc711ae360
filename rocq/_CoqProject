-Q theories Verif
theories/Float.v
theories/FloatFacts.v
theories/Base.v
theories/Par.v
theories/ParFacts.v
theories/Similarity.v
theories/Container.v
theories/MinHashIndex.v
theories/SpecIndex.v
theories/ContainerFacts.v
theories/SimilarityFacts.v
theories/MinHashIndexFacts.v
theories/F64Facts.v
theories/MinHashIndexFacts2.v
theories/MinHashIndexFacts3.v
theories/SortFacts.v
theories/MinHashIndexThms.v
theories/ExampleIndex.v
theories/MinHasher.v
theories/SpecMinHash.v
theories/MinHasherFacts.v
theories/PropsIndex.v
theories/SimilarityThms.v
theories/PropsSimilarity.v
theories/PropsMinHasher.v
theories/Params.v
theories/ParamsFacts.v
theories/Centroid.v
theories/SpecCentroid.v
theories/CentroidFacts.v
theories/PropsCentroid.v
theories/SimHashBits.v
theories/Permutation.v
theories/SimHashIndex.v
theories/SimHash.v
theories/SpecSimHash.v
theories/BitsFacts.v
theories/ListFacts.v
theories/PermutationFacts.v
theories/SimHashIndexFacts.v
theories/SimHashFacts.v
theories/PropsSimHash.v
theories/Text.v
theories/SpecText.v
theories/TextFacts.v
theories/PropsText.v
theories/Jaccard.v
theories/JaccardFacts.v
theories/PropsJaccard.v
theories/StringIndex.v
theories/SpecString.v
theories/StringIndexFacts.v
theories/PropsString.v
theories/SerialClusterer.v
theories/SerialClustererFacts.v
theories/PropsSerialClusterer.v
theories/ParallelClusterer.v
theories/ParallelClustererFacts.v
theories/ParallelClustererSingle.v
theories/PropsParallelClusterer.v
theories/PyTokenizer.v
theories/PyMinHash.v
theories/PySimHash.v
theories/SpecPy.v
theories/PyFacts.v
theories/PySimFacts.v
theories/PropsPy.v
theories/SpecPyClass.v
theories/PropsPy2.v
theories/SuperMinHash.v
theories/SpecSuper.v
theories/SuperFloat.v
theories/SuperFacts.v
theories/SuperFacts2.v
theories/SuperFacts3.v
theories/PropsSuper.v
theories/SpecAngle.v
theories/AngleFacts.v
theories/PropsAngle.v
theories/AffineFacts.v
theories/PropsAffine.v
theories/Hashers.v
theories/HashersFacts.v
theories/PropsHashers.v
theories/SpecParallel.v
theories/ParallelClustererSeparate.v
theories/PropsParallelSeparate.v
theories/ParallelClustererRaces.v
theories/PropsParallelRaces.v
theories/SpecExpect.v
theories/ExpectFacts.v
theories/ExpectSig.v
theories/ExpectBias.v
theories/PropsExpect.v
theories/SimExpect.v
theories/PropsSimExpect.v
theories/ClusterIndexFacts.v
theories/PropsClusterIndex.v
theories/SpecTuples.v
theories/TupleFacts.v
theories/CoefFacts.v
theories/CoefIndex.v
theories/PropsCoef.v
theories/SuperExpect.v
theories/PropsSuperExpect.v
theories/FileLines.v
theories/SpecFile.v
theories/FileLinesFacts.v
theories/PropsFile.v
theories/WeakClusterer.v
theories/WeakFacts.v
theories/WeakRaceFree.v
theories/WeakSeparate.v
theories/PropsWeak.v
theories/Fnv.v
theories/SpecFnv.v
theories/FnvFacts.v
theories/PropsFnv.v
theories/SpecRecall.v
theories/RecallFacts.v
theories/PropsRecall.v
theories/SimDist.v
theories/PropsSimDist.v
theories/SpecScan.v
theories/ScanFacts.v
theories/PropsScan.v
theories/Rng.v
theories/SpecRng.v
theories/RngFacts.v
theories/RngStream.v
theories/RngDraws.v
theories/RngUnit.v
theories/RngSuper.v
theories/PropsRng.v
theories/PropsDefaults.v
theories/Digests.v
theories/SpecDigests.v
theories/SipFacts.v
theories/ShaFacts.v
theories/PropsDigests.v
theories/SpecSimTest.v
theories/SimTestFacts.v
theories/PropsSimTest.v
theories/FastHash.v
theories/PyHash.v
theories/SpecPyTest.v
theories/PyTestFacts.v
theories/PropsPyTest.v
theories/SpecBatchTest.v
theories/BatchTestFacts.v
theories/PropsBatchTest.v
theories/Unchecked.v
theories/UncheckedFacts.v
theories/PropsUnchecked.v
theories/DebugBuild.v
theories/DebugFacts.v
theories/PropsDebug.v
theories/Helpers.v
theories/SpecHelpers.v
theories/HelpersFacts.v
theories/PropsHelpers.v
theories/Display.v
theories/SpecDisplay.v
theories/DisplayFacts.v
theories/PropsDisplay.v
theories/PyUnchecked.v
theories/PropsPyUnchecked.v
theories/Constructors.v
theories/ConstructorsFacts.v
theories/CapacityFacts.v
theories/PropsConstructors.v
theories/HeapClusterer.v
theories/SpecHeap.v
theories/HeapFacts.v
theories/HeapSeparate.v
theories/HeapInv.v
theories/PropsHeap.v
theories/Notebook.v
theories/SpecNotebook.v
theories/NotebookFacts.v
theories/PropsNotebook.v
theories/Bench.v
theories/BenchFacts.v
theories/PropsBench.v
theories/PyArgs.v
theories/SpecPyArgs.v
theories/PyArgsFacts.v
theories/PropsPyArgs.v
theories/CollisionFacts.v
theories/SpecCollision.v
theories/PropsCollision.v
theories/PySimArgs.v
theories/SpecPySimArgs.v
theories/PySimArgsFacts.v
theories/PropsPySimArgs.v
theories/PyThreads.v
theories/SpecPyThreads.v
theories/PyThreadsFacts.v
theories/PropsPyThreads.v
theories/SpecHistory.v
theories/HistoryFacts.v
theories/PropsHistory.v
theories/SpecGroups.v
theories/GroupFacts.v
theories/GroupThms.v
theories/PropsGroups.v
theories/SuperTest.v
theories/SuperTestFacts.v
theories/PropsSuperTest.v
theories/SpecHistoryQuery.v
theories/HistoryQueryFacts.v
theories/PropsHistoryQuery.v
theories/SpecStopped.v
theories/StoppedFacts.v
theories/StoppedThms.v
theories/PropsStopped.v
theories/SpecLife.v
theories/LifeFacts.v
theories/PropsLife.v
theories/SpecLowBits.v
theories/LowBitsFacts.v
theories/PropsLowBits.v
theories/SpecWordHash.v
theories/WordHashFacts.v
theories/PropsWordHash.v
theories/SpecTuning.v
theories/TuningFacts.v
theories/PropsTuning.v
theories/RepeatFacts.v
theories/PropsRepeat.v
theories/SpecTextHistory.v
theories/TextHistoryFacts.v
theories/PropsTextHistory.v
theories/SpecTables.v
theories/TableFacts.v
theories/PropsTables.v
theories/SpecVisits.v
theories/VisitFacts.v
theories/PropsVisits.v
theories/SpecAttempts.v
theories/AttemptFacts.v
theories/HeapAttempts.v
theories/PropsAttempts.v
theories/SpecPrior.v
theories/PriorFacts.v
theories/PropsPrior.v
theories/RollbackFacts.v
theories/PropsRollback.v
theories/PanicFacts.v
theories/PropsPanics.v
