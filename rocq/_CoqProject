-Q theories Verif
theories/Py.v
theories/Meta.v
theories/MetaSpec.v
theories/MetaProofs.v
theories/MetaLenProofs.v
theories/MetaEdgeProofs.v
theories/MetaSplitProofs.v
theories/MetaBatchProofs.v
theories/PropertiesMeta.v
theories/MaskSpec.v
theories/MetaMaskProofs.v
theories/MaskEdgeProofs.v
theories/PropertiesMask.v
theories/F32.v
theories/F32Proofs.v
theories/PropertiesFloat.v
theories/Pad.v
theories/Conv.v
theories/ConvSpec.v
theories/ConvProofs.v
theories/ConvRunProofs.v
theories/ConvStreamProofs.v
theories/ConvMoreProofs.v
theories/Stack.v
theories/StackSpec.v
theories/StackProofs.v
theories/StackLiveProofs.v
theories/PropertiesConv.v
theories/Store.v
theories/StoreSpec.v
theories/StoreProofs.v
theories/PropertiesStore.v
theories/Share.v
theories/ShareSpec.v
theories/ShareProofs.v
theories/PropertiesShare.v
theories/PadProofs.v
theories/PropertiesPad.v
theories/Collector.v
theories/CollectorSpec.v
theories/CollectorProofs.v
theories/PropertiesCollector.v
theories/Pipeline.v
theories/PipelineSpec.v
theories/PipelineProofs.v
theories/PropertiesPipeline.v
theories/Data.v
theories/DataSpec.v
theories/DataProofs.v
theories/DataDropProofs.v
theories/PartitionProofs.v
theories/SyncProofs.v
theories/LoaderProofs.v
theories/LoaderDropProofs.v
theories/PropertiesData.v
theories/Lazy.v
theories/LazySpec.v
theories/LazyProofs.v
theories/LazyIsoProofs.v
theories/LazyCohProofs.v
theories/PropertiesLazy.v
theories/Modes.v
theories/ModesSpec.v
theories/ModesProofs.v
theories/PropertiesModes.v
theories/Named.v
theories/NamedSpec.v
theories/NamedProofs.v
theories/NamedSelProofs.v
theories/NamedIndexProofs.v
theories/NamedMetaProofs.v
theories/NamedGetProofs.v
theories/NamedEdgeProofs.v
theories/NamedOpsProofs.v
theories/NamedShapeProofs.v
theories/NamedSplitProofs.v
theories/NamedCatProofs.v
theories/NamedMoreProofs.v
theories/PropertiesNamed.v
theories/Random.v
theories/RandomProofs.v
theories/PropertiesRandom.v
theories/MetaIndex.v
theories/MetaIndexSpec.v
theories/MetaIndexProofs.v
theories/PropertiesMetaIndex.v
theories/Gather.v
theories/GatherSpec.v
theories/GatherProofs.v
theories/GatherMoreProofs.v
theories/FullIndex.v
theories/FullIndexSpec.v
theories/Dispatch.v
theories/AlignSpec.v
theories/AlignProofs.v
theories/AlignOpProofs.v
theories/GatherTakeProofs.v
theories/TakeNd.v
theories/TakeNdProofs.v
theories/PropertiesGather.v
theories/FullIndexProofs.v
theories/FullRankProofs.v
theories/FullMaskProofs.v
theories/FullMaskGetProofs.v
theories/FullIntsProofs.v
theories/FullNoneProofs.v
theories/PropertiesIndex.v
theories/DispatchProofs.v
theories/PropertiesDispatch.v
theories/Reduce.v
theories/ReduceSpec.v
theories/ReduceProofs.v
theories/ReduceChunkProofs.v
theories/PropertiesReduce.v
theories/Build.v
theories/BuildSpec.v
theories/BuildProofs.v
theories/PropertiesBuild.v
theories/AlignGatherProofs.v
theories/AlignBlockProofs.v
theories/AlignCatProofs.v
theories/AlignPointProofs.v
theories/PropertiesAlign.v
theories/Demo.v
theories/DemoSpec.v
theories/DemoProofs.v
theories/PropertiesDemo.v
theories/Timing.v
theories/TimingSpec.v
theories/TimingProofs.v
theories/PropertiesTiming.v
theories/Lists.v
theories/ListsSpec.v
theories/ListsProofs.v
theories/PropertiesLists.v
theories/Warn.v
theories/WarnSpec.v
theories/WarnProofs.v
theories/PropertiesWarn.v
theories/Program.v
theories/ProgramSpec.v
theories/ProgramProofs.v
theories/ProgramRunProofs.v
theories/PropertiesProgram.v
theories/Float64.v
theories/Float64Proofs.v
theories/PropertiesChunk.v
theories/Pickle.v
theories/PickleSpec.v
theories/PickleProofs.v
theories/Workers.v
theories/WorkersSpec.v
theories/WorkersProofs.v
theories/LoaderWorkerProofs.v
theories/PropertiesWorkers.v
theories/CallsSpec.v
theories/CallsProofs.v
theories/PropertiesCalls.v
theories/Ragged.v
theories/RaggedSpec.v
theories/RaggedProofs.v
theories/PadTensorProofs.v
theories/UnpadTensorProofs.v
theories/PropertiesRagged.v
theories/WorkersMany.v
theories/WorkersManySpec.v
theories/WorkersManyProofs.v
theories/WorkersRoundsProofs.v
theories/PropertiesRounds.v
theories/PropertiesGroups.v
theories/ConvTensor.v
theories/ConvTensorSpec.v
theories/ConvTensorProofs.v
theories/ConvTensorHookProofs.v
theories/ConvTensorRunProofs.v
theories/PropertiesConvTensor.v
theories/ConvNet.v
theories/ConvNetSpec.v
theories/ConvNetProofs.v
theories/ConvNetLiveProofs.v
theories/PropertiesConvNet.v
theories/PropertiesLive.v
theories/Repr.v
theories/ReprProofs.v
theories/PropertiesRepr.v
theories/RepoTests.v
theories/RepoTestsData.v
theories/RefusalProofs.v
theories/ConvRefusalProofs.v
theories/PropertiesRefusals.v
theories/Coverage.v
theories/CoverageProofs.v
theories/PropertiesCoverage.v
theories/Residual.v
theories/ResidualSpec.v
theories/ResidualProofs.v
theories/PropertiesResidual.v
theories/AlignTo.v
theories/AlignToSpec.v
theories/AlignToProofs.v
theories/ProgramTensor.v
theories/ProgramTensorSpec.v
theories/ProgramTensorProofs.v
theories/ProgramTensorRunProofs.v
theories/ProgramTensorEndProofs.v
theories/PropertiesProgramTensor.v
theories/KeepSpec.v
theories/KeepProofs.v
theories/KeepCollectProofs.v
theories/KeepNetProofs.v
theories/KeepGroupProofs.v
theories/DataStream.v
theories/DataStreamSpec.v
theories/DataStreamProofs.v
theories/DataStreamEndProofs.v
theories/PropertiesKeep.v
theories/PropertiesDataStream.v
theories/LoaderArgs.v
theories/LoaderArgsSpec.v
theories/LoaderArgsProofs.v
theories/PropertiesLoaderArgs.v
theories/BoolList.v
theories/BoolListSpec.v
theories/BoolListProofs.v
theories/PropertiesBoolList.v
theories/ModuleGraph.v
theories/ModuleGraphSpec.v
theories/ModuleGraphProofs.v
theories/PropertiesModuleGraph.v
theories/Pool.v
theories/PoolSpec.v
theories/PoolProofs.v
theories/PoolConvProofs.v
theories/PropertiesPool.v
