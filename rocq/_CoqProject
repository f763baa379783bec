-Q theories Verif
theories/GoBase.v
theories/Types.v
theories/Rewards.v
theories/Handlers.v
theories/Block.v
theories/Advance.v
theories/Keccak.v
theories/Merkle.v
theories/Checkpoint.v
theories/Json.v
theories/Codec.v
theories/Persist.v
theories/Onchain.v
theories/MainLoop.v
theories/Locks.v
theories/Api.v
theories/Sync.v
theories/Startup.v
theories/Beacon.v
theories/Abi.v
theories/Http.v
theories/Spec.v
theories/StringProofs.v
theories/RewardProofs.v
theories/HandlerProofs.v
theories/OwedProofs.v
theories/StepProofs.v
theories/ShareProofs.v
theories/TraceProofs.v
theories/InvProofs.v
theories/RunProofs.v
theories/LifeProofs.v
theories/BlockProofs.v
theories/SlotProofs.v
theories/LiveProofs.v
theories/CleanProofs.v
theories/OrderProofs.v
theories/MerkleSpec.v
theories/MerkleProofs.v
theories/TreeProofs.v
theories/CheckpointProofs.v
theories/DressProofs.v
theories/JsonProofs.v
theories/PersistSpec.v
theories/CodecProofs.v
theories/SaveProofs.v
theories/PersistProofs.v
theories/ResumeProofs.v
theories/OnchainSpec.v
theories/OnchainProofs.v
theories/LoopSpec.v
theories/LoopProofs.v
theories/GuardProofs.v
theories/LocksSpec.v
theories/LocksProofs.v
theories/ApiSpec.v
theories/ApiProofs.v
theories/OverlayProofs.v
theories/ServeProofs.v
theories/SyncSpec.v
theories/SyncProofs.v
theories/AgreeSpec.v
theories/AgreeProofs.v
theories/QuorumSpec.v
theories/QuorumProofs.v
theories/StartSpec.v
theories/StartProofs.v
theories/Samples.v
theories/PropAccounting.v
theories/PropLifecycle.v
theories/PatchProofs.v
theories/PropBlock.v
theories/PropProgress.v
theories/PropLive.v
theories/PropCleanup.v
theories/MerkleSamples.v
theories/PersistSamples.v
theories/OnchainSamples.v
theories/LoopSamples.v
theories/ApiSamples.v
theories/PropPersist.v
theories/PropOnchain.v
theories/PropMerkle.v
theories/PropLoop.v
theories/PropLocks.v
theories/PropApi.v
theories/SyncSamples.v
theories/PropSync.v
theories/AgreeSamples.v
theories/QuorumSamples.v
theories/SplitSamples.v
theories/ShadowSamples.v
theories/ReconSpec.v
theories/ReconProofs.v
theories/ReconSamples.v
theories/PropBalance.v
theories/StartSamples.v
theories/PropAgree.v
theories/PropQuorum.v
theories/PropStart.v
theories/AbiSpec.v
theories/AbiProofs.v
theories/AbiSamples.v
theories/PropAbi.v
theories/HttpSpec.v
theories/HttpProofs.v
theories/HttpSamples.v
theories/PropHttp.v
theories/Rlp.v
theories/Submit.v
theories/RlpSpec.v
theories/RlpProofs.v
theories/SubmitProofs.v
theories/RlpSamples.v
theories/PropTx.v
theories/StopSpec.v
theories/StopProofs.v
theories/PropStop.v
theories/PropRecon.v
theories/Calls.v
theories/ClaimSpec.v
theories/ClaimProofs.v
theories/ClaimSamples.v
theories/PropClaim.v
theories/CallSpec.v
theories/CallProofs.v
theories/CallSamples.v
theories/PropCall.v
theories/CodeSpec.v
theories/CodeProofs.v
theories/PropCode.v
theories/Disk.v
theories/DiskSpec.v
theories/DiskProofs.v
theories/PropDisk.v
theories/Gob.v
theories/GobSpec.v
theories/GobProofs.v
theories/PropGob.v
theories/CollSpec.v
theories/CollProofs.v
theories/PropColl.v
theories/Body.v
theories/BodySpec.v
theories/BodyProofs.v
theories/BodySamples.v
theories/PropBody.v
theories/Pointers.v
theories/PointersSpec.v
theories/PointersProofs.v
theories/PropPointers.v
theories/Gauges.v
theories/GaugesSpec.v
theories/GaugesProofs.v
theories/GaugesSamples.v
theories/PropGauges.v
