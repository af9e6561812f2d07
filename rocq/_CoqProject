-Q theories Verif
theories/Base.v
theories/Sha256.v
theories/Merkle.v
theories/Tools.v
theories/Transaction.v
theories/Block.v
theories/Sled.v
theories/Chain.v
theories/Tree.v
theories/Spec.v
theories/Reach.v
theories/LedgerSpec.v
theories/NodeSpec.v
theories/AnyDirSpec.v
theories/DamageSpec.v
theories/Demo.v
theories/BaseFacts.v
theories/ToolsFacts.v
theories/MerkleFacts.v
theories/CodecFacts.v
theories/SledFacts.v
theories/DiffFacts.v
theories/ChainFacts.v
theories/TreeFacts.v
theories/LedgerFacts.v
theories/DerivFacts.v
theories/NodeFacts.v
theories/DamageProps.v
theories/AnyDirProps.v
theories/CanonSpec.v
theories/AnyPanicSpec.v
theories/AnyErrSpec.v
theories/CodecProps.v
theories/CanonProps.v
theories/AnyPanicProps.v
theories/AnyErrProps.v
theories/Conc.v
theories/ConcTree.v
theories/ConcFlush.v
theories/ConcEmit.v
theories/Cancel.v
theories/ConcDeriv.v
theories/Io.v
theories/QuietSpec.v
theories/CrashSpec.v
theories/IoSpec.v
theories/LifeSpec.v
theories/AnyIoSpec.v
theories/AnyIoProps.v
theories/AuditSpec.v
theories/NodeSim.v
theories/NodeProps.v
theories/ValidateProps.v
theories/MainProps.v
theories/EpochDemo.v
theories/AuditProps.v
theories/SupplySpec.v
theories/CrashFacts.v
theories/SummaryDb.v
theories/ConcSpec.v
theories/ConcFacts.v
theories/EmitSpec.v
theories/FlushSpec.v
theories/FlushProps.v
theories/EmitFacts.v
theories/IoFacts.v
theories/QuietProps.v
theories/IoSure.v
theories/DcrashSpec.v
theories/LedgerProps.v
theories/StoreProps.v
theories/CrashProps.v
theories/DcrashProps.v
theories/LifeFacts.v
theories/BlifeFacts.v
theories/BlifeSpec.v
theories/SupplyProps.v
theories/IoProps.v
theories/IoRetryProps.v
theories/IoMoneyProps.v
theories/HistSpec.v
theories/HistProps.v
theories/LifeProps.v
theories/BlifeProps.v
theories/BlockOrd.v
theories/BlockOrdProps.v
theories/BookSpec.v
theories/ObsSpec.v
theories/ObsFacts.v
theories/BookProps.v
theories/CancelSpec.v
theories/CancelProps.v
theories/ClockSpec.v
theories/DerivProps.v
theories/ClockProps.v
theories/ConcCrashSpec.v
theories/ConcProps.v
theories/ConcCrashProps.v
theories/ConcDerivSpec.v
theories/ConcDerivFacts.v
theories/ConcDerivProps.v
theories/ConcEmitProps.v
theories/Conformance.v
theories/DhistProps.v
theories/DlifeSpec.v
theories/DlifeFacts.v
theories/DlifeProps.v
theories/Miner.v
theories/LiveSpec.v
theories/MinerSpec.v
theories/LiveProps.v
theories/MinerProps.v
theories/DminerProps.v
theories/DomainSpec.v
theories/DomainProps.v
theories/FollowSpec.v
theories/FollowProps.v
theories/Fs.v
theories/FsSpec.v
theories/FsProps.v
theories/IoDropProps.v
theories/IoFlushProps.v
theories/IoOpenProps.v
theories/IoRotateProps.v
theories/ListedSpec.v
theories/ListedProps.v
theories/ProfileSpec.v
theories/ObsProps.v
theories/TxPool.v
theories/PoolFacts.v
theories/PoolSpec.v
theories/PoolProps.v
theories/PowProps.v
theories/Primes.v
theories/ProfileProps.v
theories/Sender.v
theories/ProgSpec.v
theories/ProgProps.v
theories/SdbIo.v
theories/SdbIoSpec.v
theories/TextSpec.v
theories/SdbProps.v
theories/SdbIoProps.v
theories/Secp.v
theories/SecpPrimes.v
theories/SecpSpec.v
theories/SecpProps.v
theories/SecpTests.v
theories/ShaSpec.v
theories/ShaProps.v
theories/SliceSpec.v
theories/SliceProps.v
theories/TipSpec.v
theories/TipProps.v
theories/Zstd.v
theories/ZstdSpec.v
theories/ZstdProps.v
theories/P_AnyDir.v
theories/P_AnyErr.v
theories/P_AnyIo.v
theories/P_AnyPanic.v
theories/P_Audit.v
theories/P_Blife.v
theories/P_BlockOrd.v
theories/P_Book.v
theories/P_Cancel.v
theories/P_Canon.v
theories/P_Clock.v
theories/P_Codec.v
theories/P_Conc.v
theories/P_ConcCrash.v
theories/P_ConcDeriv.v
theories/P_ConcEmit.v
theories/P_Crash.v
theories/P_Damage.v
theories/P_Dcrash.v
theories/P_Deriv.v
theories/P_Dhist.v
theories/P_Dlife.v
theories/P_Dminer.v
theories/P_Domain.v
theories/P_Epoch.v
theories/P_Flush.v
theories/P_Follow.v
theories/P_Fs.v
theories/P_Hist.v
theories/P_Io.v
theories/P_IoDrop.v
theories/P_IoFlush.v
theories/P_IoMoney.v
theories/P_IoOpen.v
theories/P_IoRetry.v
theories/P_IoRotate.v
theories/P_Ledger.v
theories/P_Life.v
theories/P_Listed.v
theories/P_Live.v
theories/P_Main.v
theories/P_Miner.v
theories/P_Node.v
theories/P_Obs.v
theories/P_Pool.v
theories/P_Pow.v
theories/P_Profile.v
theories/P_Prog.v
theories/P_Quiet.v
theories/P_Sdb.v
theories/P_SdbIo.v
theories/P_Secp.v
theories/P_Sha.v
theories/P_Slice.v
theories/P_Store.v
theories/P_Supply.v
theories/P_Tip.v
theories/P_Validate.v
theories/P_Zstd.v
