-Q theories Verif
theories/Base.v
theories/SidePair.v
theories/SpecArith.v
theories/SizeUtil.v
theories/SizeUtilFacts.v
theories/SizeUtilProps.v
theories/Prop_SizeUtil.v
theories/BlockMap.v
theories/TraversalFacts.v
theories/BlockMapFacts.v
theories/SpecBlockMap.v
theories/MakeBlockMapFacts.v
theories/ThreadCount.v
theories/BlockMapProps.v
theories/Prop_BlockMap.v
theories/Mat.v
theories/MatFacts.v
theories/Scalars.v
theories/Pack.v
theories/PackFacts.v
theories/MemcpyPackFacts.v
theories/MulParams.v
theories/Kernel.v
theories/TrMul.v
theories/KernelFacts.v
theories/ChannelFacts.v
theories/Multiplier.v
theories/IntOps.v
theories/FloatOps.v
theories/SpecMatrix.v
theories/SpecPack.v
theories/PackProps.v
theories/Prop_Pack.v
theories/SpecRound.v
theories/SpecFinish.v
theories/FinishProps.v
theories/Prop_Finish.v
theories/TrMulFacts.v
theories/FrontEndFacts.v
theories/IntEntryFacts.v
theories/EntryFacts.v
theories/TrMulMachine.v
theories/MachineIdsFacts.v
theories/MachinePackFacts.v
theories/MachineFacts.v
theories/MachineProgressFacts.v
theories/TrMulRun.v
theories/RunFacts.v
theories/MulFacts.v
theories/SpecMachine.v
theories/MachineProps.v
theories/Prop_Machine.v
theories/SpecMul.v
theories/FloatFacts.v
theories/MulProps.v
theories/FloatMulProps.v
theories/ExampleMul.v
theories/Prop_Mul.v
theories/ThreadPool.v
theories/ThreadPoolFacts.v
theories/PoolMainFacts.v
theories/SpecPool.v
theories/PoolLogFacts.v
theories/PoolProgressFacts.v
theories/PoolProps.v
theories/Prop_Pool.v
theories/Allocator.v
theories/SpecAlloc.v
theories/AllocFacts.v
theories/AllocProps.v
theories/Prop_Alloc.v
theories/PrepackedCache.v
theories/SpecCache.v
theories/CacheFacts.v
theories/CacheProps.v
theories/CacheBad.v
theories/Prop_Cache.v
theories/CachedMul.v
theories/SpecCached.v
theories/CachedFacts.v
theories/CachedProps.v
theories/CachedBad.v
theories/Prop_Cached.v
theories/CpuInfo.v
theories/SpecCpu.v
theories/CpuFacts.v
theories/Prop_Cpu.v
theories/Tune.v
theories/Ctx.v
theories/SpecCtx.v
theories/TuneFacts.v
theories/PathFacts.v
theories/ResourceFacts.v
theories/CtxFacts.v
theories/CtxProps.v
theories/Prop_Ctx.v
theories/SpecDenormal.v
theories/Denormal.v
theories/SpecFenv.v
theories/DenormalFacts.v
theories/FenvFacts.v
theories/FenvProps.v
theories/Prop_Denormal.v
theories/Simd.v
theories/SimdRequant.v
theories/SimdFacts.v
theories/RequantFacts.v
theories/AvxFacts.v
theories/Avx512Facts.v
theories/SpecSimd.v
theories/RequantProps.v
theories/Prop_Requant.v
theories/Kernel8bit.v
theories/Kernel8bitAvx.v
theories/Kernel8bitIsa.v
theories/Kernel8bitAvx2Facts.v
theories/Kernel8bitAvxFacts.v
theories/Kernel8bitAvx512Facts.v
theories/SpecKernel.v
theories/PackX86.v
theories/Kernel8bitFacts.v
theories/Kernel8bitProps.v
theories/Kernel8bitPortable.v
theories/Kernel8bitExamples.v
theories/Kernel8bitBad.v
theories/Prop_Kernel8bit.v
theories/PackX86Laws.v
theories/PackX86Facts.v
theories/PackX86Block.v
theories/SpecPackX86.v
theories/PackX86Props.v
theories/PackX86RowLaws.v
theories/PackX86RowProps.v
theories/PackX86Portable.v
theories/PackX86Bad.v
theories/PackX86Examples.v
theories/Prop_PackX86.v
theories/RunBy.v
theories/X86Mul.v
theories/X86PackFacts.v
theories/X86MulFacts.v
theories/SpecX86Mul.v
theories/X86FrontFacts.v
theories/X86MulProps.v
theories/X86MulExact.v
theories/X86MulExamples.v
theories/Prop_X86Mul.v
theories/SimdFloat.v
theories/SimdFloatFacts.v
theories/PackFloatX86.v
theories/PackFloatFacts.v
theories/KernelFloatX86.v
theories/KernelFloatFacts.v
theories/KernelFloatProps.v
theories/FloatX86Mul.v
theories/SpecFloatX86.v
theories/FloatX86Facts.v
theories/FloatX86Props.v
theories/FloatX86More.v
theories/FloatX86Examples.v
theories/FloatX86Bad.v
theories/Prop_FloatX86.v
theories/SpecFloatExact.v
theories/FloatExact.v
theories/FloatExactProps.v
theories/FloatExactExamples.v
theories/Prop_FloatExact.v
theories/Profiler.v
theories/SpecProfiler.v
theories/ProfilerFacts.v
theories/TreeView.v
theories/SpecTreeView.v
theories/TreeViewFacts.v
theories/TreeViewTree.v
theories/TreeViewProps.v
theories/ProfilerProps.v
theories/ProfilerMachine.v
theories/SpecProfilerMachine.v
theories/ProfilerMachineFacts.v
theories/ProfilerExamples.v
theories/Prop_Profiler.v
theories/Prop_TreeView.v
theories/Prop_ProfilerMachine.v
theories/SpecFloatRound.v
theories/FloatRound.v
theories/Prop_FloatRound.v
theories/SpecFloatError.v
theories/FloatError.v
theories/FloatClamp.v
theories/FloatErrorProps.v
theories/FloatErrorExamples.v
theories/Prop_FloatError.v
theories/FloatWords.v
theories/FloatWordsFacts.v
theories/Neon64.v
theories/NeonPackCode.v
theories/NeonKernelCode.v
theories/NeonKTac.v
theories/NeonKernelF.v
theories/NeonKernelT.v
theories/NeonKernelM.v
theories/NeonKernelB.v
theories/NeonKernelW.v
theories/NeonKernelL.v
theories/NeonKernelR.v
theories/KernelFloatNeon.v
theories/SpecFloatNeon.v
theories/KernelFloatNeonFacts.v
theories/KernelFloatNeonProps.v
theories/FloatNeonMul.v
theories/FloatNeonFacts.v
theories/FloatNeonProps.v
theories/FloatNeonMore.v
theories/FloatNeonError.v
theories/FloatNeonExamples.v
theories/FloatNeonBad.v
theories/Prop_FloatNeon.v
theories/Prop_FloatNeonError.v
theories/NeonRun.v
theories/NeonTac.v
theories/NeonCols.v
theories/NeonPack8.v
theories/NeonPackDot.v
theories/NeonPackF.v
theories/NeonPackMath.v
theories/NeonPack.v
theories/NeonPackBytes.v
theories/SpecPackNeon.v
theories/NeonPackFacts.v
theories/NeonPackBlock.v
theories/NeonPackProps.v
theories/NeonPackExamples.v
theories/Prop_PackNeon.v
theories/NeonKernel8Code.v
theories/Kernel8Neon.v
theories/NeonDecl.v
theories/SpecNeonDecl.v
theories/NeonDeclFacts.v
theories/NeonDeclBad.v
theories/Prop_NeonDecl.v
theories/Neon8Lanes.v
theories/Neon8Tac.v
theories/Neon8Col.v
theories/SpecKernelNeon.v
theories/Kernel8NeonFacts.v
theories/Kernel8NeonProps.v
theories/Kernel8NeonExamples.v
theories/Prop_KernelNeon.v
theories/Neon8Blk.v
theories/Neon8Dot.v
theories/Neon8DotHeld.v
theories/Neon8DotStore.v
theories/Neon8DotPlace.v
theories/Neon8DotNarrow.v
theories/Neon8DotBlock.v
theories/Neon8DotLoop.v
theories/Neon8DotProg.v
theories/Kernel8NeonDotProps.v
theories/Kernel8NeonDotExamples.v
theories/Prop_KernelNeonDot.v
theories/SpecPackNeonRow.v
theories/NeonPackRow.v
theories/NeonPackRowRun.v
theories/NeonPackRowMath.v
theories/NeonPackRowBlock.v
theories/NeonPackRowProps.v
theories/NeonPackRowMore.v
theories/NeonPackRowExamples.v
theories/NeonPackRow16.v
theories/SpecPackNeonRow16.v
theories/NeonPackRow16Props.v
theories/NeonPackRow16Examples.v
theories/Kernel8NeonPairs.v
theories/Neon8Pairs.v
theories/Neon8Pairs4.v
theories/Neon8Pairs5.v
theories/SpecNeonPairs.v
theories/Kernel8NeonPairsMore.v
theories/Prop_PackNeonRow16.v
theories/SpecNeonSums.v
theories/Kernel8NeonSums.v
theories/Prop_NeonPairs.v
theories/Prop_PackNeonRow.v
theories/Neon8Mul.v
theories/SpecNeonMul.v
theories/Neon8MulFacts.v
theories/Neon8MulProps.v
theories/Neon8MulExact.v
theories/Neon8MulExamples.v
theories/Prop_NeonMul.v
theories/SpecNeonCol4.v
theories/Neon8Col4.v
theories/Neon8Col4Store.v
theories/Neon8Col4Run.v
theories/Kernel8NeonCol4Props.v
theories/Kernel8NeonCol4More.v
theories/Prop_NeonCol4.v
theories/SpecNeonSources.v
theories/Kernel8NeonSources.v
theories/Kernel8NeonSourcesEx.v
theories/Prop_NeonSources.v
