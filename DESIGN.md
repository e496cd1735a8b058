# Formal model of google/ruy in Rocq (Coq 8.16.1)

The C++ source in `/repo` is modelled by hand, function by function, as total
computable Gallina functions in `rocq/theories/`. Every definition of the model
cites the file and lines it models. `properties.jsonl` lists the properties in
English, `MANIFEST.json` maps each to its theorems.

## Conventions

* **Files.** `Model*`-style files hold the code model only (`SizeUtil.v`,
  `BlockMap.v`, ...). `Spec*.v` files hold small independent specifications.
  `*Facts.v` files hold lemmas. `Prop_*.v` files contain nothing but the property
  theorems, each closed by `exact lemma.`, followed by `Print Assumptions` and a
  non-vacuity `Example`.
* **Integers.** `Z`, with the machine width explicit. Three outcomes:
  `Ok v`, `UB` (undefined behaviour in C++: signed overflow, bad shift, `clz(0)`,
  null access), `Abort` (a `RUY_CHECK` fails). A `RUY_DCHECK` is
  compiled out in release builds; where a property depends on one, the model has
  modelled by the parameter `dbg` (a failed one in a debug build is `Abort`).
* **Scalars.** Results about integer types are over `Z` with 32-bit wrap or
  checked arithmetic. Results valid for floating point are parametric in the
  scalar type and its operations: nothing (associativity in particular) is
  assumed of them.
* **Memory.** Buffers are functions from element offset to value; a write is a
  functional update. The allocator and the prepacked cache are modelled on
  concrete integer addresses with the system allocator as an oracle.
* **Concurrency.** Labelled small-step machines; any thread may move at any
  time. Atomic operations are single steps; loads may return outdated values as
  far as acquire/release allows. Packing and kernel runs are one step each, and a
  race detector (vector clocks) makes any unordered pair of conflicting accesses an
  undefined outcome. Properties are invariants over all reachable states, or
  refinement/termination arguments.
* **False properties.** A property that is false of the faithful model is stated
  and refuted (`..._refuted`, with a concrete witness), next to the strongest
  true version.

## Plan per property

| Id | What is modelled | How it is proved |
|----|------------------|------------------|
| C01 | `PackImpl::Run`, `Kernel::Run`, `ReferenceMul`, `Offset`, multiplier, whole Mul on the four portable layouts | algebra of zero points incl. padding; accumulators mod 2^32; refinement Mul = ReferenceMul; separate checked-arithmetic theorem giving a no-UB bound |
| C02 | same, parametric in scalars, composed with block map and worker machine | each destination entry equals one pure function of (row, col); final state of every complete run is that function |
| C03 | destination buffer as a function on offsets | frame lemma over the loops and over the worker machine |
| C04 | `Transpose`, operand swap, channel dimension | equality of the two routes entry by entry |
| C05 | `MakeBlockMap`, `GetBlockMatrixCoords` | bounds on shifts, then interval partition lemma |
| C06 | the four decoders, `GetBlockByIndex` | explicit inverse functions; bit-level lemmas via `Z.testbit`; induction on size for Hilbert |
| C07 | Hilbert decoder | induction on the size with the curve's end points as invariant |
| C08 | `MakeBlockMap` in checked arithmetic | interval bounds; overflow witness |
| C09 | `GetTentativeThreadCount`, `MakeBlockMap` thread count | arithmetic |
| C10-C12 | `TrMulTask::Run/TryPack/EnsurePacked` as a state machine, with view-based weak memory for the status bytes | inductive invariant; variant function for termination |
| C13-C16 | `ThreadPool`, `Thread`, `BlockingCounter`, `Wait` as a state machine with mutexes, condition variables, spurious wakeups | inductive invariant, progress lemma, trace counting |
| C17-C20 | `Offset(PMatLayout)`, `PackImpl`, `RunPack`, memcpy float pack, `Pack<>` | mixed-radix bijection; frame lemmas; finite sweep for bytes |
| C21-C24 | `MultiplyByQuantizedMultiplier`, SIMD lane sequences, clamping, `MulParams` | floor-division arithmetic, modular arithmetic |
| C25-C28 | `Allocator` with system allocation oracle | invariant over histories; counting |
| C29-C35 | `PrepackedCache`, `PreparePackedMatrices`, `ShouldCache` | invariant and refinement over histories, witnesses for refutations |
| C36 | `EnsurePerChannelBuffersLargeEnough` | list lemmas |
| C37-C41, C44, C48 | `Ctx`, `TuningResolver`, `QueryCacheParams`, denormal scope | bit lemmas, invariants over histories of all operations of a context |
| C46 | `KeyHash` in checked arithmetic | interval bound; overflow witness |
| C49, C50 | the 8-bit kernels of AVX, AVX2, AVX-512, as instruction sequences on registers of bytes | each instruction set satisfies one record of lane laws; the loops are proved once over the record; the portable kernel is reduced to the same accumulator |
| C51 | the x86 packing functions for integers, as instruction sequences | the same: one record of lane laws per function; loops over it |
| C52 | Mul with the x86 packing functions and kernels | the worker machine parameterised by packing and kernel functions; C49 and C51 give what it needs of them |
| C53 | Mul of floats with the x86 packing functions and kernels, fused multiply-add in `SpecFloat` | the kernels are proved for any scalar operations, then instantiated; nothing is reordered, so results are equalities of `spec_float` |
| C54 | Mul of floats on the portable and the x86 paths | a float with a given value is unique up to the sign of zero; an exact result of at most 24 bits is not rounded by `binary_round_aux`; induction over depth |
| C55 | labels, stacks and the sample buffer of the profiler, in bytes | fields of little-endian words; induction over scopes and over stacks |
| C56, C57 | tree views | a tree `describes` a list of samples: preserved by AddStack, AddOther, SortNode; listings of trees as lists of paths with weights |
| C58 | threads, locks and the sampling thread as an event machine | invariant relating stacks, list of stacks and lock to the history of events |
| C59 | `SFmul`, `SFadd`, `fused_mul_add` | shifting right keeps the remainder's place (`location_of`), so `binary_round_aux` gives the nearest multiple of the last place; independence of the representation carries this over to sums and products |
| C60 | Mul of floats on the portable and the x86 paths | C59 bounds each operation's error; induction over depth with the bound `B^n * e <= ((B+1)^n - B^n) * w` for `B = 2^24`, all in integers |
| C61 | the assembly of the column-major packing functions of `pack_arm.cc`, on an AArch64 machine | `reach`: a program gets from one place to another in at most so many steps; loops by induction over pieces of sixteen bytes; then bytes to values |
| C62 | Mul of floats with the AArch64 packing functions and the four float kernels in assembly | `reach` for the pieces of a kernel with lanes as formulas; the loop over depth by induction over groups of four; the loop over blocks by an invariant on the destination; then the worker machine as for C52 |
| C63 | the same | the sum in any order is bounded as in C60, as magnitudes and exact sums do not depend on the order |
| C64 | the asm statements for AArch64 of `pack_arm.cc` and `kernel_arm64.cc` and their operands and clobbers | each instruction writes only the registers listed for it (by cases); hence runs of any length (by induction) |
| C65 | the asm statement of Kernel8bitNeonDotprod1Col and its caller in `kernel_arm.h` | each vector instruction as a formula on lanes; `reach` for the pieces of the program, loops over depth and over blocks by induction; then bytes to entries, and sums modulo 2^32 as for C49 |
| C66 | the asm statements of Kernel8bitNeonDotprodX1 and Kernel8bitNeonDotprod | the same; the part the two programs share is proved once (`tail8`), the products summed in any order (`Permutation`) |
| C67 | the assembly of Pack8bitRowMajorForNeonDotprod and the loop around it | as C61; induction over groups of eight columns, then over blocks of four rows, sums accumulated in memory |
| C68 | `ruy::Mul` for bytes on kNeonDotprod | C61, C67 and C66 in the thread machine, as C52 |
| C69 | Pack8bitRowMajorForNeon, in intrinsics, and the loop around it | the transposition of a 16x8 block by computation on any sixteen rows; then as C51, column by column |
| C70 | the asm statements of the three kNeon kernels | a bound on sums of two products; a counterexample run on the machine; the loops over the depth of the three programs by `reach` and induction (`Neon8Pairs*.v`), up to the sums of the first block, then related to packed entries and to sources through C61 and C69 (`Kernel8NeonSums.v`) |
| C71 | Kernel8bitNeon1Col and its call in `kernel_arm.h` | `reach` through every branch of the program, induction over the blocks of four rows (`Neon8Col4*.v`); entries and accumulators from the sums of C70 (`Kernel8NeonCol4Props.v`) |
| C72 | the packing functions of kNeon followed by its kernel for one destination column | packed entries and sums of C61 and C69 as operands of C71; padding cancels in the sums (`Kernel8NeonSources.v`) |
| C42 | `size_util.h` | `Z.log2`, `Z.land` lemmas |
| C43 | empty matrices in the Mul model | refutation plus the reference result |
| C45 | portable float path in `SpecFloat` arithmetic | adding +0 products and packing never change an accumulator that started at +0 |

## What is modelled, by file

| Model file | Source |
|------------|--------|
| `SizeUtil.v` | `size_util.h` |
| `BlockMap.v`, `ThreadCount.v` | `block_map.cc/h`, `trmul.cc` (thread count, simple loop) |
| `Mat.v`, `Pack.v`, `Scalars.v` | `mat.h`, `internal_matrix.h` (layouts, offsets), `pack.h`, `pack_common.h`, memcpy float packing of `pack_arm.h`/`pack_x86.h` |
| `MulParams.v`, `TrMul.v` | `mul_params.h`, `create_trmul_params.h`, `prepare_packed_matrices.cc` (uncached part), the single-loop route of `trmul.cc` |
| `Kernel.v` | `kernel.h` (portable kernel), `reference_mul.h` |
| `Multiplier.v`, `IntOps.v`, `FloatOps.v` | `apply_multiplier.cc`, scalar types |
| `TrMulMachine.v`, `TrMulRun.v` | `trmul.cc` (worker tasks, TrMul), `frontend.h/cc`, `ruy.h` (Mul) |
| `ThreadPool.v` | `thread_pool.cc/h`, `blocking_counter.cc/h`, `wait.cc/h` |
| `Denormal.v` | `denormal.cc/h` and its two uses, over the machine of `ThreadPool.v` |
| `Allocator.v` | `allocator.cc/h`, `system_aligned_alloc.cc/h` (the system is an oracle) |
| `PrepackedCache.v` | `prepacked_cache.cc/h` (hash-table iteration order and the system are oracles) |
| `CpuInfo.v` | `cpuinfo.cc/h` (the cpuinfo library is an oracle) |
| `Tune.v` | `tune.cc/h`; `cpuinfo.cc` (questions on the current processor) |
| `Ctx.v` | `ctx.cc`, `ctx_impl.h`, `path.h`, `context.cc/h`, `frontend.h` with a context; path search of `create_trmul_params.h` |
| `Simd.v` | the x86 vector instructions used by the kernels, on registers as lists of bytes |
| `SimdRequant.v` | the requantization sequences of `kernel_avx.cc`, `kernel_avx2_fma.cc`, `kernel_avx512.cc` and of the 8-bit NEON kernels of `kernel_arm64.cc` |
| `Kernel8bit.v`, `Kernel8bitAvx.v` | `kernel_x86.h` (8-bit), `kernel_common.h` (MakeKernelParams8bit), the 8-bit kernels of `kernel_avx.cc`, `kernel_avx2_fma.cc`, `kernel_avx512.cc` |
| `PackX86.v` | the integer packing functions of `pack_x86.h`, `pack_avx.cc`, `pack_avx2_fma.cc`, `pack_avx512.cc` |
| `RunBy.v`, `X86Mul.v` | `trmul.cc`, `frontend.h` with any packing and kernel functions; the dispatch of `kernel_x86.h`, `pack_x86.h` to those of AVX, AVX2, AVX-512 |
| `SimdFloat.v`, `PackFloatX86.v`, `KernelFloatX86.v` | float vector instructions; the float packing functions of `pack_x86.h`, `pack_avx.cc`, `pack_avx512.cc`; `kernel_common.h` (MakeKernelParamsFloat) and the float kernels of `kernel_x86.h`, `kernel_avx.cc`, `kernel_avx2_fma.cc`, `kernel_avx512.cc` |
| `FloatX86Mul.v` | `frontend.h` and the dispatch of `kernel_x86.h`, `pack_x86.h` for floats |
| `CachedMul.v` | `prepare_packed_matrices.cc` with caching, Mul in a context that keeps its cache |
| `Profiler.v` | `profiler/instrumentation.h/cc` (labels, stacks, buffers), `profiler/profiler.cc` (Sample) |
| `TreeView.v` | `profiler/treeview.cc/h` except printing |
| `ProfilerMachine.v` | `profiler/profiler.cc/h`, `ThreadStack` of `profiler/instrumentation.h/cc` |
| `Neon64.v` | the AArch64 instructions used by `pack_arm.cc` and `kernel_arm64.cc`, on registers, flags and blocks of bytes |
| `NeonPackCode.v` | the asm statements of `pack_arm.cc` for AArch64, written by `tools/asm2coq.py` from the source |
| `NeonPack.v`, `NeonPackRow.v` | PackImpl::Run in `pack_arm.h` for column-major sources, and for row-major 8-bit sources on kNeonDotprod |
| `NeonPackRow16.v` | `pack_arm.h` and Pack8bitRowMajorForNeon of `pack_arm.cc` for row-major 8-bit sources on kNeon (intrinsics; 64-bit and 32-bit ARM) |
| `FloatWords.v`, `NeonKernelCode.v`, `KernelFloatNeon.v` | floats as 32-bit words; the asm statements of the float kernels of `kernel_arm64.cc` (by `tools/asm2coq.py`); the float kernels of `kernel_arm.h` |
| `NeonKernel8Code.v`, `Kernel8Neon.v`, `NeonDecl.v` | the asm statements of the 8-bit kernels of `kernel_arm64.cc` (by `tools/asm2coq.py`); the 8-bit kernels of `kernel_arm.h`; the operands and clobbers of the asm statements (by `tools/asmdecl.py`) |
| `FloatNeonMul.v` | `frontend.h` and the dispatch of `kernel_arm.h`, `pack_arm.h` for floats on kNeon and kNeonDotprod |
| `Neon8Mul.v` | the same for bytes on kNeonDotprod |

## Not modelled

* the ARM kernels for 32-bit ARM; of the 8-bit ones for AArch64 only what they change (C64) is proved, except for
  Kernel8bitNeonDotprod1Col (C65), Kernel8bitNeon1Col (C71), the sums of products of Kernel8bitNeon and Kernel8bitNeonA55ish (C70), Kernel8bitNeonDotprodX1 and Kernel8bitNeonDotprod (C66), and the requantization sequences (C22); of the ARM packing functions those in assembly for 32-bit ARM;
* NaN payloads: all NaNs are identified; the rounding mode and the treatment of denormals
  in the x86 control register (C53) and in FPCR (C62) are taken to be the defaults; contraction of `a * b + c` to a fused
  multiply-add by the compiler is assumed not to happen in the portable kernel and
  the reference;
* the tracing facility; of the profiler, printing and the text of formatted labels;
* C++ template machinery (each instantiation is an ordinary function);
* 64-bit `std::ptrdiff_t` arithmetic is taken to be wide enough where the model says so.

## Domains

* `bm_domain` (SpecBlockMap.v): the block-map arithmetic (all in `int`) is free of
  overflow. Kernel blocks are powers of two up to 512, packed sizes below 2^30, the
  bytes of one pass over both operands at most INT_MAX, and a positive cache size.
* `valid_call` (SpecMul.v): shapes match, buffers are as large as their layouts say,
  packed matrices have at most INT_MAX entries, per-channel arrays have the documented
  capacity with zeros after the channels, no zero dimension, and at least one thread.

* The allocator (SpecAlloc.v): requests up to 2^61 bytes, system blocks below 2^62;
  adding to a null pointer is integer arithmetic.
* Cached multiplications (SpecCached.v): valid calls; floating-point matrices have zero
  points 0; the sizes of cached operands can be hashed. A cached buffer that the system
  could not allocate is undefined behaviour: theorems assume no allocation failed.
* Processor descriptions (SpecCpu.v): at least one processor; cache sizes between 1 and
  INT_MAX, outer caches not smaller than inner ones.
* Contexts (SpecCtx.v): sets of paths are bytes, thread limits at least 1, clock values
  between 0 and 2^63 ns, multiplications well formed for each compiled path. The kernels
  of architecture-specific paths are taken to be the portable one with their layouts.
  Statements are about histories that the model runs to the end.
* Vector kernels (SpecKernel.v): packed operands in whole blocks, arrays of channels
  covering whole blocks, offsets and the product of zero points and depth in int32.
* Vector packing (SpecPackX86.v): whole blocks of columns, zero points of the packed type;
  for row-major sources at most 2^24 rows and the packed zero point that belongs to the source's.
* Packing on AArch64 (SpecPackNeon.v): whole blocks of columns, the packed zero point that belongs to the source's,
  memory holding values of its type, no sums and no zero points of floats.
* Row-major packing for kNeon (SpecPackNeonRow16.v): whole blocks of columns, with sums, at most 2^24 rows.
* Multiplications on the x86 paths (SpecX86Mul.v): valid calls for the blocks of the path; column
  sums, zero points times depth and offsets inside a block of the destination in int32; fresh packed
  matrices hold values of the packed type.
* Multiplications of floats on the x86 paths (SpecFloatX86.v): valid calls for the blocks of the path, and
  a destination whose stride in bytes is an int32.
* Multiplications of floats on AArch64 (SpecFloatNeon.v): valid calls for 1x8 blocks; memory that holds floats
  (any 32-bit word is one); a destination whose stride in bytes is an int32; sources whose offsets of blocks of four
  columns are ints. The bound on the destination stride is what the proof needs, not what the code needs: with two columns
  a valid layout has a smaller one, with one column the code does not use it. The members zero_data and dst_tmp_buf of
  the parameters are blocks of their own. Tuning is resolved by each worker thread (trmul.cc:90), so it may differ
  from block to block; so may the registers left over: `circumstances` is universally quantified.
* 8-bit kernels on AArch64 (SpecKernelNeon.v): calls as for the x86 kernels with blocks of 8, of positive depth, with sums that cover the packed columns
  if there are any, a zero point within the destination's type, and a destination that holds values of its type.
* Registers (SpecFenv.v): tasks may change any bit of the control register except those
  that decide about denormals; a new thread begins with any register. Packing for the
  cache does not change the register.
* The profiler (SpecProfiler.v, SpecProfilerMachine.v): 64-bit little-endian machines; up to four int arguments per
  label; scopes are left in the reverse order of entering; profiles of less than 2^31 bytes. The mutexes make each
  critical section one step.
* The prepacked cache (SpecCache.v): matrices with positive sizes, keys whose hash does
  not overflow, and less than 2^62 bytes requested in total.

## Claims found false

| Theorem | What happens |
|---------|--------------|
| `C01_without_bound_refuted` | the exact result and ReferenceMul fit in int32, but the kernel's sum of raw products overflows `int` (undefined) |
| `C08_*` | overflow of `int` in MakeBlockMap outside `bm_domain` |
| `C09_*` | a non-positive thread limit is passed on |
| `C17_without_size_bound_refuted` | packed offsets overflow for more than INT_MAX elements |
| `C19_bit_identical_refuted` | the memcpy float packing keeps -0, the portable one turns it into +0 |
| `C21_documented_range_refuted` | exponents in the documented range still overflow the left shift |
| `C22_x86_same_result_refuted` | the x86 kernels round twice: off by one from the reference (which exactly: `C22_x86_right`). The source says that results are not meant to be bit-exact |
| `C22_neon_same_result_refuted` | the NEON kernels shift left by one more than the exponent: with exponent 0 an accumulator of 2^30 or more changes its sign. If the shifted accumulator fits in int32 they agree with the reference (`C22_neon_partial`) |
| `C22_left_shift_refuted` | a positive exponent that takes the accumulator out of int32 changes the sign in the x86 kernels, although the reference result is an int32 |
| `C49_far_columns_refuted` | the offset of a block of columns is computed as `int`: an int32 destination with columns 2^26 entries apart is undefined behaviour in the vector kernels, and fine in the portable one |
| `C49_deep_refuted` | so is the product of the zero points with the depth: two operands with zero point 0 in uint8 and depth 2^17, whatever they contain |
| `C51_tall_column_refuted` | the zero point times the rows is computed as `int` for blocks of 16 columns with 8 or fewer left: undefined for a uint8 column of 2^24 + 4 entries with zero point 0 |
| `C51_no_sums_refuted` | the row-major functions clear the sums without asking whether there are any (the other functions ask; there always are for integers) |
| `C61_wide_stride_refuted` | the offset of a block of four columns is computed as `int` even if the block is all padding: one column with a stride of 2^30, undefined |
| `C62_tuning_refuted` | the unrolled float kernel adds the products in another order than the others: on machines with two kinds of cores an entry depends on the core that computes its block (tune.h calls tunings drop-in replacements) |
| `C62_place_refuted` | and within a block only for three of the four quarters: equal rows of the left-hand side give different rows of the product |
| `C62_wide_stride_refuted` | as C61: a left-hand side of one row with a stride of 2^29, undefined |
| `C64_dotprod_1col_refuted`, `C64_dotprod_1col_v20_refuted` | Kernel8bitNeonDotprod1Col writes v20 (`dup d20, v16.d[1]`, for uint8 and int8 results), which is not among its clobbers (v0 to v17) |
| `C65_upper_half_refuted` | the 8-bit AArch64 kernels add the 64-bit register holding the int32 `row` to pointers; the upper half of a register holding an int32 operand is unspecified: undefined behaviour if it is not 0 |
| `C66_upper_half_refuted` | likewise for `col`, in the kernels for several columns |
| `C65_int32_without_sums_refuted` | the comparison of the destination type with int32 is jumped over if there are no sums of the left-hand side: the results are requantized and stored as bytes (latent: packed 8-bit matrices have sums) |
| `C70_product_refuted` | the kNeon kernels add two products of bytes in 16 bits: with -128 in both operands 262144 becomes -262144, silently (the tests never use -128, test.h:233-341) |
| `C71_upper_half_refuted` | as C65: Kernel8bitNeon1Col adds the whole register holding the int `row` to pointers, of which the compiler defines the lower half only |
| `C72_lowest_zero_points_refuted` | uint8 times uint8 with both zero points 0 is packed as int8 with padding of -128; on kNeon pairs of padding overflow 16 bits, so 200 * 200 at depth 1 gives -418752. `validate.h:67-74` rejects such zero points (in debug builds) unless both types are uint8; `C72_padding` gives the error for any depth |
| `C72_int32_without_sums_refuted` | as C65: Kernel8bitNeon1Col compares the type with int32 only where there are sums of the left-hand side |
| `C65_depth_zero_refuted` | with depth 0 the kernel reads 32 bytes of each packed matrix all the same |
| `C65_inverted_bounds_refuted` | with a lower bound above the upper one NEON stores the upper one, x86 and the reference the lower one |
| `C50_equal_refuted` | vector and portable kernels differ by one |
| `C50_zero_point_refuted` | an int32 destination with a nonzero zero point (validation only looks at floating point) is offset by the portable kernel and not by the vector kernels |
| `C53_nan_refuted` | the vector kernels store the upper bound (by default +infinity) where the portable path and ReferenceMul store NaN: min_ps and max_ps return their second operand |
| `C53_fused_reference_refuted`, `C53_bias_reference_refuted` | AVX2 and AVX-512 round once per multiply-add, and all vector kernels add the bias first instead of last: other results than ReferenceMul |
| `C53_avx_storage_refuted` | on AVX row-major sources are packed by the portable function, which turns -0 into +0: with a bias of -0 the sign of a zero depends on the storage order of the operand |
| `C53_stride_refuted` | the stride in bytes is converted to int32: a column-major destination with columns 2^29 floats apart is written before its start, where the portable path is fine |
| `C54_larger_bound_refuted` | with sums of 2^24 + 1 the result is no longer exact on any x86 path |
| `C60_relative_refuted` | 1 + 4096 * 4096 - 4096 * 4096 is stored as 0 on every x86 path (the bias is added first; the portable path stores 1) |
| `C55_long_profile_refuted` | the size of the sample buffer is an `int`: a profile of more than 2^31 bytes overflows (one thread in one scope: 15 hours; ten threads in five nested scopes: 21 minutes) |
| `C56_once_refuted` | a program's own label `[other]` gives two nodes with the same path |
| `C57_nested_refuted` | the weight of the nodes with a label, which test.cc divides by the weight of the root, can exceed it with recursion |
| `C24_*_refuted` | the default multiplier 0 gives constant results for narrow integer destinations |
| `C16_no_tasks_spawn` | a call with no tasks in a release build creates up to 2^32 - 1 threads (this part of the property says so, and is proved) |
| `C28_out_of_memory_refuted` | FreeAll does not notice that it got no memory; later blocks are at addresses near zero |
| `C30_buffers_bytes_refuted` | ejecting a floating-point matrix subtracts bytes of sums that were never allocated |
| `C31_capacity_refuted` | hence the cache grows without bound when floating-point matrices are ejected, however small its capacity |
| `C33_sides_refuted`, `C33_order_refuted`, `C33_stride_refuted`, `C33_shape_refuted` | the cache key has neither the side, the storage order, the stride nor the unrounded size: a packed matrix of something else is found at the same address (a product of a matrix with itself gives A times A transposed) |
| `C34_use_after_free_refuted` | hence a multiplication of two cached operands, each of which fits in the cache, uses freed memory |
| `C34_two_lookups_refuted` | the second lookup of a multiplication may free the buffers the first has returned |
| `C46_hash_defined_refuted` | the hash of a key overflows `int` for about 165 million columns |
| `C40_order_refuted`, `C40_large_refuted` | release builds take a local cache size above the last-level one if an outer cache is smaller; sizes from 2 GiB on become negative |
| `C37_environment_refuted` | RUY_PATHS naming only paths that are not compiled: log2 of 0 (release), abort (debug), though the header says the portable path is always supported |
| `C37_supported_refuted` | a path enabled by the user is used on a machine that does not support it |
| `C43_aborts`, `C43_refuted` | products with a zero dimension abort |

## Trusted base

* The Coq 8.16.1 kernel (with its virtual machine: `vm_compute` is used).
* The correspondence of the hand-written model with the source.
* `Print Assumptions` is run under every property theorem; all are "Closed under the
  global context": no axioms are used.
* The semantics of the vector instructions as written in `Simd.v` (Intel's) and at the
  end of `SimdRequant.v` and in `Neon64.v` (Arm's). A register holds an integer or a pointer into a block;
  writing a 32-bit register clears the upper half; fmla rounds once, fmax and fmin return NaN if either operand is, with the default FPCR; 64-bit flags of a pointer comparison only tell null from not null.
* `tools/asm2coq.py`, which transcribes asm statements to lists of instructions and rejects what it does not know.
* The memory model: the worker machine is release/acquire on the status bytes and the
  block counter; RunPack and RunKernel are single steps, which is justified by the proved
  absence of races (data-race-freedom implies interleaving semantics: trusted).
  The thread pool machine has a view for each thread and message, for the worker states,
  the counter, the task pointers and the task objects: a plain access that is not ordered
  after the previous one is undefined. Mutexes carry views; condition variables may wake
  up spuriously; spinning may time out at any moment; a load may read any value that
  coherence allows. Thread creation, join and `notify_all` are single steps, and
  creating a thread never fails.
* `coqchk -o` lists axioms of `Coq.ssr.ssrunder`, which the standard library loads; no
  theorem depends on them.
