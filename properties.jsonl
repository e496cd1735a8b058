{"id": "C01", "title": "Integer Mul agrees with the reference", "statement": "For integer scalar types on the portable code paths, ruy::Mul stores in every destination entry exactly the value ReferenceMul stores there, whenever the 32-bit accumulator of the mathematical result does not overflow: zero points, bias, per-channel multipliers, clamping and depth padding included.", "quantifier": "all matrix shapes, strides, storage orders, zero points, biases, multipliers, clamp bounds, entry values and kernel layouts (all four portable layouts)", "why_tests_cant": "The space of shapes, strides, layouts and values is unbounded; the tests sample a few hundred random ones.", "anchors": ["ruy/ruy.h:Mul", "ruy/kernel.h:Kernel::Run", "ruy/reference_mul.h:ReferenceMul", "ruy/pack.h:PackImpl::Run"]}
{"id": "C02", "title": "Result independent of blocking, threads and schedule", "statement": "For a fixed code path the bits written by ruy::Mul do not depend on the maximum number of threads, the number of blocks, the traversal order, the scheduling of worker threads, or whether the single-loop fast route is taken. This holds for every scalar type, floating point included, because each entry is computed by the same sequence of scalar operations.", "quantifier": "all thread counts, block maps, interleavings, scalar types and scalar operations (not assumed associative)", "why_tests_cant": "Schedules cannot be enumerated by running the program; a test observes only the interleavings the OS happens to produce.", "anchors": ["ruy/trmul.cc:TrMul", "ruy/trmul.cc:TrMulTask::Run", "ruy/block_map.cc:MakeBlockMap"]}
{"id": "C03", "title": "Mul writes only the destination entries", "statement": "ruy::Mul writes to each of the rows x cols entries of the destination and to no other location of the destination buffer: stride padding between columns/rows and memory after the matrix keep their values.", "quantifier": "all destination shapes, strides and orders, all kernel block sizes exceeding the matrix edge", "why_tests_cant": "Absence of stray writes for every shape and every rounding of the edge blocks cannot be sampled exhaustively.", "anchors": ["ruy/kernel.h:Kernel::Run", "ruy/kernel.h:RunKernel", "ruy/mat.h:Offset"]}
{"id": "C04", "title": "Storage orders are interchangeable", "statement": "The value of each destination entry depends only on the logical matrices: switching lhs, rhs or dst between row-major and column-major storage, or changing their strides, does not change any logical entry of the result. In particular the row-major destination case, solved by transposing the whole product and swapping the operands and the channel dimension, is equivalent.", "quantifier": "all shapes, strides, orders of the three matrices, channel dimension and per-channel parameters", "why_tests_cant": "Eight order combinations times all shapes and per-channel settings.", "anchors": ["ruy/create_trmul_params.h:CreateTrMulParams", "ruy/mat.h:Transpose", "ruy/mul_params.h:ChannelDimension"]}
{"id": "C05", "title": "Blocks tile the destination", "statement": "The blocks into which a multiplication is divided are non-empty, kernel-aligned, inside the (kernel-rounded) destination, pairwise disjoint, and together cover it: every destination entry belongs to exactly one block.", "quantifier": "all destination sizes, depths, kernel sizes, scalar sizes, thread counts and CPU cache sizes for which the computation has no integer overflow", "why_tests_cant": "The block map depends on heuristic scores of six integer parameters; tests check a handful of sizes.", "anchors": ["ruy/block_map.cc:MakeBlockMap", "ruy/block_map.cc:GetBlockMatrixCoords"]}
{"id": "C06", "title": "Every traversal order is a permutation of the blocks", "statement": "For each traversal order (linear, fractal Z, fractal U, Hilbert) the map from block index in [0, NumBlocks) to block coordinates is a bijection onto the block grid.", "quantifier": "all block maps with up to 2^32 square blocks, all traversal orders, all rectangularness values", "why_tests_cant": "Bit-twiddling decoders on up to 2^32 indices.", "anchors": ["ruy/block_map.cc:GetBlockByIndex", "ruy/block_map.cc:DecodeTraversalHilbert"]}
{"id": "C07", "title": "Consecutive blocks in a Hilbert traversal are neighbours", "statement": "In the Hilbert traversal order two consecutive block indices of a square grid always denote blocks that are adjacent (share an edge) in the grid, the locality property for which that order is chosen.", "quantifier": "all grid sizes 2^k x 2^k and all indices", "why_tests_cant": "Recursive geometric property; must hold at every scale.", "anchors": ["ruy/block_map.cc:DecodeTraversalHilbert"]}
{"id": "C08", "title": "Block-map construction is well defined", "statement": "Making a block map never divides by zero, shifts out of range, overflows a signed int or violates its own assertions, provided the sizes satisfy an explicit bound; the resulting map has one zero rectangularness, a thread count between one and the number of blocks, and kernel-multiple block sizes. Outside the bound (for example a product of two 16384 x 16384 float matrices) signed overflow, i.e. undefined behaviour, is reachable.", "quantifier": "all sizes, depths, kernel sizes, cache sizes, thread counts", "why_tests_cant": "Overflow needs huge matrices no unit test can allocate.", "anchors": ["ruy/block_map.cc:MakeBlockMap", "ruy/block_map.cc:GetTraversalOrder", "ruy/block_map.cc:GetCacheLocalityScore"]}
{"id": "C09", "title": "Thread count stays within the user's limit", "statement": "With max_num_threads >= 1 the number of threads used by a Mul is at least 1 and at most max_num_threads, equals 1 whenever the amount of work is below two work units in the default strategy, and equals max_num_threads when forced (up to the number of blocks). With max_num_threads <= 0, accepted by the setter, it is not positive.", "quantifier": "all sizes, strategies and limits", "why_tests_cant": "Ranges over all int triples.", "anchors": ["ruy/trmul.cc:GetTentativeThreadCount", "ruy/block_map.cc:MakeBlockMap", "ruy/context.h:set_max_num_threads"]}
{"id": "C10", "title": "Each block is computed exactly once", "statement": "In every interleaving of the worker threads, each block of the destination is computed by exactly one thread, exactly once, and when all threads have returned every block has been computed.", "quantifier": "all numbers of threads and blocks, all interleavings, all pack-ahead choices", "why_tests_cant": "Unbounded set of schedules.", "anchors": ["ruy/trmul.cc:TrMulTask::Run"]}
{"id": "C11", "title": "Packed data is complete before it is read", "statement": "In every interleaving, each block of packed data is written at most once, never while another thread reads or writes it, and a kernel only starts on a block when both packed operands are complete and their completion happens-before the kernel (acquire/release ordering of the per-block status), also when a failing compare-exchange reads a stale status.", "quantifier": "all numbers of threads and blocks, all interleavings, weak-memory reads of stale status values", "why_tests_cant": "Data races under weak memory are not observable reliably on test hardware.", "anchors": ["ruy/trmul.cc:TrMulTask::TryPack", "ruy/trmul.cc:TrMulTask::EnsurePacked"]}
{"id": "C12", "title": "Mul's workers never deadlock", "statement": "From every reachable state of the worker threads of a Mul, a thread that waits for a packed block waits for another thread that is itself running and not waiting; every fair execution terminates, with a bound on the number of non-spinning steps.", "quantifier": "all reachable states, all fair schedules", "why_tests_cant": "Liveness over infinite executions.", "anchors": ["ruy/trmul.cc:TrMulTask::EnsurePacked", "ruy/trmul.cc:TrMulTask::Run"]}
{"id": "C13", "title": "Execute runs every task exactly once before returning", "statement": "ThreadPool::Execute runs each of the n tasks exactly once, runs task 0 on the calling thread, and returns only after all of them have finished, for every sequence of Execute calls of varying sizes on the same pool.", "quantifier": "all task counts, all histories of Execute calls, all interleavings, spurious wakeups", "why_tests_cant": "Unbounded schedules and histories.", "anchors": ["ruy/thread_pool.cc:ThreadPool::ExecuteImpl", "ruy/thread_pool.cc:Thread"]}
{"id": "C14", "title": "No lost wakeups in the thread pool", "statement": "No interleaving of the calling thread and the workers, including those in which a worker is between testing its state and blocking on the condition variable, leaves the caller or a worker with pending work blocked forever; the destructor always joins every worker.", "quantifier": "all interleavings and histories, spin timeouts expiring at any point", "why_tests_cant": "Lost wakeups are rare races.", "anchors": ["ruy/wait.cc:Wait", "ruy/thread_pool.cc:ChangeStateFromOutsideThread", "ruy/blocking_counter.cc"]}
{"id": "C15", "title": "BlockingCounter releases its waiter exactly at zero", "statement": "BlockingCounter::Wait returns only when the number of DecrementCount calls since Reset has reached the initial count, and DecrementCount returns true exactly for the call that reaches zero.", "quantifier": "all counts and interleavings", "why_tests_cant": "Schedules.", "anchors": ["ruy/blocking_counter.cc"]}
{"id": "C16", "title": "Worker threads are created lazily and kept", "statement": "The number of worker threads after a history of Execute calls is the maximum over the history of (task count - 1), never shrinks before destruction, and no thread is created for single-task calls. A task count of zero or less (only checked in debug builds) is converted to a huge unsigned number of threads.", "quantifier": "all histories of Execute calls", "why_tests_cant": "Unbounded histories.", "anchors": ["ruy/thread_pool.cc:ThreadPool::CreateThreads", "ruy/thread_pool.h:ThreadPool::Execute"]}
{"id": "C17", "title": "Packed layout is collision-free and in bounds", "statement": "The position of entry (row, col) in a packed matrix is an injective function of (row, col) onto [0, number of packed entries), for every kernel layout; column ranges aligned to the kernel occupy disjoint contiguous ranges, so that different blocks can be packed concurrently.", "quantifier": "all packed sizes that are multiples of the kernel size, all power-of-two kernel layouts, both orders", "why_tests_cant": "Infinite family of sizes and layouts.", "anchors": ["ruy/mat.h:Offset", "ruy/mat.h:FlatSize"]}
{"id": "C18", "title": "Packing preserves the source and pads with the zero point", "statement": "After packing, each packed entry inside the source equals the converted source entry, each entry of the padding equals the packed zero point, and the stored sum of a column is the sum of all packed entries of that column; packing block by block in any order gives the same buffer as packing everything at once, and touches nothing else.", "quantifier": "all source shapes, orders, strides, kernel layouts, column ranges and orders of blocks", "why_tests_cant": "Infinite family.", "anchors": ["ruy/pack.h:PackImpl::Run", "ruy/pack.h:RunPack"]}
{"id": "C19", "title": "The row-major float fast pack equals the generic pack", "statement": "The memcpy-based packing of row-major float matrices into 1xN kernel layouts produces exactly the buffer produced by the generic packing routine.", "quantifier": "all shapes, strides, column ranges and kernel widths", "why_tests_cant": "Infinite family; edge columns.", "anchors": ["ruy/pack_common.h:MemcpyRowMajorFloatPackImpl"]}
{"id": "C20", "title": "uint8 to int8 conversion is exact", "statement": "Converting uint8 operands to the internal int8 representation together with their zero points leaves every real value (entry minus zero point) unchanged, so results are unaffected; XOR with 0x80 as used in SIMD packing is the same conversion.", "quantifier": "all entries and zero points", "why_tests_cant": "Small domain for entries but composed with all products; relied on by every SIMD path.", "anchors": ["ruy/pack_common.h:Pack", "ruy/pack_x86.h:kInputXor"]}
{"id": "C21", "title": "Quantized multiplication rounds to nearest", "statement": "Multiplying an int32 accumulator by a quantized multiplier (fixedpoint, exponent) returns the value of x*fixedpoint*2^(exponent-31) rounded to the nearest integer, ties upward, is monotone in x, and has no undefined behaviour for exponents in [-31, 30]; results outside int32 are only caught in debug builds.", "quantifier": "all int32 accumulators, multipliers and exponents", "why_tests_cant": "2^64 x 63 inputs.", "anchors": ["ruy/apply_multiplier.cc:MultiplyByQuantizedMultiplier"]}
{"id": "C22", "title": "SIMD requantization is bit-exact", "statement": "The requantization sequences of the AVX, AVX2 and AVX-512 kernels (64-bit multiply, unsigned-shift emulation, offset compensation) and the doubling-high-multiply sequence described for NEON give, lane by lane, the same int32 as the reference quantized multiplication, for the exponents and accumulators for which the reference result fits in int32.", "quantifier": "all accumulators, multipliers, exponents", "why_tests_cant": "2^64 inputs per exponent.", "anchors": ["ruy/kernel_avx2_fma.cc:Kernel8bitAvx2Impl", "ruy/kernel_avx512.cc:Kernel8bitAvx512", "ruy/kernel_avx.cc:Kernel8bitAvxImpl", "ruy/apply_multiplier.cc"]}
{"id": "C23", "title": "Results are clamped", "statement": "Every stored entry lies between clamp_min and clamp_max when clamp_min <= clamp_max (clamp_min wins otherwise), with default bounds conversion to the destination type never wraps, and accumulators already in range are stored unchanged.", "quantifier": "all accumulators, bounds and destination types", "why_tests_cant": "All values.", "anchors": ["ruy/kernel.h:Kernel::Run", "ruy/mul_params.h:MulParams"]}
{"id": "C24", "title": "Default parameters mean no scaling", "statement": "A default-constructed MulParams computes the plain product: no bias, no scaling, clamp to the destination range. (Documented in mul_params.h; false for integer destinations narrower than the accumulator, where the default multiplier is zero.)", "quantifier": "all inputs", "why_tests_cant": "Documentation claim about all inputs.", "anchors": ["ruy/mul_params.h:MulParams", "ruy/apply_multiplier.h:ApplyMultiplier"]}
{"id": "C25", "title": "Allocator blocks are aligned, disjoint and live", "statement": "Blocks returned by the allocator between two FreeAll calls are 64-byte aligned, at least as large as requested, pairwise disjoint, and lie inside memory obtained from the system and not yet returned to it; every system block is freed exactly once.", "quantifier": "all histories of allocations and FreeAll, all sizes, all behaviours of the system allocator returning fresh aligned blocks", "why_tests_cant": "Unbounded histories.", "anchors": ["ruy/allocator.cc", "ruy/allocator.h"]}
{"id": "C26", "title": "Allocator reaches a steady state", "statement": "After a round of allocations followed by FreeAll, any later round whose total rounded size does not exceed that of the first is served without any call to the system allocator, in whatever order.", "quantifier": "all rounds of allocations", "why_tests_cant": "Unbounded histories.", "anchors": ["ruy/allocator.cc:Allocator::FreeAll"]}
{"id": "C27", "title": "Alias-avoiding allocation", "statement": "A block allocated avoiding aliasing with a pointer starts at an address whose distance from that pointer, modulo 1024, is between 256 and 768, is aligned, and leaves the requested number of bytes inside the allocated block.", "quantifier": "all pointers, sizes and allocator states", "why_tests_cant": "All addresses.", "anchors": ["ruy/allocator.cc:Allocator::AllocateBytesAvoidingAliasingWith"]}
{"id": "C28", "title": "Allocator behaviour when the system is out of memory", "statement": "If the system allocator fails, the allocator reports the failure by a null block and never hands out memory it does not own. (False: a failed growth inside FreeAll is not noticed and the following allocations return addresses near zero.)", "quantifier": "all histories including allocation failures", "why_tests_cant": "Failure injection at every point.", "anchors": ["ruy/allocator.cc:Allocator::FreeAll", "ruy/allocator.cc:Allocator::AllocateFast"]}
{"id": "C29", "title": "The prepacked cache is a least-recently-used map", "statement": "The prepacked cache behaves as a map from keys to packed matrices: a lookup hits iff the key was inserted and not ejected since, hits return the buffers given at insertion, and each ejection removes the entry whose last use is oldest, whatever the iteration order of the hash table; keys that are equal have equal hashes.", "quantifier": "all histories of lookups, all keys, all hash-table iteration orders", "why_tests_cant": "Unbounded histories.", "anchors": ["ruy/prepacked_cache.cc:PrepackedCache::Get", "ruy/prepacked_cache.cc:PrepackedCache::EjectOne"]}
{"id": "C30", "title": "Prepacked cache byte accounting", "statement": "BuffersBytes equals the number of bytes of the buffers currently held by the cache. (True for integer matrices. False for floating-point ones, whose ejection subtracts bytes of sums that were never allocated.)", "quantifier": "all histories of lookups", "why_tests_cant": "Unbounded histories.", "anchors": ["ruy/prepacked_cache.cc:PrepackedCache::EjectOne", "ruy/prepacked_cache.cc:AllocateBuffers"]}
{"id": "C31", "title": "Prepacked cache capacity", "statement": "After each lookup the bytes held are at most the configured maximum, unless the cache holds a single matrix larger than the maximum. (True for integer matrices; false in general for floating-point ones.)", "quantifier": "all histories, all capacities", "why_tests_cant": "Unbounded histories.", "anchors": ["ruy/prepacked_cache.cc:PrepackedCache::EjectUntilRoomFor"]}
{"id": "C32", "title": "Prepacked cache buffers are freed exactly once", "statement": "Each buffer allocated for the cache is freed at most once, never while an entry refers to it, and all are freed when the cache is destroyed.", "quantifier": "all histories of lookups followed by destruction", "why_tests_cant": "Unbounded histories.", "anchors": ["ruy/prepacked_cache.cc:~PrepackedCache", "ruy/prepacked_cache.cc:FreeBuffers"]}
{"id": "C33", "title": "Using a cached operand does not change results", "statement": "A Mul whose operand is served from the prepacked cache gives the same result as one that packs it, provided the source data is unchanged. (True for lookups with the same source description; false if the same address is reused with another storage order or stride, or dimensions rounding to the same packed size, since those are not part of the key.)", "quantifier": "all histories of multiplications with cacheable operands", "why_tests_cant": "Unbounded histories and key collisions.", "anchors": ["ruy/prepacked_cache.h:Key", "ruy/prepare_packed_matrices.cc"]}
{"id": "C34", "title": "Cached operands stay alive during the multiplication", "statement": "The packed buffers used by a multiplication are not freed before it completes. (True if at most one operand is cached; false when both are and the second lookup ejects the first.)", "quantifier": "all histories, capacities and operand sizes", "why_tests_cant": "Needs a cache near capacity with particular sizes.", "anchors": ["ruy/prepare_packed_matrices.cc:PreparePackedMatrices", "ruy/prepacked_cache.cc:PrepackedCache::Get"]}
{"id": "C35", "title": "Cache policy is obeyed", "statement": "An operand is taken from or put in the prepacked cache exactly when its cache policy says so for the given shapes: never, always, or when the other operand is narrow enough; with policy never, the cache is not modified by a Mul.", "quantifier": "all policies, shapes and kernel widths", "why_tests_cant": "All shapes.", "anchors": ["ruy/prepare_packed_matrices.cc:ShouldCache"]}
{"id": "C36", "title": "Short per-channel buffers are safe", "statement": "When user-provided per-channel arrays (bias, multipliers) are shorter than what kernels read, kernels read from a private copy that starts with the user's values and is zero-padded; no read of the user's arrays goes beyond the capacity the user's size implies, and the advisory is raised exactly in that case.", "quantifier": "all channel counts, kernel roundings, sets of per-channel parameters", "why_tests_cant": "Overreads depend on all size/rounding combinations.", "anchors": ["ruy/create_trmul_params.h:EnsurePerChannelBuffersLargeEnough"]}
{"id": "C37", "title": "Code-path selection", "statement": "The path used by a Mul is a single path, compiled in, enabled at run time, and the most significant such path; after set_runtime_enabled_paths with any set, the portable path is always available, and kNone restores detection. (With the RUY_PATHS environment variable naming only non-compiled paths, no path exists and the selection is undefined.)", "quantifier": "all sets of compiled, enabled and detected paths", "why_tests_cant": "2^24 combinations of sets plus environment.", "anchors": ["ruy/ctx.cc:Ctx::SelectPath", "ruy/ctx.cc:Ctx::GetRuntimeEnabledPaths", "ruy/ctx.cc:Ctx::SetRuntimeEnabledPaths", "ruy/path.h"]}
{"id": "C38", "title": "Tuning resolution", "statement": "The tuning used is the explicitly requested one if any; otherwise it is never 'auto', is re-evaluated at most once per expiry period, and a reported value is never older than the period.", "quantifier": "all sequences of calls and clock values", "why_tests_cant": "Unbounded histories.", "anchors": ["ruy/tune.cc:TuningResolver::Resolve"]}
{"id": "C39", "title": "Performance advisories describe the last Mul only", "statement": "After a Mul, performance_advisory reports exactly the conditions raised by that Mul, independently of earlier ones.", "quantifier": "all histories of Mul calls", "why_tests_cant": "Unbounded histories.", "anchors": ["ruy/ctx.cc:Ctx::set_performance_advisory", "ruy/frontend.h:MulFrontEnd"]}
{"id": "C40", "title": "Cache parameters are safe lower bounds", "statement": "The local and last-level cache sizes used for blocking are, for every processor in the system, not larger than that processor's caches allow, and local is at most last-level; without detection the fallback values are used.", "quantifier": "all processor descriptions", "why_tests_cant": "All hardware topologies.", "anchors": ["ruy/cpuinfo.cc:QueryCacheParams"]}
{"id": "C41", "title": "Floating-point environment is restored", "statement": "Mul leaves the caller's denormal-flushing mode as it was, and all kernels run with denormals suppressed, on every thread.", "quantifier": "all initial FPU states and interleavings", "why_tests_cant": "All control-register states.", "anchors": ["ruy/denormal.cc", "ruy/trmul.cc:TrMul", "ruy/thread_pool.cc:Thread::ThreadFuncImpl"]}
{"id": "C42", "title": "Power-of-two arithmetic helpers", "statement": "floor_log2, ceil_log2, pot_log2, is_pot, round_down_pot and round_up_pot compute the mathematical functions they are named after, for every argument in their domain.", "quantifier": "all values of the integer type in the documented domain", "why_tests_cant": "All 2^31 or 2^63 arguments.", "anchors": ["ruy/size_util.h"]}
{"id": "C43", "title": "Empty products", "statement": "Multiplying matrices with a zero dimension gives the same result as the reference: an empty destination, or bias-only entries for zero depth. (False: the allocation of empty packed buffers returns null and the library aborts.)", "quantifier": "all shapes with a zero dimension", "why_tests_cant": "Edge shapes over all layouts.", "anchors": ["ruy/prepare_packed_matrices.cc:PreparePackedMatrices", "ruy/allocator.cc:Allocator::AllocateBytes"]}
{"id": "C44", "title": "Per-thread resources are private", "statement": "Each thread taking part in a Mul uses its own allocator and tuning state; the set of per-thread resources only grows and existing ones keep their identity over a history of Mul calls.", "quantifier": "all histories of thread counts", "why_tests_cant": "Unbounded histories.", "anchors": ["ruy/ctx.cc:Ctx::EnsureThreadSpecificResources", "ruy/trmul.cc:TrMul"]}
{"id": "C45", "title": "Floating-point Mul agrees bit for bit with the reference", "statement": "For floating-point scalars with zero points 0, the portable code paths of ruy::Mul store exactly the bits ReferenceMul stores (signed zeros, infinities and NaN-ness included), whatever the kernel layout, padding of the depth, blocking, threads and schedule: packing, padding with zeros and the transposition of row-major products do not change any rounding.", "quantifier": "all shapes, strides, orders, entries (NaN and infinities included), kernel layouts, configurations, schedules and precisions", "why_tests_cant": "Tests compare with tolerances on random values; signed zeros and infinities in padded products are never covered exhaustively.", "anchors": ["ruy/kernel.h:Kernel::Run", "ruy/pack_common.h:Pack", "ruy/reference_mul.h:ReferenceMul"]}
{"id": "C46", "title": "Hashing a cache key is defined behaviour", "statement": "The hash of a prepacked-cache key is computed without integer overflow, for every packed layout. (False: the sum of weighted dimensions is computed in int and overflows for about 165 million packed columns; true when that sum fits.)", "quantifier": "all keys", "why_tests_cant": "Needs operands of more than a hundred million entries.", "anchors": ["ruy/prepacked_cache.cc:PrepackedCache::KeyHash::operator()"]}
{"id": "C48", "title": "Threads of a Mul only read the processor description", "statement": "The lazily initialized CpuInfo is shared by all threads of a context without a lock. By the time the tasks of a multiplication run, it has been initialized by the calling thread, so that no task changes it, whatever the history of the context and the number of threads.", "quantifier": "all histories of operations, machines, thread counts, times", "why_tests_cant": "A race on first use shows up only under rare schedules and on a fresh context.", "anchors": ["ruy/trmul.cc:TrMul", "ruy/cpuinfo.cc:CpuInfo::EnsureInitialized", "ruy/tune.cc:TuningResolver::ResolveNow"]}
{"id": "C49", "title": "The 8-bit x86 kernels compute the exact product", "statement": "Given packed operands whose columns hold two matrices (int8 on the left, int8 or, with AVX2 and AVX-512, int16 on the right) and right sums modulo 2^32, the 8-bit kernels for AVX, AVX2 and AVX-512 store in every entry of the requested block that lies in the destination the dot product corrected for zero points plus the bias, modulo 2^32; for quantized destinations this is scaled with rounding after the multiplication and after the shift, offset and clamped. They change nothing else, read and write only inside the buffers, and are free of undefined behaviour, provided the products of eight or sixteen columns with the strides in bytes and of the zero points with the depth are int32.", "quantifier": "all sizes, depths, packed contents, zero points, biases, per-channel or uniform multipliers, destination types, layouts, blocks and instruction sets", "why_tests_cant": "Each kernel has several store paths (full, partial, single column, four types), saturating and widening instructions, and lane permutations; a wrong lane or a saturation shows up only for particular values at particular positions.", "anchors": ["ruy/kernel_avx2_fma.cc:Kernel8bitAvx2Impl", "ruy/kernel_avx2_fma.cc:Kernel8bitAvx2SingleColImpl", "ruy/kernel_avx512.cc:Kernel8bitAvx512", "ruy/kernel_avx.cc:Kernel8bitAvxImpl", "ruy/kernel_x86.h"]}
{"id": "C50", "title": "Vector and portable kernels agree to within one unit", "statement": "On the same packed operands, the 8-bit x86 kernels and the portable kernel write identical int32 destinations when the destination's zero point is 0. For quantized destinations, when accumulators and their left shifts are int32, each byte or word the vector kernel stores is that of the portable kernel or one more, and the same where the exponent is not negative; so switching between paths moves no entry by more than one unit.", "quantifier": "all packed operands, parameters, destinations and blocks the vector kernels accept", "why_tests_cant": "The paths are compared in tests on random data with a tolerance; that the difference is never more than one, and never in int32, needs all inputs.", "anchors": ["ruy/kernel_x86.h", "ruy/kernel.h:Kernel", "ruy/apply_multiplier.cc"]}
{"id": "C51", "title": "The x86 packing functions pack what the portable one packs", "statement": "The functions that pack 8-bit and 16-bit integers for AVX, AVX2 and AVX-512, from column-major and from row-major sources, store in every column of the source inside the requested range the source's values, shifted from unsigned to signed and followed by the zero point down to the rounded number of rows, in the positions of the kernel's layout, and the columns' sums modulo 2^32: what the portable function stores. They write nothing outside the columns of the range, only values of the packed type, and stay inside the buffers, provided that with blocks of 16 columns the zero point times the rows is an int32, and that row-major sources come with sums, their packed zero point and at most 2^24 rows.", "quantifier": "all source matrices, sizes, strides, zero points, ranges of whole blocks, instruction sets and source types", "why_tests_cant": "The functions interleave four rows by shuffles, with separate code for full and partial blocks, trailing rows, missing columns (a buffer of zeros with stride 0) and sums; a wrong lane shows up only at some sizes and values.", "anchors": ["ruy/pack_x86.h:PackImpl", "ruy/pack_avx2_fma.cc:Pack8bitColMajorForAvx2Packer", "ruy/pack_avx2_fma.cc:Pack8bitRowMajorForAvx2", "ruy/pack_avx.cc", "ruy/pack_avx512.cc"]}
{"id": "C52", "title": "Mul on the x86 paths computes the product", "statement": "ruy::Mul of 8-bit operands (one of them possibly int16 on AVX2 and AVX-512), with the vector packing functions and vector kernels of AVX, AVX2 or AVX-512 in place of the portable ones, is defined, terminates under fair scheduling, and leaves in every entry of the destination exactly the int32 accumulator, or for quantized destinations the correctly rounded, offset and clamped accumulator or one more (exactly that value where the exponent is not negative); it changes no other byte of the destination. Hence its result never depends on the schedule, the number of threads, the configuration or fresh memory, and moves no entry by more than one unit from the portable path's.", "quantifier": "all operands, storage orders, strides, zero points, biases, multipliers, configurations, schedules, contents of fresh memory and three x86 paths, within the stated bounds on sizes", "why_tests_cant": "Tests sample sizes and compare paths with a tolerance on the machine's own instruction set; block shapes, partial blocks, garbage in padding columns and thread interleavings only combine in some cases.", "anchors": ["ruy/create_trmul_params.h:PopulateTrMulParams", "ruy/pack_x86.h", "ruy/kernel_x86.h", "ruy/frontend.h", "ruy/trmul.cc"]}
{"id": "C53", "title": "Mul of floats on the x86 paths computes a specified value in every entry", "statement": "ruy::Mul of floats with the packing functions and kernels of AVX, AVX2 or AVX-512 is defined, terminates under fair scheduling, and leaves in every entry of the destination, bit for bit, the bias of its channel plus the products in increasing depth (a rounded product and a rounded sum on AVX, one rounding per multiply-add on the others), limited to the upper and then the lower bound; it changes no other element of the destination. Hence results do not depend on the schedule, the number of threads or fresh memory; they are the same on AVX2 and AVX-512 and for all storage orders and strides (on AVX unless a bias is -0); they are never NaN and lie within the bounds; and on AVX without a bias they are those of ReferenceMul wherever that is not NaN.", "quantifier": "all operands (including infinities, NaN, signed zeros and denormals), storage orders, strides, biases, bounds, configurations, schedules, contents of fresh memory and three x86 paths, with a destination stride below 2^29", "why_tests_cant": "Tests compare floats with a tolerance on the machine's own instruction set, so they see neither the order of additions nor the number of roundings nor signs of zeros, and partial blocks, masks and single-column code only combine at some sizes.", "anchors": ["ruy/kernel_x86.h:KernelFloatAvxCommon", "ruy/kernel_avx512.cc:KernelFloatAvx512", "ruy/kernel_common.h:MakeKernelParamsFloat", "ruy/pack_x86.h:PackFloatColMajorForAvx", "ruy/pack_avx512.cc", "ruy/create_trmul_params.h:PopulateTrMulParams"]}
{"id": "C54", "title": "Mul of floats that are small integers times powers of two is exact and the same on every path", "statement": "If the entries of the left-hand side are integers times 2^p, those of the right-hand side integers times 2^q, the biases integers times 2^(p+q) and not -0, 2^(p+q) is between 2^-149 and 2^103, and for every entry of the destination the magnitudes of the products and the bias sum to at most 2^24 in units of 2^(p+q), then ruy::Mul of floats stores in every entry the exact result, clamped to the bounds: on the portable path and on AVX, AVX2 and AVX-512, whatever the storage, threads, schedule and order of additions. Hence all paths agree bit for bit, although in general they do not (C53).", "quantifier": "all such operands of any shape, storage order and stride, both roundings (fused or not), denormal scales, bounds, configurations, schedules, contents of fresh memory and paths", "why_tests_cant": "Tests use a few random matrices and compare with tolerances; that nothing is rounded in any partial sum is a statement about all of them, and it includes signs of zeros and denormal scales.", "anchors": ["ruy/kernel.h:Kernel::Run", "ruy/kernel_x86.h:KernelFloatAvxCommon", "ruy/kernel_avx512.cc:KernelFloatAvx512", "ruy/reference_mul.h:ReferenceMul"]}
{"id": "C55", "title": "The profiler's samples are the annotated scopes that were open", "statement": "After any sequence of well-nested ScopeLabel constructions and destructions, a thread's stack holds exactly the labels entered and not left, in order, each with its format and its arguments, whatever its memory held before; the program is stopped exactly if more than 64 are open at some time. A stack written to the sample buffer is read back the same, whatever follows it, and takes 8 + 32 times its size bytes, as GetBufferSize says. Sampling a list of stacks appends exactly those that are not empty, in order, so that the buffer can be read to its end; this is defined exactly as long as the buffer's size fits in an int. (That a profile is always defined is false: a profile longer than 2^31 bytes overflows.)", "quantifier": "all sequences of scopes with any formats and up to four int arguments, previous memory contents, lists of stacks and buffers", "why_tests_cant": "The test samples a running program and can only check rough proportions of the counts; stale arguments, the exact layout, the limit of 64 and buffers of 2^31 bytes are not seen.", "anchors": ["ruy/profiler/instrumentation.h:Label", "ruy/profiler/instrumentation.h:Stack", "ruy/profiler/instrumentation.cc:CopyToBuffer", "ruy/profiler/instrumentation.cc:ReadFromBuffer", "ruy/profiler/profiler.cc:ScopeProfile::Sample"]}
{"id": "C56", "title": "A tree view has for each thread and path the number of samples", "statement": "TreeView::Populate on the buffer of a profile gives one tree for each thread id that was sampled, in increasing order; the listing of the tree has, for each non-empty beginning of a sample of the thread, a node with the number of samples that begin so; an additional leaf [other] below a node that has children counts the samples that end at the node, if there are any; there is nothing else. Children are in order of decreasing weight, the root counts all samples of the thread and is labelled with the id and that number. Labels are compared by the text of the format and the arguments, not by address. All weights, and all sums of weights of chosen nodes of a tree, fit in an int. (That each path occurs once is false: a program's own label [other] is not told from the additional leaves.)", "quantifier": "all lists of stacks that can be sampled, all formats and arguments, both build modes, and any function std::sort that sorts", "why_tests_cant": "Samples are taken at random times, so tests can only check weights approximately, for one program.", "anchors": ["ruy/profiler/treeview.cc:TreeView::Populate", "ruy/profiler/treeview.cc:AddStack", "ruy/profiler/treeview.cc:AddOther", "ruy/profiler/treeview.cc:SortNode"]}
{"id": "C57", "title": "Weights of chosen nodes and collapsed views", "statement": "WeightBelowNodeMatchingFunction on the tree of a thread is the number of chosen levels in the samples of that thread (plus all samples if the root's label is chosen); if chosen scopes do not nest it is the number of samples with a chosen scope. CollapseNodesMatchingFunction gives a view with the same threads in which exactly the nodes deeper than the given depth below a topmost chosen node are missing, and the others have the same labels, weights and order; CollapseNode limits the depth of a tree and changes nothing else. (That the weight is at most that of the root is false with recursion.)", "quantifier": "all profiles, all choices of labels that depend on the format's text and the arguments (so the formatted and unformatted variants), all depths", "why_tests_cant": "The test looks at one program with known proportions and a tolerance.", "anchors": ["ruy/profiler/treeview.cc:WeightBelowNodeMatchingFunction", "ruy/profiler/treeview.cc:CollapseNode", "ruy/profiler/treeview.cc:CollapseNodesMatchingFunction", "ruy/profiler/treeview.cc:DepthOfTreeBelow"]}
{"id": "C58", "title": "Profiling threads while they run is safe and reports what was open", "statement": "In every interleaving of threads that begin, end, enter and leave annotated scopes with profiles that are started, sample round after round and finish, with profiles of at most 2^31 - 1 bytes: no execution uses the stack of a thread that is gone or is otherwise undefined; the program is stopped only where a 65th nested scope is entered or a profile is started while another runs; each finished view is the view (C56; thread ids count modulo 2^32) of exactly the scopes that were open in each thread at the moment it was looked at; and each round looks exactly once at each thread that exists, oldest first, while no thread begins or ends.", "quantifier": "all finite executions with any number of threads, scopes, rounds and profiles", "why_tests_cant": "Data races and uses of dead stacks depend on the interleaving of threads with a sampling thread that runs once per millisecond.", "anchors": ["ruy/profiler/profiler.cc:ScopeProfile::ThreadFunc", "ruy/profiler/profiler.cc:ScopeProfile::Start", "ruy/profiler/profiler.cc:ScopeProfile::Finish", "ruy/profiler/instrumentation.h:ThreadStack", "ruy/profiler/instrumentation.cc:ThreadStack::ThreadStack"]}
{"id": "C59", "title": "Float multiply-add rounds exact results once", "statement": "A product, a sum and a fused multiply-add of finite floats is the exact result rounded to nearest, ties to even, with gradual underflow, and infinity from 2^emax on; the fused operation rounds once, after the addition. Exact zeros have the sign the standard prescribes. NaN and infinite operands of the fused operation give what the standard prescribes. The rounding of a number is unique, and floats are their own.", "quantifier": "all precisions and exponent ranges, all operands", "why_tests_cant": "Ties, double rounding and subnormal results are a vanishing part of 2^96 operand triples.", "anchors": ["ruy/kernel_avx.cc:MulAdd", "ruy/kernel_avx2_fma.cc:MulAdd", "ruy/kernel_avx512.cc:KernelFloatAvx512", "ruy/kernel.h:Kernel::Run"]}
{"id": "C60", "title": "Error bound of float multiplications", "statement": "For finite operands and biases, as long as the sum w of the magnitudes of the products and the bias (plus 2^-126 per product) times (1 + 2^-24)^n is below 2^128, every entry that Mul stores is the clamped value of a float within ((1 + 2^-24)^n - 1) * w of the exact product, where n is the depth on AVX2 and AVX-512, one more on AVX and two more on the portable path; with finite bounds it is that close to the exact product clamped to them. Without clamping and for depths below 2^23 the error is at most (depth + 1) * 2^-23 * w, and two x86 paths differ by at most twice that. (The error is not small relative to the product itself: refuted by cancellation.)", "quantifier": "all finite operands, shapes, depths, storage orders, numbers of threads and schedules", "why_tests_cant": "Tests compare paths with a tolerance chosen by experience on random data.", "anchors": ["ruy/ruy.h:Mul", "ruy/kernel_avx.cc:KernelFloatAvx", "ruy/kernel_avx2_fma.cc:KernelFloatAvx2", "ruy/kernel_avx512.cc:KernelFloatAvx512", "ruy/kernel.h:Kernel::Run", "ruy/test.h:Agree"]}
{"id": "C61", "title": "AArch64 packing is packing", "statement": "For a column-major source and whole kernel blocks, the three families of packing functions for AArch64 (int8/uint8 in 16x4 blocks for kNeon, in 4x8 blocks for kNeonDotprod, float in 1x8 blocks), with both tunings, terminate without reading or writing outside the source, the packed matrix and the sums, whatever the registers and the upper halves of the int operands hold before. They write the entries, shifted to int8, of the columns asked for, the packed zero point (0 for floats) in every padding row and column, and the sums of the packed columns; all other memory keeps its contents. For bytes the buffers are then the same, cell by cell, as after the portable function. With blocks of eight columns this needs the offset of the last block of four, possibly all padding, to fit in an int (refuted otherwise).", "quantifier": "all sources, strides, zero points, ranges of blocks, tunings, initial registers and memories", "why_tests_cant": "The tail code distinguishes row counts modulo 16 and columns left modulo 4 or 8, in six hand-scheduled routines; tests on one machine run two of them, and reads past a row end are silent.", "anchors": ["ruy/pack_arm.cc:Pack8bitColMajorForNeon", "ruy/pack_arm.cc:Pack8bitColMajorForNeonA55ish", "ruy/pack_arm.cc:Pack8bitColMajorForNeonDotprod", "ruy/pack_arm.cc:Pack8bitColMajorForNeonDotprodA55ish", "ruy/pack_arm.cc:PackFloatColMajorForNeon", "ruy/pack_arm.cc:PackFloatColMajorForNeonA55ish", "ruy/pack_arm.h:PackImpl::Run"]}
{"id": "C62", "title": "Float multiplication on AArch64", "statement": "Mul of floats on the paths kNeon and kNeonDotprod, made of the front end, the worker threads, the assembly packing functions and the four assembly kernels, is defined and terminates, whatever the registers and fresh memory hold and whichever processors the threads run on. Every entry of the destination is, bit for bit, the products added to +0 with one rounding each, plus the bias, clamped below and then above (NaN wins); the order is increasing depth, except that the unrolled kernel delays one product by three places for depths of at least 8 and three quarters of each 8x8 block. Nothing else is written. Hence the results of the two paths, of all storage orders, threads and schedules are the same if the kernels are unrolled alike or the depth is below 8 (refuted otherwise: they depend on the processor and on the place in the block); equal rows and columns give equal entries under the same conditions; NaN operands give NaN; entries are within the bounds; and without bias they are those of AVX2 and AVX-512 up to NaN and the sign of zeros.", "quantifier": "all operands, shapes, depths, strides, storage orders, biases, bounds, numbers of threads, schedules, tunings per thread, initial registers and memories", "why_tests_cant": "Tests run on one kind of processor at a time with tolerances that hide the order of additions; which kernel computes a block depends on the core a thread happens to run on.", "anchors": ["ruy/ruy.h:Mul", "ruy/kernel_arm64.cc:KernelFloatNeon", "ruy/kernel_arm64.cc:KernelFloatNeonX1", "ruy/kernel_arm64.cc:KernelFloatNeonA55ish", "ruy/kernel_arm64.cc:KernelFloatNeonDotprodA55ish", "ruy/kernel_arm.h:Kernel::Run", "ruy/pack_arm.h:PackImpl::Run", "ruy/trmul.cc:TrMulTask", "ruy/tune.cc:TuningResolver::Resolve"]}
{"id": "C63", "title": "Error bound and exactness of float multiplication on AArch64", "statement": "For finite operands and biases, with w the sum of the magnitudes of the products and the bias (plus 2^-126 per product) and w * (1 + 2^-24)^(depth + 1) below 2^128, every entry that Mul stores on the AArch64 paths is the clamped value of a float within ((1 + 2^-24)^(depth + 1) - 1) * w of the exact product, whatever the order of additions of the kernels used; with finite bounds it is that close to the exact product clamped. Without clamping and for depths below 2^23 the error is at most (depth + 1) * 2^-23 * w, and results of AArch64 and x86 differ by at most twice that. If operands and biases are integers times powers of two and all sums of magnitudes at most 2^24, the exact product is stored, hence the same on all AArch64 kernels and on x86.", "quantifier": "all finite operands, shapes, depths, storage orders, numbers of threads, schedules and tunings per thread", "why_tests_cant": "Tests compare with a tolerance chosen by experience on random data, on the machine at hand.", "anchors": ["ruy/ruy.h:Mul", "ruy/kernel_arm64.cc:KernelFloatNeon", "ruy/kernel_arm64.cc:KernelFloatNeonX1", "ruy/kernel_arm64.cc:KernelFloatNeonA55ish", "ruy/kernel_arm64.cc:KernelFloatNeonDotprodA55ish", "ruy/test.h:Agree"]}
{"id": "C64", "title": "The AArch64 asm statements change only what they declare", "statement": "Whatever registers, flags and memory an AArch64 asm statement starts from, if it ends without undefined behaviour then general registers that are neither in-out operands nor clobbered (so also input operands), and vector registers that are not clobbered, have the values they had; statements that change the flags or memory list \"cc\" and \"memory\". This holds of seven packing and ten kernel statements; Kernel8bitNeonDotprod1Col changes v20, which it does not declare.", "quantifier": "all eighteen asm statements for AArch64, all initial states and all executions of any length", "why_tests_cant": "Whether the compiler keeps anything in a register across the statement depends on compiler, flags and inlining; a test passes as long as it happens not to.", "anchors": ["ruy/kernel_arm64.cc:Kernel8bitNeonDotprod1Col", "ruy/kernel_arm64.cc:Kernel8bitNeon", "ruy/kernel_arm64.cc:KernelFloatNeon", "ruy/pack_arm.cc:Pack8bitColMajorForNeon"]}
{"id": "C65", "title": "What the AArch64 dot-product kernel for single columns computes", "statement": "Called by Kernel<kNeonDotprod> for a destination of one column with channels along the rows, on whole blocks of 8 rows with any positive depth, Kernel8bitNeonDotprod1Col ends without undefined behaviour and without reading or writing outside its buffers; every destination entry of the range is the exact accumulator (products of the zero-offset operands plus bias) modulo 2^32 for int32, and otherwise the accumulator multiplied by its channel's multiplier and rounded to nearest once, plus the zero point, clamped to the bounds; no other entry changes. It needs what the C++ around it does not ensure by itself: the upper halves of the registers holding row and col are 0, sums of the left-hand side for int32 results, depth above 0, and ordered bounds (each shown necessary).", "quantifier": "all packed operands, depths, ranges of rows, zero points, biases, per-channel or common multipliers, destination types, tunings, and leftover contents of registers, flags and dst_tmp_buf", "why_tests_cant": "The code is assembly run only on some machines; leftover register contents, partial blocks and the four destination types multiply, and tests compare with a tolerance.", "anchors": ["ruy/kernel_arm64.cc:Kernel8bitNeonDotprod1Col", "ruy/kernel_arm.h:Kernel<Path::kNeonDotprod>", "ruy/kernel_common.h:MakeKernelParams8bit"]}
{"id": "C66", "title": "What the AArch64 kernels with dot products compute", "statement": "Called by Kernel<kNeonDotprod> on whole blocks of 8 rows and 8 columns with any positive depth, for any tuning but kA55ish, Kernel8bitNeonDotprodX1, Kernel8bitNeonDotprod and Kernel8bitNeonDotprod1Col end without undefined behaviour and without reading or writing outside their buffers; every destination entry of the range is the exact accumulator (products of the zero-offset operands plus bias) modulo 2^32 for int32, and otherwise the accumulator multiplied by its channel's multiplier and rounded to nearest once, plus the zero point, clamped to the bounds; channels may run along rows or columns; no other entry changes. So the tunings generic and X1 give the same results. As for C65, the upper halves of the registers holding row and col must be 0.", "quantifier": "all packed operands, depths, ranges of rows and columns, strides, zero points, biases, channel dimensions, per-channel or common multipliers, destination types, and leftover contents of registers, flags and dst_tmp_buf", "why_tests_cant": "About a thousand instructions with four destination types, full and partial blocks, optional sums, biases and channels: tests run a few combinations, on the machines at hand, and compare with a tolerance.", "anchors": ["ruy/kernel_arm64.cc:Kernel8bitNeonDotprodX1", "ruy/kernel_arm64.cc:Kernel8bitNeonDotprod", "ruy/kernel_arm.h:Kernel<Path::kNeonDotprod>"]}
{"id": "C67", "title": "Packing row-major matrices for the AArch64 dot-product kernels", "statement": "On whole blocks of columns of a row-major int8 or uint8 matrix, PackImpl::Run for kNeonDotprod with Pack8bitRowMajorForNeonDotprod ends without undefined behaviour and without reading or writing outside its buffers; every packed entry of those columns is the source entry with its sign bit flipped for uint8, or the packed zero point beyond the last row or column of the source; the sums of those columns are the sums of their packed entries modulo 2^32; nothing else changes. The portable packing function leaves the same bytes and sums.", "quantifier": "all sources (any rows, columns, stride, zero point, values), all ranges of whole blocks of columns, all previous contents of the packed matrix and sums, all leftover contents of registers", "why_tests_cant": "Sums are accumulated in memory over blocks of four rows and the tail of a row is copied piecewise; an overrun or a stale sum shows only for particular numbers of columns.", "anchors": ["ruy/pack_arm.cc:Pack8bitRowMajorForNeonDotprod", "ruy/pack_arm.h:PackImpl<Path::kNeonDotprod, FixedKernelLayout<Order::kColMajor, 4, 8>, Scalar, std::int8_t, std::int32_t, Order::kRowMajor>"]}
{"id": "C68", "title": "Whole multiplications of bytes on kNeonDotprod", "statement": "ruy::Mul of int8 or uint8 matrices on Path::kNeonDotprod, from the front end through transposition, per-channel padding, block map, threads, the packing functions and kernels in assembly, is defined under every schedule and, if it completes, leaves in every destination entry what rounding the exact accumulator once, adding the zero point and clamping gives (for int32 the accumulator itself, exactly if it fits), and nothing else changed; it completes under every fair schedule. Where the accumulator shifted left by its exponent plus one fits in 32 bits, this is the exact value of accumulator times multiplier rounded to nearest, and equals what the portable path leaves. The result does not depend on threads, caches, tuning (generic or X1), or the contents of fresh memory and registers.", "quantifier": "all shapes, orders, strides, zero points, values, biases, multipliers, destination types, configurations, schedules of threads, tunings other than kA55ish for the kernel (any for packing), and contents of fresh memory and registers, within the stated domain", "why_tests_cant": "Schedules, numbers of threads, tunings chosen per thread and leftover registers cannot be enumerated by tests, nor can the shapes.", "anchors": ["ruy/frontend.h:Mul", "ruy/create_trmul_params.h:PopulateTrMulParams", "ruy/kernel_arm.h:Kernel<Path::kNeonDotprod>", "ruy/pack_arm.h:PackImpl<Path::kNeonDotprod>"]}
{"id": "C69", "title": "Packing row-major matrices for kNeon", "statement": "On whole blocks of columns of a row-major int8 or uint8 matrix, PackImpl::Run for kNeon with Pack8bitRowMajorForNeon ends without undefined behaviour and without accesses outside its buffers; every packed entry of the source's columns is the source entry with its sign bit flipped for uint8, or the packed zero point below the last row; their sums are the sums of their packed entries modulo 2^32; columns beyond the source are zero, with sum zero; nothing else changes. The source's columns are packed as by the portable function.", "quantifier": "blocks of 4 columns (64-bit ARM) and of 2 (32-bit), all sources of at most 2^24 packed rows (any columns, stride, zero point, values), all ranges of whole blocks of columns, all previous contents of the packed matrix and sums", "why_tests_cant": "Columns are packed eight at a time by a network of 24 transpositions, then singly, then as padding, with the destination pointer advancing differently in each part and for each block width; a mistake in one of the parts shows only for particular numbers of columns and starting columns.", "anchors": ["ruy/pack_arm.cc:Pack8bitRowMajorForNeon", "ruy/pack_arm.h:PackImpl<Path::kNeon, FixedKernelLayout<Order::kColMajor, 16, KernelCols>, Scalar, std::int8_t, std::int32_t, Order::kRowMajor>"]}
{"id": "C70", "title": "Pairs of products in 16 bits", "statement": "The 8-bit kernels of kNeon multiply int8 matrices exactly (modulo 2^32) although they add products of bytes two at a time in 16 bits.", "quantifier": "all int8 operands, the three kernels (any tuning, one or several destination columns)", "why_tests_cant": "The sum of two products overflows 16 bits for one combination of factors only, all four -128; ruy's tests leave out -128.", "anchors": ["ruy/kernel_arm64.cc:Kernel8bitNeon", "ruy/kernel_arm64.cc:Kernel8bitNeon1Col", "ruy/kernel_arm64.cc:Kernel8bitNeonA55ish"]}
{"id": "C71", "title": "kNeon's 8-bit kernel for one destination column", "statement": "For a destination of one column, with channels along the rows, Kernel<Path::kNeon> on int8 operands (Kernel8bitNeon1Col) ends without undefined behaviour and without accesses outside its buffers; it stores every entry of its rows within the destination, and changes nothing else. For int32 the entry is the accumulator modulo 2^32, for other types the accumulator multiplied, shifted and rounded once, offset by the zero point and clamped; the accumulator is the exact sum of products of entries less zero points plus bias, less 65536 for each pair of levels, eight apart in one block of 16, at which both operands are -128.", "quantifier": "all packed int8 operands in blocks of 16 levels by 4 columns (any depth, any number of rows, any values, zero points, sums modulo 2^32), all destination types, biases, multipliers and exponents per channel or not, bounds, all previous contents of registers, destination and temporary buffer", "why_tests_cant": "The end of a column, the three ways to store a block, the optional bias, sums and multipliers and the four types are separate branches of about 330 instructions; loads run ahead of the loop, and only particular sizes and options reach each branch.", "anchors": ["ruy/kernel_arm64.cc:Kernel8bitNeon1Col", "ruy/kernel_arm.h:Kernel<Path::kNeon>", "ruy/kernel_common.h:MakeKernelParams8bit"]}
{"id": "C72", "title": "One column of a product on kNeon, from the matrices on", "statement": "If kNeon's functions pack the columns of a left-hand side and a right-hand side of one column, of int8 or uint8, column-major or row-major, and Kernel<Path::kNeon> then multiplies them, every entry asked for is the exact sum of products of entries less zero points, plus bias (modulo 2^32 for int32, else multiplied, rounded once, offset and clamped), although the depth is padded to a multiple of 16 with zero points.", "quantifier": "all matrices of int8 or uint8 in either order, any depth and number of rows, zero points, biases, multipliers, bounds and destination types; except where both factors of a product or both zero points are the lowest values of their types", "why_tests_cant": "ruy's tests leave out the lowest values and lowest zero points; the error from padding depends on the depth modulo 16 and on both zero points, and validate.h switches its check off for uint8 times uint8.", "anchors": ["ruy/kernel_arm64.cc:Kernel8bitNeon1Col", "ruy/pack_arm.h:PackImpl<Path::kNeon>", "ruy/pack_arm.cc:Pack8bitColMajorForNeon", "ruy/pack_arm.cc:Pack8bitRowMajorForNeon", "ruy/validate.h:ValidateZeroPoints"]}
