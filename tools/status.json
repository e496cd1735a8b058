{
 "C05": {
  "note": "For all inputs in the overflow-free domain bm_domain (SpecBlockMap.v)."
 },
 "C06": {
  "note": "Decoders up to 2^32 blocks; GetBlockByIndex for every grid NumBlocks can represent (2^30)."
 },
 "C07": {
  "note": "Within each square of the grid."
 },
 "C08": {
  "note": "Definedness on bm_domain; undefined behaviour exhibited outside."
 },
 "C09": {
  "note": ""
 },
 "C42": {
  "note": "Includes the exact domain of one-argument round_up_pot."
 },
 "C17": {
  "note": "Packed sizes bounded by INT_MAX; without the bound Offset overflows (C17_without_size_bound_refuted)."
 },
 "C18": {
  "note": "For every scalar type; C18_integer_sums gives the sums for integers as mathematical sums."
 },
 "C19": {
  "note": "Equal up to the sign of zero, and equal bit for bit when the source has no -0; full bit equality refuted (C19_bit_identical_refuted).",
  "status": "partial"
 },
 "C20": {
  "note": ""
 },
 "C21": {
  "note": "Exact characterization for every exponent; the documented exponent range alone does not prevent overflow (C21_documented_range_refuted).",
  "status": "partial"
 },
 "C23": {
  "note": "Statement on stored entries of both the portable kernel and the reference."
 },
 "C24": {
  "note": "int32 and float destinations proved; narrower integer destinations refuted (default multiplier 0).",
  "status": "partial"
 },
 "C10": {
  "note": "Every interleaving, any tasks; the trace theorem ties the block ids to rectangles."
 },
 "C11": {
  "note": "Races and reads of incomplete data are undefined outcomes of the machine (vector clocks, stale reads included); no schedule reaches them. RunPack and RunKernel are one step each.",
  "also": [
   "C10_traces"
  ]
 },
 "C12": {
  "note": "Fairness: every thread gets infinitely many turns and outdated reads stop eventually."
 },
 "C01": {
  "note": "Wrapping arithmetic: no condition beyond a valid call. Undefined signed overflow: under a depth/bias bound (C01_checked_mul, C01_checked_exact); unconditional claim refuted (C01_without_bound_refuted)."
 },
 "C02": {
  "note": "For any scalar operations; all configurations, fresh-memory contents and schedules."
 },
 "C03": {
  "note": ""
 },
 "C04": {
  "note": "Integers and floats: all orders and kernel layouts. Arbitrary scalar operations: same destination order and kernel layout (a row-major destination multiplies in the other operand order)."
 },
 "C36": {
  "note": ""
 },
 "C43": {
  "note": "The claim is false: every well-formed call with a zero dimension aborts (C43_aborts); C43_refuted exhibits one where the reference stores values.",
  "status": "partial"
 },
 "C45": {
  "note": "IEEE semantics of any precision with round to nearest even, one NaN, no contraction of multiply-add."
 },
 "C13": {
  "note": "Machine of the calling thread and any number of workers with views (release/acquire), mutexes, condition variables, spurious wakeups; all scripts of calls with at least one task each."
 },
 "C14": {
  "note": "Fairness: every thread gets infinitely many turns, outdated reads and spurious wakeups stop eventually; timeouts arbitrary. C14_never_blocked needs no fairness."
 },
 "C15": {
  "note": ""
 },
 "C16": {
  "note": "Including the last sentence: debug builds abort, release builds create threads without end."
 },
 "C25": {
  "note": "All histories; the system allocator may fail except in the growth inside FreeAll (C28)."
 },
 "C26": {
  "note": "If no system call has failed."
 },
 "C27": {
  "note": "Any allocator state and system."
 },
 "C28": {
  "note": "The claim is false (C28_out_of_memory_refuted); C28_out_of_memory_partial: it holds until a growth in FreeAll fails."
 },
 "C29": {
  "note": "All histories of lookups of matrices with positive sizes, within 2^62 bytes in total; hash table iteration order and system allocator are arbitrary."
 },
 "C30": {
  "note": "False for floating-point matrices (C30_buffers_bytes_refuted). Proved for integer ones, and an upper bound for all."
 },
 "C31": {
  "note": "False for floating-point matrices, with no bound at all (C31_capacity_refuted). Proved for integer ones, with ejection of no more than needed."
 },
 "C32": {
  "note": ""
 },
 "C34": {
  "note": "False in general (C34_two_lookups_refuted, C34_use_after_free_refuted): the second lookup may free what the first returned. Proved when there is room for both, or only one operand is cached, if no allocation fails."
 },
 "C46": {
  "note": "False for large matrices (C46_hash_defined_refuted); proved when the sum fits in int."
 },
 "C33": {
  "note": "Proved for histories in which equal keys mean the same matrix (any number of calls, policies, capacities, schedules). False for equal addresses alone: the key says neither side, order, stride nor unrounded size (C33_*_refuted). Types of equal size are not told apart by the model; other type mismatches are undefined in it."
 },
 "C35": {
  "note": ""
 },
 "C40": {
  "note": "For processor descriptions with outer caches not smaller than inner ones and sizes up to INT_MAX; refuted otherwise (release builds)."
 },
 "C37": {
  "note": "For all histories of a context. Defined unless RUY_PATHS names no compiled path (C37_environment_refuted) or is not a number. A path enabled explicitly is used even if unsupported (C37_supported_refuted); the documentation does not promise otherwise."
 },
 "C38": {
  "note": "Per thread, over all histories of a context, packing for the cache included. Clock values are nanoseconds in int64_t, not negative."
 },
 "C39": {
  "note": "The only advisory there is (reallocated per-channel buffers)."
 },
 "C44": {
  "note": "Tuning state modelled in full; the allocator of a thread is identified by the address of its resources, its behaviour is C25-C28."
 },
 "C48": {
  "note": "As a statement on the sequential effects of the tasks: none changes the description; memory orders are not modelled."
 },
 "C41": {
  "note": "All registers, schedules of the pool, and computations that leave the denormal bits alone. Packing for the cache is done in the caller's mode (C41_packing_outside); it does not compute."
 },
 "C22": {
  "note": "False as stated: the x86 kernels round twice, left shifts wrap, and NEON shifts left by one more than the exponent (three _refuted theorems). Proved: what every lane computes for AVX, AVX2, AVX-512 and NEON, when x86 differs from the reference, and that NEON agrees with it if the shifted accumulator fits in int32.",
  "status": "partial"
 },
 "C49": {
  "note": "All of the kernels' code for 8-bit operands on AVX, AVX2 and AVX-512 (general and single-column). Two theorems show what happens outside the conditions: int32 overflow for far columns and for great depths (C49_far_columns_refuted, C49_deep_refuted)."
 },
 "C50": {
  "note": "Against the portable kernel with wrapping 32-bit arithmetic. The difference of one does occur (C50_equal_refuted); with a nonzero zero point and an int32 destination the vector kernels ignore it (C50_zero_point_refuted)."
 },
 "C51": {
  "note": "All integer packing functions for x86. Of the columns beyond the last one of the source only the type is proved: AVX-512 leaves zeros there while the sums say zero point times rows, and the row-major functions store zeros with sum 0; no entry of a product depends on them. Outside the conditions: C51_tall_column_refuted, C51_no_sums_refuted."
 },
 "C52": {
  "note": "Against exact arithmetic and, given that, against the portable path. Conditions: those of ruy::Mul (valid_call), column sums and zero points times depth in int32, byte offsets in the destination's blocks in int32, multipliers that are fixed-point. The dispatch of types to functions is modelled from the template specialisations."
 },
 "C53": {
  "note": "Equalities of IEEE single-precision values (one NaN). The property excepts what is false: NaN, fused or bias-first results against ReferenceMul, the storage order with a bias of -0 on AVX, strides of 2^29 and more (five _refuted theorems). A dimension of zero is outside valid_call, as for the other paths."
 },
 "C54": {
  "note": "Termination is C53 (x86 paths); here the values. The bound 2^24 is tight (C54_larger_bound_refuted). The portable path needs zero points of 0, as ruy's validation demands of floats."
 },
 "C55": {
  "note": "LP64, little endian. Formats are addresses; labels made from std::string and of other argument types are not modelled (ScopeLabel takes only these). The property states the limits: C55_long_profile_refuted."
 },
 "C56": {
  "note": "std::sort is any function that sorts by decreasing weight; the order of equal weights is left open. C56_once_refuted for the label [other]."
 },
 "C57": {
  "note": "Choices of labels must not choose [other] for the weights. C57_nested_refuted with recursion."
 },
 "C58": {
  "note": "Interleavings of steps that are critical sections (the mutexes are what makes them so); scopes are left in the order of a stack, and buffers fit in an int (well_behaved). Thread ids are repeated after 2^32 threads; the views then merge threads, as the statement says."
 },
 "C59": {
  "note": "Products and sums are those of Coq.Floats.SpecFloat; the fused operation is SimdFloat.v's."
 },
 "C60": {
  "note": "Floats are integers times 2^-149, products integers times 2^-298, so the bounds are integer inequalities. Rounding to nearest, no flush to zero. C60_relative_refuted: no bound relative to the product."
 },
 "C61": {
  "note": "The six asm blocks are transcribed by tools/asm2coq.py into NeonPackCode.v and run on the machine of Neon64.v. Floats are words. Pointers past the end of an array may be computed, not read. C61_wide_stride_refuted with blocks of eight columns."
 },
 "C62": {
  "note": "The four kernels and the packing functions are transcribed by tools/asm2coq.py and run on the machine of Neon64.v. Floats are words, with one NaN. Tunings and leftover registers are arbitrary for each call. Refuted: independence of the tuning, of the place in a block, and definedness for strides whose block offsets overflow an int."
 },
 "C63": {
  "note": "As C60, for any order of additions: a sum in another order is a permutation of the products. Rounding to nearest, no flush to zero."
 },
 "C64": {
  "note": "Declarations printed by tools/asmdecl.py, instructions by tools/asm2coq.py. C64_respects for seventeen statements. C64_dotprod_1col_refuted: v20 is written and not clobbered; C64_dotprod_1col_partial: nothing else is. For v8 to v15 all 128 bits count.",
  "status": "partial"
 },
 "C65": {
  "note": "C65_column follows the transcribed program instruction by instruction (Neon8Col.v), then Kernel8NeonProps.v relates bytes to entries and the sums to the exact accumulator. Refuted without its hypotheses: nonzero upper half of the register holding row, int32 without sums of the left-hand side, depth 0, lower bound above the upper one."
 },
 "C66": {
  "note": "Neon8Dot*.v follow the two transcribed programs, which share all but the loop over the depth; Kernel8NeonDotProps.v as for C65. Not covered: the program for kA55ish. C66_upper_half_refuted: as C65, for the register holding col."
 },
 "C67": {
  "note": "NeonPackRowRun.v follows the transcribed program; the upper halves of int operands, leftover registers and flags are arbitrary. C67_as_portable: same memory as the portable function of C18."
 },
 "C68": {
  "note": "C61, C67 and C66 in the thread machine of C02 and C52. Hypotheses as in C61 and C66: offsets of blocks of four columns fit in int, upper halves of the registers holding row and col are 0, kernels not tuned for A55 or similar cores."
 },
 "C69": {
  "note": "Both block widths. Intrinsics as functions on lists of lanes; the sixteen single bytes of a column are stored together in the model."
 },
 "C70": {
  "note": "False (C70_product_refuted, every kernel): four factors of -128. C70_pairs: for all other factors the sum of two products is exact. C70_one_column_partial, C70_block_partial: for any depth the three programs sum the products of the first block exactly but for 65536 per such pair; C70_operands_partial, C70_exact_partial, C70_sources_partial: the same in terms of the packed entries and of the source matrices of either order; zero points, requantization, stores and later blocks are proved for one destination column only (C71).",
  "status": "partial"
 },
 "C71": {
  "note": "Neon8Col4.v, Neon8Col4Store.v and Neon8Col4Run.v follow the transcribed program; Kernel8NeonCol4Props.v relates it to packed entries through the sums of C70. C71_exact: exact accumulators where no level has -128 on both sides. Hypotheses as in C65, on calls with blocks of 16 levels by 4 columns; int32 destinations need sums of the left-hand side. C71_upper_half_refuted: as C65."
 },
 "C72": {
  "note": "C61 and C69 give the packed operands of C71, sums included. C72_any_sources: without the exceptions, in terms of packed values. C72_padding: if both zero points are lowest, each accumulator lacks 65536 for every pair of levels of padding eight apart, for any entries; C72_lowest_zero_points_refuted: 200 * 200 of uint8 with zero points of 0 gives -418752 (validate.h:67-74 leaves its check out for uint8 times uint8). C72_int32_without_sums_refuted: as C65. Not included: the choice of blocks and threads, as in C68."
 }
}