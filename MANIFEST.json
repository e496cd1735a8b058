{
 "claims": [
  {
   "property": "C01",
   "status": "proved",
   "theorems": [
    "C01_mul_is_reference",
    "C01_reference_is_mul",
    "C01_checked_reference",
    "C01_exact",
    "C01_checked_mul",
    "C01_checked_exact",
    "C01_without_bound_refuted"
   ],
   "note": "Wrapping arithmetic: no condition beyond a valid call. Undefined signed overflow: under a depth/bias bound (C01_checked_mul, C01_checked_exact); unconditional claim refuted (C01_without_bound_refuted)."
  },
  {
   "property": "C02",
   "status": "proved",
   "theorems": [
    "C02_configurations_agree",
    "C02_fair_schedules_complete"
   ],
   "note": "For any scalar operations; all configurations, fresh-memory contents and schedules."
  },
  {
   "property": "C03",
   "status": "proved",
   "theorems": [
    "C03_writes_only_entries",
    "C03_every_entry_written"
   ],
   "note": ""
  },
  {
   "property": "C04",
   "status": "proved",
   "theorems": [
    "C04_integers",
    "C04_floats",
    "C04_any_scalars"
   ],
   "note": "Integers and floats: all orders and kernel layouts. Arbitrary scalar operations: same destination order and kernel layout (a row-major destination multiplies in the other operand order)."
  },
  {
   "property": "C05",
   "status": "proved",
   "theorems": [
    "C05_blocks_tile"
   ],
   "note": "For all inputs in the overflow-free domain bm_domain (SpecBlockMap.v)."
  },
  {
   "property": "C06",
   "status": "proved",
   "theorems": [
    "C06_decoders_bijective",
    "C06_block_index_bijective"
   ],
   "note": "Decoders up to 2^32 blocks; GetBlockByIndex for every grid NumBlocks can represent (2^30)."
  },
  {
   "property": "C07",
   "status": "proved",
   "theorems": [
    "C07_hilbert_square",
    "C07_hilbert_blocks"
   ],
   "note": "Within each square of the grid."
  },
  {
   "property": "C08",
   "status": "proved",
   "theorems": [
    "C08_make_block_map_defined",
    "C08_overflow_reachable",
    "C08_overflow_reachable_grid"
   ],
   "note": "Definedness on bm_domain; undefined behaviour exhibited outside."
  },
  {
   "property": "C09",
   "status": "proved",
   "theorems": [
    "C09_tentative_thread_count",
    "C09_thread_count",
    "C09_nonpositive_limit"
   ],
   "note": ""
  },
  {
   "property": "C10",
   "status": "proved",
   "theorems": [
    "C10_each_block_once",
    "C10_traces"
   ],
   "note": "Every interleaving, any tasks; the trace theorem ties the block ids to rectangles."
  },
  {
   "property": "C11",
   "status": "proved",
   "theorems": [
    "C11_no_race",
    "C11_each_pack_once",
    "C10_traces"
   ],
   "note": "Races and reads of incomplete data are undefined outcomes of the machine (vector clocks, stale reads included); no schedule reaches them. RunPack and RunKernel are one step each."
  },
  {
   "property": "C12",
   "status": "proved",
   "theorems": [
    "C12_waits_for_packer",
    "C12_work_bound",
    "C12_terminates"
   ],
   "note": "Fairness: every thread gets infinitely many turns and outdated reads stop eventually."
  },
  {
   "property": "C13",
   "status": "proved",
   "theorems": [
    "C13_every_task_once"
   ],
   "note": "Machine of the calling thread and any number of workers with views (release/acquire), mutexes, condition variables, spurious wakeups; all scripts of calls with at least one task each."
  },
  {
   "property": "C14",
   "status": "proved",
   "theorems": [
    "C14_pool_finishes",
    "C14_never_blocked"
   ],
   "note": "Fairness: every thread gets infinitely many turns, outdated reads and spurious wakeups stop eventually; timeouts arbitrary. C14_never_blocked needs no fairness."
  },
  {
   "property": "C15",
   "status": "proved",
   "theorems": [
    "C15_counter_exact"
   ],
   "note": ""
  },
  {
   "property": "C16",
   "status": "proved",
   "theorems": [
    "C16_worker_count",
    "C16_workers_kept",
    "C16_no_tasks_asserted",
    "C16_no_tasks_spawn"
   ],
   "note": "Including the last sentence: debug builds abort, release builds create threads without end."
  },
  {
   "property": "C17",
   "status": "proved",
   "theorems": [
    "C17_layout",
    "C17_bijection",
    "C17_flat_size",
    "C17_without_size_bound_refuted"
   ],
   "note": "Packed sizes bounded by INT_MAX; without the bound Offset overflows (C17_without_size_bound_refuted)."
  },
  {
   "property": "C18",
   "status": "proved",
   "theorems": [
    "C18_content",
    "C18_order_independent",
    "C18_integer_sums"
   ],
   "note": "For every scalar type; C18_integer_sums gives the sums for integers as mathematical sums."
  },
  {
   "property": "C19",
   "status": "partial",
   "theorems": [
    "C19_fast_pack",
    "C19_bit_identical_refuted"
   ],
   "note": "Equal up to the sign of zero, and equal bit for bit when the source has no -0; full bit equality refuted (C19_bit_identical_refuted)."
  },
  {
   "property": "C20",
   "status": "proved",
   "theorems": [
    "C20_uint8_to_int8",
    "C20_xor",
    "C20_same_type"
   ],
   "note": ""
  },
  {
   "property": "C21",
   "status": "partial",
   "theorems": [
    "C21_rounds_to_nearest",
    "C21_nearest_unique",
    "C21_monotone",
    "C21_in_range",
    "C21_documented_range_refuted",
    "C21_exponent_too_large",
    "C21_exponent_too_small"
   ],
   "note": "Exact characterization for every exponent; the documented exponent range alone does not prevent overflow (C21_documented_range_refuted)."
  },
  {
   "property": "C22",
   "status": "partial",
   "theorems": [
    "C22_avx2",
    "C22_avx",
    "C22_avx512",
    "C22_avx512_columns",
    "C22_neon",
    "C22_neon_columns",
    "C22_x86_left_partial",
    "C22_x86_right",
    "C22_neon_partial",
    "C22_x86_same_result_refuted",
    "C22_neon_same_result_refuted",
    "C22_left_shift_refuted"
   ],
   "note": "False as stated: the x86 kernels round twice, left shifts wrap, and NEON shifts left by one more than the exponent (three _refuted theorems). Proved: what every lane computes for AVX, AVX2, AVX-512 and NEON, when x86 differs from the reference, and that NEON agrees with it if the shifted accumulator fits in int32."
  },
  {
   "property": "C23",
   "status": "proved",
   "theorems": [
    "C23_stored_value",
    "C23_clamped_bounds",
    "C23_kernel_entry",
    "C23_reference_entry",
    "C23_float"
   ],
   "note": "Statement on stored entries of both the portable kernel and the reference."
  },
  {
   "property": "C24",
   "status": "partial",
   "theorems": [
    "C24_default_int32",
    "C24_default_float",
    "C24_default_quantized_refuted",
    "C24_default_quantized_constant"
   ],
   "note": "int32 and float destinations proved; narrower integer destinations refuted (default multiplier 0)."
  },
  {
   "property": "C25",
   "status": "proved",
   "theorems": [
    "C25_blocks_usable",
    "C25_blocks_freed_once"
   ],
   "note": "All histories; the system allocator may fail except in the growth inside FreeAll (C28)."
  },
  {
   "property": "C26",
   "status": "proved",
   "theorems": [
    "C26_steady_state"
   ],
   "note": "If no system call has failed."
  },
  {
   "property": "C27",
   "status": "proved",
   "theorems": [
    "C27_avoids_aliasing"
   ],
   "note": "Any allocator state and system."
  },
  {
   "property": "C28",
   "status": "partial",
   "theorems": [
    "C28_out_of_memory_partial",
    "C28_out_of_memory_refuted"
   ],
   "note": "The claim is false (C28_out_of_memory_refuted); C28_out_of_memory_partial: it holds until a growth in FreeAll fails."
  },
  {
   "property": "C29",
   "status": "proved",
   "theorems": [
    "C29_lru",
    "C29_equal_keys"
   ],
   "note": "All histories of lookups of matrices with positive sizes, within 2^62 bytes in total; hash table iteration order and system allocator are arbitrary."
  },
  {
   "property": "C30",
   "status": "partial",
   "theorems": [
    "C30_buffers_bytes_partial",
    "C30_never_overcounts",
    "C30_buffers_bytes_refuted"
   ],
   "note": "False for floating-point matrices (C30_buffers_bytes_refuted). Proved for integer ones, and an upper bound for all."
  },
  {
   "property": "C31",
   "status": "partial",
   "theorems": [
    "C31_capacity_partial",
    "C31_capacity_refuted"
   ],
   "note": "False for floating-point matrices, with no bound at all (C31_capacity_refuted). Proved for integer ones, with ejection of no more than needed."
  },
  {
   "property": "C32",
   "status": "proved",
   "theorems": [
    "C32_freed_once"
   ],
   "note": ""
  },
  {
   "property": "C33",
   "status": "proved",
   "theorems": [
    "C33_as_uncached",
    "C33_sides_refuted",
    "C33_order_refuted",
    "C33_stride_refuted",
    "C33_shape_refuted"
   ],
   "note": "Proved for histories in which equal keys mean the same matrix (any number of calls, policies, capacities, schedules). False for equal addresses alone: the key says neither side, order, stride nor unrounded size (C33_*_refuted). Types of equal size are not told apart by the model; other type mismatches are undefined in it."
  },
  {
   "property": "C34",
   "status": "partial",
   "theorems": [
    "C34_two_lookups_partial",
    "C34_two_lookups_refuted",
    "C34_defined",
    "C34_use_after_free_refuted"
   ],
   "note": "False in general (C34_two_lookups_refuted, C34_use_after_free_refuted): the second lookup may free what the first returned. Proved when there is room for both, or only one operand is cached, if no allocation fails."
  },
  {
   "property": "C35",
   "status": "proved",
   "theorems": [
    "C35_policy",
    "C35_never"
   ],
   "note": ""
  },
  {
   "property": "C36",
   "status": "proved",
   "theorems": [
    "C36_channel_arrays",
    "C36_calls"
   ],
   "note": ""
  },
  {
   "property": "C37",
   "status": "proved",
   "theorems": [
    "C37_replies",
    "C37_defined",
    "C37_portable",
    "C37_environment_refuted",
    "C37_not_number",
    "C37_supported_refuted"
   ],
   "note": "For all histories of a context. Defined unless RUY_PATHS names no compiled path (C37_environment_refuted) or is not a number. A path enabled explicitly is used even if unsupported (C37_supported_refuted); the documentation does not promise otherwise."
  },
  {
   "property": "C38",
   "status": "proved",
   "theorems": [
    "C38_tuning",
    "C38_defined"
   ],
   "note": "Per thread, over all histories of a context, packing for the cache included. Clock values are nanoseconds in int64_t, not negative."
  },
  {
   "property": "C39",
   "status": "proved",
   "theorems": [
    "C39_advisory"
   ],
   "note": "The only advisory there is (reallocated per-channel buffers)."
  },
  {
   "property": "C40",
   "status": "proved",
   "theorems": [
    "C40_sizes",
    "C40_order_refuted",
    "C40_large_refuted"
   ],
   "note": "For processor descriptions with outer caches not smaller than inner ones and sizes up to INT_MAX; refuted otherwise (release builds)."
  },
  {
   "property": "C41",
   "status": "proved",
   "theorems": [
    "C41_suppressed",
    "C41_restored",
    "C41_all_tasks",
    "C41_packing_outside"
   ],
   "note": "All registers, schedules of the pool, and computations that leave the denormal bits alone. Packing for the cache is done in the caller's mode (C41_packing_outside); it does not compute."
  },
  {
   "property": "C42",
   "status": "proved",
   "theorems": [
    "C42_floor_log2",
    "C42_ceil_log2",
    "C42_is_pot",
    "C42_pot_log2",
    "C42_round_down_pot",
    "C42_round_up_pot",
    "C42_round_down_pot1",
    "C42_round_up_pot1",
    "C42_round_up_pot1_domain_is_exact"
   ],
   "note": "Includes the exact domain of one-argument round_up_pot."
  },
  {
   "property": "C43",
   "status": "partial",
   "theorems": [
    "C43_aborts",
    "C43_refuted"
   ],
   "note": "The claim is false: every well-formed call with a zero dimension aborts (C43_aborts); C43_refuted exhibits one where the reference stores values."
  },
  {
   "property": "C44",
   "status": "proved",
   "theorems": [
    "C44_private",
    "C44_commute"
   ],
   "note": "Tuning state modelled in full; the allocator of a thread is identified by the address of its resources, its behaviour is C25-C28."
  },
  {
   "property": "C45",
   "status": "proved",
   "theorems": [
    "C45_float_reference"
   ],
   "note": "IEEE semantics of any precision with round to nearest even, one NaN, no contraction of multiply-add."
  },
  {
   "property": "C46",
   "status": "partial",
   "theorems": [
    "C46_hash_defined_partial",
    "C46_hash_defined_refuted"
   ],
   "note": "False for large matrices (C46_hash_defined_refuted); proved when the sum fits in int."
  },
  {
   "property": "C48",
   "status": "proved",
   "theorems": [
    "C48_read_only"
   ],
   "note": "As a statement on the sequential effects of the tasks: none changes the description; memory orders are not modelled."
  },
  {
   "property": "C49",
   "status": "proved",
   "theorems": [
    "C49_avx2",
    "C49_avx",
    "C49_avx512",
    "C49_far_columns_refuted",
    "C49_deep_refuted"
   ],
   "note": "All of the kernels' code for 8-bit operands on AVX, AVX2 and AVX-512 (general and single-column). Two theorems show what happens outside the conditions: int32 overflow for far columns and for great depths (C49_far_columns_refuted, C49_deep_refuted)."
  },
  {
   "property": "C50",
   "status": "proved",
   "theorems": [
    "C50_int32",
    "C50_quantized",
    "C50_equal_refuted",
    "C50_zero_point_refuted"
   ],
   "note": "Against the portable kernel with wrapping 32-bit arithmetic. The difference of one does occur (C50_equal_refuted); with a nonzero zero point and an int32 destination the vector kernels ignore it (C50_zero_point_refuted)."
  },
  {
   "property": "C51",
   "status": "proved",
   "theorems": [
    "C51_column_major",
    "C51_row_major",
    "C51_column_major_as_portable",
    "C51_row_major_as_portable",
    "C51_tall_column_refuted",
    "C51_no_sums_refuted"
   ],
   "note": "All integer packing functions for x86. Of the columns beyond the last one of the source only the type is proved: AVX-512 leaves zeros there while the sums say zero point times rows, and the row-major functions store zeros with sum 0; no entry of a product depends on them. Outside the conditions: C51_tall_column_refuted, C51_no_sums_refuted."
  },
  {
   "property": "C52",
   "status": "proved",
   "theorems": [
    "C52_computes",
    "C52_terminates",
    "C52_exact_int32",
    "C52_near_exact",
    "C52_near_portable"
   ],
   "note": "Against exact arithmetic and, given that, against the portable path. Conditions: those of ruy::Mul (valid_call), column sums and zero points times depth in int32, byte offsets in the destination's blocks in int32, multipliers that are fixed-point. The dispatch of types to functions is modelled from the template specialisations."
  },
  {
   "property": "C53",
   "status": "proved",
   "theorems": [
    "C53_computes",
    "C53_terminates",
    "C53_agree",
    "C53_avx_storage_refuted",
    "C53_bounds",
    "C53_avx_reference",
    "C53_nan_refuted",
    "C53_fused_reference_refuted",
    "C53_bias_reference_refuted",
    "C53_stride_refuted"
   ],
   "note": "Equalities of IEEE single-precision values (one NaN). The property excepts what is false: NaN, fused or bias-first results against ReferenceMul, the storage order with a bias of -0 on AVX, strides of 2^29 and more (five _refuted theorems). A dimension of zero is outside valid_call, as for the other paths."
  },
  {
   "property": "C54",
   "status": "proved",
   "theorems": [
    "C54_x86",
    "C54_portable",
    "C54_agree",
    "C54_agree_portable",
    "C54_unclamped",
    "C54_larger_bound_refuted"
   ],
   "note": "Termination is C53 (x86 paths); here the values. The bound 2^24 is tight (C54_larger_bound_refuted). The portable path needs zero points of 0, as ruy's validation demands of floats."
  },
  {
   "property": "C55",
   "status": "proved",
   "theorems": [
    "C55_scopes",
    "C55_round_trip",
    "C55_profile",
    "C55_long_profile_refuted"
   ],
   "note": "LP64, little endian. Formats are addresses; labels made from std::string and of other argument types are not modelled (ScopeLabel takes only these). The property states the limits: C55_long_profile_refuted."
  },
  {
   "property": "C56",
   "status": "proved",
   "theorems": [
    "C56_populate",
    "C56_fits",
    "C56_once_refuted"
   ],
   "note": "std::sort is any function that sorts by decreasing weight; the order of equal weights is left open. C56_once_refuted for the label [other]."
  },
  {
   "property": "C57",
   "status": "proved",
   "theorems": [
    "C57_matching",
    "C57_share",
    "C57_nested_refuted",
    "C57_collapse",
    "C57_collapse_node"
   ],
   "note": "Choices of labels must not choose [other] for the weights. C57_nested_refuted with recursion."
  },
  {
   "property": "C58",
   "status": "proved",
   "theorems": [
    "C58_safe",
    "C58_exact",
    "C58_round"
   ],
   "note": "Interleavings of steps that are critical sections (the mutexes are what makes them so); scopes are left in the order of a stack, and buffers fit in an int (well_behaved). Thread ids are repeated after 2^32 threads; the views then merge threads, as the statement says."
  },
  {
   "property": "C59",
   "status": "proved",
   "theorems": [
    "C59_mul",
    "C59_add",
    "C59_fused",
    "C59_unique",
    "C59_floats",
    "C59_special"
   ],
   "note": "Products and sums are those of Coq.Floats.SpecFloat; the fused operation is SimdFloat.v's."
  },
  {
   "property": "C60",
   "status": "proved",
   "theorems": [
    "C60_x86",
    "C60_portable",
    "C60_clamped",
    "C60_portable_clamped",
    "C60_simple",
    "C60_paths",
    "C60_relative_refuted"
   ],
   "note": "Floats are integers times 2^-149, products integers times 2^-298, so the bounds are integer inequalities. Rounding to nearest, no flush to zero. C60_relative_refuted: no bound relative to the product."
  },
  {
   "property": "C61",
   "status": "proved",
   "theorems": [
    "C61_columns",
    "C61_as_portable",
    "C61_wide_stride_refuted"
   ],
   "note": "The six asm blocks are transcribed by tools/asm2coq.py into NeonPackCode.v and run on the machine of Neon64.v. Floats are words. Pointers past the end of an array may be computed, not read. C61_wide_stride_refuted with blocks of eight columns."
  },
  {
   "property": "C62",
   "status": "proved",
   "theorems": [
    "C62_computes",
    "C62_terminates",
    "C62_agree",
    "C62_tuning_refuted",
    "C62_alike",
    "C62_place_refuted",
    "C62_nan",
    "C62_bounds",
    "C62_x86",
    "C62_wide_stride_refuted"
   ],
   "note": "The four kernels and the packing functions are transcribed by tools/asm2coq.py and run on the machine of Neon64.v. Floats are words, with one NaN. Tunings and leftover registers are arbitrary for each call. Refuted: independence of the tuning, of the place in a block, and definedness for strides whose block offsets overflow an int."
  },
  {
   "property": "C63",
   "status": "proved",
   "theorems": [
    "C63_close",
    "C63_clamped",
    "C63_simple",
    "C63_x86",
    "C63_exact",
    "C63_exact_agree",
    "C63_exact_x86"
   ],
   "note": "As C60, for any order of additions: a sum in another order is a permutation of the products. Rounding to nearest, no flush to zero."
  },
  {
   "property": "C64",
   "status": "partial",
   "theorems": [
    "C64_respects",
    "C64_dotprod_1col_partial",
    "C64_dotprod_1col_v20_refuted",
    "C64_dotprod_1col_refuted"
   ],
   "note": "Declarations printed by tools/asmdecl.py, instructions by tools/asm2coq.py. C64_respects for seventeen statements. C64_dotprod_1col_refuted: v20 is written and not clobbered; C64_dotprod_1col_partial: nothing else is. For v8 to v15 all 128 bits count."
  },
  {
   "property": "C65",
   "status": "proved",
   "theorems": [
    "C65_column",
    "C65_upper_half_refuted",
    "C65_int32_without_sums_refuted",
    "C65_depth_zero_refuted",
    "C65_inverted_bounds_refuted"
   ],
   "note": "C65_column follows the transcribed program instruction by instruction (Neon8Col.v), then Kernel8NeonProps.v relates bytes to entries and the sums to the exact accumulator. Refuted without its hypotheses: nonzero upper half of the register holding row, int32 without sums of the left-hand side, depth 0, lower bound above the upper one."
  },
  {
   "property": "C66",
   "status": "proved",
   "theorems": [
    "C66_dotprod",
    "C66_upper_half_refuted"
   ],
   "note": "Neon8Dot*.v follow the two transcribed programs, which share all but the loop over the depth; Kernel8NeonDotProps.v as for C65. Not covered: the program for kA55ish. C66_upper_half_refuted: as C65, for the register holding col."
  },
  {
   "property": "C67",
   "status": "proved",
   "theorems": [
    "C67_rows",
    "C67_as_portable"
   ],
   "note": "NeonPackRowRun.v follows the transcribed program; the upper halves of int operands, leftover registers and flags are arbitrary. C67_as_portable: same memory as the portable function of C18."
  },
  {
   "property": "C68",
   "status": "proved",
   "theorems": [
    "C68_computes",
    "C68_terminates",
    "C68_exact_int32",
    "C68_exact",
    "C68_as_portable"
   ],
   "note": "C61, C67 and C66 in the thread machine of C02 and C52. Hypotheses as in C61 and C66: offsets of blocks of four columns fit in int, upper halves of the registers holding row and col are 0, kernels not tuned for A55 or similar cores."
  },
  {
   "property": "C69",
   "status": "proved",
   "theorems": [
    "C69_rows",
    "C69_as_portable"
   ],
   "note": "Both block widths. Intrinsics as functions on lists of lanes; the sixteen single bytes of a column are stored together in the model."
  },
  {
   "property": "C70",
   "status": "partial",
   "theorems": [
    "C70_pairs",
    "C70_product_refuted",
    "C70_one_column_partial",
    "C70_block_partial",
    "C70_operands_partial",
    "C70_exact_partial",
    "C70_sources_partial"
   ],
   "note": "False (C70_product_refuted, every kernel): four factors of -128. C70_pairs: for all other factors the sum of two products is exact. C70_one_column_partial, C70_block_partial: for any depth the three programs sum the products of the first block exactly but for 65536 per such pair; C70_operands_partial, C70_exact_partial, C70_sources_partial: the same in terms of the packed entries and of the source matrices of either order; zero points, requantization, stores and later blocks are proved for one destination column only (C71)."
  },
  {
   "property": "C71",
   "status": "proved",
   "theorems": [
    "C71_column",
    "C71_exact",
    "C71_upper_half_refuted"
   ],
   "note": "Neon8Col4.v, Neon8Col4Store.v and Neon8Col4Run.v follow the transcribed program; Kernel8NeonCol4Props.v relates it to packed entries through the sums of C70. C71_exact: exact accumulators where no level has -128 on both sides. Hypotheses as in C65, on calls with blocks of 16 levels by 4 columns; int32 destinations need sums of the left-hand side. C71_upper_half_refuted: as C65."
  },
  {
   "property": "C72",
   "status": "proved",
   "theorems": [
    "C72_product",
    "C72_any_sources",
    "C72_padding",
    "C72_lowest_zero_points_refuted",
    "C72_int32_without_sums_refuted"
   ],
   "note": "C61 and C69 give the packed operands of C71, sums included. C72_any_sources: without the exceptions, in terms of packed values. C72_padding: if both zero points are lowest, each accumulator lacks 65536 for every pair of levels of padding eight apart, for any entries; C72_lowest_zero_points_refuted: 200 * 200 of uint8 with zero points of 0 gives -418752 (validate.h:67-74 leaves its check out for uint8 times uint8). C72_int32_without_sums_refuted: as C65. Not included: the choice of blocks and threads, as in C68."
  }
 ]
}