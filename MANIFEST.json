{
 "claims": [
  {
   "property": "C01",
   "status": "proved",
   "theorems": [
    "C01_next_power_of_two",
    "C01_split_sizes",
    "C01_layout_exists"
   ],
   "note": ""
  },
  {
   "property": "C02",
   "status": "proved",
   "theorems": [
    "C02_operation",
    "C02_unary",
    "C02_binary"
   ],
   "note": "Also for every composition of operations (C02_operation): one theorem for unary, binary and comparison operators lifted to trees."
  },
  {
   "property": "C03",
   "status": "proved",
   "theorems": [
    "C03_load",
    "C03_load_out_of_bounds",
    "C03_store",
    "C03_store_load",
    "C03_subscript_read",
    "C03_subscript_write"
   ],
   "note": ""
  },
  {
   "property": "C04",
   "status": "proved",
   "theorems": [
    "C04_generate"
   ],
   "note": ""
  },
  {
   "property": "C05",
   "status": "partial",
   "theorems": [
    "C05_avx_shifted",
    "C05_avx_vector_shifted",
    "C05_avx_undefined_upper_refuted",
    "C05_shifted_power_of_two",
    "C05_shifted_partial",
    "C05_shifted_refuted",
    "C05_sse_shifted",
    "C05_sse_vector_shifted"
   ],
   "note": "Proved for native vectors and all power-of-two sizes. False of the code for sizes with unequal halves and small amounts (C05_shifted_refuted); C05_shifted_partial gives the amounts for which other sizes are right."
  },
  {
   "property": "C06",
   "status": "partial",
   "theorems": [
    "C06_avx_shifted_in",
    "C06_avx_vector_shifted_in",
    "C06_shifted_in",
    "C06_shifted_in_far",
    "C06_shifted_in_refuted",
    "C06_sse_shifted_in",
    "C06_sse_vector_shifted_in_refuted"
   ],
   "note": "Proved for amounts with |k| <= N and beyond on the right; amounts <= -2N (C06_shifted_in_refuted) and SSE amounts 9..15 (C06_sse_vector_shifted_in_refuted) are wrong in the code."
  },
  {
   "property": "C07",
   "status": "proved",
   "theorems": [
    "C07_avx_rotated",
    "C07_rotated",
    "C07_sse_rotated"
   ],
   "note": ""
  },
  {
   "property": "C08",
   "status": "proved",
   "theorems": [
    "C08_avx_reversed",
    "C08_reversed",
    "C08_sse_reversed",
    "C08_sse_reversed_epi32"
   ],
   "note": ""
  },
  {
   "property": "C09",
   "status": "proved",
   "theorems": [
    "C09_avx_interleave",
    "C09_interleave",
    "C09_sse_interleave"
   ],
   "note": ""
  },
  {
   "property": "C10",
   "status": "proved",
   "theorems": [
    "C10_avx_sorted",
    "C10_sorted",
    "C10_sse_sorted",
    "C10_avx2_sorted"
   ],
   "note": ""
  },
  {
   "property": "C11",
   "status": "partial",
   "theorems": [
    "C11_array_sorted_float",
    "C11_sorted_float",
    "C11_sorted_zeros_refuted",
    "C11_sorted_nan_refuted"
   ],
   "note": "Proved for vectors and for SimdArrays of every size without NaN (bit for bit if there are no zeros of both signs). Refuted: -0/+0 order and NaN (a NaN can be duplicated or lost)."
  },
  {
   "property": "C12",
   "status": "proved",
   "theorems": [
    "C12_avx_partial_sum",
    "C12_array_float_partial_sum",
    "C12_negative_zero_refuted",
    "C12_partial_sum",
    "C12_sse_partial_sum"
   ],
   "note": "Holds for every associative operation, all sizes; for float and double where no addition rounds and no entry is -0.0 (C12_array_float_partial_sum; refuted with -0.0)."
  },
  {
   "property": "C13",
   "status": "proved",
   "theorems": [
    "C13_avx_min_max",
    "C13_avx_sum_product",
    "C13_avx_float_min_max",
    "C13_avx_float_sum_order",
    "C13_array_float_min_max",
    "C13_array_float_product",
    "C13_array_float_sum",
    "C13_reduce",
    "C13_sse_min_max",
    "C13_sse_sum_product",
    "C13_sse_float_min_max",
    "C13_sse_float_sum_order"
   ],
   "note": ""
  },
  {
   "property": "C14",
   "status": "partial",
   "theorems": [
    "C14_avx_masked_min_max",
    "C14_avx_masked_sum_product",
    "C14_avx_float_min_masked_partial",
    "C14_avx_float_max_masked_partial",
    "C14_avx_float_masked_refuted",
    "C14_float_masked_without_limits_refuted",
    "C14_float_masked_without_limits_partial",
    "C14_array_float_masked_sum",
    "C14_array_float_masked_product",
    "C14_empty_mask",
    "C14_reduce_masked",
    "C14_sse_masked_min_max",
    "C14_sse_masked_sum_product",
    "C14_sse_float_min_masked_partial",
    "C14_sse_float_min_masked_refuted",
    "C14_sse_float_max_masked_partial",
    "C14_sse_float_max_masked_refuted"
   ],
   "note": "Float sum(mask) where no addition rounds and no selected entry is -0.0, float product(mask) of integers where no multiplication rounds; float min/max with masks are right only if the selected values are within the limits used as neutral elements (_partial); refuted for infinities and for max with negative values (numeric_limits::min), and for programs without <Vc/limits>, where the neutral element is 0."
  },
  {
   "property": "C15",
   "status": "partial",
   "theorems": [
    "C15_avx_masked_assign",
    "C15_avx_iif",
    "C15_avx_masked_op_assign",
    "C15_avx_masked_increment",
    "C15_avx_vector_set",
    "C15_masked_assign",
    "C15_iif",
    "C15_masked_op_assign",
    "C15_masked_increment",
    "C15_sse_masked_assign",
    "C15_sse_iif",
    "C15_sse_masked_op_assign",
    "C15_sse_masked_increment",
    "C15_sse_masked_increment_refuted"
   ],
   "note": "Refuted only for masked ++/-- on -0.0 in unselected float entries, which become +0.0."
  },
  {
   "property": "C16",
   "status": "partial",
   "theorems": [
    "C16_avx_mask_queries",
    "C16_avx_mask_to_int",
    "C16_avx_native_mask",
    "C16_popcnt",
    "C16_mask_queries",
    "C16_mask_to_int",
    "C16_mask_to_int_refuted",
    "C16_mask_equality",
    "C16_sse_mask_queries",
    "C16_sse_mask_to_int",
    "C16_sse_native_mask"
   ],
   "note": "toInt refuted for masks with more than 32 entries (shift by at least the width of int)."
  },
  {
   "property": "C17",
   "status": "partial",
   "theorems": [
    "C17_avx_mask_entries",
    "C17_avx_mask_logic",
    "C17_avx_mask_shifted",
    "C17_avx_mask_shifted_undefined_refuted",
    "C17_mask_shifted",
    "C17_mask_generate_get",
    "C17_sse_mask_entries",
    "C17_sse_mask_logic",
    "C17_sse_mask_shifted"
   ],
   "note": "All mask functions proved for SSE and AVX; AVX shifted by half the size or more returns the undefined upper half of a cast with GCC (refuted; proved if that half is zero)."
  },
  {
   "property": "C18",
   "status": "proved",
   "theorems": [
    "C18_avx_mask_load_store",
    "C18_mask_array_load_store",
    "C18_sse_mask_load_store"
   ],
   "note": ""
  },
  {
   "property": "C19",
   "status": "partial",
   "theorems": [
    "C19_avx_mask_simd_cast",
    "C19_avx_mask_simd_cast_defined",
    "C19_avx_mask_simd_cast_offset",
    "C19_avx_mask_cast",
    "C19_avx_mask_cast_undefined_refuted",
    "C19_sse_mask_cast"
   ],
   "note": "Proved for all SSE and AVX mask types, including simd_cast from several masks and with an offset; AVX conversion to a mask with unused upper half leaves that half undefined with GCC (refuted; proved if that half is zero)."
  },
  {
   "property": "C20",
   "status": "partial",
   "theorems": [
    "C20_where_iteration",
    "C20_true_indices",
    "C20_where_iteration_refuted"
   ],
   "note": "Refuted for masks with 32 entries: the loop `mask &= mask - 1` over a size_t obtained from a sign-extended int visits positions 32..63."
  },
  {
   "property": "C21",
   "status": "proved",
   "theorems": [
    "C21_avx_compare",
    "C21_sse_compare",
    "C21_sse_compare_64"
   ],
   "note": ""
  },
  {
   "property": "C22",
   "status": "proved",
   "theorems": [
    "C22_avx_arithmetic",
    "C22_avx_min_max",
    "C22_avx_shift",
    "C22_avx_shift_vector",
    "C22_avx_abs",
    "C22_avx_float_negate",
    "C22_sse_arithmetic",
    "C22_sse_min_max",
    "C22_sse_shift",
    "C22_sse_abs",
    "C22_sse_blend",
    "C22_sse_widen",
    "C22_sse_float_negate"
   ],
   "note": ""
  },
  {
   "property": "C23",
   "status": "partial",
   "theorems": [
    "C23_avx_division",
    "C23_avx_remainder",
    "C23_division",
    "C23_remainder",
    "C23_short_min_refuted"
   ],
   "note": "Proved for SSE and AVX; refuted for short -32768 / -1 in SSE builds (saturates instead of wrapping; AVX wraps like C++)."
  },
  {
   "property": "C24",
   "status": "partial",
   "theorems": [
    "C24_avx_gather",
    "C24_avx_gather_masked",
    "C24_avx2_gather",
    "C24_avx2_gather_masked",
    "C24_avx2_index_refuted",
    "C24_avx2_gather16",
    "C24_avx2_gather16_refuted",
    "C24_avx2_gather16_masked",
    "C24_sse_gather",
    "C24_sse_gather_masked",
    "C24_sse_gather_zero_index_partial",
    "C24_gather_zero_index_refuted",
    "C24_gather_larger_index_refuted"
   ],
   "note": "Proved for all implementations and masks; SetIndexZero variant partial (reads mem[0] for unselected lanes) and refuted when mem[0] is not readable or the index array is larger. AVX2 gather instructions: proved for indexes below 2^31; refuted for larger unsigned ones; the 16-bit gathers read 4 bytes per element (refuted at the end of readable memory)."
  },
  {
   "property": "C25",
   "status": "partial",
   "theorems": [
    "C25_avx_scatter",
    "C25_avx_scatter_masked",
    "C25_avx_scatter_strategies_partial",
    "C25_sse_scatter",
    "C25_sse_scatter_masked",
    "C25_sse_scatter_strategies_partial",
    "C25_scatter_order_refuted",
    "C25_scatter_zero_index_refuted"
   ],
   "note": "Strategies agree for distinct indexes (_partial); refuted for duplicates, and SetIndexZero writes element 0."
  },
  {
   "property": "C26",
   "status": "partial",
   "theorems": [
    "C26_avx_write",
    "C26_avx_read",
    "C26_avx_round_trip",
    "C26_write",
    "C26_read",
    "C26_round_trip",
    "C26_write_refuted",
    "C26_unique_assertion"
   ],
   "note": "Refuted for indexes whose scaled offset overflows int; everything else proved for scalar and SSE vectors with 1, 2, 4, 8 and AVX vectors with 4, 8, 16 entries and 2..8 members."
  },
  {
   "property": "C27",
   "status": "partial",
   "theorems": [
    "C27_avx_interleave",
    "C27_avx_deinterleave",
    "C27_avx_deinterleave_refuted",
    "C27_interleave",
    "C27_deinterleave",
    "C27_deinterleave_refuted"
   ],
   "note": "deinterleave reads past the last struct for three vectors and others (C27_deinterleave_refuted, C27_avx_deinterleave_refuted); result proved when these cells are readable."
  },
  {
   "property": "C28",
   "status": "partial",
   "theorems": [
    "C28_blocks",
    "C28_for_each",
    "C28_for_each_n",
    "C28_elementwise",
    "C28_pointers",
    "C28_pointers_refuted"
   ],
   "note": "Iteration proved; for iterators that are pointers before the start of the buffer the code computes an invalid pointer (C28_pointers_refuted)."
  },
  {
   "property": "C29",
   "status": "partial",
   "theorems": [
    "C29_padding",
    "C29_padding_refuted",
    "C29_vectors_partition",
    "C29_vector_at",
    "C29_constructor",
    "C29_constructor_refuted",
    "C29_initializer_list",
    "C29_two_dimensions",
    "C29_alignment",
    "C29_constructor_2d"
   ],
   "note": "Refuted for V::Size that is not a power of two (padding is too small) and for Memory(0)."
  },
  {
   "property": "C30",
   "status": "proved",
   "theorems": [
    "C30_copy",
    "C30_operator_assign",
    "C30_operator_assign_scalar",
    "C30_assign_pointer"
   ],
   "note": ""
  },
  {
   "property": "C31",
   "status": "partial",
   "theorems": [
    "C31_comparison_partial",
    "C31_equality_refuted",
    "C31_not_equal_refuted"
   ],
   "note": "== and the orderings compare the padding too (refuted); != is not the negation of ==. Partial: correct when the paddings agree."
  },
  {
   "property": "C32",
   "status": "partial",
   "theorems": [
    "C32_malloc",
    "C32_malloc_refuted"
   ],
   "note": "Refuted for sizes whose padding or multiplication wraps around."
  },
  {
   "property": "C33",
   "status": "partial",
   "theorems": [
    "C33_avx_integers",
    "C33_simd_cast",
    "C33_simd_cast_defined",
    "C33_simd_cast_offset",
    "C33_constructor_partial",
    "C33_constructor_refuted"
   ],
   "note": "simd_cast proved for all integer pairs in SSE and AVX builds; the converting constructor int -> short saturates in SSE builds (refuted), equal for values in range (_partial). The AVX conversions are in C46_avx_simd_cast and its variants, spelled out in C33_avx_integers."
  },
  {
   "property": "C34",
   "status": "proved",
   "theorems": [
    "C34_avx_uint_to_fp",
    "C34_uint_to_float",
    "C34_uint_to_double"
   ],
   "note": ""
  },
  {
   "property": "C35",
   "status": "proved",
   "theorems": [
    "C35_transpose_float",
    "C35_transpose_simdarray"
   ],
   "note": ""
  },
  {
   "property": "C36",
   "status": "partial",
   "theorems": [
    "C36_avx",
    "C36_sse41",
    "C36_sse2_float",
    "C36_sse2_double_partial",
    "C36_sse2_double_refuted",
    "C36_sse2_zero_refuted",
    "C36_sse2_round_partial",
    "C36_sse2_round_refuted",
    "C36_scalar",
    "C36_scalar_round_partial",
    "C36_scalar_round_refuted",
    "C36_scalar_round_zero_refuted"
   ],
   "note": "SSE4.1 and AVX proved. SSE2 emulations: float proved apart from the sign of zero; double wrong from 2^52 on, round wrong from 2^31 on; Scalar round wrong just below one half and for large odd integers (refuted with partial theorems for the rest)."
  },
  {
   "property": "C37",
   "status": "proved",
   "theorems": [
    "C37_avx_frexp",
    "C37_avx_ldexp",
    "C37_avx_round_trip",
    "C37_avx_exponent",
    "C37_frexp",
    "C37_ldexp",
    "C37_round_trip",
    "C37_exponent"
   ],
   "note": ""
  },
  {
   "property": "C38",
   "status": "proved",
   "theorems": [
    "C38_avx_classification",
    "C38_avx_abs_copysign",
    "C38_classification",
    "C38_abs_copysign",
    "C38_scalar_isnegative",
    "C38_scalar",
    "C38_scalar_minmax",
    "C38_scalar_abs_int"
   ],
   "note": ""
  },
  {
   "property": "C39",
   "status": "partial",
   "theorems": [
    "C39_avx_float_compare",
    "C39_avx_float_gt_refuted",
    "C39_sse_float_compare",
    "C39_sse_float_ge_partial",
    "C39_sse_float_ge_refuted"
   ],
   "note": "SSE float >= is wrong (true for NaN because it is implemented as not-less-than), AVX > and >= with compilers other than GCC; all others proved."
  },
  {
   "property": "C40",
   "status": "proved",
   "theorems": [
    "C40_avx_random_float",
    "C40_avx_random_double",
    "C40_avx_random_state",
    "C40_random_float",
    "C40_random_double",
    "C40_random_state",
    "C40_random_scalar",
    "C40_random_int"
   ],
   "note": ""
  },
  {
   "property": "C41",
   "status": "partial",
   "theorems": [
    "C41_extract",
    "C41_assign",
    "C41_swap",
    "C41_swap_same",
    "C41_broadcast",
    "C41_generator",
    "C41_shifted_power_of_two",
    "C41_where",
    "C41_load_store",
    "C41_load_homogeneous",
    "C41_store_homogeneous",
    "C41_load_homogeneous_layout_refuted"
   ],
   "note": "All struct operations proved. load/store_interleaved for homogeneous structs assume the memory order of get<>; refuted for other layouts (std::tuple in libstdc++)."
  },
  {
   "property": "C42",
   "status": "partial",
   "theorems": [
    "C42_dereference",
    "C42_write",
    "C42_arrow_reads",
    "C42_subscript_assign_refuted",
    "C42_reference_moves_refuted",
    "C42_arithmetic",
    "C42_less_equal_refuted",
    "C42_loop",
    "C42_loop_overrun_refuted",
    "C42_loop_less"
   ],
   "note": "Chunks, reads, writes and arithmetic proved. Refuted: it<=it, it[i] = x (dangling), references follow a moved iterator, the != loop overruns if the size is not a multiple."
  },
  {
   "property": "C43",
   "status": "proved",
   "theorems": [
    "C43_values_of_sorted",
    "C43_values",
    "C43_apply",
    "C43_apply_masked",
    "C43_call",
    "C43_fill"
   ],
   "note": ""
  },
  {
   "property": "C44",
   "status": "partial",
   "theorems": [
    "C44_avx_halves",
    "C44_avx_shuffle",
    "C44_avx_permute",
    "C44_avx_blend",
    "C44_avx_blend16_refuted",
    "C44_avx_broadcast",
    "C44_avx_permutation_refuted",
    "C44_shuffle",
    "C44_permute",
    "C44_permute_double_partial",
    "C44_permute_double_refuted",
    "C44_blend",
    "C44_broadcast_partial",
    "C44_broadcast_refuted",
    "C44_subscript_permutation",
    "C44_subscript_permutation_refuted"
   ],
   "note": "Refuted: Mem::permute<>(__m128d) immediate, double_v::broadcast<1>(), float_v::operator[](Permutation) without AVX. All other helpers proved for all template arguments."
  },
  {
   "property": "C45",
   "status": "partial",
   "theorems": [
    "C45_avx_deinterleave",
    "C45_avx_deinterleave3",
    "C45_avx_deinterleave3_refuted",
    "C45_avx_deinterleave_int",
    "C45_avx_deinterleave_uint_partial",
    "C45_avx_deinterleave_uint_refuted",
    "C45_avx_deinterleave_float",
    "C45_deinterleave_float",
    "C45_deinterleave",
    "C45_deinterleave_int"
   ],
   "note": "Proved for SSE and AVX vectors, two and three vectors, with and without conversion, except: AVX unsigned int from unsigned short sign-extends (refuted, _partial for values below 2^15) and the three-vector AVX variant for short does nothing (refuted)."
  },
  {
   "property": "C46",
   "status": "partial",
   "theorems": [
    "C46_avx_simd_cast",
    "C46_avx_simd_cast_defined",
    "C46_avx_simd_cast_undefined_refuted",
    "C46_avx_sse_simd_cast",
    "C46_avx_sse_simd_cast_defined",
    "C46_avx_simd_cast_offset",
    "C46_avx_constructor",
    "C46_simd_cast_partial",
    "C46_simd_cast_offset",
    "C46_constructor",
    "C46_double_uint_sse2_partial",
    "C46_double_uint_sse2_refuted"
   ],
   "note": "SSE2 double -> uint conversion refuted for mixed lanes; partial gives the lanes for which it is right. AVX: all overloads proved; the entries without argument are undefined with GCC (refuted; proved zero if the upper half of the cast is)."
  },
  {
   "property": "C47",
   "status": "partial",
   "theorems": [
    "C47_avx_fma_float_partial",
    "C47_avx_fma_float_refuted",
    "C47_avx_fma_double_partial",
    "C47_avx_fma_double_refuted",
    "C47_avx_fma_int",
    "C47_fma_float_partial",
    "C47_fma_float_refuted",
    "C47_fma_double_partial",
    "C47_fma_double_refuted",
    "C47_fma_int",
    "C47_scalar"
   ],
   "note": "Scalar proved. SSE and AVX without FMA instructions: Integer fma proved. Float emulation rounds twice and double emulation is inexact (refuted); partial theorems for exactly representable intermediate results."
  },
  {
   "property": "C48",
   "status": "partial",
   "theorems": [
    "C48_widths",
    "C48_unchanged",
    "C48_defined",
    "C48_defined_refuted"
   ],
   "note": "Structure, widths and totality for explicit N proved; without N a bool behind a vectorised class template does not compile (refuted)."
  },
  {
   "property": "C49",
   "status": "partial",
   "theorems": [
    "C49_min_max_index",
    "C49_float_min_index_refuted"
   ],
   "note": "Proved for all integer vectors; float_v::minIndex() returns the bit pattern of the index as float (refuted)."
  },
  {
   "property": "C50",
   "status": "partial",
   "theorems": [
    "C50_sse_load",
    "C50_avx_load",
    "C50_avx_load_uint_partial",
    "C50_avx_load_uint_refuted",
    "C50_avx_load_double_small_refuted",
    "C50_avx_load_alignment_refuted",
    "C50_alignment",
    "C50_scalar_load"
   ],
   "note": "SSE proved for all compilable type pairs. AVX proved except double from 8/16-bit integers, float from unsigned int >= 2^31 and float from double with only MemoryAlignment (refuted)."
  },
  {
   "property": "C51",
   "status": "partial",
   "theorems": [
    "C51_sse_store",
    "C51_sse_store_masked",
    "C51_avx_store",
    "C51_avx_store_masked",
    "C51_store_load",
    "C51_store_other_type_refuted",
    "C51_scalar_store",
    "C51_scalar_store_masked"
   ],
   "note": "Proved for all types, sizes, flags and masks. Storing SSE integer vectors to another integer type writes unconverted entries (refuted)."
  },
  {
   "property": "C52",
   "status": "partial",
   "theorems": [
    "C52_float_parity",
    "C52_double_parity",
    "C52_float_special",
    "C52_double_special",
    "C52_double_large_refuted"
   ],
   "note": "Symmetry and special values proved for all vectors. Double arguments beyond 2^31 quarter turns: neighbouring arguments give results more than 1 apart (refuted). Accuracy up to 2^30: see C77."
  },
  {
   "property": "C53",
   "status": "partial",
   "theorems": [
    "C53_float_independent_partial",
    "C53_double_independent_partial",
    "C53_float_independent_refuted",
    "C53_double_independent_refuted"
   ],
   "note": "Refuted in general (the range reduction is chosen for the whole vector); proved while all arguments are at most 25 (float) or 805 (double) in magnitude."
  },
  {
   "property": "C54",
   "status": "partial",
   "theorems": [
    "C54_double_sincos",
    "C54_float_sincos_partial",
    "C54_float_sincos_refuted"
   ],
   "note": "Proved for double; float refuted between 393382 and 527449, proved for vectors with no entry there."
  },
  {
   "property": "C55",
   "status": "partial",
   "theorems": [
    "C55_log_special",
    "C55_log2_exact",
    "C55_log_not_finite_refuted"
   ],
   "note": "Special values and exactness for powers of two proved; log(+infinity) and log(NaN) are finite (refuted)."
  },
  {
   "property": "C56",
   "status": "partial",
   "theorems": [
    "C56_float_exp",
    "C56_double_exp",
    "C56_double_exp_range_refuted",
    "C56_float_exp_denormal_refuted"
   ],
   "note": "Special values proved; early overflow/underflow of double exp and wrong denormal float results refuted."
  },
  {
   "property": "C57",
   "status": "partial",
   "theorems": [
    "C57_float_asin",
    "C57_double_asin",
    "C57_atan",
    "C57_minus_zero_refuted",
    "C57_atan2_special",
    "C57_atan2_odd"
   ],
   "note": "Proved for all arguments; sign of -0 lost by float asin and atan (refuted)."
  },
  {
   "property": "C58",
   "status": "partial",
   "theorems": [
    "C58_simd_cast",
    "C58_simd_cast_offset_partial",
    "C58_simd_cast_offset_refuted",
    "C58_vector_cast",
    "C58_sse_simd_cast",
    "C58_avx_simd_cast",
    "C58_simd_cast_ushort_refuted"
   ],
   "note": "simd_cast of SimdArrays proved for every size and number of arguments, with an offset if one of the sizes is a power of two (_partial; refuted otherwise). Floating point to ushort from 32768 on refuted where Scalar vectors are combined (signed parameters of _mm_setr_epi16)."
  },
  {
   "property": "C59",
   "status": "proved",
   "theorems": [
    "C59_converting_constructor",
    "C59_to_vector",
    "C59_integer_round_trip"
   ],
   "note": "Proved for all sizes and types."
  },
  {
   "property": "C60",
   "status": "partial",
   "theorems": [
    "C60_allocator_partial",
    "C60_contents",
    "C60_allocate_refuted"
   ],
   "note": "Proved for all histories except requests within the extra bytes of max_size(), where the size wraps (refuted)."
  },
  {
   "property": "C61",
   "status": "partial",
   "theorems": [
    "C61_make_container",
    "C61_empty_refuted"
   ],
   "note": "Proved for lists that are not empty; the empty list is undefined (refuted)."
  },
  {
   "property": "C62",
   "status": "partial",
   "theorems": [
    "C62_supported",
    "C62_best",
    "C62_current_partial",
    "C62_current_refuted",
    "C62_extra_refuted"
   ],
   "note": "isImplementationSupported and bestImplementationSupported proved for all answers that respect the documented order of the instruction sets. currentImplementationSupported proved for builds without F16C and with FMA4 only beside XOP (refuted for the others); extraInstructionsSupported refuted (ignores the operating system)."
  },
  {
   "property": "C63",
   "status": "partial",
   "theorems": [
    "C63_signature_partial",
    "C63_family_refuted"
   ],
   "note": "Proved for processors without extended family; refuted for all others (wrong shift)."
  },
  {
   "property": "C64",
   "status": "partial",
   "theorems": [
    "C64_caches_partial",
    "C64_descriptor_refuted",
    "C64_l1_associativity_refuted",
    "C64_amd_partial",
    "C64_amd_l3_refuted"
   ],
   "note": "Sizes and line sizes of all levels and associativity of L2, L3 proved, except three descriptors (refuted); L1 associativity refuted; AMD proved except the L3 associativity (refuted)."
  },
  {
   "property": "C65",
   "status": "partial",
   "theorems": [
    "C65_gather_partial",
    "C65_gather_masked_partial",
    "C65_scatter_partial",
    "C65_scatter_masked_partial",
    "C65_avx2_gather_partial",
    "C65_avx2_gather_masked_partial",
    "C65_nested_refuted",
    "C65_overflow_refuted"
   ],
   "note": "Proved for both kinds of builds, all sizes and all chains of subscripts; not for distances the index type cannot hold and for inner indexes into arrays of objects that do not divide the indexed object (both refuted); std::vector indexes with write-masked gather do not compile."
  },
  {
   "property": "C66",
   "status": "partial",
   "theorems": [
    "C66_parts",
    "C66_checked_partial",
    "C66_static_subspan_refuted",
    "C66_negative_subspan_refuted",
    "C66_access",
    "C66_compare"
   ],
   "note": "Parts and access proved for all chains; the assertions of subspan with template arguments miss cases (both refuted), so C66_checked is partial."
  },
  {
   "property": "C67",
   "status": "proved",
   "theorems": [
    "C67_layout",
    "C67_reference",
    "C67_mask_reference"
   ],
   "note": "Proved for all sizes, alignment limits and entries."
  },
  {
   "property": "C68",
   "status": "partial",
   "theorems": [
    "C68_native_types",
    "C68_array_types",
    "C68_vectors",
    "C68_fixed_partial",
    "C68_fixed_refuted",
    "C68_values",
    "C68_compares_partial",
    "C68_compares_refuted"
   ],
   "note": "Types and arithmetic values proved; the two kinds of SimdArray operands disagree for short, and comparisons of short with scalars it cannot hold differ from C++ (both refuted)."
  },
  {
   "property": "C69",
   "status": "partial",
   "theorems": [
    "C69_rounding",
    "C69_rounding_sse2",
    "C69_abs_copysign",
    "C69_classification",
    "C69_round_partial",
    "C69_round_refuted",
    "C69_minmax_partial",
    "C69_minmax_refuted",
    "C69_fma_partial",
    "C69_fma_refuted"
   ],
   "note": "Rounding, sign and classification functions proved for every size and build; round, min/max with NaN and fma differ between positions (refuted, with partial theorems for the rest)."
  },
  {
   "property": "C70",
   "status": "partial",
   "theorems": [
    "C70_all",
    "C70_partial",
    "C70_refuted",
    "C70_scalar",
    "C70_scalar_refuted"
   ],
   "note": "Proved for every build and size when all divisions are defined, and without any condition on the entries that are not selected exactly for the builds and sizes that divide in floating point; refuted for all others."
  },
  {
   "property": "C71",
   "status": "partial",
   "theorems": [
    "C71_vector",
    "C71_vector_numbers",
    "C71_mask",
    "C71_array",
    "C71_array_numbers_partial",
    "C71_array_numbers_refuted",
    "C71_mask_array",
    "C71_memory_partial",
    "C71_memory_numbers_partial",
    "C71_memory_refuted",
    "C71_memory_entries_refuted",
    "C71_memory_2d",
    "C71_colours_end",
    "C71_memory_doc_refuted"
   ],
   "note": "Refuted for the numbers of SimdArrays of character types, for Memory objects of 2^32 vectors or more, and for the padding of Memory objects; proved for everything else."
  },
  {
   "property": "C72",
   "status": "proved",
   "theorems": [
    "C72_iterate",
    "C72_range",
    "C72_read",
    "C72_update",
    "C72_random_access",
    "C72_iterate_2d"
   ],
   "note": "Full statement, for objects of fewer than 2^63 entries."
  },
  {
   "property": "C73",
   "status": "partial",
   "theorems": [
    "C73_tie_partial",
    "C73_tie_small_refuted"
   ],
   "note": "Proved for objects larger than 8 bytes and for objects of one number; refuted for the others."
  },
  {
   "property": "C74",
   "status": "partial",
   "theorems": [
    "C74_entries",
    "C74_same_vector_partial",
    "C74_different_vectors_refuted",
    "C74_subscript_refuted"
   ],
   "note": "Refuted for subscripts of iterators and for comparisons of iterators of different vectors; proved for everything else."
  },
  {
   "property": "C75",
   "status": "proved",
   "theorems": [
    "C75_at",
    "C75_fill",
    "C75_swap",
    "C75_compare"
   ],
   "note": "Full statement."
  },
  {
   "property": "C76",
   "status": "partial",
   "theorems": [
    "C76_portable_partial",
    "C76_builds_agree_partial",
    "C76_short_division_refuted"
   ],
   "note": "Proved for integer entry types and the listed calls when the entry by entry meaning is defined, division results included only if representable; refuted for short(-32768) / short(-1). shifted(k) only where C05 proves it and shifted(k, y) for |k| <= N. Casts, mask shifts and the other math functions are not calls of the program language."
  },
  {
   "property": "C77",
   "status": "proved",
   "theorems": [
    "C77_float_sin_cos",
    "C77_float_sincos",
    "C77_double_sin_cos"
   ],
   "note": "Full statement. Beyond 2^30 the double functions are wrong (C52_double_large_refuted)."
  },
  {
   "property": "C78",
   "status": "proved",
   "theorems": [
    "C78_float_exp",
    "C78_double_exp"
   ],
   "note": "Full statement. Outside these ranges the result may be infinite, zero or subnormal: see C56."
  },
  {
   "property": "C79",
   "status": "proved",
   "theorems": [
    "C79_float_log",
    "C79_double_log"
   ],
   "note": "Full statement."
  },
  {
   "property": "C80",
   "status": "proved",
   "theorems": [
    "C80_float_atan",
    "C80_double_atan"
   ],
   "note": "Full statement."
  },
  {
   "property": "C81",
   "status": "proved",
   "theorems": [
    "C81_float_atan2",
    "C81_double_atan2"
   ],
   "note": "Full statement."
  },
  {
   "property": "C82",
   "status": "proved",
   "theorems": [
    "C82_float_asin",
    "C82_double_asin"
   ],
   "note": "Full statement."
  },
  {
   "property": "C83",
   "status": "partial",
   "theorems": [
    "C83_fp_portable_partial",
    "C83_fp_builds_agree_partial",
    "C83_sum_refuted",
    "C83_nan_refuted"
   ],
   "note": "Proved for the listed calls, shifted(k) only where C05 proves it and shifted(k, y) for |k| <= N. Missing: the bitwise operators, min(mask) and max(mask) (the builds differ, C14); product(), product(mask), sum(), sum(mask) and partialSum() where an operation rounds depend on the build (C83_sum_refuted), as do > and >= with NaN (C83_nan_refuted)."
  },
  {
   "property": "C84",
   "status": "partial",
   "theorems": [
    "C84_sqrt",
    "C84_sqrt_builds_agree",
    "C84_reciprocal_float",
    "C84_reciprocal_exact",
    "C84_rsqrt_float",
    "C84_rsqrt_exact",
    "C84_position_refuted"
   ],
   "note": "All parts proved but the last: equal entries give equal results only for sqrt (C84_position_refuted). That rcpps and rsqrtps do what the manuals promise is a hypothesis."
  },
  {
   "property": "C85",
   "status": "partial",
   "theorems": [
    "C85_aligned_base",
    "C85_malloc_vector",
    "C85_array_new_partial",
    "C85_array_new_refuted",
    "C85_mask_array_new",
    "C85_mask_array_new_array"
   ],
   "note": "Classes derived from VectorAlignedBase and MemoryAlignedBase and malloc with AlignOnVector and new and new[] of SimdMaskArray proved. new SimdArray proved for native vectors, for at most 8 bytes and above the alignment limit (_partial); refuted for all other sizes: only the alignment of the left half is requested."
  },
  {
   "property": "C86",
   "status": "proved",
   "theorems": [
    "C86_order",
    "C86_order_refuted",
    "C86_library_check"
   ],
   "note": "Proved for minor numbers below 256 and patch numbers below 128, refuted beyond (the bits overlap)."
  }
 ]
}