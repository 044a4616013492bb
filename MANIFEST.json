{
 "claims": [
  {
   "property": "C01",
   "status": "proved",
   "theorems": [
    "C01_u16_to_f32_exact"
   ],
   "note": ""
  },
  {
   "property": "C02",
   "status": "proved",
   "theorems": [
    "C02_f32_to_u16_nearest_even",
    "C02_f32_to_u16_overflow",
    "C02_f32_to_u16_inf",
    "C02_f32_to_u16_nan",
    "C02_f32_to_u16_range"
   ],
   "note": ""
  },
  {
   "property": "C03",
   "status": "proved",
   "theorems": [
    "C03_half_single_half"
   ],
   "note": ""
  },
  {
   "property": "C04",
   "status": "proved",
   "theorems": [
    "C04_f32_to_u16_monotone"
   ],
   "note": ""
  },
  {
   "property": "C05",
   "status": "proved",
   "theorems": [
    "C05_u16_to_f32_noieee_exact",
    "C05_f32_to_u16_noieee_quadruples",
    "C05_noieee_round_trip_refuted"
   ],
   "note": "The expected round trip is refuted; the property states what the code does."
  },
  {
   "property": "C06",
   "status": "proved",
   "theorems": [
    "C06_instances",
    "C06_ufp_comparable",
    "C06_ufp_far",
    "C06_gap_is_distance",
    "C06_ufp_symmetric",
    "C06_ufp_ignores_sign",
    "C06_ufp_bounds",
    "C06_ufp_max_iff_equal"
   ],
   "note": ""
  },
  {
   "property": "C07",
   "status": "proved",
   "theorems": [
    "C07_f32",
    "C07_f64"
   ],
   "note": ""
  },
  {
   "property": "C08",
   "status": "proved",
   "theorems": [
    "C08_f16_actual",
    "C08_f16_refuted"
   ],
   "note": "Finding: the f16 functions misclassify; exact behaviour proved."
  },
  {
   "property": "C09",
   "status": "proved",
   "theorems": [
    "C09_adds_saturates"
   ],
   "note": ""
  },
  {
   "property": "C10",
   "status": "proved",
   "theorems": [
    "C10_subs_saturates",
    "C10_subs_most_negative",
    "C10_subs_refuted"
   ],
   "note": "Finding: subtracting the most negative value."
  },
  {
   "property": "C11",
   "status": "proved",
   "theorems": [
    "C11_shl",
    "C11_shr",
    "C11_shra"
   ],
   "note": ""
  },
  {
   "property": "C12",
   "status": "proved",
   "theorems": [
    "C12_bitwise",
    "C12_masks",
    "C12_reinterpret_cvt"
   ],
   "note": ""
  },
  {
   "property": "C13",
   "status": "proved",
   "theorems": [
    "C13_minmax",
    "C13_abs",
    "C13_abs_min",
    "C13_arith_value",
    "C13_fma_total",
    "C13_fma_representable",
    "C13_mul_u16_undefined_refuted"
   ],
   "note": "Finding: u16 products overflow int."
  },
  {
   "property": "C15",
   "status": "proved",
   "theorems": [
    "C15_popcnt",
    "C15_popcnt_halves"
   ],
   "note": ""
  },
  {
   "property": "C14",
   "status": "proved",
   "theorems": [
    "C14_units",
    "C14_round_to_even_f32",
    "C14_round_to_even_f64",
    "C14_round_to_even_f16",
    "C14_special",
    "C14_special_f16"
   ],
   "note": ""
  },
  {
   "property": "C51",
   "status": "proved",
   "theorems": [
    "C51_trunc_f32",
    "C51_trunc_f64",
    "C51_trunc_special"
   ],
   "note": ""
  },
  {
   "property": "C16",
   "status": "proved",
   "theorems": [
    "C16_lanewise",
    "C16_integer_arith",
    "C16_integer_div",
    "C16_iota"
   ],
   "note": ""
  },
  {
   "property": "C17",
   "status": "proved",
   "theorems": [
    "C17_logicals",
    "C17_reductions",
    "C17_loadl",
    "C17_storel_loadl",
    "C17_mask_logical"
   ],
   "note": ""
  },
  {
   "property": "C18",
   "status": "proved",
   "theorems": [
    "C18_mask_store",
    "C18_maskz_load",
    "C18_masko_load",
    "C18_load",
    "C18_store"
   ],
   "note": ""
  },
  {
   "property": "C19",
   "status": "proved",
   "theorems": [
    "C19_load_deg",
    "C19_store_deg",
    "C19_load_after_store",
    "C19_store_after_load",
    "C19_conditions"
   ],
   "note": ""
  },
  {
   "property": "C20",
   "status": "proved",
   "theorems": [
    "C20_zip",
    "C20_unzip",
    "C20_inverse"
   ],
   "note": ""
  },
  {
   "property": "C21",
   "status": "proved",
   "theorems": [
    "C21_loop_tail",
    "C21_near_int_max_refuted"
   ],
   "note": "Finding: overflow near INT_MAX."
  },
  {
   "property": "C22",
   "status": "proved",
   "theorems": [
    "C22_upcvt",
    "C22_downcvt",
    "C22_round_trip",
    "C22_cvt",
    "C22_upcvt_wraps"
   ],
   "note": "Integer types only."
  },
  {
   "property": "C23",
   "status": "proved",
   "theorems": [
    "C23_f16_sign_bit",
    "C23_f16_bitwise_refuted",
    "C23_reinterpret",
    "C23_reinterpret_to_f16"
   ],
   "note": "Finding: bitwise operators on f16 act on the f32 widening."
  },
  {
   "property": "C52",
   "status": "proved",
   "theorems": [
    "C52_gather",
    "C52_gather_linear",
    "C52_scatter",
    "C52_scatter_linear"
   ],
   "note": ""
  },
  {
   "property": "C24",
   "status": "proved",
   "theorems": [
    "C24_lanewise",
    "C24_compound_assignment",
    "C24_reductions",
    "C24_loads",
    "C24_stores",
    "C24_len"
   ],
   "note": ""
  },
  {
   "property": "C25",
   "status": "proved",
   "theorems": [
    "C25_load_deg",
    "C25_store_deg"
   ],
   "note": ""
  },
  {
   "property": "C26",
   "status": "proved",
   "theorems": [
    "C26_gather",
    "C26_scatter",
    "C26_one_register",
    "C26_unrolled_refuted"
   ],
   "note": "Finding: wrong addresses for N > 1."
  },
  {
   "property": "C27",
   "status": "proved",
   "theorems": [
    "C27_iota_and_tail",
    "C27_one_register",
    "C27_unrolled_refuted"
   ],
   "note": "Finding: registers repeat for N > 1."
  },
  {
   "property": "C28",
   "status": "proved",
   "theorems": [
    "C28_to_pack",
    "C28_to_pack_interleave"
   ],
   "note": ""
  },
  {
   "property": "C29",
   "status": "proved",
   "theorems": [
    "C29_history",
    "C29_alloc",
    "C29_alloc_for",
    "C29_free"
   ],
   "note": ""
  },
  {
   "property": "C30",
   "status": "proved",
   "theorems": [
    "C30_cxx11_wrapping",
    "C30_cxx11_standard",
    "C30_cxx98_in_range",
    "C30_refuted"
   ],
   "note": "Findings: signed overflow in the C++11 allocator, under-allocation in the C++98 one."
  },
  {
   "property": "C31",
   "status": "proved",
   "theorems": [
    "C31_cpu",
    "C31_gpu",
    "C31_gpu_copy_refuted",
    "C31_round_trip",
    "C31_refuted",
    "C31_calloc_zero"
   ],
   "note": "Finding: GPU pair_malloc/pair_calloc allocate sz bytes, not sz elements, on the host."
  },
  {
   "property": "C32",
   "status": "proved",
   "theorems": [
    "C32_cuda_rocm",
    "C32_oneapi",
    "C32_fill_and_tests",
    "C32_any_schedule",
    "C32_refuted"
   ],
   "note": "Finding: int indices wrap beyond 2^31 elements."
  },
  {
   "property": "C41",
   "status": "proved",
   "theorems": [
    "C41_cpu",
    "C41_scalar_only",
    "C41_gpu"
   ],
   "note": ""
  },
  {
   "property": "C42",
   "status": "proved",
   "theorems": [
    "C42_cpu",
    "C42_gpu",
    "C42_masked_out_lanes_refuted"
   ],
   "note": "Finding: masked-out lanes are evaluated on CPU."
  },
  {
   "property": "C43",
   "status": "proved",
   "theorems": [
    "C43_sizes_agree",
    "C43_no_out_of_bounds",
    "C43_slice",
    "C43_refuted"
   ],
   "note": "Findings: one-element slices rejected; (scalar, scalar, array) rejected."
  },
  {
   "property": "C44",
   "status": "proved",
   "theorems": [
    "C44_every_index_once",
    "C44_result"
   ],
   "note": ""
  },
  {
   "property": "C45",
   "status": "proved",
   "theorems": [
    "C45_lanes",
    "C45_launch"
   ],
   "note": ""
  },
  {
   "property": "C46",
   "status": "proved",
   "theorems": [
    "C46_return",
    "C46_call"
   ],
   "note": ""
  },
  {
   "property": "C47",
   "status": "proved",
   "theorems": [
    "C47_partial_correctness",
    "C47_terminates",
    "C47_flat_loops",
    "C47_diverges_inactive",
    "C47_diverges_exit",
    "C47_refuted"
   ],
   "note": "Findings: loops in branches, nested loops and k_break can run for ever; k_continue miscomputes."
  },
  {
   "property": "C48",
   "status": "proved",
   "theorems": [
    "C48_simd",
    "C48_correct_iff",
    "C48_scalar",
    "C48_refuted"
   ],
   "note": "Finding: k_set on k_bool clears inactive lanes."
  },
  {
   "property": "C38",
   "status": "proved",
   "theorems": [
    "C38_mulhilo64",
    "C38_mulhilo32",
    "C38_mulhilo32_halves"
   ],
   "note": "mulhilo32 (live and alternative version) and mulhilo64 return the exact double-width product in every lane, for any register length."
  },
  {
   "property": "C39",
   "status": "proved",
   "theorems": [
    "C39_philox2x32",
    "C39_philox2x64",
    "C39_philox4x32",
    "C39_philox4x64",
    "C39_bijection_philox2x32",
    "C39_bijection_philox2x64",
    "C39_bijection_philox4x32",
    "C39_bijection_philox4x64",
    "C39_distinct_philox2x32",
    "C39_distinct_philox2x64",
    "C39_distinct_philox4x32",
    "C39_distinct_philox4x64"
   ],
   "note": "All four philox functions equal the Random123 definition in every lane, for any number of rounds >= 1, and are bijections of the counter for each key. Known answers checked as examples."
  },
  {
   "property": "C40",
   "status": "proved",
   "theorems": [
    "C40_threefry2x32",
    "C40_threefry2x64",
    "C40_threefry4x32",
    "C40_threefry4x64",
    "C40_bijection_threefry2x32",
    "C40_bijection_threefry2x64",
    "C40_bijection_threefry4x32",
    "C40_bijection_threefry4x64",
    "C40_distinct_threefry2x32",
    "C40_distinct_threefry2x64",
    "C40_distinct_threefry4x32",
    "C40_distinct_threefry4x64"
   ],
   "note": "All four threefry functions equal the Random123 definition in every lane, for any number of rounds, and are bijections of the counter for each key."
  },
  {
   "property": "C33",
   "status": "proved",
   "theorems": [
    "C33_add",
    "C33_sub",
    "C33_neg",
    "C33_mul",
    "C33_mul_rt0_refuted",
    "C33_div",
    "C33_div_zero",
    "C33_abs"
   ],
   "note": "Finding: with rt = 0 on 32/64-bit storage operator* shifts by the width of the type."
  },
  {
   "property": "C34",
   "status": "proved",
   "theorems": [
    "C34_compare",
    "C34_compare_multiples",
    "C34_exact_iff",
    "C34_eq_ulp",
    "C34_refuted"
   ],
   "note": "Finding: the comparisons mask out significant bits (1.0 == 2.0 in fp_t<8,8>)."
  },
  {
   "property": "C35",
   "status": "proved",
   "theorems": [
    "C35_floor",
    "C35_floor_lf0",
    "C35_exact_iff",
    "C35_refuted"
   ],
   "note": "Finding: floor shifts by width - lf instead of rt."
  },
  {
   "property": "C36",
   "status": "proved",
   "theorems": [
    "C36_arith",
    "C36_fma",
    "C36_min_max",
    "C36_abs",
    "C36_rec",
    "C36_compare",
    "C36_compare_refuted"
   ],
   "note": "Finding: SIMD and scalar comparisons disagree."
  },
  {
   "property": "C37",
   "status": "proved",
   "theorems": [
    "C37_exp",
    "C37_exp_terminates",
    "C37_exp_zero",
    "C37_exp_negative",
    "C37_exp_min_undefined"
   ],
   "note": ""
  },
  {
   "property": "C53",
   "status": "proved",
   "theorems": [
    "C53_sqrt",
    "C53_sqrt_any",
    "C53_sqrt_zero_undefined",
    "C53_sqrt_refuted"
   ],
   "note": "Findings: wraps for large operands, divides by zero for sqrt(0)."
  },
  {
   "property": "C54",
   "status": "proved",
   "theorems": [
    "C54_log2",
    "C54_log2_refuted"
   ],
   "note": "Findings: log2 ignores the fraction for small operands and may not terminate."
  },
  {
   "property": "C55",
   "status": "proved",
   "theorems": [
    "C55_of_float",
    "C55_to_float",
    "C55_round_trip",
    "C55_round_trip_refuted",
    "C55_rt31_undefined",
    "C55_of_int"
   ],
   "note": ""
  },
  {
   "property": "C50",
   "status": "proved",
   "theorems": [
    "C50_structure_loads_and_stores_transpose",
    "C50_store_after_load_restores_memory",
    "C50_load_after_store_returns_registers",
    "C50_lanes_in_memory_order_iff",
    "C50_memory_order_refuted"
   ],
   "note": "Finding: on AVX, AVX2 and AVX-512 some combinations permute the structures across lanes. f16 goes through the u16 version and is covered for the shuffles only."
  },
  {
   "property": "C49",
   "status": "proved",
   "theorems": [
    "C49_add",
    "C49_sub",
    "C49_neg",
    "C49_mul",
    "C49_mul_undefined",
    "C49_div",
    "C49_div_undefined",
    "C49_fma",
    "C49_fma_undefined",
    "C49_shl",
    "C49_shr",
    "C49_shra",
    "C49_bitwise",
    "C49_bitwise_registers",
    "C49_compare",
    "C49_logical_operators",
    "C49_set1l",
    "C49_set1",
    "C49_if_else",
    "C49_min_max",
    "C49_abs",
    "C49_adds",
    "C49_subs",
    "C49_subs_saturates_refuted",
    "C49_to_mask",
    "C49_to_logical",
    "C49_loadl",
    "C49_storel",
    "C49_reductions"
   ],
   "note": "Finding: subs on i32 and i64 is wrong for a subtrahend equal to the smallest value. Intel intrinsics are transcribed from the Intel guide (trusted)."
  },
  {
   "property": "C56",
   "status": "proved",
   "theorems": [
    "C56_reverse",
    "C56_reverse_twice",
    "C56_reverse_f16",
    "C56_reverse_f16_refuted",
    "C56_reverse_f64_avx512_refuted"
   ],
   "note": "reverse is wrong on f16 (halves not swapped) and does not compile on AVX-512 f64; both recorded as refutations"
  },
  {
   "property": "C57",
   "status": "proved",
   "theorems": [
    "C57_ziplo",
    "C57_ziphi",
    "C57_unziplo",
    "C57_unziphi",
    "C57_unzip_zip",
    "C57_zip_unzip"
   ],
   "note": ""
  },
  {
   "property": "C58",
   "status": "proved",
   "theorems": [
    "C58_load",
    "C58_store",
    "C58_maskz_load",
    "C58_masko_load",
    "C58_mask_store",
    "C58_load_f16",
    "C58_store_f16",
    "C58_maskz_load_f16",
    "C58_masko_load_f16",
    "C58_mask_store_f16"
   ],
   "note": ""
  },
  {
   "property": "C59",
   "status": "proved",
   "theorems": [
    "C59_iota",
    "C59_mask_for_loop_tail"
   ],
   "note": ""
  },
  {
   "property": "C60",
   "status": "proved",
   "theorems": [
    "C60_gather",
    "C60_scatter",
    "C60_gather_linear",
    "C60_scatter_linear",
    "C60_gather_f16",
    "C60_scatter_f16",
    "C60_gather_linear_f16",
    "C60_scatter_linear_f16"
   ],
   "note": ""
  },
  {
   "property": "C61",
   "status": "proved",
   "theorems": [
    "C61_upcvt",
    "C61_downcvt",
    "C61_cvt",
    "C61_round_trip"
   ],
   "note": ""
  },
  {
   "property": "C62",
   "status": "proved",
   "theorems": [
    "C62_nearest_float",
    "C62_cvt_from_int",
    "C62_cvt_to_int",
    "C62_to_int_unique",
    "C62_same_result_refuted"
   ],
   "note": "C62_same_result_refuted: rounding differs between types and extensions"
  },
  {
   "property": "C63",
   "status": "proved",
   "theorems": [
    "C63_upcvt_from_int",
    "C63_upcvt_to_int",
    "C63_upcvt_to_int_refuted",
    "C63_upcvt_float",
    "C63_downcvt_float",
    "C63_downcvt_from_int",
    "C63_downcvt_i64_avx512",
    "C63_downcvt_from_int_refuted",
    "C63_downcvt_to_int",
    "C63_cvt_to_f16",
    "C63_cvt_from_f16",
    "C63_f16_round_trip",
    "C63_upcvt_from_f16",
    "C63_upcvt_f16_to_int",
    "C63_upcvt_to_f16",
    "C63_downcvt_to_f16",
    "C63_downcvt_f32_to_f16",
    "C63_downcvt_from_f16"
   ],
   "note": "the two refutations show where the conversion goes through a 32-bit integer"
  },
  {
   "property": "C64",
   "status": "proved",
   "theorems": [
    "C64_compare",
    "C64_compare_f16",
    "C64_if_else",
    "C64_if_else_f16",
    "C64_unordered",
    "C64_ge_not_lt_refuted"
   ],
   "note": ""
  },
  {
   "property": "C65",
   "status": "proved",
   "theorems": [
    "C65_neg",
    "C65_abs",
    "C65_abs_like_scalar_refuted",
    "C65_min",
    "C65_max",
    "C65_min_value",
    "C65_max_value",
    "C65_min_commutes_refuted",
    "C65_f16"
   ],
   "note": "the scalar abs keeps -0.0: recorded as a refutation"
  },
  {
   "property": "C66",
   "status": "proved",
   "theorems": [
    "C66_floor",
    "C66_ceil",
    "C66_trunc",
    "C66_round_to_even",
    "C66_f16",
    "C66_same_on_every_extension"
   ],
   "note": ""
  },
  {
   "property": "C67",
   "status": "proved",
   "theorems": [
    "C67_addv",
    "C67_addv_f16",
    "C67_exact",
    "C67_exact_f16",
    "C67_like_emulation_refuted"
   ],
   "note": ""
  },
  {
   "property": "C68",
   "status": "proved",
   "theorems": [
    "C68_all_any_nbtrue",
    "C68_all_any_nbtrue_f16",
    "C68_to_mask",
    "C68_to_mask_f16",
    "C68_to_logical",
    "C68_to_logical_f16",
    "C68_loadl",
    "C68_storel",
    "C68_round_trip",
    "C68_loadl_f16",
    "C68_storel_f16",
    "C68_round_trip_f16",
    "C68_minus_zero",
    "C68_loadl_f16_portable_refuted",
    "C68_iota",
    "C68_iota_f16",
    "C68_loop_tail",
    "C68_loop_tail_f16",
    "C68_set1",
    "C68_set1_f16"
   ],
   "note": ""
  },
  {
   "property": "C69",
   "status": "proved",
   "theorems": [
    "C69_to_f16",
    "C69_from_f16",
    "C69_round_trip",
    "C69_logicals",
    "C69_logicals_back"
   ],
   "note": ""
  },
  {
   "property": "C70",
   "status": "proved",
   "theorems": [
    "C70_add_sub",
    "C70_mul",
    "C70_mul_undefined",
    "C70_neg",
    "C70_abs",
    "C70_neg_abs_undefined",
    "C70_min_max",
    "C70_saturated",
    "C70_set1_len"
   ],
   "note": ""
  },
  {
   "property": "C71",
   "status": "proved",
   "theorems": [
    "C71_div",
    "C71_div_undefined"
   ],
   "note": ""
  },
  {
   "property": "C72",
   "status": "proved",
   "theorems": [
    "C72_bitwise",
    "C72_bitwise_registers",
    "C72_shl",
    "C72_shr",
    "C72_shra"
   ],
   "note": ""
  },
  {
   "property": "C73",
   "status": "proved",
   "theorems": [
    "C73_compare",
    "C73_logical_operators",
    "C73_set1l",
    "C73_if_else",
    "C73_all_any",
    "C73_nbtrue",
    "C73_to_mask",
    "C73_to_logical"
   ],
   "note": ""
  },
  {
   "property": "C74",
   "status": "proved",
   "theorems": [
    "C74_fma",
    "C74_fma_undefined"
   ],
   "note": ""
  },
  {
   "property": "C75",
   "status": "proved",
   "theorems": [
    "C75_iota",
    "C75_mask_for_loop_tail",
    "C75_mask_for_loop_tail_refuted"
   ],
   "note": "i8 on SVE vectors of more than 128 elements: C75_mask_for_loop_tail_refuted"
  },
  {
   "property": "C76",
   "status": "proved",
   "theorems": [
    "C76_reverse",
    "C76_reverse_f16",
    "C76_reverse_twice"
   ],
   "note": ""
  },
  {
   "property": "C77",
   "status": "proved",
   "theorems": [
    "C77_zip",
    "C77_unzip",
    "C77_both",
    "C77_inverse",
    "C77_zip_f16",
    "C77_unzip_f16",
    "C77_inverse_f16"
   ],
   "note": ""
  },
  {
   "property": "C78",
   "status": "proved",
   "theorems": [
    "C78_load",
    "C78_store",
    "C78_load_deg",
    "C78_store_deg",
    "C78_round_trip",
    "C78_load_f16",
    "C78_store_f16",
    "C78_load_deg_f16",
    "C78_store_deg_f16"
   ],
   "note": ""
  },
  {
   "property": "C79",
   "status": "proved",
   "theorems": [
    "C79_masko_load",
    "C79_maskz_load",
    "C79_mask_store",
    "C79_masko_load_f16",
    "C79_maskz_load_f16",
    "C79_mask_store_f16",
    "C79_loadl",
    "C79_storel"
   ],
   "note": ""
  },
  {
   "property": "C80",
   "status": "proved",
   "theorems": [
    "C80_gather",
    "C80_gather_linear",
    "C80_scatter",
    "C80_scatter_linear",
    "C80_gather_f16",
    "C80_gather_linear_f16",
    "C80_scatter_f16",
    "C80_scatter_linear_f16"
   ],
   "note": ""
  },
  {
   "property": "C81",
   "status": "proved",
   "theorems": [
    "C81_upcvt",
    "C81_downcvt",
    "C81_cvt",
    "C81_round_trip"
   ],
   "note": ""
  },
  {
   "property": "C82",
   "status": "proved",
   "theorems": [
    "C82_cvt_from_int",
    "C82_cvt_to_int",
    "C82_saturated_unique",
    "C82_saturated_in_range",
    "C82_cvt_f64_neon128"
   ],
   "note": ""
  },
  {
   "property": "C83",
   "status": "proved",
   "theorems": [
    "C83_upcvt_from_int",
    "C83_upcvt_float",
    "C83_upcvt_to_int",
    "C83_downcvt_float",
    "C83_downcvt_from_int_sve",
    "C83_downcvt_from_int_neon",
    "C83_downcvt_nearest_refuted",
    "C83_downcvt_to_int",
    "C83_downcvt_to_int_in_range",
    "C83_cvt_to_f16",
    "C83_cvt_from_f16",
    "C83_upcvt_from_f16",
    "C83_upcvt_f16_to_int",
    "C83_upcvt_to_f16",
    "C83_downcvt_to_f16",
    "C83_downcvt_f32_to_f16",
    "C83_downcvt_from_f16",
    "C83_reinterpret_to_f16",
    "C83_reinterpret_from_f16",
    "C83_reinterpret_round_trip",
    "C83_reinterpretl_to_f16",
    "C83_reinterpretl_from_f16"
   ],
   "note": "the f16 operators are those of NEON without NSIMD_ARM_FP16"
  },
  {
   "property": "C84",
   "status": "proved",
   "theorems": [
    "C84_compare",
    "C84_compare_f16",
    "C84_logical_operators",
    "C84_if_else",
    "C84_if_else_f16",
    "C84_unordered"
   ],
   "note": ""
  },
  {
   "property": "C85",
   "status": "proved",
   "theorems": [
    "C85_neg",
    "C85_abs",
    "C85_min",
    "C85_max",
    "C85_neon128_f64",
    "C85_f16",
    "C85_commutes",
    "C85_min_portable_refuted",
    "C85_abs_portable_refuted",
    "C85_min_like_x86_refuted"
   ],
   "note": ""
  },
  {
   "property": "C86",
   "status": "proved",
   "theorems": [
    "C86_floor",
    "C86_ceil",
    "C86_trunc",
    "C86_round_to_even",
    "C86_f16"
   ],
   "note": ""
  },
  {
   "property": "C87",
   "status": "proved",
   "theorems": [
    "C87_addv",
    "C87_exact",
    "C87_addv_f16",
    "C87_exact_f16",
    "C87_fp16_refuted"
   ],
   "note": "addv of native f16 on NEON is wrong: C87_fp16_refuted"
  },
  {
   "property": "C88",
   "status": "proved",
   "theorems": [
    "C88_all_any",
    "C88_nbtrue",
    "C88_all_any_nbtrue_f16",
    "C88_to_mask",
    "C88_to_logical",
    "C88_masks_f16",
    "C88_set1",
    "C88_set1_f16",
    "C88_set1l",
    "C88_loadl",
    "C88_storel",
    "C88_round_trip",
    "C88_loadl_f16",
    "C88_storel_f16",
    "C88_iota",
    "C88_iota_f16",
    "C88_loop_tail",
    "C88_loop_tail_f16"
   ],
   "note": ""
  },
  {
   "property": "C89",
   "status": "proved",
   "theorems": [
    "C89_assumed",
    "C89_unique",
    "C89_add",
    "C89_sub",
    "C89_mul",
    "C89_div",
    "C89_rec",
    "C89_sqrt"
   ],
   "note": ""
  },
  {
   "property": "C90",
   "status": "proved",
   "theorems": [
    "C90_fused",
    "C90_unfused",
    "C90_f16",
    "C90_f16_standards",
    "C90_f16_nearest_refuted",
    "C90_standards_refuted"
   ],
   "note": "f16 fma rounds twice; C89 and C99 differ: recorded as refutations"
  },
  {
   "property": "C91",
   "status": "proved",
   "theorems": [
    "C91_neg",
    "C91_abs",
    "C91_min",
    "C91_max",
    "C91_compare",
    "C91_floor",
    "C91_ceil",
    "C91_trunc",
    "C91_rsqrt",
    "C91_rsqrt_f16"
   ],
   "note": ""
  },
  {
   "property": "C92",
   "status": "proved",
   "theorems": [
    "C92_arith",
    "C92_saturated",
    "C92_sqrt",
    "C92_rec",
    "C92_rec11_f64",
    "C92_rsqrt11_f64",
    "C92_arith_f16",
    "C92_sqrt_f16",
    "C92_rec_f16",
    "C92_f16_memory",
    "C92_f16_sqrt_memory",
    "C92_f16_rec_memory",
    "C92_f16_chain_refuted"
   ],
   "note": "a chain of f16 operators is not the chain of scalar ones: C92_f16_chain_refuted"
  },
  {
   "property": "C93",
   "status": "proved",
   "theorems": [
    "C93_fused",
    "C93_unfused",
    "C93_f16",
    "C93_f16_memory",
    "C93_agree_refuted"
   ],
   "note": "builds with and without NSIMD_FMA differ: C93_agree_refuted"
  },
  {
   "property": "C94",
   "status": "proved",
   "theorems": [
    "C94_arith",
    "C94_sqrt",
    "C94_rec",
    "C94_rsqrt11",
    "C94_arith_f16",
    "C94_sqrt_f16",
    "C94_rec_f16",
    "C94_rsqrt_f16",
    "C94_f16_memory",
    "C94_f16_sqrt_memory"
   ],
   "note": ""
  },
  {
   "property": "C95",
   "status": "proved",
   "theorems": [
    "C95_fused",
    "C95_unfused",
    "C95_f16_aarch64",
    "C95_f16",
    "C95_f16_memory",
    "C95_agree_refuted",
    "C95_agree_f16_refuted"
   ],
   "note": "extensions differ: recorded as refutations"
  },
  {
   "property": "C96",
   "status": "proved",
   "theorems": [
    "C96_arith",
    "C96_saturated",
    "C96_sqrt",
    "C96_rec",
    "C96_rsqrt11",
    "C96_muladd",
    "C96_neg",
    "C96_abs",
    "C96_min",
    "C96_max",
    "C96_floor",
    "C96_ceil",
    "C96_trunc"
   ],
   "note": ""
  },
  {
   "property": "C97",
   "status": "proved",
   "theorems": [
    "C97_arith",
    "C97_sqrt",
    "C97_rec",
    "C97_muladd"
   ],
   "note": ""
  },
  {
   "property": "C98",
   "status": "proved",
   "theorems": [
    "C98_add",
    "C98_sub",
    "C98_mul",
    "C98_neg",
    "C98_abs",
    "C98_min_max",
    "C98_adds",
    "C98_subs",
    "C98_div",
    "C98_fma",
    "C98_arithmetic_undefined",
    "C98_subs_undefined",
    "C98_div_undefined",
    "C98_fma_undefined"
   ],
   "note": ""
  },
  {
   "property": "C99",
   "status": "proved",
   "theorems": [
    "C99_bitwise",
    "C99_shl",
    "C99_shr",
    "C99_shra",
    "C99_shra_unsigned",
    "C99_shra_refuted",
    "C99_set1"
   ],
   "note": "shra of unsigned elements: finding"
  },
  {
   "property": "C100",
   "status": "proved",
   "theorems": [
    "C100_compare",
    "C100_logical_operators",
    "C100_set1l",
    "C100_if_else",
    "C100_all_any",
    "C100_nbtrue",
    "C100_to_mask",
    "C100_to_logical"
   ],
   "note": ""
  },
  {
   "property": "C101",
   "status": "proved",
   "theorems": [
    "C101_iota",
    "C101_mask_for_loop_tail",
    "C101_mask_for_loop_tail_undefined"
   ],
   "note": ""
  },
  {
   "property": "C102",
   "status": "proved",
   "theorems": [
    "C102_reverse",
    "C102_reverse_twice",
    "C102_zip",
    "C102_unzip",
    "C102_both",
    "C102_inverse",
    "C102_zip_f16",
    "C102_unzip_f16",
    "C102_inverse_f16",
    "C102_reverse_f16",
    "C102_reverse_f16_refuted"
   ],
   "note": "reverse of f16: finding"
  },
  {
   "property": "C103",
   "status": "proved",
   "theorems": [
    "C103_load",
    "C103_store",
    "C103_load_deg",
    "C103_store_deg",
    "C103_round_trip",
    "C103_load_f16",
    "C103_store_f16",
    "C103_load_deg_f16",
    "C103_store_deg_f16",
    "C103_unaligned",
    "C103_loadu_refuted"
   ],
   "note": "loadu and storeu at unaligned addresses: finding"
  },
  {
   "property": "C104",
   "status": "proved",
   "theorems": [
    "C104_masko_load",
    "C104_maskz_load",
    "C104_mask_store",
    "C104_masko_load_f16",
    "C104_maskz_load_f16",
    "C104_mask_store_f16",
    "C104_loadl",
    "C104_storel"
   ],
   "note": ""
  },
  {
   "property": "C105",
   "status": "proved",
   "theorems": [
    "C105_gather",
    "C105_gather_linear",
    "C105_scatter",
    "C105_scatter_linear",
    "C105_gather_linear_f16",
    "C105_scatter_f16",
    "C105_scatter_linear_f16",
    "C105_gather_f16",
    "C105_gather_f16_refuted"
   ],
   "note": "gather of f16: finding"
  },
  {
   "property": "C106",
   "status": "proved",
   "theorems": [
    "C106_upcvt",
    "C106_downcvt",
    "C106_cvt",
    "C106_round_trip"
   ],
   "note": ""
  },
  {
   "property": "C107",
   "status": "proved",
   "theorems": [
    "C107_cvt_from_int",
    "C107_cvt_to_int",
    "C107_saturated_unique",
    "C107_saturated_in_range",
    "C107_cvt_f64_vmx"
   ],
   "note": ""
  },
  {
   "property": "C108",
   "status": "proved",
   "theorems": [
    "C108_upcvt_from_int",
    "C108_upcvt_float",
    "C108_upcvt_to_int",
    "C108_downcvt_float",
    "C108_downcvt_from_int",
    "C108_downcvt_f64_to_int",
    "C108_downcvt_f32_to_int",
    "C108_downcvt_f32_in_range",
    "C108_cvt_to_f16",
    "C108_cvt_from_f16",
    "C108_cvt_from_f16_in_range",
    "C108_upcvt_from_f16",
    "C108_upcvt_f16_to_int",
    "C108_upcvt_to_f16",
    "C108_downcvt_to_f16",
    "C108_downcvt_f32_to_f16",
    "C108_downcvt_from_f16",
    "C108_reinterpret_to_f16",
    "C108_reinterpret_from_f16",
    "C108_reinterpret_round_trip",
    "C108_reinterpretl_to_f16",
    "C108_reinterpretl_from_f16"
   ],
   "note": "out of range f32 and f16 to narrow integers: finding"
  },
  {
   "property": "C109",
   "status": "proved",
   "theorems": [
    "C109_compare",
    "C109_compare_f16",
    "C109_logical_operators",
    "C109_logical_operators_f16",
    "C109_if_else",
    "C109_if_else_f16",
    "C109_unordered"
   ],
   "note": ""
  },
  {
   "property": "C110",
   "status": "proved",
   "theorems": [
    "C110_bitwise",
    "C110_neg",
    "C110_abs",
    "C110_min_max_vmx",
    "C110_min_max_vsx",
    "C110_vmx_f64",
    "C110_f16",
    "C110_without_nan",
    "C110_min_portable_refuted",
    "C110_max_portable_refuted",
    "C110_abs_portable_refuted"
   ],
   "note": "differences between vmx and vsx: finding"
  },
  {
   "property": "C111",
   "status": "proved",
   "theorems": [
    "C111_round",
    "C111_f16"
   ],
   "note": ""
  },
  {
   "property": "C112",
   "status": "proved",
   "theorems": [
    "C112_addv",
    "C112_exact",
    "C112_addv_f16",
    "C112_exact_f16",
    "C112_portable_refuted"
   ],
   "note": "the order differs from AArch64: finding"
  },
  {
   "property": "C113",
   "status": "proved",
   "theorems": [
    "C113_reductions",
    "C113_reductions_f16",
    "C113_masks",
    "C113_masks_f16",
    "C113_set1",
    "C113_set1_f16",
    "C113_loadl",
    "C113_storel",
    "C113_round_trip",
    "C113_loadl_f16",
    "C113_storel_f16",
    "C113_iota",
    "C113_iota_f16",
    "C113_loop_tail",
    "C113_loop_tail_f16"
   ],
   "note": ""
  },
  {
   "property": "C114",
   "status": "proved",
   "theorems": [
    "C114_arith",
    "C114_adds_subs",
    "C114_sqrt",
    "C114_rec",
    "C114_scalar",
    "C114_like_arm",
    "C114_arith_f16",
    "C114_sqrt_rec_f16",
    "C114_f16_memory",
    "C114_f16_sqrt_memory"
   ],
   "note": ""
  },
  {
   "property": "C115",
   "status": "proved",
   "theorems": [
    "C115_native",
    "C115_vmx_f64",
    "C115_f16",
    "C115_f16_memory",
    "C115_fnma_refuted",
    "C115_portable_refuted"
   ],
   "note": "sign of zero of fnma and fnms: finding"
  },
  {
   "property": "C116",
   "status": "proved",
   "theorems": [
    "C116_arith",
    "C116_min_max",
    "C116_abs",
    "C116_compare",
    "C116_round"
   ],
   "note": "Integer operators of the GPU back ends; also tells exactly when they are undefined."
  },
  {
   "property": "C117",
   "status": "proved",
   "theorems": [
    "C117_adds",
    "C117_subs",
    "C117_subs_most_negative",
    "C117_subs_refuted",
    "C117_shifts"
   ],
   "note": "Unrestricted subs on CUDA and ROCm is refuted."
  },
  {
   "property": "C118",
   "status": "proved",
   "theorems": [
    "C118_bitwise",
    "C118_bitwise_scalar",
    "C118_masks",
    "C118_masks_scalar",
    "C118_logicals",
    "C118_xorl",
    "C118_xorl_refuted",
    "C118_reinterpret"
   ],
   "note": "xorl on ints other than 0 and 1 is refuted."
  },
  {
   "property": "C119",
   "status": "proved",
   "theorems": [
    "C119_int_int",
    "C119_int_float",
    "C119_float_int",
    "C119_float_float"
   ],
   "note": "Conversions of single values, scalar and device."
  },
  {
   "property": "C120",
   "status": "proved",
   "theorems": [
    "C120_arith",
    "C120_saturating",
    "C120_sqrt_rec",
    "C120_sign",
    "C120_rounding"
   ],
   "note": "Float arithmetic of the GPU back ends."
  },
  {
   "property": "C121",
   "status": "proved",
   "theorems": [
    "C121_int",
    "C121_int_cuda",
    "C121_float",
    "C121_half",
    "C121_half_hardware",
    "C121_cuda",
    "C121_cuda_refuted",
    "C121_half_refuted"
   ],
   "note": "fms, fnma and fnms of CUDA and ROCm compute fma: refuted."
  },
  {
   "property": "C122",
   "status": "proved",
   "theorems": [
    "C122_compare",
    "C122_ne_refuted",
    "C122_min_max",
    "C122_first",
    "C122_min_refuted"
   ],
   "note": "f16 min, max and ne with half-precision instructions are refuted."
  },
  {
   "property": "C123",
   "status": "proved",
   "theorems": [
    "C123_int",
    "C123_int_saturated",
    "C123_float",
    "C123_abs_refuted",
    "C123_min_refuted"
   ],
   "note": "Agreement between kernels and scalar operators."
  },
  {
   "property": "C124",
   "status": "proved",
   "theorems": [
    "C124_x86",
    "C124_arm",
    "C124_power",
    "C124_cpu",
    "C124_agreement",
    "C124_subs_refuted",
    "C124_shra_refuted",
    "C124_div_refuted"
   ],
   "note": "The refuted theorems show that the excluded cases differ between back ends."
  },
  {
   "property": "C125",
   "status": "proved",
   "theorems": [
    "C125_x86",
    "C125_arm",
    "C125_power",
    "C125_cpu",
    "C125_agreement",
    "C125_tutorial_x86",
    "C125_tutorial_arm",
    "C125_tutorial_power",
    "C125_tutorial_cpu",
    "C125_overflow_refuted",
    "C125_near_int_max_refuted",
    "C125_tail_refuted",
    "C125_sve_i8_refuted",
    "C125_power_unaligned_refuted"
   ],
   "note": "The refuted theorems show that each condition is needed."
  },
  {
   "property": "C126",
   "status": "proved",
   "theorems": [
    "C126_x86",
    "C126_arm",
    "C126_power",
    "C126_cpu",
    "C126_agreement",
    "C126_abs_refuted",
    "C126_min_refuted",
    "C126_fnma_refuted",
    "C126_unfused_refuted"
   ],
   "note": "The refuted theorems show that each condition is needed."
  },
  {
   "property": "C127",
   "status": "proved",
   "theorems": [
    "C127_x86",
    "C127_arm",
    "C127_power",
    "C127_cpu",
    "C127_always",
    "C127_agreement",
    "C127_unfused_refuted"
   ],
   "note": "The memory of the CPU model holds elements, the others hold bytes."
  },
  {
   "property": "C128",
   "status": "proved",
   "theorems": [
    "C128_exp",
    "C128_exp2",
    "C128_exp10",
    "C128_expm1"
   ],
   "note": "Accuracy between the bounds is not claimed."
  },
  {
   "property": "C129",
   "status": "proved",
   "theorems": [
    "C129_log",
    "C129_log1p",
    "C129_log1p_overflow_refuted"
   ],
   "note": "Accuracy is not claimed. log1p is infinite for finite numbers above 1e38, where the logarithm is about 88: finding."
  },
  {
   "property": "C130",
   "status": "proved",
   "theorems": [
    "C130_one",
    "C130_nan",
    "C130_infinite_exponent",
    "C130_infinite_base",
    "C130_zero_base",
    "C130_negative_base"
   ],
   "note": "Accuracy for a positive finite base is not claimed."
  },
  {
   "property": "C131",
   "status": "proved",
   "theorems": [
    "C131_sinh",
    "C131_cosh",
    "C131_tanh",
    "C131_asinh",
    "C131_acosh",
    "C131_asinh_acosh_overflow_refuted",
    "C131_atanh"
   ],
   "note": "Accuracy is not claimed. asinh and acosh are infinite for finite numbers: finding."
  },
  {
   "property": "C132",
   "status": "proved",
   "theorems": [
    "C132_asin",
    "C132_acos",
    "C132_atan",
    "C132_atan2"
   ],
   "note": "Accuracy is not claimed."
  },
  {
   "property": "C133",
   "status": "proved",
   "theorems": [
    "C133_hypot",
    "C133_cbrt",
    "C133_erf",
    "C133_erfc",
    "C133_tgamma",
    "C133_lgamma"
   ],
   "note": "Accuracy is not claimed. Below -2^31 the test of an integer of the gamma functions is an undefined conversion."
  },
  {
   "property": "C134",
   "status": "proved",
   "theorems": [
    "C134_exact",
    "C134_special",
    "C134_large",
    "C134_large_refuted"
   ],
   "note": "Accuracy between the half integers is not claimed. sinpi and cospi are constant beyond 8000000: finding."
  },
  {
   "property": "C135",
   "status": "proved",
   "theorems": [
    "C135_defined",
    "C135_special",
    "C135_infinity_refuted"
   ],
   "note": "Accuracy, finiteness and the symmetry of the results are not claimed."
  },
  {
   "property": "C136",
   "status": "proved",
   "theorems": [
    "C136_fmod_exact",
    "C136_remainder_exact",
    "C136_special",
    "C136_signs",
    "C136_large_quotient_refuted"
   ],
   "note": "Nothing is claimed of fmod for quotients from 4096 on, nor of remainder for quotients above 5/4, except that the exact result is not always given."
  },
  {
   "property": "C137",
   "status": "proved",
   "theorems": [
    "C137_exp2",
    "C137_log2",
    "C137_log10_subnormal",
    "C137_ten"
   ],
   "note": "The set of arguments is finite (every power that is a float), and each statement covers all of it; nothing is claimed here of other arguments."
  },
  {
   "property": "C138",
   "status": "proved",
   "theorems": [
    "C138_f16",
    "C138_nan",
    "C138_names",
    "C138_fmod_f16",
    "C138_powers_f16",
    "C138_lanes",
    "C138_vectors_f16",
    "C138_f16_lane_refuted"
   ],
   "note": "f32 and f16 only; the f32 vector functions of the other back ends (src/sleefsimdsp.c) and f64 are not modelled."
  }
 ]
}