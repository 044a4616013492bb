c('C01','proved','C01_u16_to_f32_exact')
c('C02','proved','C02_f32_to_u16_nearest_even C02_f32_to_u16_overflow C02_f32_to_u16_inf C02_f32_to_u16_nan C02_f32_to_u16_range')
c('C03','proved','C03_half_single_half')
c('C04','proved','C04_f32_to_u16_monotone')
c('C05','proved','C05_u16_to_f32_noieee_exact C05_f32_to_u16_noieee_quadruples C05_noieee_round_trip_refuted','The expected round trip is refuted; the property states what the code does.')
c('C06','proved','C06_instances C06_ufp_comparable C06_ufp_far C06_gap_is_distance C06_ufp_symmetric C06_ufp_ignores_sign C06_ufp_bounds C06_ufp_max_iff_equal')
c('C07','proved','C07_f32 C07_f64')
c('C08','proved','C08_f16_actual C08_f16_refuted','Finding: the f16 functions misclassify; exact behaviour proved.')
c('C09','proved','C09_adds_saturates')
c('C10','proved','C10_subs_saturates C10_subs_most_negative C10_subs_refuted','Finding: subtracting the most negative value.')
c('C11','proved','C11_shl C11_shr C11_shra')
c('C12','proved','C12_bitwise C12_masks C12_reinterpret_cvt')
c('C13','proved','C13_minmax C13_abs C13_abs_min C13_arith_value C13_fma_total C13_fma_representable C13_mul_u16_undefined_refuted','Finding: u16 products overflow int.')
c('C15','proved','C15_popcnt C15_popcnt_halves')
c('C14','proved','C14_units C14_round_to_even_f32 C14_round_to_even_f64 C14_round_to_even_f16 C14_special C14_special_f16')
c('C51','proved','C51_trunc_f32 C51_trunc_f64 C51_trunc_special')
c('C16','proved','C16_lanewise C16_integer_arith C16_integer_div C16_iota')
c('C17','proved','C17_logicals C17_reductions C17_loadl C17_storel_loadl C17_mask_logical')
c('C18','proved','C18_mask_store C18_maskz_load C18_masko_load C18_load C18_store')
c('C19','proved','C19_load_deg C19_store_deg C19_load_after_store C19_store_after_load C19_conditions')
c('C20','proved','C20_zip C20_unzip C20_inverse')
c('C21','proved','C21_loop_tail C21_near_int_max_refuted','Finding: overflow near INT_MAX.')
c('C22','proved','C22_upcvt C22_downcvt C22_round_trip C22_cvt C22_upcvt_wraps','Integer types only.')
c('C23','proved','C23_f16_sign_bit C23_f16_bitwise_refuted C23_reinterpret C23_reinterpret_to_f16','Finding: bitwise operators on f16 act on the f32 widening.')
c('C52','proved','C52_gather C52_gather_linear C52_scatter C52_scatter_linear')
c('C24','proved','C24_lanewise C24_compound_assignment C24_reductions C24_loads C24_stores C24_len')
c('C25','proved','C25_load_deg C25_store_deg')
c('C26','proved','C26_gather C26_scatter C26_one_register C26_unrolled_refuted','Finding: wrong addresses for N > 1.')
c('C27','proved','C27_iota_and_tail C27_one_register C27_unrolled_refuted','Finding: registers repeat for N > 1.')
c('C28','proved','C28_to_pack C28_to_pack_interleave')
c('C29','proved','C29_history C29_alloc C29_alloc_for C29_free')
c('C30','proved','C30_cxx11_wrapping C30_cxx11_standard C30_cxx98_in_range C30_refuted','Findings: signed overflow in the C++11 allocator, under-allocation in the C++98 one.')
c('C31','proved','C31_cpu C31_gpu C31_gpu_copy_refuted C31_round_trip C31_refuted C31_calloc_zero','Finding: GPU pair_malloc/pair_calloc allocate sz bytes, not sz elements, on the host.')
c('C32','proved','C32_cuda_rocm C32_oneapi C32_fill_and_tests C32_any_schedule C32_refuted','Finding: int indices wrap beyond 2^31 elements.')
c('C41','proved','C41_cpu C41_scalar_only C41_gpu')
c('C42','proved','C42_cpu C42_gpu C42_masked_out_lanes_refuted','Finding: masked-out lanes are evaluated on CPU.')
c('C43','proved','C43_sizes_agree C43_no_out_of_bounds C43_slice C43_refuted','Findings: one-element slices rejected; (scalar, scalar, array) rejected.')
c('C44','proved','C44_every_index_once C44_result')
c('C45','proved','C45_lanes C45_launch')
c('C46','proved','C46_return C46_call')
c('C47','proved','C47_partial_correctness C47_terminates C47_flat_loops C47_diverges_inactive C47_diverges_exit C47_refuted','Findings: loops in branches, nested loops and k_break can run for ever; k_continue miscomputes.')
c('C48','proved','C48_simd C48_correct_iff C48_scalar C48_refuted','Finding: k_set on k_bool clears inactive lanes.')
c('C38','proved','C38_mulhilo64 C38_mulhilo32 C38_mulhilo32_halves','mulhilo32 (live and alternative version) and mulhilo64 return the exact double-width product in every lane, for any register length.')
c('C39','proved','C39_philox2x32 C39_philox2x64 C39_philox4x32 C39_philox4x64 C39_bijection_philox2x32 C39_bijection_philox2x64 C39_bijection_philox4x32 C39_bijection_philox4x64 C39_distinct_philox2x32 C39_distinct_philox2x64 C39_distinct_philox4x32 C39_distinct_philox4x64','All four philox functions equal the Random123 definition in every lane, for any number of rounds >= 1, and are bijections of the counter for each key. Known answers checked as examples.')
c('C40','proved','C40_threefry2x32 C40_threefry2x64 C40_threefry4x32 C40_threefry4x64 C40_bijection_threefry2x32 C40_bijection_threefry2x64 C40_bijection_threefry4x32 C40_bijection_threefry4x64 C40_distinct_threefry2x32 C40_distinct_threefry2x64 C40_distinct_threefry4x32 C40_distinct_threefry4x64','All four threefry functions equal the Random123 definition in every lane, for any number of rounds, and are bijections of the counter for each key.')
c('C33','proved','C33_add C33_sub C33_neg C33_mul C33_mul_rt0_refuted C33_div C33_div_zero C33_abs','Finding: with rt = 0 on 32/64-bit storage operator* shifts by the width of the type.')
c('C34','proved','C34_compare C34_compare_multiples C34_exact_iff C34_eq_ulp C34_refuted','Finding: the comparisons mask out significant bits (1.0 == 2.0 in fp_t<8,8>).')
c('C35','proved','C35_floor C35_floor_lf0 C35_exact_iff C35_refuted','Finding: floor shifts by width - lf instead of rt.')
c('C36','proved','C36_arith C36_fma C36_min_max C36_abs C36_rec C36_compare C36_compare_refuted','Finding: SIMD and scalar comparisons disagree.')
c('C37','proved','C37_exp C37_exp_terminates C37_exp_zero C37_exp_negative C37_exp_min_undefined','')
c('C53','proved','C53_sqrt C53_sqrt_any C53_sqrt_zero_undefined C53_sqrt_refuted','Findings: wraps for large operands, divides by zero for sqrt(0).')
c('C54','proved','C54_log2 C54_log2_refuted','Findings: log2 ignores the fraction for small operands and may not terminate.')
c('C55','proved','C55_of_float C55_to_float C55_round_trip C55_round_trip_refuted C55_rt31_undefined C55_of_int','')
c('C50','proved','C50_structure_loads_and_stores_transpose C50_store_after_load_restores_memory C50_load_after_store_returns_registers C50_lanes_in_memory_order_iff C50_memory_order_refuted','Finding: on AVX, AVX2 and AVX-512 some combinations permute the structures across lanes. f16 goes through the u16 version and is covered for the shuffles only.')
c('C49','proved','C49_add C49_sub C49_neg C49_mul C49_mul_undefined C49_div C49_div_undefined C49_fma C49_fma_undefined C49_shl C49_shr C49_shra C49_bitwise C49_bitwise_registers C49_compare C49_logical_operators C49_set1l C49_set1 C49_if_else C49_min_max C49_abs C49_adds C49_subs C49_subs_saturates_refuted C49_to_mask C49_to_logical C49_loadl C49_storel C49_reductions','Finding: subs on i32 and i64 is wrong for a subtrahend equal to the smallest value. Intel intrinsics are transcribed from the Intel guide (trusted).')
c('C56','proved','C56_reverse C56_reverse_twice C56_reverse_f16 C56_reverse_f16_refuted C56_reverse_f64_avx512_refuted','reverse is wrong on f16 (halves not swapped) and does not compile on AVX-512 f64; both recorded as refutations')
c('C57','proved','C57_ziplo C57_ziphi C57_unziplo C57_unziphi C57_unzip_zip C57_zip_unzip','')
c('C58','proved','C58_load C58_store C58_maskz_load C58_masko_load C58_mask_store C58_load_f16 C58_store_f16 C58_maskz_load_f16 C58_masko_load_f16 C58_mask_store_f16','')
c('C59','proved','C59_iota C59_mask_for_loop_tail','')
c('C60','proved','C60_gather C60_scatter C60_gather_linear C60_scatter_linear C60_gather_f16 C60_scatter_f16 C60_gather_linear_f16 C60_scatter_linear_f16','')
c('C61','proved','C61_upcvt C61_downcvt C61_cvt C61_round_trip','')
c('C62','proved','C62_nearest_float C62_cvt_from_int C62_cvt_to_int C62_to_int_unique C62_same_result_refuted','C62_same_result_refuted: rounding differs between types and extensions')
c('C63','proved','C63_upcvt_from_int C63_upcvt_to_int C63_upcvt_to_int_refuted C63_upcvt_float C63_downcvt_float C63_downcvt_from_int C63_downcvt_i64_avx512 C63_downcvt_from_int_refuted C63_downcvt_to_int C63_cvt_to_f16 C63_cvt_from_f16 C63_f16_round_trip C63_upcvt_from_f16 C63_upcvt_f16_to_int C63_upcvt_to_f16 C63_downcvt_to_f16 C63_downcvt_f32_to_f16 C63_downcvt_from_f16','the two refutations show where the conversion goes through a 32-bit integer')
c('C64','proved','C64_compare C64_compare_f16 C64_if_else C64_if_else_f16 C64_unordered C64_ge_not_lt_refuted','')
c('C65','proved','C65_neg C65_abs C65_abs_like_scalar_refuted C65_min C65_max C65_min_value C65_max_value C65_min_commutes_refuted C65_f16','the scalar abs keeps -0.0: recorded as a refutation')
c('C66','proved','C66_floor C66_ceil C66_trunc C66_round_to_even C66_f16 C66_same_on_every_extension','')
c('C67','proved','C67_addv C67_addv_f16 C67_exact C67_exact_f16 C67_like_emulation_refuted','')
c('C68','proved','C68_all_any_nbtrue C68_all_any_nbtrue_f16 C68_to_mask C68_to_mask_f16 C68_to_logical C68_to_logical_f16 C68_loadl C68_storel C68_round_trip C68_loadl_f16 C68_storel_f16 C68_round_trip_f16 C68_minus_zero C68_loadl_f16_portable_refuted C68_iota C68_iota_f16 C68_loop_tail C68_loop_tail_f16 C68_set1 C68_set1_f16','')
c('C69','proved','C69_to_f16 C69_from_f16 C69_round_trip C69_logicals C69_logicals_back','')
c('C70','proved','C70_add_sub C70_mul C70_mul_undefined C70_neg C70_abs C70_neg_abs_undefined C70_min_max C70_saturated C70_set1_len','')
c('C71','proved','C71_div C71_div_undefined','')
c('C72','proved','C72_bitwise C72_bitwise_registers C72_shl C72_shr C72_shra','')
c('C73','proved','C73_compare C73_logical_operators C73_set1l C73_if_else C73_all_any C73_nbtrue C73_to_mask C73_to_logical','')
c('C74','proved','C74_fma C74_fma_undefined','')
c('C75','proved','C75_iota C75_mask_for_loop_tail C75_mask_for_loop_tail_refuted','i8 on SVE vectors of more than 128 elements: C75_mask_for_loop_tail_refuted')
c('C76','proved','C76_reverse C76_reverse_f16 C76_reverse_twice','')
c('C77','proved','C77_zip C77_unzip C77_both C77_inverse C77_zip_f16 C77_unzip_f16 C77_inverse_f16','')
c('C78','proved','C78_load C78_store C78_load_deg C78_store_deg C78_round_trip C78_load_f16 C78_store_f16 C78_load_deg_f16 C78_store_deg_f16','')
c('C79','proved','C79_masko_load C79_maskz_load C79_mask_store C79_masko_load_f16 C79_maskz_load_f16 C79_mask_store_f16 C79_loadl C79_storel','')
c('C80','proved','C80_gather C80_gather_linear C80_scatter C80_scatter_linear C80_gather_f16 C80_gather_linear_f16 C80_scatter_f16 C80_scatter_linear_f16','')
c('C81','proved','C81_upcvt C81_downcvt C81_cvt C81_round_trip','')
c('C82','proved','C82_cvt_from_int C82_cvt_to_int C82_saturated_unique C82_saturated_in_range C82_cvt_f64_neon128','')
c('C83','proved','C83_upcvt_from_int C83_upcvt_float C83_upcvt_to_int C83_downcvt_float C83_downcvt_from_int_sve C83_downcvt_from_int_neon C83_downcvt_nearest_refuted C83_downcvt_to_int C83_downcvt_to_int_in_range C83_cvt_to_f16 C83_cvt_from_f16 C83_upcvt_from_f16 C83_upcvt_f16_to_int C83_upcvt_to_f16 C83_downcvt_to_f16 C83_downcvt_f32_to_f16 C83_downcvt_from_f16 C83_reinterpret_to_f16 C83_reinterpret_from_f16 C83_reinterpret_round_trip C83_reinterpretl_to_f16 C83_reinterpretl_from_f16','the f16 operators are those of NEON without NSIMD_ARM_FP16')
c('C84','proved','C84_compare C84_compare_f16 C84_logical_operators C84_if_else C84_if_else_f16 C84_unordered','')
c('C85','proved','C85_neg C85_abs C85_min C85_max C85_neon128_f64 C85_f16 C85_commutes C85_min_portable_refuted C85_abs_portable_refuted C85_min_like_x86_refuted','')
c('C86','proved','C86_floor C86_ceil C86_trunc C86_round_to_even C86_f16','')
c('C87','proved','C87_addv C87_exact C87_addv_f16 C87_exact_f16 C87_fp16_refuted','addv of native f16 on NEON is wrong: C87_fp16_refuted')
c('C88','proved','C88_all_any C88_nbtrue C88_all_any_nbtrue_f16 C88_to_mask C88_to_logical C88_masks_f16 C88_set1 C88_set1_f16 C88_set1l C88_loadl C88_storel C88_round_trip C88_loadl_f16 C88_storel_f16 C88_iota C88_iota_f16 C88_loop_tail C88_loop_tail_f16','')
c('C89','proved','C89_assumed C89_unique C89_add C89_sub C89_mul C89_div C89_rec C89_sqrt','')
c('C90','proved','C90_fused C90_unfused C90_f16 C90_f16_standards C90_f16_nearest_refuted C90_standards_refuted','f16 fma rounds twice; C89 and C99 differ: recorded as refutations')
c('C91','proved','C91_neg C91_abs C91_min C91_max C91_compare C91_floor C91_ceil C91_trunc C91_rsqrt C91_rsqrt_f16','')
c('C92','proved','C92_arith C92_saturated C92_sqrt C92_rec C92_rec11_f64 C92_rsqrt11_f64 C92_arith_f16 C92_sqrt_f16 C92_rec_f16 C92_f16_memory C92_f16_sqrt_memory C92_f16_rec_memory C92_f16_chain_refuted','a chain of f16 operators is not the chain of scalar ones: C92_f16_chain_refuted')
c('C93','proved','C93_fused C93_unfused C93_f16 C93_f16_memory C93_agree_refuted','builds with and without NSIMD_FMA differ: C93_agree_refuted')
c('C94','proved','C94_arith C94_sqrt C94_rec C94_rsqrt11 C94_arith_f16 C94_sqrt_f16 C94_rec_f16 C94_rsqrt_f16 C94_f16_memory C94_f16_sqrt_memory','')
c('C95','proved','C95_fused C95_unfused C95_f16_aarch64 C95_f16 C95_f16_memory C95_agree_refuted C95_agree_f16_refuted','extensions differ: recorded as refutations')
c('C96','proved','C96_arith C96_saturated C96_sqrt C96_rec C96_rsqrt11 C96_muladd C96_neg C96_abs C96_min C96_max C96_floor C96_ceil C96_trunc','')
c('C97','proved','C97_arith C97_sqrt C97_rec C97_muladd','')
c('C98','proved','C98_add C98_sub C98_mul C98_neg C98_abs C98_min_max C98_adds C98_subs C98_div C98_fma C98_arithmetic_undefined C98_subs_undefined C98_div_undefined C98_fma_undefined','')
c('C99','proved','C99_bitwise C99_shl C99_shr C99_shra C99_shra_unsigned C99_shra_refuted C99_set1','shra of unsigned elements: finding')
c('C100','proved','C100_compare C100_logical_operators C100_set1l C100_if_else C100_all_any C100_nbtrue C100_to_mask C100_to_logical','')
c('C101','proved','C101_iota C101_mask_for_loop_tail C101_mask_for_loop_tail_undefined','')
c('C102','proved','C102_reverse C102_reverse_twice C102_zip C102_unzip C102_both C102_inverse C102_zip_f16 C102_unzip_f16 C102_inverse_f16 C102_reverse_f16 C102_reverse_f16_refuted','reverse of f16: finding')
c('C103','proved','C103_load C103_store C103_load_deg C103_store_deg C103_round_trip C103_load_f16 C103_store_f16 C103_load_deg_f16 C103_store_deg_f16 C103_unaligned C103_loadu_refuted','loadu and storeu at unaligned addresses: finding')
c('C104','proved','C104_masko_load C104_maskz_load C104_mask_store C104_masko_load_f16 C104_maskz_load_f16 C104_mask_store_f16 C104_loadl C104_storel','')
c('C105','proved','C105_gather C105_gather_linear C105_scatter C105_scatter_linear C105_gather_linear_f16 C105_scatter_f16 C105_scatter_linear_f16 C105_gather_f16 C105_gather_f16_refuted','gather of f16: finding')
c('C106','proved','C106_upcvt C106_downcvt C106_cvt C106_round_trip','')
c('C107','proved','C107_cvt_from_int C107_cvt_to_int C107_saturated_unique C107_saturated_in_range C107_cvt_f64_vmx','')
c('C108','proved','C108_upcvt_from_int C108_upcvt_float C108_upcvt_to_int C108_downcvt_float C108_downcvt_from_int C108_downcvt_f64_to_int C108_downcvt_f32_to_int C108_downcvt_f32_in_range C108_cvt_to_f16 C108_cvt_from_f16 C108_cvt_from_f16_in_range C108_upcvt_from_f16 C108_upcvt_f16_to_int C108_upcvt_to_f16 C108_downcvt_to_f16 C108_downcvt_f32_to_f16 C108_downcvt_from_f16 C108_reinterpret_to_f16 C108_reinterpret_from_f16 C108_reinterpret_round_trip C108_reinterpretl_to_f16 C108_reinterpretl_from_f16','out of range f32 and f16 to narrow integers: finding')
c('C109','proved','C109_compare C109_compare_f16 C109_logical_operators C109_logical_operators_f16 C109_if_else C109_if_else_f16 C109_unordered','')
c('C110','proved','C110_bitwise C110_neg C110_abs C110_min_max_vmx C110_min_max_vsx C110_vmx_f64 C110_f16 C110_without_nan C110_min_portable_refuted C110_max_portable_refuted C110_abs_portable_refuted','differences between vmx and vsx: finding')
c('C111','proved','C111_round C111_f16','')
c('C112','proved','C112_addv C112_exact C112_addv_f16 C112_exact_f16 C112_portable_refuted','the order differs from AArch64: finding')
c('C113','proved','C113_reductions C113_reductions_f16 C113_masks C113_masks_f16 C113_set1 C113_set1_f16 C113_loadl C113_storel C113_round_trip C113_loadl_f16 C113_storel_f16 C113_iota C113_iota_f16 C113_loop_tail C113_loop_tail_f16','')
c('C114','proved','C114_arith C114_adds_subs C114_sqrt C114_rec C114_scalar C114_like_arm C114_arith_f16 C114_sqrt_rec_f16 C114_f16_memory C114_f16_sqrt_memory','')
c('C115','proved','C115_native C115_vmx_f64 C115_f16 C115_f16_memory C115_fnma_refuted C115_portable_refuted','sign of zero of fnma and fnms: finding')
c('C116','proved','C116_arith C116_min_max C116_abs C116_compare C116_round','Integer operators of the GPU back ends; also tells exactly when they are undefined.')
c('C117','proved','C117_adds C117_subs C117_subs_most_negative C117_subs_refuted C117_shifts','Unrestricted subs on CUDA and ROCm is refuted.')
c('C118','proved','C118_bitwise C118_bitwise_scalar C118_masks C118_masks_scalar C118_logicals C118_xorl C118_xorl_refuted C118_reinterpret','xorl on ints other than 0 and 1 is refuted.')
c('C119','proved','C119_int_int C119_int_float C119_float_int C119_float_float','Conversions of single values, scalar and device.')
c('C120','proved','C120_arith C120_saturating C120_sqrt_rec C120_sign C120_rounding','Float arithmetic of the GPU back ends.')
c('C121','proved','C121_int C121_int_cuda C121_float C121_half C121_half_hardware C121_cuda C121_cuda_refuted C121_half_refuted','fms, fnma and fnms of CUDA and ROCm compute fma: refuted.')
c('C122','proved','C122_compare C122_ne_refuted C122_min_max C122_first C122_min_refuted','f16 min, max and ne with half-precision instructions are refuted.')
c('C123','proved','C123_int C123_int_saturated C123_float C123_abs_refuted C123_min_refuted','Agreement between kernels and scalar operators.')
c('C124','proved','C124_x86 C124_arm C124_power C124_cpu C124_agreement C124_subs_refuted C124_shra_refuted C124_div_refuted','The refuted theorems show that the excluded cases differ between back ends.')
c('C125','proved','C125_x86 C125_arm C125_power C125_cpu C125_agreement C125_tutorial_x86 C125_tutorial_arm C125_tutorial_power C125_tutorial_cpu C125_overflow_refuted C125_near_int_max_refuted C125_tail_refuted C125_sve_i8_refuted C125_power_unaligned_refuted','The refuted theorems show that each condition is needed.')
c('C126','proved','C126_x86 C126_arm C126_power C126_cpu C126_agreement C126_abs_refuted C126_min_refuted C126_fnma_refuted C126_unfused_refuted','The refuted theorems show that each condition is needed.')
c('C127','proved','C127_x86 C127_arm C127_power C127_cpu C127_always C127_agreement C127_unfused_refuted','The memory of the CPU model holds elements, the others hold bytes.')
c('C128','proved','C128_exp C128_exp2 C128_exp10 C128_expm1','Accuracy between the bounds is not claimed.')
c('C129','proved','C129_log C129_log1p C129_log1p_overflow_refuted','Accuracy is not claimed. log1p is infinite for finite numbers above 1e38, where the logarithm is about 88: finding.')
c('C130','proved','C130_one C130_nan C130_infinite_exponent C130_infinite_base C130_zero_base C130_negative_base','Accuracy for a positive finite base is not claimed.')
c('C131','proved','C131_sinh C131_cosh C131_tanh C131_asinh C131_acosh C131_asinh_acosh_overflow_refuted C131_atanh','Accuracy is not claimed. asinh and acosh are infinite for finite numbers: finding.')
c('C132','proved','C132_asin C132_acos C132_atan C132_atan2','Accuracy is not claimed.')
c('C133','proved','C133_hypot C133_cbrt C133_erf C133_erfc C133_tgamma C133_lgamma','Accuracy is not claimed. Below -2^31 the test of an integer of the gamma functions is an undefined conversion.')
c('C134','proved','C134_exact C134_special C134_large C134_large_refuted','Accuracy between the half integers is not claimed. sinpi and cospi are constant beyond 8000000: finding.')
c('C135','proved','C135_defined C135_special C135_infinity_refuted','Accuracy, finiteness and the symmetry of the results are not claimed.')
c('C136','proved','C136_fmod_exact C136_remainder_exact C136_special C136_signs C136_large_quotient_refuted','Nothing is claimed of fmod for quotients from 4096 on, nor of remainder for quotients above 5/4, except that the exact result is not always given.')
c('C137','proved','C137_exp2 C137_log2 C137_log10_subnormal C137_ten','The set of arguments is finite (every power that is a float), and each statement covers all of it; nothing is claimed here of other arguments.')
c('C138','proved','C138_f16 C138_nan C138_names C138_fmod_f16 C138_powers_f16 C138_lanes C138_vectors_f16 C138_f16_lane_refuted','f32 and f16 only; the f32 vector functions of the other back ends (src/sleefsimdsp.c) and f64 are not modelled.')
