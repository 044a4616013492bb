Numerical core:

* C05: without IEEE-754 (NSIMD_NO_IEEE754), f32 to u16 returns four times its argument on a wide range
  (1.0 comes back as 4.0; `C05_noieee_round_trip_refuted`).
* C08: isnan on f16 is 1 on infinities, isinf is never 1, isnormal is 1 exactly on subnormals and -0
  (`C08_f16_refuted`).
* C10: saturating subtraction of the most negative value is wrong (`C10_subs_refuted`).
* C13: u16 products overflow `int` (`C13_mul_u16_undefined_refuted`).
* C21: a loop with mask_for_loop_tail overflows `int` near INT_MAX (`C21_near_int_max_refuted`).
* C23: bitwise operators on f16 act on the f32 widening (`C23_f16_bitwise_refuted`).

x86:

* subs on i32/i64: with the smallest value as second operand the result is clamp(a + MIN), not the
  saturated difference (`C49_subs_saturates_refuted`).
* Emulated 64-bit (and SSE2 32-bit) multiplications use the scalar `*`: signed overflow is undefined
  (`C49_mul_undefined`).
* reverse on f16 reverses the two halves without swapping them (`C56_reverse_f16_refuted`); on f64 with
  AVX-512 the emitted text is not C (`C56_reverse_f64_avx512_refuted`).
* load2/3/4 and store2/3/4 do not keep the order of the structures for some combinations on AVX, AVX2
  and AVX-512 (`C50_lanes_in_memory_order_iff`, `C50_memory_order_refuted`).
* The 32-bit mode of `get_emulation_code` stores with aligned stores into arrays which need not be
  aligned. loadl on f16 with AVX-512 treats -0.0 as true. downcvt i64 to f32 on AVX-512 goes through
  32-bit integers. cvt f32 to i32 rounds where the scalar code truncates. (read, not modelled)

Packs and API:

* C26: on packs with N > 1, gather and scatter advance the base pointer although indices and steps are
  absolute (`C26_unrolled_refuted`).
* C27: on packs with N > 1, iota and mask_for_loop_tail repeat the first register
  (`C27_unrolled_refuted`).
* to_pack_interleave(packx1<T,1>) refers to `cdr` of pack<T,1>; upcvt on packs with N > 1 declares
  `packx2<T,N-1> cdr` with the source type. (read)
* nsimd.h macros: vstore4 calls store3 (1840-1846), vloadl uses an undefined `alignment_`. (read)

Memory and GPU:

* C30: the C++11 allocator runs into signed overflow for 2^(W-1) <= n * sizeof(T) < 2^W, the C++98 one
  under-allocates for large n (`C30_refuted`).
* C31: on GPU the host buffer is allocated with `sz` bytes instead of elements; `p.device_free` is not a
  member; calloc's result is not cast; after a failed CPU pair_malloc `sz` keeps its value.
* C32: with int indices, beyond 2^31 elements the index wraps to a negative one which the guard accepts
  (`C32_refuted`).
* memory_management for oneAPI calls a function that does not exist. (read)
* tet1d on GPU with n = 0 launches zero blocks. (read)

tet1d: 

* C42: lanes switched off by the mask are still evaluated on CPU.
* C43: slices of one element are rejected, and so are ternary expressions with two scalars first.

SPMD:

* C47: loops inside branches, nested loops and k_break may run forever, k_continue miscomputes.
* C48: k_set on k_bool clears inactive lanes.

Fixed point:

* C33: with rt = 0 on 32/64-bit storage, operator* shifts by the width of the type.
* C34, C36: comparisons mask out significant bits (1.0 == 2.0 in fp_t<8,8>); SIMD and scalar disagree.
* C35: floor shifts by width - lf instead of rt.
* exp(fp, fp) takes the integer part from the base, not from the exponent. (read)
* C53: sqrt wraps for large operands, oscillates, and divides by zero for sqrt(0).
* C54: log2 ignores the fraction and may not terminate (fp_t<12,2>, log2(8.0)).
* C55: `1 << rt` is undefined for rt >= 31.
* simd/floor.hpp:34 `typederf`; constants::e has a wrong digit; cos.hpp and tan.hpp include paths which
  do not exist; sin.hpp calls safe_cos without including it; ceil.hpp shifts by the wrong amount. (read)
* reverse is implemented for the x86 and CPU targets but no operator of that name is declared in
  egg/operators.py, so that none of this code is generated into the API; the CPU version
  (egg/platform_cpu.py:382-389) would not compile (no `;`, and its last member index is out of range).
* The masked gathers and scatters are commented out in egg/operators.py (lines 788-836).
* C62: cvt from f32 to i32 rounds to nearest on x86 (cvtps_epi32 instead of cvttps_epi32), f32 to u32 only
  on AVX-512, f64 to i64/u64 only on avx512_skylake; everywhere else and on CPU the conversion truncates.
* C63: upcvt from f32 to i64/u64 on x86 goes through the 32-bit integers: 2^32 becomes -2^31.
* C63: downcvt from i64 to f32 on AVX-512 first truncates the elements to i32: 2^32 + 5 becomes 5.0.
* C65: the scalar (and CPU) abs is `a >= 0 ? a : -a` and returns -0.0 for -0.0; on x86 the sign bit is
  cleared. min and max return their second operand when one is NaN, hence are not commutative.
* C67: addv on floats gives different results on different extensions (order of the additions).
* C68: to_logical takes -0.0 for true and loadl for false; loadl on f16 with AVX-512 takes it for true.
* C75: mask_for_loop_tail for i8 on SVE vectors of more than 128 elements casts the remaining count to i8.
* C71, C70, C74: integer division by zero or overflow on ARM depends on the extension (defined on SVE for 32
  and 64-bit elements, undefined on NEON); 64-bit mul and fma on NEON are undefined on signed overflow.
* platform_arm.py: with emulated SVE logicals (sve_emulate_bool), set1l and the masked memory operators use an
  svbool_t where a vector is expected; neon128 round1 with NSIMD_ARM_FP16 formats a dictionary into the name of
  the intrinsic; several neon128 f16 operators use `.v0` unconditionally although the f16 vector is
  a plain float16x8_t under NSIMD_ARM_FP16: these do not compile. (read)
* platform_arm.py downcvt1 has a duplicated elif whose second branch is unreachable. (read)
* C83: downcvt from i64/u64 to f32 on NEON goes through f64 and rounds twice: 2^60 + 2^36 + 1 becomes 2^60 where
  SVE, x86 and CPU give the nearest single 2^60 + 2^37.
* C82: cvt from f64 to 64-bit integers on neon128 and from f16 on NEON is a C cast, undefined out of range, where the
  other ARM conversions saturate.
* C87: with NSIMD_ARM_FP16, addv of f16 on NEON adds twice (a0 + a4) + (a3 + a7) and drops four elements: the
  vext indices 3 and 0 should be 2 and 1.
* C85: min, max and abs of f64 on neon128 go through the CPU code: min(NaN, 1) is 1 and abs(-0.0) is -0.0 where the
  other ARM extensions give NaN and +0.0; f32 minima of a NaN differ between ARM (NaN) and x86 (second operand).
* platform_arm.py round1: with NSIMD_ARM_FP16 on neon128 the name of the intrinsic is formatted from the whole
  dictionary armop instead of armop[op], so that the generated code does not compile. (read)
* C90: fma, fms, fnma, fnms of f16 round twice (to f32 and to f16): (1 + 2^-10) (1 - 2^-10) 2^-11 + (1 + 2^-10) gives
  1 + 2^-9 where the nearest half is 1 + 2^-10 (`C90_f16_nearest_refuted`).
* C90: fma of f32 and f64 rounds once in C99 builds and twice in C89 builds, so that the same program computes different
  results (`C90_standards_refuted`).
* C92: f16 vectors of SSE, AVX and AVX-512 keep single precision between operators, so that 1 + 2^-11 + 2^-11 is
  1 + 2^-10 on a vector and 1 with the scalar operators (`C92_f16_chain_refuted`).
* C93: fma of f32 and f64 rounds once with NSIMD_FMA or AVX-512 and twice otherwise: (1 + 2^-23)^2 - (1 + 2^-22) is
  2^-46 or 0 (`C93_agree_refuted`).
* C95: fma of f32 rounds twice on neon128 and once on aarch64 and SVE (`C95_agree_refuted`); fma of native f16 rounds to
  single and then to half on aarch64 and once on SVE (`C95_agree_f16_refuted`).
* C94, C95: with NSIMD_ARM_FP16 on neon128 the code of sqrt and of the fma family of f16 names the members v0 and v1 of a
  native vector, and division calls vdivq_f16, which AArch32 does not have: it does not compile. (read)
* C99: on vmx and vsx, shra of unsigned elements replicates the most significant bit (vec_sra) where the scalar code and
  the x86, ARM and CPU back ends insert zeros (`C99_shra_refuted`); u64 on vmx goes through the scalar code and is right.
* C98: on vmx the operators on i64 are C expressions and have no defined result when one element overflows, while the
  other back ends and types wrap (`C98_arithmetic_undefined`).
* C102: on vmx and vsx, reverse of f16 reverses the two vectors of singles but does not exchange them
  (`C102_reverse_f16_refuted`).
* C103: on vmx and vsx, loadu and storeu of the 8, 16 and 32-bit types are `*(__vector T*)a`: undefined at addresses that
  are not multiples of 16 (`C103_loadu_refuted`); lvx, which vec_ld stands for, would drop the low bits of the address.
* C105: on vmx and vsx, gather of f16 reads every element at the index of the first lane (`C105_gather_f16_refuted`).
* C108: on vmx and vsx, downcvt of f32 to i16 or u16, and cvt and downcvt from f16, saturate to 32 bits and then drop the
  high bits, so 70000.0f becomes 4464 as an i16 (`C108_example`), while cvt of f32 to i32 saturates; upcvt of f32 to
  64-bit integers and downcvt of f64 to 32-bit ones are C casts, undefined out of range (`C108_upcvt_to_int`).
* C110: on vmx and vsx, min and max of a NaN and a number give the NaN for f32 on vmx, the number on vsx and depend on
  the order of the operands for f64 on vmx (`C110_min_portable_refuted`, `C110_max_portable_refuted`); abs(-0.0) of f64
  is -0.0 on vmx and 0.0 on vsx (`C110_abs_portable_refuted`).
* C112: addv of f32 adds in index order on POWER and pairwise on AArch64, so the sums differ (`C112_portable_refuted`).
* C115: on vmx and vsx, fnma and fnms negate the rounded result (vec_nmsub, vec_nmadd), so that -(1 * 1) + 1 is -0.0
  where IEEE 754, the scalar operators and the other back ends give 0.0 (`C115_fnma_refuted`, `C115_portable_refuted`).
* platform_ppc.py: vec_div, vec_sqrt, vec_msub and vec_nmadd are emitted for vmx, although AltiVec has no such
  instructions and compilers provide these built-ins with VSX only. (read)
* C121: egg/cuda.py tests `operator.name in ['fnma, fnms']` and `['fnms, fms']`, lists of one string that no operator
  is called, so inside CUDA and ROCm kernels fms, fnma and fnms compute a * b + c for every type (`C121_cuda`,
  `C121_cuda_refuted`).
* C122: egg/cuda.py writes `if (__hlt)` without arguments, so with CUDA's half-precision instructions min and max of f16
  give the first argument (`C122_first`, `C122_min_refuted`); ne of f16 is `__hne`, which is false for a NaN
  (`C122_ne_refuted`).
* C117: subs of the most negative value inside CUDA and ROCm kernels adds it or is undefined, as in the scalar code
  (`C117_subs_refuted`); oneAPI clamps.
* C118: xorl of scalars and kernels is `a ^ b` on ints: the true ints 1 and 2 give a true one (`C118_xorl_refuted`).
* C121: fma of f16 rounds once with CUDA's half-precision instructions and to single and half without
  (`C121_half_refuted`).
* C123: abs(-0.0) is 0.0 in a kernel and -0.0 with the scalar operator (`C123_abs_refuted`); min(1, NaN) is 1 in a
  kernel and NaN with the scalar operator (`C123_min_refuted`).
* C124: the same source gives different elements on different back ends for subs of the most negative value (0 - min
  on i32: SSE gives min, AArch64 gives max, `C124_subs_refuted`) and shra on unsigned types (`C124_shra_refuted`); an
  integer division by 0 is undefined on SSE and gives 0 on SVE (`C124_div_refuted`).
* C125: the tutorial's `uppercase_simd` computes `text + ('A' - 'a')` in every lane where `uppercase_scalar` computes it
  on letters only: on i32 and i64 elements less than 32 above the minimum overflow on the CPU back end
  (`C125_overflow_refuted`).  `i + l <= n` overflows int for n within one vector of INT_MAX
  (`C125_near_int_max_refuted`).  A body that is undefined on 0 is undefined in the last vector even if no element is 0
  (`C125_tail_refuted`).  On SVE with 2048-bit vectors, 130 bytes are left unconverted but for the last two
  (`C125_sve_i8_refuted`).  On POWER the tutorial is undefined on an unaligned text (`C125_power_unaligned_refuted`).
* C126: a float program can differ between back ends through abs of -0 (`C126_abs_refuted`: 0 on SSE, -0 on the CPU back end),
  min or max of a NaN (`C126_min_refuted`: SSE returns the number, NEON the NaN), fnma of operands that cancel
  (`C126_fnma_refuted`: -0 on VSX) and a multiply-add without a fused instruction (`C126_unfused_refuted`).
* log1p (f32, src/sleefsp.c:1766) returns +infinity for every finite number above 1e38, where the result is about 88 (C129_log1p_overflow_refuted).
* asinh and acosh (f32, src/sleefsp.c:1511, 1523) return an infinity for every finite number beyond 18446743523953729536, where the result is between 45 and 90 (C131_asinh_acosh_overflow_refuted). The specification tables of the functions give no such restriction in nsimd's documentation.
* sinh and cosh (f32) are infinite beyond 89, and 88 in the low precision, while the largest finite result is reached near 89.4 (C131_sinh, C131_cosh).
* exp, pow and others convert to int floats that do not fit, which is undefined in C (src/sleefsp.c:1162, 1321); the results proved do not depend on it.
* sinpi and cospi (f32, src/sleefsp.c:2195, 2238) return 0 and 1 for every finite number beyond 8000000, although floats up to 2^23 are not all even integers: sinpi(8000000.5) is 0 and cospi(8000001) is 1 (C134_large_refuted).
* sin, cos and tan (f32) of an infinity or a NaN read Sleef_rempitabsp[412..415], past the end of its 412 numbers, in rempif (src/sleefsp.c), before the result is replaced by a NaN (C135_infinity_refuted).
* Not proved, seen while reading: the SIMD versions (src/sleefsimdsp.c) cut exp off at 100 and the scalar one at 104, so that the two differ for arguments in between; the SIMD trigonometric functions choose the reduction by a test over all lanes, so that the bits of a lane may depend on the other lanes.
* fmod and remainder (f32, src/sleefsp.c:2016-2069) return a NaN for finite arguments whose quotient is beyond the range of float, such as fmod(FLT_MAX, FLT_MIN), where C requires the exact finite result (C136_large_quotient_refuted). The loop stops after eight turns and the product of quotient and divisor overflows.
* A lane of an f16 vector of the CPU and POWER back ends holds the unrounded f32 result of a mathematical operator (egg/gen_archis.py:42, typ2 is f32), so a chain of operators can differ from the same chain on f16 scalars, which round after each one (C138_f16_lane_refuted; a single operator between load and store agrees, C138_vectors_f16).
