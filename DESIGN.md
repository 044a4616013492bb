# Formal model of nsimd in Rocq (Coq 8.16.1)

Build: `cd rocq && coq_makefile -f _CoqProject -o Makefile && make -j4`.

This file is generated by `tools/gen_design.py` from `tools/design_head.md` (this text),
`properties.jsonl`, `MANIFEST.json` and the output of `Print Assumptions`.

## 1. Layout and method

`rocq/theories/` has logical name `Verif`. For each area `X`:

* `X.v`       the model: total, computable Gallina; every definition cites the file and lines of /repo
              it models; simplifications are stated in the comments
* `XSpec.v`   the vocabulary of the theorems' statements, independent of the model's helpers
* `XProofs.v` (and `X*.v`) lemmas
* `PropX.v`   the theorems `Cnn_...`, each followed by `Print Assumptions`, with `Example`s showing that
              a concrete, non-trivial case meets the hypotheses

Conventions of the models:

* C integers are `Z` with explicit wrapping (`mod 2^n`, two's complement reading, `CInt.v`).
* Undefined behaviour (signed overflow, over-wide shift, out-of-bounds or indeterminate read, division
  by zero, failed assert) is a distinct outcome, `None`, wherever the modelled code can run into it.
  Where the code is undefined for some inputs, the theorem characterises exactly which.
* Floats are bit patterns. Their values are integers in units of the smallest subnormal, so that no
  axiom on real numbers is needed. Rounding is round-to-nearest-even on those integers.
* Loops are structural recursion, or recursion on fuel with an explicit out-of-fuel outcome and a
  termination theorem (or a refutation of termination).
* Schedules (GPU), allocation histories and memory contents are universally quantified.

A property which is false of the code keeps its number: `properties.jsonl` states the exact true
characterisation, and a theorem with suffix `_refuted` shows a concrete input on which the natural claim
fails. Those are the findings of section 5.

## 2. Plan and proof method per property

| Property | Model | Proof |
|---|---|---|
| C01-C04 | `nsimd_u16_to_f32`, `nsimd_f32_to_u16` on bit patterns, float comparison by decoded value, float addition by rounding of the exact sum (`Fp16.v`) | finite sweep for the 2^16 halves; algebraic proof for the 2^32 singles (interval between consecutive halves) |
| C05 | the NSIMD_NO_IEEE754 branches, frexp/ldexp by their definition | refutation by witness; exactness of decoding by sweep |
| C06 | `ufp`, generic in exponent/significand sizes (`Ufp.v`) | algebra; the loop is the bit length, by induction |
| C07, C08 | classification with the C promotion rules (`FloatClass.v`) | bit algebra |
| C09-C13, C15 | generated scalar functions, generic in width and signedness, with UB outcomes (`ScalarOps.v`) | arithmetic over Z |
| C14, C51 | `round_to_even`, `trunc`, generic in precision (`RoundEven.v`) | arithmetic with rounding lemmas |
| C16-C23, C52 | CPU backend: registers are lists of lanes, memory a partial map (`CpuSimd.v`) | list induction; induction over expressions |
| C24-C28 | generated C++ pack recursion over the unroll factor N (`Pack.v`) | induction on N |
| C29-C31 | allocators over an oracle runtime; live blocks; size arithmetic mod 2^W (`Memory.v`) | arithmetic; invariant by induction on histories |
| C32 | launch geometry and execution under any schedule (`Gpu.v`) | arithmetic, permutation of schedules |
| C33-C37, C53-C55 | fixed point on raw integers with wrapping (`FixedPoint.v`) | arithmetic; loop invariants |
| C38-C40 | counter based generators on registers (`Random.v`) | equality with Random123 by induction on rounds; Feistel inverse |
| C41-C43 | tet1d kernels and expression trees (`Tet1d.v`) | loop invariants, induction over expressions |
| C44-C48 | SPMD mini language, masked semantics vs per-thread semantics (`Spmd.v`) | simulation by induction on programs |
| C49 | x86 integer operators from intrinsic semantics, on registers as integers (`X86Arith.v`) | bit-level lemmas, lane by lane |
| C50, C56, C57 | x86 shuffles as programs over bytes (`X86Shuffle.v`, `X86Deg234.v`, `X86Perm.v`) | each program is run once on symbolic bytes; a soundness theorem lifts the run to all contents |
| C58-C60 | x86 memory operators over a partial byte memory (`X86Mem.v`) | loop invariants, byte-level lemmas |
| C61-C63 | x86 conversions, including the emulated paths (`X86Cvt.v`) | rounding lemmas generic in the format |
| C64-C69 | x86 operators on float and f16 vectors (`X86Float.v`) | lane lemmas, uniqueness of rounding, induction over summation trees |
| C70-C75 | ARM integer operators, NEON and SVE of every vector length (`Arm.v`) | lane lemmas shared with x86, induction over loops and lanes |
| C76-C77 | ARM reverse, zip, unzip on every element type (`ArmPerm.v`) | lane lemmas |
| C78-C80 | ARM memory operators on a byte memory (`ArmMem.v`) | induction over the lanes, the loop lemmas of the x86 memory operators |
| C81-C83 | ARM conversions (`ArmCvt.v`) | lane lemmas of the narrowing and widening instructions, exactness of the double to single chain |
| C84-C88 | ARM operators on float and f16 vectors (`ArmFloat.v`) | lane lemmas, the rounding and summation lemmas of x86 generic in the format, induction over the halves of a vector of any length |
| C89-C91 | the scalar float operators with their C89, C99 and f16 variants (`ScalarFloat.v`) over IEEE operations (`FloatArith.v`) | "nearest, ties to even" stated on values (`FloatArithSpec.v`); the operations are proved correctly rounded for all formats; a lemma on double rounding: a second rounding to a format with less than half the digits is harmless unless the first lands on a midpoint, which no sum, product, quotient or root does unless it is there exactly |
| C92, C93 | add, sub, mul, div, sqrt, rec and the fma family on x86 float and f16 vectors (`X86FloatArith.v`) | lane lemmas over the IEEE operations of `FloatArith.v`; load, operate, store on halves reduced to the scalar operators |
| C94, C95 | the same on ARM (`ArmFloatArith.v`) | lane lemmas; commutation of the spec for the reversed operands of vmla; uniqueness of the results |
| C96 | the float operators of the CPU back end (`CpuFloatArith.v`) | lane lemma of func_body, the scalar theorems |
| C97 | x86, ARM, CPU and scalar together | uniqueness of the correctly rounded result |
| C98 | the integer arithmetic of the POWER back ends (`Ppc.v`) | lane lemmas of the built-ins, scalar theorems for the 64-bit structures |
| C99 | its bitwise operators and shifts | bit by bit, lane by lane |
| C100 | its comparisons, logicals and reductions | invariant: a logical is all ones or all zeros per element |
| C101 | iota, mask_for_loop_tail | composition of the above |
| C102-C105 | POWER permutations and memory operators (`PpcMem.v`) | the byte masks of vec_perm evaluated symbolically on the lanes, equality with the ARM permutations, loop lemmas of the x86 memory operators |
| C106-C108 | POWER conversions (`PpcCvt.v`) | lane lemmas of the unpack, pack and convert instructions, the C casts and rounding lemmas of the x86 and ARM conversions |
| C109-C113 | POWER float operators without rounding, and addv (`PpcFloat.v`) | lane lemmas, the ARM and scalar lemmas on patterns and f16 pairs |
| C114, C115 | POWER float arithmetic | the correctly rounded scalar operations lane by lane; cancellation analysed for the negated forms |
| C116-C118 | GPU operators on integers and bits (`Device.v`), scalar operators on the bits of floats (`ScalarBits.v`) | reduction to the lemmas of the scalar operators; bit by bit |
| C119 | conversions of single values, CPU and GPU | rounding to single is exact for 16-bit integers, then the half rounding lemma |
| C120-C122 | GPU operators on floats | either the scalar path (conversion to single and back) or one rounding in half precision |
| C123 | kernels against the scalar operators | uniqueness of correctly rounded results |
| C124 | expressions of any size evaluated with the operators of each back end (Portable.v), against one lane of scalar operators (PortableSpec.v) | mutual induction on the expression over an abstract back end; the operator theorems of each back end discharge its hypotheses |
| C125 | the loop of examples/tutorial.cpp with any body (Loop.v) over a byte memory, on every back end | induction on the number of vectors over an abstract back end with memory; the memory theorems (C18, C58, C78, C79, C103, C104), the mask_for_loop_tail theorems and C124 discharge its hypotheses |
| C126 | float expressions over vectors and logicals, evaluated with the operators of each back end (FPortable.v) and element by element with the scalar operators (FPortableSpec.v) | mutual induction on expressions over an abstract back end; the operator theorems of each back end (C64-C68, C84-C88, C92-C96, C109-C115) and the uniqueness of correctly rounded results discharge its hypotheses |
| C127 | the loop of Loop.v with a float body: FLoop.v | the loop invariant of LoopProofs.v, proved over abstract memory operators and an abstract body, instantiated with C126 and the memory and mask theorems of each back end |
| C128-C131 | src/sleefsp.c translated function by function by tools/sleef2coq.py (Sleef.v), on the operators of SleefBase.v; undefined conversions to int are a parameter U | case analysis on the value of the argument; NaN propagation lemmas; f(-x) by the bits of the sign |
| C132-C134 | the inverse trigonometric, special and sinpi/cospi functions of Sleef.v | as C128-C131; exactness of products and integers (SleefProofs7.v, SleefProofs8.v) |
| C135 | sin, cos, tan and the reduction rempif of Sleef.v; an undefined conversion is U, a read outside of the table W | a calculus of bounds by powers of two through every operation of the reduction (SleefProofs9.v) |
| C136 | fmod and remainder (SleefRem.v, written by hand: loops) | a calculus of exact operations (has x z: the pattern x is the number z), Sterbenz's lemma, the error of the estimated quotient, the exact product of an integer below 4096 (SleefProofs10.v to SleefProofs16.v) |
| C137 | exp2, log2, exp10, log10 at exact powers (Sleef.v) | the reduced argument is zero, so the polynomial is a constant; what is left, the scaling, is computed for each of the 277 powers of two |
| C138 | the operators in front of the functions (SleefApi.v): names, f16 by conversion, CPU lanes, POWER emulation | the rounding theorems of C02 and the special cases of C128 to C137, case by case on the operator; lanes by computation on symbolic vectors |

Nothing on the list is inexpressible in the model.

## 3. Trusted base

1. Coq 8.16.1's kernel, including its conversion by `vm_compute` (used for finite sweeps such as the
   65536 halves and the symbolic runs of the shuffle programs). No `native_compute`, no plugin, no
   kernel check switched off, no `Admitted`, no axiom, functor or module type of our own.
2. Axioms: `Print Assumptions` answers "Closed under the global context" for every theorem of section 6
   (the table there is produced by running it). No axiom of the standard library is used, in particular
   neither classical logic nor functional extensionality nor the axioms on reals.
   (vcheck lists seven `Coq.ssr.ssrunder` constants: they are parameters of a module of the standard
   library loaded with its tactics; no theorem depends on them.)
3. That the models say what the code does. They were transcribed by hand from the text of /repo, with
   the citations as a guide for review, except `X86Deg234.v`, translated from the C templates of
   egg/x86_load_store_deg234.py by `tools/gen_deg234.py` (an auxiliary script, not trusted by Coq but
   part of the transcription). egg/*.py is a generator: what is modelled is the C text it emits for
   each extension and type, not the Python program.
4. That the language and hardware semantics used are right:
   * C and C++ integer semantics as above; conversion to a signed type keeps the low bits and `>>` of a
     negative number is arithmetic (implementation defined, as in GCC, Clang and MSVC);
   * IEEE-754 binary formats in round-to-nearest-even mode for f32 and f64, no flush to zero, no excess
     precision;
   * the Intel intrinsics as transcribed in `X86Arith.v` and in `sel` of `X86Shuffle.v` from Intel's
     documentation;
   * libm's floor, ceil, frexp, ldexp, fmin... by their C definition;
   * malloc/posix_memalign/cudaMalloc: what `MemorySpec.v` says POSIX promises.

## 4. What is modelled, and what is not

Modelled, function by function:

* src/fp16.cpp, src/ufp.cpp, src/gpu.cpp (geometry), src/memory.cpp
* include/nsimd/nsimd.h: isnan/isinf/isnormal, popcnt, allocators, word size
* egg/scalar.py: the integer operators, shifts, bitwise and saturating operators, min/max/abs/neg, fma
  family, round_to_even and trunc; on floats: add, sub, mul, div, adds, subs, neg, abs, min, max, comparisons,
  floor, ceil, trunc, sqrt, fma family, rec, rec8, rec11, rsqrt, rsqrt8, rsqrt11 (`ScalarFloat.v`)
* egg/platform_cpu.py: the emulated backend, any vector length
* egg/platform_x86.py, for sse2, sse42, avx, avx2, avx512_knl, avx512_skylake: integer add, sub, neg,
  mul, div, fma family, shl, shr, shra, bitwise operators, comparisons, logicals, set1, set1l,
  if_else1, min, max, abs, adds, subs, to_mask, to_logical, loadl, storel, all, any, nbtrue, reverse,
  zip*, unzip*, iota, mask_for_loop_tail; load, store, the masked loads and stores, gather, scatter and
  their linear versions on all types over a byte memory; cvt, upcvt and downcvt on all types; on
  floats and f16: comparisons, if_else1, all, any, nbtrue, set1, set1l, to_mask, to_logical, loadl, storel,
  neg, abs, min, max, floor, ceil, trunc, round_to_even, iota, mask_for_loop_tail, addv, reinterpret and
  reinterpretl of f16, add, sub, mul, div, adds, subs, sqrt, rec, fma family, rec11 and rsqrt11 of f64 on SSE and AVX* egg/x86_load_store_deg234.py: load2/3/4, store2/3/4, all types but f16's conversions
* egg/platform_arm.py on the integer types, for neon128, aarch64 and SVE of every vector length: add, sub,
  mul, div, neg, abs, min, max, adds, subs, set1, set1l, len, bitwise operators, shifts, comparisons, logical
  operators, if_else1, all, any, nbtrue, to_mask, to_logical, fma family, iota, mask_for_loop_tail
* egg/platform_arm.py on every element type: reverse, ziplo, ziphi, unziplo, unziphi, zip, unzip, loads
  and stores of degrees 1 to 4, masked loads and stores, gather, scatter and their linear forms, cvt, upcvt,
  downcvt, reinterpret and reinterpretl of f16 (NEON), loadl, storel; on floats and f16: comparisons, logical
  operators, if_else1, all, any, nbtrue, set1, set1l, to_mask, to_logical, neg, abs, min, max, floor, ceil, trunc,
  round_to_even, iota, mask_for_loop_tail, addv, add, sub, mul, div, sqrt, rec, rec11, rsqrt11, fma family
* egg/platform_ppc.py on the integer types, for vmx and vsx: add, sub, mul, div, neg, abs, min, max, adds, subs,
  fma family, bitwise operators, shifts, set1, set1l, comparisons, logical operators, if_else1, all, any, nbtrue,
  to_mask, to_logical, iota, mask_for_loop_tail; on every type: reverse, ziplo, ziphi, unziplo, unziphi, zip, unzip,
  loads and stores of degrees 1 to 4, masked loads and stores, gather, scatter and their linear forms, cvt, upcvt,
  downcvt, reinterpret and reinterpretl of f16; loadl, storel; on floats and f16: comparisons, logical operators,
  if_else1, bitwise operators, neg, abs, min, max, floor, ceil, trunc, round_to_even, addv, all, any, nbtrue, set1,
  set1l, to_mask, to_logical, iota, mask_for_loop_tail, add, sub, mul, div, adds, subs, sqrt, rec, fma family
* egg/gen_adv_cxx_api.py and include/nsimd/cxx_adv_api.hpp: packs of any unroll factor
* egg/modules/random/hatch.py: mulhilo, Philox, ThreeFry
* include/nsimd/modules/fixed_point: arithmetic, comparisons, floor, exp, sqrt, log2, conversions, SIMD
* include/nsimd/modules/tet1d.hpp and egg/modules/tet1d/hatch.py: expressions, assignment, masks, slices
* include/nsimd/modules/spmd.hpp: the CPU macros as a language, launches
* include/nsimd/modules/memory_management.hpp: allocation, pair_malloc and friends
* egg/cuda.py, rocm.py and oneapi.py: the operators on single values inside kernels on all eleven types, except rsqrt
  and the transcendental functions; egg/scalar.py: the operators on the bits of floats, reinterpret and cvt between all
  types of the same width, logicals
* Portable.v: integer expressions over the operators of the CPU, x86, ARM and POWER back ends (no memory, no type change)
* Loop.v: examples/tutorial.cpp, uppercase_scalar and uppercase_simd, the latter with any integer expression as its body
* FPortable.v: the float operators of each back end used together in expressions
* FLoop.v: the loop of examples/tutorial.cpp on floats
* SleefBase.v, Sleef.v: the scalar f32 mathematical functions of src/sleefsp.c (written by tools/sleef2coq.py, each function with the lines it comes from)
* SleefRem.v: fmod and remainder of src/sleefsp.c (by hand)
* The mathematical operators in front of src/sleefsp.c (SleefApi.v): src/rename.h, the templates of egg/scalar.py and egg/gen_archis.py for the CPU back end, src/sleefsimdsp_emulation.c

Not modelled:

* src/sleefdp.c and the SIMD versions src/sleefsimd*.c; the accuracy of the functions of src/sleefsp.c
* on x86 registers: rec8, rec11, rsqrt8 and rsqrt11 of f32 and f16, and of f64 on AVX-512 (approximations of the
  hardware)
* on POWER: rec8, rec11, rsqrt8 and rsqrt11 (estimates of the hardware)
* egg/platform_arm.py, platform_ppc.py, cuda.py, rocm.py, oneapi.py except
  where listed above
* alignment faults, caches, timing; the compiler; GPU hardware (schedules are quantified instead)
* the Python generators as programs, the tests, the build system, the examples

Main simplifications (details in the comments of the files):

* CPU backend, packs, tet1d: a pointer is an element index; alignment is not modelled.
* `nsimd_nat` is unbounded in Gpu, Tet1d and Spmd (the 32-bit thread indices are modelled).
* tet1d: one element type per expression; f16 excluded; asserts enabled.
* SPMD: values are integers, operators total; two array numbers are disjoint arrays; conditions have no
  side effects.
* x86 conversions: the instructions round to nearest even (default MXCSR) and give the integer indefinite
  value out of range; a C cast out of range is undefined (None); NaN payloads are not modelled.
* x86 floats: a comparison, min, max, roundps and addps lane behaves as its IEEE definition in
  `FloatSpec.v`; NaN results of additions are one quiet NaN; f16 reinterpret uses cvtph_ps as fp16.c.
* ARM floats: neon128 is assumed not to flush subnormal numbers to zero (ARMv7 NEON does); NaN results are one
  quiet NaN.
* x86 memory: maskmoveu and the masked intrinsics access exactly the active bytes (non-temporal hints and
  implementation-dependent faults of maskmoveu with an all-zero mask are ignored); addresses are unbounded
  integers and pointer arithmetic does not wrap.
* x86: casts between vector types are no-ops; only the 64-bit mode of `get_emulation_code`; C typing of
  the emitted text is not checked.
* fixed point: `<<` on negative or overflowing signed operands keeps the low bits.

## 5. Findings

Places where the code does not do what its documentation or the natural property says. The theorem
proving it is given when there is one; the others were noticed when reading the code.

Numerical core:

* C05: without IEEE-754 (NSIMD_NO_IEEE754), f32 to u16 returns four times its argument on a wide range
  (1.0 comes back as 4.0; `C05_noieee_round_trip_refuted`).
* C08: isnan on f16 is 1 on infinities, isinf is never 1, isnormal is 1 exactly on subnormals and -0
  (`C08_f16_refuted`).
* C10: saturating subtraction of the most negative value is wrong (`C10_subs_refuted`).
* C13: u16 products overflow `int` (`C13_mul_u16_undefined_refuted`).
* C21: a loop with mask_for_loop_tail overflows `int` near INT_MAX (`C21_near_int_max_refuted`).
* C23: bitwise operators on f16 act on the f32 widening (`C23_f16_bitwise_refuted`).

x86:

* subs on i32/i64: with the smallest value as second operand the result is clamp(a + MIN), not the
  saturated difference (`C49_subs_saturates_refuted`).
* Emulated 64-bit (and SSE2 32-bit) multiplications use the scalar `*`: signed overflow is undefined
  (`C49_mul_undefined`).
* reverse on f16 reverses the two halves without swapping them (`C56_reverse_f16_refuted`); on f64 with
  AVX-512 the emitted text is not C (`C56_reverse_f64_avx512_refuted`).
* load2/3/4 and store2/3/4 do not keep the order of the structures for some combinations on AVX, AVX2
  and AVX-512 (`C50_lanes_in_memory_order_iff`, `C50_memory_order_refuted`).
* The 32-bit mode of `get_emulation_code` stores with aligned stores into arrays which need not be
  aligned. loadl on f16 with AVX-512 treats -0.0 as true. downcvt i64 to f32 on AVX-512 goes through
  32-bit integers. cvt f32 to i32 rounds where the scalar code truncates. (read, not modelled)

Packs and API:

* C26: on packs with N > 1, gather and scatter advance the base pointer although indices and steps are
  absolute (`C26_unrolled_refuted`).
* C27: on packs with N > 1, iota and mask_for_loop_tail repeat the first register
  (`C27_unrolled_refuted`).
* to_pack_interleave(packx1<T,1>) refers to `cdr` of pack<T,1>; upcvt on packs with N > 1 declares
  `packx2<T,N-1> cdr` with the source type. (read)
* nsimd.h macros: vstore4 calls store3 (1840-1846), vloadl uses an undefined `alignment_`. (read)

Memory and GPU:

* C30: the C++11 allocator runs into signed overflow for 2^(W-1) <= n * sizeof(T) < 2^W, the C++98 one
  under-allocates for large n (`C30_refuted`).
* C31: on GPU the host buffer is allocated with `sz` bytes instead of elements; `p.device_free` is not a
  member; calloc's result is not cast; after a failed CPU pair_malloc `sz` keeps its value.
* C32: with int indices, beyond 2^31 elements the index wraps to a negative one which the guard accepts
  (`C32_refuted`).
* memory_management for oneAPI calls a function that does not exist. (read)
* tet1d on GPU with n = 0 launches zero blocks. (read)

tet1d: 

* C42: lanes switched off by the mask are still evaluated on CPU.
* C43: slices of one element are rejected, and so are ternary expressions with two scalars first.

SPMD:

* C47: loops inside branches, nested loops and k_break may run forever, k_continue miscomputes.
* C48: k_set on k_bool clears inactive lanes.

Fixed point:

* C33: with rt = 0 on 32/64-bit storage, operator* shifts by the width of the type.
* C34, C36: comparisons mask out significant bits (1.0 == 2.0 in fp_t<8,8>); SIMD and scalar disagree.
* C35: floor shifts by width - lf instead of rt.
* exp(fp, fp) takes the integer part from the base, not from the exponent. (read)
* C53: sqrt wraps for large operands, oscillates, and divides by zero for sqrt(0).
* C54: log2 ignores the fraction and may not terminate (fp_t<12,2>, log2(8.0)).
* C55: `1 << rt` is undefined for rt >= 31.
* simd/floor.hpp:34 `typederf`; constants::e has a wrong digit; cos.hpp and tan.hpp include paths which
  do not exist; sin.hpp calls safe_cos without including it; ceil.hpp shifts by the wrong amount. (read)
* reverse is implemented for the x86 and CPU targets but no operator of that name is declared in
  egg/operators.py, so that none of this code is generated into the API; the CPU version
  (egg/platform_cpu.py:382-389) would not compile (no `;`, and its last member index is out of range).
* The masked gathers and scatters are commented out in egg/operators.py (lines 788-836).
* C62: cvt from f32 to i32 rounds to nearest on x86 (cvtps_epi32 instead of cvttps_epi32), f32 to u32 only
  on AVX-512, f64 to i64/u64 only on avx512_skylake; everywhere else and on CPU the conversion truncates.
* C63: upcvt from f32 to i64/u64 on x86 goes through the 32-bit integers: 2^32 becomes -2^31.
* C63: downcvt from i64 to f32 on AVX-512 first truncates the elements to i32: 2^32 + 5 becomes 5.0.
* C65: the scalar (and CPU) abs is `a >= 0 ? a : -a` and returns -0.0 for -0.0; on x86 the sign bit is
  cleared. min and max return their second operand when one is NaN, hence are not commutative.
* C67: addv on floats gives different results on different extensions (order of the additions).
* C68: to_logical takes -0.0 for true and loadl for false; loadl on f16 with AVX-512 takes it for true.
* C75: mask_for_loop_tail for i8 on SVE vectors of more than 128 elements casts the remaining count to i8.
* C71, C70, C74: integer division by zero or overflow on ARM depends on the extension (defined on SVE for 32
  and 64-bit elements, undefined on NEON); 64-bit mul and fma on NEON are undefined on signed overflow.
* platform_arm.py: with emulated SVE logicals (sve_emulate_bool), set1l and the masked memory operators use an
  svbool_t where a vector is expected; neon128 round1 with NSIMD_ARM_FP16 formats a dictionary into the name of
  the intrinsic; several neon128 f16 operators use `.v0` unconditionally although the f16 vector is
  a plain float16x8_t under NSIMD_ARM_FP16: these do not compile. (read)
* platform_arm.py downcvt1 has a duplicated elif whose second branch is unreachable. (read)
* C83: downcvt from i64/u64 to f32 on NEON goes through f64 and rounds twice: 2^60 + 2^36 + 1 becomes 2^60 where
  SVE, x86 and CPU give the nearest single 2^60 + 2^37.
* C82: cvt from f64 to 64-bit integers on neon128 and from f16 on NEON is a C cast, undefined out of range, where the
  other ARM conversions saturate.
* C87: with NSIMD_ARM_FP16, addv of f16 on NEON adds twice (a0 + a4) + (a3 + a7) and drops four elements: the
  vext indices 3 and 0 should be 2 and 1.
* C85: min, max and abs of f64 on neon128 go through the CPU code: min(NaN, 1) is 1 and abs(-0.0) is -0.0 where the
  other ARM extensions give NaN and +0.0; f32 minima of a NaN differ between ARM (NaN) and x86 (second operand).
* platform_arm.py round1: with NSIMD_ARM_FP16 on neon128 the name of the intrinsic is formatted from the whole
  dictionary armop instead of armop[op], so that the generated code does not compile. (read)
* C90: fma, fms, fnma, fnms of f16 round twice (to f32 and to f16): (1 + 2^-10) (1 - 2^-10) 2^-11 + (1 + 2^-10) gives
  1 + 2^-9 where the nearest half is 1 + 2^-10 (`C90_f16_nearest_refuted`).
* C90: fma of f32 and f64 rounds once in C99 builds and twice in C89 builds, so that the same program computes different
  results (`C90_standards_refuted`).
* C92: f16 vectors of SSE, AVX and AVX-512 keep single precision between operators, so that 1 + 2^-11 + 2^-11 is
  1 + 2^-10 on a vector and 1 with the scalar operators (`C92_f16_chain_refuted`).
* C93: fma of f32 and f64 rounds once with NSIMD_FMA or AVX-512 and twice otherwise: (1 + 2^-23)^2 - (1 + 2^-22) is
  2^-46 or 0 (`C93_agree_refuted`).
* C95: fma of f32 rounds twice on neon128 and once on aarch64 and SVE (`C95_agree_refuted`); fma of native f16 rounds to
  single and then to half on aarch64 and once on SVE (`C95_agree_f16_refuted`).
* C94, C95: with NSIMD_ARM_FP16 on neon128 the code of sqrt and of the fma family of f16 names the members v0 and v1 of a
  native vector, and division calls vdivq_f16, which AArch32 does not have: it does not compile. (read)
* C99: on vmx and vsx, shra of unsigned elements replicates the most significant bit (vec_sra) where the scalar code and
  the x86, ARM and CPU back ends insert zeros (`C99_shra_refuted`); u64 on vmx goes through the scalar code and is right.
* C98: on vmx the operators on i64 are C expressions and have no defined result when one element overflows, while the
  other back ends and types wrap (`C98_arithmetic_undefined`).
* C102: on vmx and vsx, reverse of f16 reverses the two vectors of singles but does not exchange them
  (`C102_reverse_f16_refuted`).
* C103: on vmx and vsx, loadu and storeu of the 8, 16 and 32-bit types are `*(__vector T*)a`: undefined at addresses that
  are not multiples of 16 (`C103_loadu_refuted`); lvx, which vec_ld stands for, would drop the low bits of the address.
* C105: on vmx and vsx, gather of f16 reads every element at the index of the first lane (`C105_gather_f16_refuted`).
* C108: on vmx and vsx, downcvt of f32 to i16 or u16, and cvt and downcvt from f16, saturate to 32 bits and then drop the
  high bits, so 70000.0f becomes 4464 as an i16 (`C108_example`), while cvt of f32 to i32 saturates; upcvt of f32 to
  64-bit integers and downcvt of f64 to 32-bit ones are C casts, undefined out of range (`C108_upcvt_to_int`).
* C110: on vmx and vsx, min and max of a NaN and a number give the NaN for f32 on vmx, the number on vsx and depend on
  the order of the operands for f64 on vmx (`C110_min_portable_refuted`, `C110_max_portable_refuted`); abs(-0.0) of f64
  is -0.0 on vmx and 0.0 on vsx (`C110_abs_portable_refuted`).
* C112: addv of f32 adds in index order on POWER and pairwise on AArch64, so the sums differ (`C112_portable_refuted`).
* C115: on vmx and vsx, fnma and fnms negate the rounded result (vec_nmsub, vec_nmadd), so that -(1 * 1) + 1 is -0.0
  where IEEE 754, the scalar operators and the other back ends give 0.0 (`C115_fnma_refuted`, `C115_portable_refuted`).
* platform_ppc.py: vec_div, vec_sqrt, vec_msub and vec_nmadd are emitted for vmx, although AltiVec has no such
  instructions and compilers provide these built-ins with VSX only. (read)
* C121: egg/cuda.py tests `operator.name in ['fnma, fnms']` and `['fnms, fms']`, lists of one string that no operator
  is called, so inside CUDA and ROCm kernels fms, fnma and fnms compute a * b + c for every type (`C121_cuda`,
  `C121_cuda_refuted`).
* C122: egg/cuda.py writes `if (__hlt)` without arguments, so with CUDA's half-precision instructions min and max of f16
  give the first argument (`C122_first`, `C122_min_refuted`); ne of f16 is `__hne`, which is false for a NaN
  (`C122_ne_refuted`).
* C117: subs of the most negative value inside CUDA and ROCm kernels adds it or is undefined, as in the scalar code
  (`C117_subs_refuted`); oneAPI clamps.
* C118: xorl of scalars and kernels is `a ^ b` on ints: the true ints 1 and 2 give a true one (`C118_xorl_refuted`).
* C121: fma of f16 rounds once with CUDA's half-precision instructions and to single and half without
  (`C121_half_refuted`).
* C123: abs(-0.0) is 0.0 in a kernel and -0.0 with the scalar operator (`C123_abs_refuted`); min(1, NaN) is 1 in a
  kernel and NaN with the scalar operator (`C123_min_refuted`).
* C124: the same source gives different elements on different back ends for subs of the most negative value (0 - min
  on i32: SSE gives min, AArch64 gives max, `C124_subs_refuted`) and shra on unsigned types (`C124_shra_refuted`); an
  integer division by 0 is undefined on SSE and gives 0 on SVE (`C124_div_refuted`).
* C125: the tutorial's `uppercase_simd` computes `text + ('A' - 'a')` in every lane where `uppercase_scalar` computes it
  on letters only: on i32 and i64 elements less than 32 above the minimum overflow on the CPU back end
  (`C125_overflow_refuted`).  `i + l <= n` overflows int for n within one vector of INT_MAX
  (`C125_near_int_max_refuted`).  A body that is undefined on 0 is undefined in the last vector even if no element is 0
  (`C125_tail_refuted`).  On SVE with 2048-bit vectors, 130 bytes are left unconverted but for the last two
  (`C125_sve_i8_refuted`).  On POWER the tutorial is undefined on an unaligned text (`C125_power_unaligned_refuted`).
* C126: a float program can differ between back ends through abs of -0 (`C126_abs_refuted`: 0 on SSE, -0 on the CPU back end),
  min or max of a NaN (`C126_min_refuted`: SSE returns the number, NEON the NaN), fnma of operands that cancel
  (`C126_fnma_refuted`: -0 on VSX) and a multiply-add without a fused instruction (`C126_unfused_refuted`).
* log1p (f32, src/sleefsp.c:1766) returns +infinity for every finite number above 1e38, where the result is about 88 (C129_log1p_overflow_refuted).
* asinh and acosh (f32, src/sleefsp.c:1511, 1523) return an infinity for every finite number beyond 18446743523953729536, where the result is between 45 and 90 (C131_asinh_acosh_overflow_refuted). The specification tables of the functions give no such restriction in nsimd's documentation.
* sinh and cosh (f32) are infinite beyond 89, and 88 in the low precision, while the largest finite result is reached near 89.4 (C131_sinh, C131_cosh).
* exp, pow and others convert to int floats that do not fit, which is undefined in C (src/sleefsp.c:1162, 1321); the results proved do not depend on it.
* sinpi and cospi (f32, src/sleefsp.c:2195, 2238) return 0 and 1 for every finite number beyond 8000000, although floats up to 2^23 are not all even integers: sinpi(8000000.5) is 0 and cospi(8000001) is 1 (C134_large_refuted).
* sin, cos and tan (f32) of an infinity or a NaN read Sleef_rempitabsp[412..415], past the end of its 412 numbers, in rempif (src/sleefsp.c), before the result is replaced by a NaN (C135_infinity_refuted).
* Not proved, seen while reading: the SIMD versions (src/sleefsimdsp.c) cut exp off at 100 and the scalar one at 104, so that the two differ for arguments in between; the SIMD trigonometric functions choose the reduction by a test over all lanes, so that the bits of a lane may depend on the other lanes.
* fmod and remainder (f32, src/sleefsp.c:2016-2069) return a NaN for finite arguments whose quotient is beyond the range of float, such as fmod(FLT_MAX, FLT_MIN), where C requires the exact finite result (C136_large_quotient_refuted). The loop stops after eight turns and the product of quotient and divisor overflows.
* A lane of an f16 vector of the CPU and POWER back ends holds the unrounded f32 result of a mathematical operator (egg/gen_archis.py:42, typ2 is f32), so a chain of operators can differ from the same chain on f16 scalars, which round after each one (C138_f16_lane_refuted; a single operator between load and store agrees, C138_vectors_f16).

## 6. Properties and theorems

For each theorem listed here `Print Assumptions` answers "Closed under the global context" (871 theorems, checked when this file was generated).

### C01 Half to single conversion is exact (proved)

nsimd_u16_to_f32 maps every half-precision bit pattern to a single-precision float denoting exactly the same number: finite values (zero, subnormal, normal) keep value and sign, infinities map to the infinity of the same sign and NaNs map to NaNs.

Theorems (`PropFp16.v`): `C01_u16_to_f32_exact`.

### C02 Single to half conversion rounds to nearest, ties to even (proved)

For every non-NaN float x, nsimd_f32_to_u16(x) has the sign of x; it is an infinity iff |x| >= 65520; otherwise it denotes a finite half that no other finite half is closer to x than, and when two halves are equally close the one with even significand is returned. NaNs map to a NaN.

Theorems (`PropFp16.v`): `C02_f32_to_u16_nearest_even`, `C02_f32_to_u16_overflow`, `C02_f32_to_u16_inf`, `C02_f32_to_u16_nan`, `C02_f32_to_u16_range`.

### C03 Half -> single -> half is the identity (proved)

Converting any non-NaN half to single and back returns the same 16 bits; a NaN returns a NaN.

Theorems (`PropFp16.v`): `C03_half_single_half`.

### C04 Single to half conversion is monotone (proved)

If x <= y (both non-NaN floats) then the half produced for x is <= the half produced for y.

Theorems (`PropFp16.v`): `C04_f32_to_u16_monotone`.

### C05 Non-IEEE754 build of the half conversions (proved)

With NSIMD_NO_IEEE754, u16 -> f32 denotes the IEEE value of every finite half, but f32 -> u16 is wrong: for every float of magnitude in [2^-16, 2^14) the half returned denotes four times the argument (truncated to 11 significant bits), so the round trip of a normal half is not the identity (1.0 comes back as 4.0).

Theorems (`PropFp16.v`): `C05_u16_to_f32_noieee_exact`, `C05_f32_to_u16_noieee_quadruples`, `C05_noieee_round_trip_refuted`.
Note: The expected round trip is refuted; the property states what the code does.

### C06 ufp measures agreement of leading bits (proved)

nsimd_ufp_{f16,f32,f64}(a,b) is symmetric, ignores the sign bit, returns MantissaSize+1 when a and b have the same magnitude, and for operands whose exponents are equal or adjacent returns MantissaSize + 1 minus the bit length of the difference of the significands scaled to the smaller exponent; the result always lies in [-1, MantissaSize+1]; it is never maximal for different magnitudes.

Theorems (`PropUfp.v`): `C06_instances`, `C06_ufp_comparable`, `C06_ufp_far`, `C06_gap_is_distance`, `C06_ufp_symmetric`, `C06_ufp_ignores_sign`, `C06_ufp_bounds`, `C06_ufp_max_iff_equal`.

### C07 isnan / isinf / isnormal for f32 and f64 (proved)

nsimd_isnan and nsimd_isinf return 1 exactly on NaN / infinite patterns and 0 otherwise. nsimd_isnormal returns 0 exactly on subnormals (its documented use), so it differs from C isnormal on zeros, infinities and NaNs.

Theorems (`PropFloatClass.v`): `C07_f32`, `C07_f64`.

### C08 isnan / isinf / isnormal for f16 (proved)

The f16 classification functions do not classify like the f32/f64 ones: nsimd_isnan_f16 is 1 exactly on NaNs and infinities, nsimd_isinf_f16 is never 1, and nsimd_isnormal_f16 is 1 exactly on subnormals and -0.

Theorems (`PropFloatClass.v`): `C08_f16_actual`, `C08_f16_refuted`.
Note: Finding: the f16 functions misclassify; exact behaviour proved.

### C09 Saturating addition is the clamped exact sum (proved)

nsimd_scalar_adds on every integer type returns the mathematically exact sum clamped to the range of the type and never evaluates a signed overflow.

Theorems (`PropScalar.v`): `C09_adds_saturates`.

### C10 Saturating subtraction is the clamped exact difference (proved)

nsimd_scalar_subs on every integer type returns the exact difference clamped to the range of the type, except when the most negative value of a signed type is subtracted: then i8/i16 return the clamped SUM and i32/i64 evaluate an undefined negation.

Theorems (`PropScalar.v`): `C10_subs_saturates`, `C10_subs_most_negative`, `C10_subs_refuted`.
Note: Finding: subtracting the most negative value.

### C11 Shifts (proved)

For a shift amount s in [0, nbits): shl multiplies by 2^s modulo 2^nbits, shr divides the unsigned reading by 2^s rounding down, shra divides the signed reading by 2^s rounding toward minus infinity, and shr = shra on unsigned types.

Theorems (`PropScalar.v`): `C11_shl`, `C11_shr`, `C11_shra`.

### C12 Bitwise operators act bit by bit (proved)

orb, andb, xorb, andnotb, notb compute on bit i of the result the boolean function of bit i of the operands (andnotb(a,b) is a and not b), for signed and unsigned integers; results stay in the type's range. to_mask sets every bit to the logical, to_logical is true exactly when some bit is set, and to_logical(to_mask(l)) = l. reinterpret between integer types of the same width keeps every bit; cvt between integer types keeps representable values and otherwise wraps.

Theorems (`PropScalar.v`): `C12_bitwise`, `C12_masks`, `C12_reinterpret_cvt`.

### C13 min, max, abs, neg, fma family on integers (proved)

min/max return the smaller/larger operand; abs returns the absolute value except on the most negative value (itself for i8/i16, undefined for i32/i64); add, sub, mul, neg, fma, fms, fnma, fnms, whenever their C evaluation is defined, return the exact result modulo 2^nbits; they are defined on all operands of u8, i8, i16, u32, u64 and whenever intermediate results are representable, but u16 products can overflow int.

Theorems (`PropScalar.v`): `C13_minmax`, `C13_abs`, `C13_abs_min`, `C13_arith_value`, `C13_fma_total`, `C13_fma_representable`, `C13_mul_u16_undefined_refuted`.
Note: Finding: u16 products overflow int.

### C14 round_to_even (proved)

nsimd_scalar_round_to_even_{f16,f32,f64} returns, for every finite input, the nearest integer with ties going to the even integer and the sign of the argument (also for zero results), and returns infinities and NaNs unchanged; the source comment's claim that both differences are exact is not needed (and false).

Theorems (`PropRound.v`): `C14_units`, `C14_round_to_even_f32`, `C14_round_to_even_f64`, `C14_round_to_even_f16`, `C14_special`, `C14_special_f16`.

### C15 popcnt counts set bits (proved)

nsimd_popcnt32_/64_ returns the number of one bits of its argument for every argument and terminates after at most 32/64 iterations.

Theorems (`PropScalar.v`): `C15_popcnt`, `C15_popcnt_halves`.

### C16 CPU vectors behave lane by lane (proved)

Each arithmetic, comparison, blend and conversion operator of the CPU backend computes lane i of its result from lane i of its operands with the scalar operator; no lane influences another. Division truncates toward zero and is undefined exactly for a zero divisor or the smallest int or wider integer divided by -1; iota holds the lane numbers.

Theorems (`PropCpuLanes.v`, `PropCpuSimd.v`): `C16_lanewise`, `C16_integer_arith`, `C16_integer_div`, `C16_iota`.

### C17 Vectors of logicals are canonical and boolean (proved)

Any vector of logicals obtained from set1l, loadl, comparisons, to_logical, mask_for_loop_tail and combined with andl, orl, xorl, andnotl, notl, reinterpretl contains in each lane either 0 or all ones; on those the operators are the boolean connectives, and all/any/nbtrue compute the conjunction, disjunction and count; storel/loadl and to_mask/to_logical round-trip.

Theorems (`PropCpuSimd.v`): `C17_logicals`, `C17_reductions`, `C17_loadl`, `C17_storel_loadl`, `C17_mask_logical`.

### C18 Masked loads and stores touch only active lanes (proved)

mask_store changes memory exactly at the addresses of active lanes; maskz_load yields zero and masko_load yields the alternative in inactive lanes, and neither reads the memory of inactive lanes (so an unmapped tail is safe). Plain loads and stores transfer exactly the elements of the vector, in order.

Theorems (`PropCpuLanes.v`, `PropCpuSimd.v`): `C18_mask_store`, `C18_maskz_load`, `C18_masko_load`, `C18_load`, `C18_store`.

### C19 Array-of-structures loads and stores are inverse (de)interleavings (proved)

load{2,3,4} put element deg*i+j of memory in lane i of register j, store{2,3,4} do the converse, they touch exactly deg*len elements, and store-after-load and load-after-store are identities (for f16, on elements other than NaNs and on lanes that are halves, because lanes are kept as f32).

Theorems (`PropCpuSimd.v`): `C19_load_deg`, `C19_store_deg`, `C19_load_after_store`, `C19_store_after_load`, `C19_conditions`.

### C20 zip and unzip are mutually inverse (proved)

ziplo/ziphi interleave the low/high halves of two vectors, unziplo/unziphi take even/odd lanes; unzip(zip(a,b)) = (a,b) and zip(unzip(a,b)) = (a,b).

Theorems (`PropCpuSimd.v`): `C20_zip`, `C20_unzip`, `C20_inverse`.

### C21 Loop tails: a SIMD loop with mask_for_loop_tail processes every element once (proved)

The documented pattern `for (i = 0; i < n; i += len) { mask = mask_for_loop_tail(i, n); mask_store(mask, dst + i, f(maskz_load(mask, src + i))); }` writes f(src[k]) to dst[k] for all k in [0,n), touches no other element of dst and reads no element of src outside [0,n), as long as n + len <= 2^31 (the loop runs on an int; above that mask_for_loop_tail overflows) and src and dst are equal or disjoint.

Theorems (`PropCpuSimd.v`): `C21_loop_tail`, `C21_near_int_max_refuted`.
Note: Finding: overflow near INT_MAX.

### C22 upcvt and downcvt preserve order and representable values (proved)

downcvt(upcvt(v)) = v for integers, with the low half of the lanes in the first output register and the high half in the second; downcvt wraps modulo 2^nbits. cvt between integer types of the same width wraps each lane into the destination type.

Theorems (`PropCpuLanes.v`, `PropCpuSimd.v`): `C22_upcvt`, `C22_downcvt`, `C22_round_trip`, `C22_cvt`, `C22_upcvt_wraps`.
Note: Integer types only.

### C23 f16 sign-bit manipulation and reinterpret in the emulated backend (proved)

On vectors of f16 the CPU backend applies orb/andb/xorb/andnotb/notb to the f32 widening of the lanes: setting, flipping or clearing the sign bit of a half that is not a NaN (orb, xorb, andnotb with 0x8000) gives exactly the bitwise result on the 16-bit pattern; for other operands it does not ('preserving all bits' fails: orb(0x0400,0x4000) is 0x7c00 and notb(0x3c00) is 0xc400). reinterpret keeps the memory image of every lane; into f16 the lane is the single-precision copy of the half with these 16 bits.

Theorems (`PropCpuLanes.v`, `PropCpuSimd.v`): `C23_f16_sign_bit`, `C23_f16_bitwise_refuted`, `C23_reinterpret`, `C23_reinterpret_to_f16`.
Note: Finding: bitwise operators on f16 act on the f32 widening.

### C24 Unrolled packs are longer vectors (proved)

An element-wise operator on pack<T,N> acts on the concatenation of the N registers lane by lane; loading a pack reads N*len consecutive elements in order and storing writes them back; len is N*len; any/all/nbtrue/addv agree with those on the concatenation.

Theorems (`PropPack.v`): `C24_lanewise`, `C24_compound_assignment`, `C24_reductions`, `C24_loads`, `C24_stores`, `C24_len`.

### C25 Structure loads and stores on unrolled packs (proved)

load{2,3,4} into packx{2,3,4}<T,N> and store{2,3,4} of N-unrolled packs (de)interleave deg*N*len consecutive elements.

Theorems (`PropPack.v`): `C25_load_deg`, `C25_store_deg`.

### C26 gather and scatter on unrolled packs (proved)

On pack<T,N>, lane k of gather(base, idx) is base[(k/len)*len + idx[k]] and lane k of gather_linear(base, step) is base[(k/len)*len + (k mod len)*step], where len is the number of lanes of one register; scatter and scatter_linear write there. This is the documented base[idx[k]] / base[k*step] exactly when N = 1 (finding: on unrolled packs the base pointer is advanced although indices and steps are absolute).

Theorems (`PropPack.v`): `C26_gather`, `C26_scatter`, `C26_one_register`, `C26_unrolled_refuted`.
Note: Finding: wrong addresses for N > 1.

### C27 iota and mask_for_loop_tail on unrolled packs (proved)

On pack<T,N> and packl<T,N>, lane k of iota is k mod len and lane k of mask_for_loop_tail(i,n) is i + (k mod len) < n, where len is the number of lanes of one register: they are the documented k and i + k < n exactly when N = 1 (finding: unrolled packs repeat the first register).

Theorems (`PropPack.v`): `C27_iota_and_tail`, `C27_one_register`, `C27_unrolled_refuted`.
Note: Finding: registers repeat for N > 1.

### C28 to_pack and to_pack_interleave (proved)

to_pack concatenates the member packs of a packx{1,2,3,4}<T,N> register by register; to_pack_interleave interleaves their registers; no register is lost or duplicated.

Theorems (`PropPack.v`): `C28_to_pack`, `C28_to_pack_interleave`.

### C29 Aligned allocation (proved)

A non-null result of nsimd_aligned_alloc(n) is a multiple of NSIMD_MAX_ALIGNMENT, and its block of n bytes shares no byte with any live block; after every history of allocations and frees all live blocks are aligned, inside the address space and pairwise disjoint; freeing releases that block only; typed allocation of n elements has room for n elements whenever n*sizeof(T) is a representable nsimd_nat. The underlying posix_memalign is assumed to conform to POSIX.

Theorems (`PropMemory.v`): `C29_history`, `C29_alloc`, `C29_alloc_for`, `C29_free`.

### C30 nsimd::allocator never under-allocates (proved)

The C++11 allocator<T>::allocate(n) either throws or returns an aligned block of at least n*sizeof(T) bytes when signed overflow wraps; in standard C++ the same holds except exactly when sizeof(T) > 1 and 2^(W-1) <= n*sizeof(T) < 2^W, where the call is undefined (finding). The C++98 allocator has room when n*sizeof(T) < 2^(W-1), and under-allocates for larger n (finding).

Theorems (`PropMemory.v`): `C30_cxx11_wrapping`, `C30_cxx11_standard`, `C30_cxx98_in_range`, `C30_refuted`.
Note: Findings: signed overflow in the C++11 allocator, under-allocation in the C++98 one.

### C31 Paired host/device buffers (proved)

copy_to_device followed by copy_to_host between buffers of sz elements restores the host data whatever happened to it in between. On CPU pair_malloc/pair_calloc(sz) give one buffer of sz elements (zero-filled by calloc) seen through two pointers, or two null pointers. On GPUs a failure gives two null pointers, size 0 and leaks nothing; a success gives a device buffer of sz elements but a host buffer of sz bytes (finding), so that copying the pair is undefined when sizeof(T) > 1; pair_free undoes pair_malloc. After a successful pair_calloc the buffer (on GPUs the device buffer) is zero everywhere.

Theorems (`PropCpuLanes.v`, `PropMemory.v`): `C31_cpu`, `C31_gpu`, `C31_gpu_copy_refuted`, `C31_round_trip`, `C31_refuted`, `C31_calloc_zero`.
Note: Finding: GPU pair_malloc/pair_calloc allocate sz bytes, not sz elements, on the host.

### C32 Kernel launch geometry covers the range (proved)

For n elements and blocks of b threads, as long as the threads can be numbered in the index type of the kernel (at most 2^31 for int indices), the guarded global indices are exactly 0..n-1, each once, with at most b-1 idle threads; and whatever the order in which the threads take their steps, the launch leaves in each dst[i] the value computed for i (or the old value where the mask is false) and changes nothing else. Beyond 2^31 elements the int index wraps to a negative index that the guard accepts (finding).

Theorems (`PropGpu.v`): `C32_cuda_rocm`, `C32_oneapi`, `C32_fill_and_tests`, `C32_any_schedule`, `C32_refuted`.
Note: Finding: int indices wrap beyond 2^31 elements.

### C33 Fixed-point arithmetic (proved)

On fp_t<lf,rt> values: + and - and unary - return the exact result whenever it has lf+rt bits; * returns the exact product rounded down to a multiple of 2^-rt and / the exact quotient truncated toward zero whenever that result has lf+rt bits; abs returns the absolute value under the same conditions (and rt <= 30). Division by zero is undefined, and so is every multiplication when rt = 0 and the storage has 32 or 64 bits.

Theorems (`PropFixedPoint.v`): `C33_add`, `C33_sub`, `C33_neg`, `C33_mul`, `C33_mul_rt0_refuted`, `C33_div`, `C33_div_zero`, `C33_abs`.
Note: Finding: with rt = 0 on 32/64-bit storage operator* shifts by the width of the type.

### C34 Fixed-point comparisons (proved)

==, !=, <, <=, >, >= on fp_t<lf,rt> compare floor(raw / 2^s), where s is the number of bits of the storage type not needed by the format (width - lf - rt), so they compare the represented numbers when both raw values are multiples of 2^s, and they do so for every pair of numbers of the format exactly when s = 0 or lf + rt = 1. (In fp_t<8,8>, 1.0 == 2.0.) The tolerance comparison counts units of the same truncated values.

Theorems (`PropFixedPoint.v`): `C34_compare`, `C34_compare_multiples`, `C34_exact_iff`, `C34_eq_ulp`, `C34_refuted`.
Note: Finding: the comparisons mask out significant bits (1.0 == 2.0 in fp_t<8,8>).

### C35 Fixed-point floor (proved)

floor on fp_t<lf,rt> (lf >= 1) clears the low (width of the storage - lf) bits of the raw value; it returns the largest integer not above its argument for every number of the format exactly when rt = 0 and lf is the storage width. With lf = 0 it returns 0 or is undefined.

Theorems (`PropFixedPoint.v`): `C35_floor`, `C35_floor_lf0`, `C35_exact_iff`, `C35_refuted`.
Note: Finding: floor shifts by width - lf instead of rt.

### C36 Fixed-point SIMD and scalar agree (proved)

For each lane the SIMD add, sub, mul, div and fma of the fixed-point module return what the scalar operators return whenever those are defined; min, max and abs return the minimum, maximum and absolute value, and rec 1/x truncated toward zero to a multiple of 2^-rt. The SIMD comparisons compare the represented numbers exactly, hence differ from the scalar operators (C34) outside multiples of 2^s.

Theorems (`PropFixedPoint.v`): `C36_arith`, `C36_fma`, `C36_min_max`, `C36_abs`, `C36_rec`, `C36_compare`, `C36_compare_refuted`.
Note: Finding: SIMD and scalar comparisons disagree.

### C37 Fixed-point integer powers (proved)

exp(x, n) by repeated squaring terminates for every 64-bit n; for n > 0 it returns exactly x^n when every x^m, 1 <= m <= n, is a number of the format; for n = 0 it returns 1; for n < 0 it returns the power -n of the truncated inverse 1/x; n = INT64_MIN is undefined.

Theorems (`PropFixedPoint.v`): `C37_exp`, `C37_exp_terminates`, `C37_exp_zero`, `C37_exp_negative`, `C37_exp_min_undefined`.

### C38 mulhilo is the full double-width product (proved)

The 32-bit and 64-bit mulhilo helpers return the high and low word of the exact product in every lane.

Theorems (`PropRandom.v`): `C38_mulhilo64`, `C38_mulhilo32`, `C38_mulhilo32_halves`.
Note: mulhilo32 (live and alternative version) and mulhilo64 return the exact double-width product in every lane, for any register length.

### C39 Philox is a bijection of the counter for each key (proved)

For each key and each round count, philox maps distinct counters to distinct outputs (so streams indexed by a counter never repeat), and equals the Random123 definition.

Theorems (`PropRandom.v`): `C39_philox2x32`, `C39_philox2x64`, `C39_philox4x32`, `C39_philox4x64`, `C39_bijection_philox2x32`, `C39_bijection_philox2x64`, `C39_bijection_philox4x32`, `C39_bijection_philox4x64`, `C39_distinct_philox2x32`, `C39_distinct_philox2x64`, `C39_distinct_philox4x32`, `C39_distinct_philox4x64`.
Note: All four philox functions equal the Random123 definition in every lane, for any number of rounds >= 1, and are bijections of the counter for each key. Known answers checked as examples.

### C40 ThreeFry is a bijection of the counter for each key (proved)

For each key and each round count, threefry maps distinct counters to distinct outputs, and equals the Random123 definition.

Theorems (`PropRandom.v`): `C40_threefry2x32`, `C40_threefry2x64`, `C40_threefry4x32`, `C40_threefry4x64`, `C40_bijection_threefry2x32`, `C40_bijection_threefry2x64`, `C40_bijection_threefry4x32`, `C40_bijection_threefry4x64`, `C40_distinct_threefry2x32`, `C40_distinct_threefry2x64`, `C40_distinct_threefry4x32`, `C40_distinct_threefry4x64`.
Note: All four threefry functions equal the Random123 definition in every lane, for any number of rounds, and are bijections of the counter for each key.

### C41 tet1d expressions evaluate element-wise (proved)

Assigning an expression to an output array computes, for each index i < n, the expression on the i-th elements of the inputs and writes nothing else, whatever the vector length; inputs aliasing the output at the same position are fine.

Theorems (`PropTet1d.v`): `C41_cpu`, `C41_scalar_only`, `C41_gpu`.

### C42 tet1d masked assignment (proved)

out(mask) = expr writes, for each index where the mask expression is true, the value of the expression, and preserves every other element, on CPU for any vector length and on GPU for any schedule. On CPU the expression must be defined in the masked-out lanes too (finding: integer division by an element the mask excludes is still executed by the SIMD loop).

Theorems (`PropTet1d.v`): `C42_cpu`, `C42_gpu`, `C42_masked_out_lanes_refuted`.
Note: Finding: masked-out lanes are evaluated on CPU.

### C43 tet1d slices and size checks (proved)

A slice a(i0, i1) denotes elements i0..i1 inclusive with negative indices counted from the end, and is accepted exactly when 0 <= i0 < i1 < size (finding: one-element slices are rejected). When the size checks pass, all arrays of an expression have the size of the expression, so an assignment reads no element outside its arrays (finding: three-operand nodes whose first two operands are scalars fail the check).

Theorems (`PropTet1d.v`): `C43_sizes_agree`, `C43_no_out_of_bounds`, `C43_slice`, `C43_refuted`.
Note: Findings: one-element slices rejected; (scalar, scalar, array) rejected.

### C44 SPMD kernels: launch covers every index once (proved)

spmd_launch_kernel_1d on CPU calls the kernel for each index 0..n-1 exactly once, in order, whatever the unroll factor and the vector length; a launch that finishes gives each array element i < n the value the kernel computes for index i run alone with ordinary control flow, and changes no other element.

Theorems (`PropSpmd.v`): `C44_every_index_once`, `C44_result`.

### C45 SPMD kernels: if/elseif/else under masks equal per-thread control flow (proved)

Executing a kernel made of assignments, loads, stores and nested k_if / k_elseif / k_else with lane masks gives each lane the state the same kernel gives when run for that lane alone.

Theorems (`PropSpmd.v`): `C45_lanes`, `C45_launch`.

### C46 SPMD kernels: k_return (proved)

k_return stops the lanes that execute it for the rest of the kernel and only those; in a device function it ends the call only, and the lanes are active again in the caller.

Theorems (`PropSpmd.v`): `C46_return`, `C46_call`.

### C47 SPMD kernels: while loops, break and continue (proved)

If the masked execution of a kernel with k_while, k_break and k_return finishes, each lane has the result of ordinary while, break and return in the kernel run for that lane alone. It finishes when each lane alone finishes and no loop condition stays true in a lane that is switched off (always so for top-level loops without k_break or k_return). It never finishes when a lane that is switched off at the loop, or that leaves it by k_break or k_return, has the condition true; and k_continue gives wrong results. The documented claim of identical semantics is therefore refuted.

Theorems (`PropSpmd.v`): `C47_partial_correctness`, `C47_terminates`, `C47_flat_loops`, `C47_diverges_inactive`, `C47_diverges_exit`, `C47_refuted`.
Note: Findings: loops in branches, nested loops and k_break can run for ever; k_continue miscomputes.

### C48 SPMD kernels: k_set on booleans (proved)

k_set on a k_bool variable in a SIMD kernel sets every lane to mask && value: it is the assignment of the active lanes if and only if the variable was false in all inactive lanes. In the scalar tail it is the assignment of the active lanes. (Finding: inactive lanes lose their value, unlike for numeric variables.)

Theorems (`PropSpmd.v`): `C48_simd`, `C48_correct_iff`, `C48_scalar`, `C48_refuted`.
Note: Finding: k_set on k_bool clears inactive lanes.

### C49 x86 integer operators return the scalar result in every lane (proved)

On SSE2, SSE4.2, AVX, AVX2, AVX-512 KNL and AVX-512 Skylake, for the eight integer types, the operators set1, add, sub, neg, mul, div, fma/fms/fnma/fnms, shl, shr, shra, andb/orb/xorb/andnotb/notb, eq/ne/lt/le/gt/ge, andl/orl/xorl/andnotl/notl/set1l, if_else1, min, max, abs, adds, subs, to_mask, to_logical, loadl, storel, all, any and nbtrue return in each lane the value of the corresponding mathematical operation (wrapped modulo 2^bits for the arithmetic ones, clamped for the saturated ones), whatever instruction sequence the extension needs. mul and the fused operators are undefined exactly when the product is computed by the scalar C operator on a signed type and overflows, div exactly on a zero divisor and on MIN/-1 of the 32- and 64-bit signed types. subs does not saturate correctly on the 32- and 64-bit signed types when the subtrahend is the smallest value: it returns clamp(a + MIN).

Theorems (`PropX86Arith.v`): `C49_add`, `C49_sub`, `C49_neg`, `C49_mul`, `C49_mul_undefined`, `C49_div`, `C49_div_undefined`, `C49_fma`, `C49_fma_undefined`, `C49_shl`, `C49_shr`, `C49_shra`, `C49_bitwise`, `C49_bitwise_registers`, `C49_compare`, `C49_logical_operators`, `C49_set1l`, `C49_set1`, `C49_if_else`, `C49_min_max`, `C49_abs`, `C49_adds`, `C49_subs`, `C49_subs_saturates_refuted`, `C49_to_mask`, `C49_to_logical`, `C49_loadl`, `C49_storel`, `C49_reductions`.
Note: Finding: subs on i32 and i64 is wrong for a subtrahend equal to the smallest value. Intel intrinsics are transcribed from the Intel guide (trusted).

### C50 x86 structure loads and stores transpose without losing a member (proved)

On every x86 extension and for every 8- to 64-bit element type, load2/3/4 and store2/3/4 (aligned and unaligned) move an array of structures to and from registers: there is one assignment p of structures to lanes, a permutation that depends only on the degree, the extension and the type and is the same for loads and stores, such that lane i of register k is member k of structure p(i). They touch exactly d registers of memory and nothing after it. Storing what was loaded restores the memory, loading what was stored returns the registers. Lane i is structure i for exactly the combinations of a given table (all of SSE2/SSE4.2 and degree 3; not, for instance, load2 of f32 on AVX/AVX2), so memory order is refuted in general.

Theorems (`PropX86Shuffle.v`): `C50_structure_loads_and_stores_transpose`, `C50_store_after_load_restores_memory`, `C50_load_after_store_returns_registers`, `C50_lanes_in_memory_order_iff`, `C50_memory_order_refuted`.
Note: Finding: on AVX, AVX2 and AVX-512 some combinations permute the structures across lanes. f16 goes through the u16 version and is covered for the shuffles only.

### C51 trunc (C89 branch) (proved)

nsimd_scalar_trunc_{f32,f64}, in the branch used without C99 libm, rounds every finite value toward zero keeping its sign (including the sign of zero results) and returns infinities and NaNs unchanged.

Theorems (`PropRound.v`): `C51_trunc_f32`, `C51_trunc_f64`, `C51_trunc_special`.

### C52 gather and scatter on one vector (proved)

gather(base, idx) puts base[idx[i]] in lane i and reads nothing else; gather_linear(base, step) puts base[i*step]; scatter and scatter_linear write lane i there and nothing else, the highest lane winning when indices coincide.

Theorems (`PropCpuSimd.v`): `C52_gather`, `C52_gather_linear`, `C52_scatter`, `C52_scatter_linear`.

### C53 Fixed-point square root (proved)

For x > 0 whose raw value a satisfies (a + 2^rt + 2) * 2^rt fits the storage, sqrt returns the truncated root or the next number above it when 2^-12 <= x <= 2^12, and is never below the truncated root nor above it by more than max(one unit, (a + 2^rt)/2^10 units) otherwise. sqrt(0) is undefined; outside the stated range intermediate sums wrap (fp_t<4,2> sqrt(7.75) is wrong).

Theorems (`PropFixedPoint.v`): `C53_sqrt`, `C53_sqrt_any`, `C53_sqrt_zero_undefined`, `C53_sqrt_refuted`.
Note: Findings: wraps for large operands, divides by zero for sqrt(0).

### C54 Fixed-point log2 (proved)

For lf >= 2 and a positive raw value below 2^s (s unused storage bits), log2 terminates and returns min(0, floor(log2 x)), an integer. It is not the logarithm in general: log2(4.0) = 0 in fp_t<8,8>, and in fp_t<12,2> log2(8.0) never returns.

Theorems (`PropFixedPoint.v`): `C54_log2`, `C54_log2_refuted`.
Note: Findings: log2 ignores the fraction for small operands and may not terminate.

### C55 Fixed-point conversions (proved)

With rt <= 30: converting a finite float gives the nearest multiple of 2^-rt, ties away from zero, whenever it fits the storage; converting to float gives the correctly rounded float of raw / 2^rt; converting to float and back is the identity for |raw| <= 2^24 (and not beyond); integers |n| <= 2^24 convert exactly. With rt >= 31 every conversion is undefined.

Theorems (`PropFixedPoint.v`): `C55_of_float`, `C55_to_float`, `C55_round_trip`, `C55_round_trip_refuted`, `C55_rt31_undefined`, `C55_of_int`.

### C56 x86 lane reversal code (proved)

On every x86 extension and every element type except f16 (and except f64 on AVX-512, where the emitted code is not valid C), reverse returns the vector whose lane i is lane n-1-i of its argument, and reversing twice gives the argument back. On f16 each half of the vector is reversed in place instead, so that the result is not the reverse of the vector on any extension. (reverse is implemented for the x86 and CPU targets but is not declared as an operator of the API, so that this code is not reachable by users.)

Theorems (`PropX86Perm.v`): `C56_reverse`, `C56_reverse_twice`, `C56_reverse_f16`, `C56_reverse_f16_refuted`, `C56_reverse_f64_avx512_refuted`.
Note: reverse is wrong on f16 (halves not swapped) and does not compile on AVX-512 f64; both recorded as refutations

### C57 x86 zip and unzip (proved)

On every x86 extension and every element type (including f16), ziplo (ziphi) interleaves the lanes of the first (second) halves of its two arguments, unziplo (unziphi) gathers the lanes of even (odd) index of its two arguments, whatever its local buffers contained; and zip and unzip are inverse of each other in both orders.

Theorems (`PropX86Perm.v`): `C57_ziplo`, `C57_ziphi`, `C57_unziplo`, `C57_unziphi`, `C57_unzip_zip`, `C57_zip_unzip`.

### C58 x86 loads, stores and masked loads and stores (proved)

On every x86 extension and every element type, load returns the elements of memory in order and needs only the bytes of the vector; store writes exactly the lanes in order and no other byte; maskz_load and masko_load read exactly the elements whose mask lane is true (the others need not be accessible), and the other lanes are zero or come from the last argument; mask_store writes exactly the lanes whose mask lane is true, leaves every other byte unchanged and does not need it to exist. On f16 each lane is the single-precision copy of the half in memory, and stores round to the nearest half.

Theorems (`PropX86Mem.v`): `C58_load`, `C58_store`, `C58_maskz_load`, `C58_masko_load`, `C58_mask_store`, `C58_load_f16`, `C58_store_f16`, `C58_maskz_load_f16`, `C58_masko_load_f16`, `C58_mask_store_f16`.

### C59 x86 iota and mask_for_loop_tail (proved)

On every x86 extension and integer element type, lane k of iota() is k, and lane k of mask_for_loop_tail(i, n) is true exactly when i + k < n, for all ints i and n whose difference n - i is an int.

Theorems (`PropX86Mem.v`): `C59_iota`, `C59_mask_for_loop_tail`.

### C60 x86 gather, scatter and their linear versions (proved)

On every x86 extension and element type, lane i of gather(a, idx) is the element at a + idx[i] (a signed index, sign-extended from the width of the element) and lane i of gather_linear(a, step) the element at a + i*step; scatter writes lane i at a + idx[i], the highest lane winning on equal indices, and scatter_linear writes lane i at a + i*step (for step 0 the last lane stays); no other byte is read or written.

Theorems (`PropX86Mem.v`): `C60_gather`, `C60_scatter`, `C60_gather_linear`, `C60_scatter_linear`, `C60_gather_f16`, `C60_scatter_f16`, `C60_gather_linear_f16`, `C60_scatter_linear_f16`.

### C61 x86 integer conversions keep order and wrap (proved)

On every x86 extension, upcvt of an integer vector returns two vectors holding the first and second half of the elements in order, each converted to the type of twice the width; downcvt returns the elements of its first then of its second argument reduced modulo the width of the result type; cvt between types of the same width reinterprets each element; downcvt of the two results of upcvt is the original vector.

Theorems (`PropX86Cvt.v`): `C61_upcvt`, `C61_downcvt`, `C61_cvt`, `C61_round_trip`.

### C62 x86 cvt between integers and floats (proved)

On every x86 extension cvt from an integer type gives the float nearest to each element (exact up to 24 or 53 bits). cvt from a float type gives, for values in range, the integer nearest to each element (ties to even) for f32 to i32 everywhere, f32 to u32 on AVX-512 and f64 to 64-bit integers on avx512_skylake, and the truncated value otherwise. (Hence the same program gives 2 or 1 for 1.5 depending on type and extension, whereas the CPU extension always truncates: refuted as stated by the API.)

Theorems (`PropX86Cvt.v`): `C62_nearest_float`, `C62_cvt_from_int`, `C62_cvt_to_int`, `C62_to_int_unique`, `C62_same_result_refuted`.
Note: C62_same_result_refuted: rounding differs between types and extensions

### C63 x86 widening and narrowing conversions with floats (proved)

On every x86 extension: upcvt of integers to floats is exact; upcvt f32 to f64 is exact; downcvt f64 to f32 gives the nearest single (infinite from the middle of the last gap); downcvt of floats to integers truncates; upcvt f32 to 64-bit integers is right for values that fit the 32-bit type (and refuted beyond); downcvt of 64-bit integers to f32 gives the nearest float except for i64 on AVX-512, which gives the float of the element reduced to 32 bits (refuted); conversions of 8, 16 and 32-bit integers to f16 hold the exact or nearest single of each element in element order, conversions from f16 truncate or round as for f32, and 16-bit integers survive the way to f16 and back.

Theorems (`PropX86Cvt.v`): `C63_upcvt_from_int`, `C63_upcvt_to_int`, `C63_upcvt_to_int_refuted`, `C63_upcvt_float`, `C63_downcvt_float`, `C63_downcvt_from_int`, `C63_downcvt_i64_avx512`, `C63_downcvt_from_int_refuted`, `C63_downcvt_to_int`, `C63_cvt_to_f16`, `C63_cvt_from_f16`, `C63_f16_round_trip`, `C63_upcvt_from_f16`, `C63_upcvt_f16_to_int`, `C63_upcvt_to_f16`, `C63_downcvt_to_f16`, `C63_downcvt_f32_to_f16`, `C63_downcvt_from_f16`.
Note: the two refutations show where the conversion goes through a 32-bit integer

### C64 x86 floating-point comparisons and selection (proved)

On every x86 extension, lane i of eq, ne, gt, lt, ge and le on f32, f64 and f16 vectors is true exactly when the IEEE relation of the two elements (less, equal, greater, unordered) is the one of that name; -0.0 equals +0.0; with a NaN operand every comparison is false except ne, so ge is not the negation of lt (refuted). if_else1 takes element i, bit for bit, from its first operand where the logical is true and from its second where it is false.

Theorems (`PropX86Float.v`): `C64_compare`, `C64_compare_f16`, `C64_if_else`, `C64_if_else_f16`, `C64_unordered`, `C64_ge_not_lt_refuted`.

### C65 x86 floating-point neg, abs, min and max (proved)

On every x86 extension: neg flips the sign of each element (of NaN and zero too) as the scalar neg does; abs gives the absolute value with the sign bit cleared, which differs from the scalar abs on -0.0 (refuted); min (max) returns, bit for bit, the first element if it is strictly less (greater) than the second and the second one otherwise, as the scalar does, so that a NaN makes the result the second operand and min is not commutative (refuted).

Theorems (`PropX86Float.v`): `C65_neg`, `C65_abs`, `C65_abs_like_scalar_refuted`, `C65_min`, `C65_max`, `C65_min_value`, `C65_max_value`, `C65_min_commutes_refuted`, `C65_f16`.
Note: the scalar abs keeps -0.0: recorded as a refutation

### C66 x86 floor, ceil, trunc and round_to_even on floats (proved)

On every x86 extension, by instruction or by emulation, floor, ceil, trunc and round_to_even map each finite element to the float of the same sign whose value is the integer just below, just above, toward zero, or nearest with ties to even; infinities stay and NaN stays NaN. The result pattern of a finite element is the same on every extension.

Theorems (`PropX86Float.v`): `C66_floor`, `C66_ceil`, `C66_trunc`, `C66_round_to_even`, `C66_f16`, `C66_same_on_every_extension`.

### C67 x86 addv on floats (proved)

On every x86 extension addv adds each element exactly once, in a fixed order depending on the extension only, with correctly rounded additions; f16 vectors are added in single precision and rounded once to a half. If the elements are multiples of a power of two and the sum of their absolute values fits in a significand, the result is the exact sum. In general the result differs from the left-to-right sum of the emulation (refuted).

Theorems (`PropX86Float.v`): `C67_addv`, `C67_addv_f16`, `C67_exact`, `C67_exact_f16`, `C67_like_emulation_refuted`.

### C68 x86 logicals of floating-point vectors (proved)

On every x86 extension, for f32, f64 and f16: all, any and nbtrue tell whether all, whether some, and how many lanes are true; to_mask gives all-ones or zero patterns; to_logical is true where the bits are not zero (-0.0 is true); loadl is true where the value in memory is not zero (-0.0 is false), except on f16 with AVX-512 where the bits decide, so loadl on f16 is not portable (refuted); storel writes 1.0 and 0.0 and nothing else in memory; loadl after storel gives the logical back; iota holds 0.0, 1.0, ...; mask_for_loop_tail(i, n) is true on lane k exactly when i + k < n; set1 fills all the lanes.

Theorems (`PropX86Float.v`): `C68_all_any_nbtrue`, `C68_all_any_nbtrue_f16`, `C68_to_mask`, `C68_to_mask_f16`, `C68_to_logical`, `C68_to_logical_f16`, `C68_loadl`, `C68_storel`, `C68_round_trip`, `C68_loadl_f16`, `C68_storel_f16`, `C68_round_trip_f16`, `C68_minus_zero`, `C68_loadl_f16_portable_refuted`, `C68_iota`, `C68_iota_f16`, `C68_loop_tail`, `C68_loop_tail_f16`, `C68_set1`, `C68_set1_f16`.

### C69 x86 reinterpret and reinterpretl of f16 (proved)

On every x86 extension, reinterpreting 16-bit integers as f16 gives the single precision copies of the halves with those patterns, in order; the way back gives the halves nearest to the elements; there and back keeps every pattern that is not a NaN and NaN stays NaN. reinterpretl keeps the truth value of every lane in both directions.

Theorems (`PropX86Float.v`): `C69_to_f16`, `C69_from_f16`, `C69_round_trip`, `C69_logicals`, `C69_logicals_back`.

### C70 ARM integer arithmetic (proved)

On every ARM extension add, sub, mul, neg and abs give in every lane the exact result modulo 2^n, min and max the smaller and larger element, adds and subs the exact result clamped to the range of the type, set1 its argument in every lane, and len the number of elements of the register. The operations which are done by a C loop (mul on 64-bit elements on NEON; neg and abs of i64 on neon128) are instead undefined exactly when a signed lane overflows.

Theorems (`PropArm.v`): `C70_add_sub`, `C70_mul`, `C70_mul_undefined`, `C70_neg`, `C70_abs`, `C70_neg_abs_undefined`, `C70_min_max`, `C70_saturated`, `C70_set1_len`.

### C71 ARM integer division (proved)

On every ARM extension div gives in every lane the quotient truncated towards zero. On NEON and for 8 and 16-bit elements on SVE it is undefined exactly when some lane divides by zero or the smallest value by -1; for 32 and 64-bit elements on SVE these lanes give 0 and the smallest value, and the other lanes are not affected.

Theorems (`PropArm.v`): `C71_div`, `C71_div_undefined`.

### C72 ARM bitwise operators and shifts (proved)

On every ARM extension andb, orb, xorb, andnotb (a and not b) and notb act on every bit independently; for counts 0 <= c < n shl multiplies by 2^c modulo 2^n, shr divides the unsigned pattern by 2^c rounding down, shra divides the signed value by 2^c rounding down.

Theorems (`PropArm.v`): `C72_bitwise`, `C72_bitwise_registers`, `C72_shl`, `C72_shr`, `C72_shra`.

### C73 ARM comparisons, logicals, selection (proved)

On every ARM extension eq, ne, lt, le, gt, ge are true exactly in the lanes whose elements compare so (signed or unsigned as the type); andl, orl, xorl, andnotl, notl act lane by lane; if_else takes in every lane the second or third operand according to the logical; all, any and nbtrue see exactly the lanes of the vector; to_mask gives all ones or zero; to_logical is true exactly in the lanes with a nonzero element. On SVE the result does not depend on predicate bits that do not belong to a lane.

Theorems (`PropArm.v`): `C73_compare`, `C73_logical_operators`, `C73_set1l`, `C73_if_else`, `C73_all_any`, `C73_nbtrue`, `C73_to_mask`, `C73_to_logical`.

### C74 ARM multiply-add operators on integers (proved)

On every ARM extension fma, fnma, fms and fnms give ab+c, -ab+c, ab-c and -ab-c modulo 2^n in every lane; for 64-bit elements on NEON, where a C loop is used, they are undefined exactly when one of the intermediate results of a signed lane overflows.

Theorems (`PropArm.v`): `C74_fma`, `C74_fma_undefined`.

### C75 ARM iota and mask_for_loop_tail (proved)

On every ARM extension iota gives the index of every lane (modulo 2^n), and mask_for_loop_tail(i, n) is true exactly in the lanes j with i + j < n, except with i8 elements on SVE vectors of more than 128 elements: there, whenever at least 128 elements but less than a full vector remain, the first lane is left out.

Theorems (`PropArm.v`): `C75_iota`, `C75_mask_for_loop_tail`, `C75_mask_for_loop_tail_refuted`.
Note: i8 on SVE vectors of more than 128 elements: C75_mask_for_loop_tail_refuted

### C76 ARM reverse (proved)

reverse puts element n-1-i of its argument in position i for every i, where n is the number of elements of the vector; applying it twice gives back the argument.

Theorems (`PropArmPerm.v`): `C76_reverse`, `C76_reverse_f16`, `C76_reverse_twice`.

### C77 ARM zip and unzip (proved)

ziplo and ziphi interleave the lower and upper halves of their arguments, unziplo and unziphi gather the even and odd elements, zip and unzip return both results; unzip undoes zip and zip undoes unzip.

Theorems (`PropArmPerm.v`): `C77_zip`, `C77_unzip`, `C77_both`, `C77_inverse`, `C77_zip_f16`, `C77_unzip_f16`, `C77_inverse_f16`.

### C78 ARM loads and stores of degrees 1 to 4 (proved)

On every ARM extension load fills element i of the vector with the i-th element of memory and store writes it back there; load2, load3 and load4 (store2, store3, store4) read (write) element i of the j-th vector at element i*deg + j of memory. Only these elements are accessed, the rest of memory is unchanged, and loading what was stored gives the same vectors. f16 elements are widened exactly on the way in and rounded on the way out when the vector holds singles.

Theorems (`PropArmMem.v`): `C78_load`, `C78_store`, `C78_load_deg`, `C78_store_deg`, `C78_round_trip`, `C78_load_f16`, `C78_store_f16`, `C78_load_deg_f16`, `C78_store_deg_f16`.

### C79 ARM masked loads and stores, loads and stores of logicals (proved)

On every ARM extension a masked load reads exactly the elements whose lane is true and takes the others from zero or from the given vector; a masked store writes exactly the elements whose lane is true; elements of false lanes need not exist in memory. loadl gives a logical that is true exactly where the element in memory is not zero, and storel writes 1 and 0.

Theorems (`PropArmMem.v`): `C79_masko_load`, `C79_maskz_load`, `C79_mask_store`, `C79_masko_load_f16`, `C79_maskz_load_f16`, `C79_mask_store_f16`, `C79_loadl`, `C79_storel`.

### C80 ARM gathers and scatters (proved)

On every ARM extension gather reads and scatter writes the element of memory at the signed index held by each lane, and the linear forms at i * step; nothing else is accessed or changed. When several lanes of a scatter have the same index the highest lane wins on NEON and for 8- and 16-bit elements on SVE; for 32- and 64-bit elements on SVE the result is only guaranteed for indices that no other lane has, whatever the order in which the hardware writes the lanes.

Theorems (`PropArmMem.v`): `C80_gather`, `C80_gather_linear`, `C80_scatter`, `C80_scatter_linear`, `C80_gather_f16`, `C80_gather_linear_f16`, `C80_scatter_f16`, `C80_scatter_linear_f16`.

### C81 ARM integer conversions (proved)

On every ARM extension upcvt turns a vector of integers into two vectors of elements of twice the width, the first half of the elements in order in the first and the second half in the second, downcvt puts two vectors into one of half the width in order, and cvt keeps the width; every element is converted as in C between integer types (modulo the width of the target), and downcvt undoes upcvt.

Theorems (`PropArmCvt.v`): `C81_upcvt`, `C81_downcvt`, `C81_cvt`, `C81_round_trip`.

### C82 ARM conversions between integers and floats of the same width (proved)

On every ARM extension cvt from integers gives the float nearest to each element; cvt from floats to integers truncates toward zero and saturates, a NaN giving 0, for every input, except from f64 on neon128 where it is a C cast: defined exactly when every truncated element is representable, and then equal to it.

Theorems (`PropArmCvt.v`): `C82_cvt_from_int`, `C82_cvt_to_int`, `C82_saturated_unique`, `C82_saturated_in_range`, `C82_cvt_f64_neon128`.

### C83 ARM width-changing conversions with floats, conversions of f16 (proved)

On every ARM extension upcvt from integers to floats of twice the width gives the nearest float, upcvt from f32 to f64 is exact, and upcvt from f32 to 64-bit integers truncates and saturates (on neon128 for representable values); downcvt from f64 to f32 gives the nearest single, downcvt from floats to integers truncates and saturates in the type of the width of the source and reduces the result modulo the width of the target; downcvt from 64-bit integers to f32 gives the nearest single on SVE, while on NEON the integer is rounded to a double first, so that the nearest single is guaranteed only up to 2^53 in magnitude. On NEON vectors of f16 kept as two registers of singles, conversions from integers are exact or nearest in single precision, conversions to integers truncate, and reinterpreting 16-bit integers as f16 and back keeps every pattern but the payload of NaNs.

Theorems (`PropArmCvt.v`): `C83_upcvt_from_int`, `C83_upcvt_float`, `C83_upcvt_to_int`, `C83_downcvt_float`, `C83_downcvt_from_int_sve`, `C83_downcvt_from_int_neon`, `C83_downcvt_nearest_refuted`, `C83_downcvt_to_int`, `C83_downcvt_to_int_in_range`, `C83_cvt_to_f16`, `C83_cvt_from_f16`, `C83_upcvt_from_f16`, `C83_upcvt_f16_to_int`, `C83_upcvt_to_f16`, `C83_downcvt_to_f16`, `C83_downcvt_f32_to_f16`, `C83_downcvt_from_f16`, `C83_reinterpret_to_f16`, `C83_reinterpret_from_f16`, `C83_reinterpret_round_trip`, `C83_reinterpretl_to_f16`, `C83_reinterpretl_from_f16`.
Note: the f16 operators are those of NEON without NSIMD_ARM_FP16

### C84 ARM float comparisons and selection (proved)

On every ARM extension eq, ne, lt, le, gt and ge of floats give, element by element, the logical of the IEEE comparison: all but ne are false and ne is true when an element is NaN, and the two zeros are equal; andl, orl, xorl, andnotl and notl are the operations on truth values, and if_else1 returns the pattern of the element its logical selects. The f16 vectors kept as two registers of singles behave as the comparisons of the singles.

Theorems (`PropArmFloat.v`): `C84_compare`, `C84_compare_f16`, `C84_logical_operators`, `C84_if_else`, `C84_if_else_f16`, `C84_unordered`.

### C85 ARM float neg, abs, min and max (proved)

On every ARM extension neg flips the sign; abs is the absolute value (a zero becomes +0) and min and max are the IEEE 754-2019 minimum and maximum (NaN when an operand is NaN, -0 below +0, commutative), except for f64 on neon128, where abs leaves the sign of a zero, min returns its first operand only when it is less than the second and max only when it is greater. The results are therefore not portable across ARM extensions, nor between ARM and x86.

Theorems (`PropArmFloat.v`): `C85_neg`, `C85_abs`, `C85_min`, `C85_max`, `C85_neon128_f64`, `C85_f16`, `C85_commutes`, `C85_min_portable_refuted`, `C85_abs_portable_refuted`, `C85_min_like_x86_refuted`.

### C86 ARM rounding to integers (proved)

On every ARM extension floor, ceil, trunc and round_to_even return for each finite element the integer the operation names, with the sign of the element when it is zero, and keep infinities and NaNs; the emulation of neon128 and the instructions of the others agree.

Theorems (`PropArmFloat.v`): `C86_floor`, `C86_ceil`, `C86_trunc`, `C86_round_to_even`, `C86_f16`.

### C87 ARM addv on floats (proved)

addv adds each element exactly once, in an order that depends on the extension only (SVE completing the vector with zeros up to a power of two), each addition being rounded to nearest; when all the partial sums fit in a significand the result is the exact sum on every extension; f16 pairs are summed in single precision and rounded once to a half. The f16 version of NEON with native halves does not compute the sum.

Theorems (`PropArmFloat.v`): `C87_addv`, `C87_exact`, `C87_addv_f16`, `C87_exact_f16`, `C87_fp16_refuted`.
Note: addv of native f16 on NEON is wrong: C87_fp16_refuted

### C88 ARM logicals of floats: reductions, masks, memory, loop tails (proved)

On float logicals all, any and nbtrue quantify over and count the true elements; to_mask gives all ones or zero, to_logical tests the bits, set1 and set1l fill every element, loadl tests the value against zero (-0.0 is false) and storel writes 1.0 and 0.0 and nothing else, so that loadl reads back what storel wrote; iota counts exactly, and mask_for_loop_tail(i, n) is true of the element k exactly when i + k < n. The same of f16.

Theorems (`PropArmFloat.v`): `C88_all_any`, `C88_nbtrue`, `C88_all_any_nbtrue_f16`, `C88_to_mask`, `C88_to_logical`, `C88_masks_f16`, `C88_set1`, `C88_set1_f16`, `C88_set1l`, `C88_loadl`, `C88_storel`, `C88_round_trip`, `C88_loadl_f16`, `C88_storel_f16`, `C88_iota`, `C88_iota_f16`, `C88_loop_tail`, `C88_loop_tail_f16`.

### C89 Scalar float arithmetic is correctly rounded in every format and standard (proved)

The scalar add, sub, mul, div, sqrt, rec, rec8 and rec11 (and adds, subs) on f16, f32 and f64 return, for every pair of bit patterns, the number of the type nearest to the exact result, ties to the even pattern, with the IEEE-754 results on zeros, infinities and NaNs. This holds although the f16 operators work in f32 and convert, and although the C89 square root of f32 works in double: the two roundings are never seen. The result is unique up to the payload of a NaN.

Theorems (`PropFloatArith.v`): `C89_assumed`, `C89_unique`, `C89_add`, `C89_sub`, `C89_mul`, `C89_div`, `C89_rec`, `C89_sqrt`.

### C90 Scalar multiply-add: where it rounds once and where twice (proved)

The scalar fma, fms, fnma, fnms of f32 and f64 return a*b+c, a*b-c, -a*b+c, -a*b-c rounded once when built as C99 or C++11, and with the product rounded first when built as C89. On f16 both builds return the same result: the value rounded once in single precision and then to half, which is the half nearest to the exact value unless the single lies exactly between two neighbouring halves. The f16 operators are not fused operations of f16 (refuted with a witness), and the C89 and C99 builds disagree on f32 (refuted with a witness).

Theorems (`PropFloatArith.v`): `C90_fused`, `C90_unfused`, `C90_f16`, `C90_f16_standards`, `C90_f16_nearest_refuted`, `C90_standards_refuted`.
Note: f16 fma rounds twice; C89 and C99 differ: recorded as refutations

### C91 Scalar float neg, abs, min, max, comparisons, floor, ceil, trunc and rsqrt (proved)

On f16, f32 and f64 patterns: neg returns the opposite; abs the absolute value, except that -0.0 stays -0.0; min returns its first argument when that is less and otherwise the second, max likewise; the six comparisons follow the IEEE order with NaN unordered; floor, ceil and trunc return the integral number on the right side with the sign of the argument, in C89 and C99 builds, with or without the library trunc; rsqrt is 1/sqrt with the root and the quotient rounded (on f16 in single precision, then converted to half).

Theorems (`PropFloatArith.v`): `C91_neg`, `C91_abs`, `C91_min`, `C91_max`, `C91_compare`, `C91_floor`, `C91_ceil`, `C91_trunc`, `C91_rsqrt`, `C91_rsqrt_f16`.

### C92 x86 float vectors: add, sub, mul, div, sqrt and rec are correctly rounded in every lane (proved)

On sse2 to avx512_skylake, every lane of add, sub, mul, div, adds, subs, sqrt and rec on f32 and f64 vectors is the number nearest to the exact result, ties to even, with the IEEE-754 results on zeros, infinities and NaNs; rec11 and rsqrt11 of f64 on SSE and AVX are not approximations but 1/x and 1/sqrt(x) with each step so rounded. On f16 vectors the lanes are singles and are rounded as singles; a load, one operator and a store write the correctly rounded half, the same bits as the scalar f16 operator, and touch nothing else. Two f16 operators without a store in between do not give what two scalar f16 operators give (refuted with a witness).

Theorems (`PropX86FloatArith.v`): `C92_arith`, `C92_saturated`, `C92_sqrt`, `C92_rec`, `C92_rec11_f64`, `C92_rsqrt11_f64`, `C92_arith_f16`, `C92_sqrt_f16`, `C92_rec_f16`, `C92_f16_memory`, `C92_f16_sqrt_memory`, `C92_f16_rec_memory`, `C92_f16_chain_refuted`.
Note: a chain of f16 operators is not the chain of scalar ones: C92_f16_chain_refuted

### C93 x86 float vectors: fma family rounds once with FMA or AVX-512 and twice without (proved)

fma, fms, fnma and fnms of f32 and f64 vectors return a*b+c, a*b-c, -a*b+c, -a*b-c in every lane with a single rounding when the extension is AVX-512 or NSIMD_FMA is defined, and with the product rounded first otherwise; the two builds disagree on f32 (refuted with a witness). On f16 vectors they work on singles in the same way, and a load of the three vectors, the operator and a store write exactly the half that the scalar f16 operator returns, with or without NSIMD_FMA, in C89 and C99.

Theorems (`PropX86FloatArith.v`): `C93_fused`, `C93_unfused`, `C93_f16`, `C93_f16_memory`, `C93_agree_refuted`.
Note: builds with and without NSIMD_FMA differ: C93_agree_refuted

### C94 ARM float vectors: add, sub, mul, div, sqrt, rec, rec11 and rsqrt11 (proved)

On neon128, aarch64 and SVE of every vector length, every lane of add, sub, mul, div, sqrt, rec and rec11 on f32, f64 and native f16 vectors is correctly rounded with the IEEE-754 special results, and rsqrt11 is 1/sqrt(x) with both steps so rounded, whether neon128 takes the square root of a float or of a double; rec11 and rsqrt11 are not approximations. On f16 vectors held as two registers of singles the lanes are rounded as singles, and a load, one operator and a store write the correctly rounded half, the same bits as the scalar operator for add, sub, mul and div. (The unit is assumed not to flush subnormal numbers to zero.)

Theorems (`PropArmFloatArith.v`): `C94_arith`, `C94_sqrt`, `C94_rec`, `C94_rsqrt11`, `C94_arith_f16`, `C94_sqrt_f16`, `C94_rec_f16`, `C94_rsqrt_f16`, `C94_f16_memory`, `C94_f16_sqrt_memory`.

### C95 ARM float vectors: where the fma family rounds once, twice or in single precision (proved)

fma, fms, fnma and fnms round once on f32 and f64 for aarch64, on f16, f32 and f64 for SVE of every length, and on f64 for neon128 in C99; neon128 rounds the product first on f32, and on f64 in C89. On native f16 vectors of aarch64 a lane is the value fused in single precision and converted to half, the nearest half unless that single lies exactly between two neighbouring halves. On f16 as two registers of singles, a load of the three vectors, the operator and a store write the number that the scalar f16 operator returns. So neon128 and aarch64 disagree on f32, and aarch64 and SVE disagree on f16 (both refuted with witnesses).

Theorems (`PropArmFloatArith.v`): `C95_fused`, `C95_unfused`, `C95_f16_aarch64`, `C95_f16`, `C95_f16_memory`, `C95_agree_refuted`, `C95_agree_f16_refuted`.
Note: extensions differ: recorded as refutations

### C96 CPU back end: float and f16 vectors lane by lane (proved)

For every number of lanes, every lane of add, sub, mul, div, adds, subs, sqrt and rec on vectors of the emulated CPU back end is correctly rounded (f16 lanes are singles and rounded as such), rsqrt11 is 1/sqrt(x) with both steps rounded, the fma family rounds once in C99 and twice in C89, neg is the opposite, abs the absolute value except that -0.0 is kept, min and max return their second argument when the operands do not compare, floor, ceil and trunc round to the right integral number; none is ever undefined.

Theorems (`PropCpuFloat.v`): `C96_arith`, `C96_saturated`, `C96_sqrt`, `C96_rec`, `C96_rsqrt11`, `C96_muladd`, `C96_neg`, `C96_abs`, `C96_min`, `C96_max`, `C96_floor`, `C96_ceil`, `C96_trunc`.

### C97 All back ends give the same float results (proved)

For f32 and f64, the same two bit patterns placed in any lane of an x86 vector (any extension), an ARM vector (any extension and length) or a CPU vector (any number of lanes) give the same number under add, sub, mul and div, also the one the scalar operator returns, up to the payload of a NaN; so do sqrt and rec, in either C standard. For the fma family all the builds that round once agree with each other and with the C99 scalar operator, and all those that round twice agree with each other and with the C89 one.

Theorems (`PropFloatAgree.v`): `C97_arith`, `C97_sqrt`, `C97_rec`, `C97_muladd`.

### C98 POWER vectors: integer arithmetic element by element (proved)

On vmx and vsx, every element of add, sub, mul, neg, abs, min, max, adds, subs, div, fma, fms, fnma and fnms of integer vectors is the exact result wrapped to the element type (clamped for adds and subs, rounded toward zero for div). The exceptions are exactly: add, sub, mul, neg, abs and the fma family of i64 on vmx when a step of the computation overflows in some element; subs of i64 when an element of the second operand is the least i64; div by zero or overflowing in some element. There the operation has no defined result.

Theorems (`PropPpc.v`): `C98_add`, `C98_sub`, `C98_mul`, `C98_neg`, `C98_abs`, `C98_min_max`, `C98_adds`, `C98_subs`, `C98_div`, `C98_fma`, `C98_arithmetic_undefined`, `C98_subs_undefined`, `C98_div_undefined`, `C98_fma_undefined`.

### C99 POWER vectors: bitwise operators, shifts and broadcast (proved)

On vmx and vsx, andb, orb, xorb, andnotb and notb act on each of the 128 bits, shl and shr shift each element by the count with zeros inserted, shra of signed elements divides by the power of two rounding down, and set1 repeats its argument. shra of unsigned elements shifts zeros in only for u64 on vmx: on the other unsigned types, and for u64 on vsx, it replicates the most significant bit, so every element of the upper half of the range gives a result different from that of every other back end (refuted with the exact result).

Theorems (`PropPpc.v`): `C99_bitwise`, `C99_shl`, `C99_shr`, `C99_shra`, `C99_shra_unsigned`, `C99_shra_refuted`, `C99_set1`.
Note: shra of unsigned elements: finding

### C100 POWER vectors: comparisons, logicals, selection, reductions and masks (proved)

On vmx and vsx, eq, ne, lt, le, gt and ge of integer vectors give well-formed logicals (all ones or all zeros per element) holding the truth value of the comparison of the elements; andl, orl, xorl, andnotl, notl and set1l combine logicals element by element and keep them well-formed; if_else1 selects by element; all, any and nbtrue are the universal, existential and counting reductions; to_mask gives -1 and 0 and to_logical is the test against zero.

Theorems (`PropPpc.v`): `C100_compare`, `C100_logical_operators`, `C100_set1l`, `C100_if_else`, `C100_all_any`, `C100_nbtrue`, `C100_to_mask`, `C100_to_logical`.

### C101 POWER vectors: iota and the mask of a loop tail (proved)

On vmx and vsx, iota holds i in element i, and mask_for_loop_tail(i, n) is true exactly at the elements j with i + j < n, whenever n <= i or n - i fits an int; otherwise the subtraction overflows and the result is undefined.

Theorems (`PropPpc.v`): `C101_iota`, `C101_mask_for_loop_tail`, `C101_mask_for_loop_tail_undefined`.

### C102 POWER vectors: reverse, zip and unzip (proved)

On vmx and vsx, for every integer type, f32 and f64, element i of reverse is element n-1-i and reverse twice is the identity; ziplo, ziphi interleave the low and high halves of two vectors, unziplo, unziphi collect their even and odd elements, zip and unzip return both and are inverse of each other; zip and unzip of f16 do the same on their eight elements. reverse of f16 reverses each half of the vector in place without exchanging the two halves: element i is element 3-i for i < 4 and 11-i otherwise, which is not the reverse of the API (refuted).

Theorems (`PropPpcMem.v`): `C102_reverse`, `C102_reverse_twice`, `C102_zip`, `C102_unzip`, `C102_both`, `C102_inverse`, `C102_zip_f16`, `C102_unzip_f16`, `C102_inverse_f16`, `C102_reverse_f16`, `C102_reverse_f16_refuted`.
Note: reverse of f16: finding

### C103 POWER vectors: loads and stores of one to four interleaved vectors (proved)

On vmx and vsx, loada, loadu, load2a to load4u put element i*deg+j of memory in element i of vector j, storea to store4u write it back there and nothing outside, and loading what has been stored gives the same vectors, at every address that is a multiple of 16 bytes, and at any address for the 64-bit types and f16. At an address that is not a multiple of 16, loadu and storeu of the 8, 16 and 32-bit types dereference a misaligned pointer to a vector and have no defined result (refuted).

Theorems (`PropPpcMem.v`): `C103_load`, `C103_store`, `C103_load_deg`, `C103_store_deg`, `C103_round_trip`, `C103_load_f16`, `C103_store_f16`, `C103_load_deg_f16`, `C103_store_deg_f16`, `C103_unaligned`, `C103_loadu_refuted`.
Note: loadu and storeu at unaligned addresses: finding

### C104 POWER vectors: masked loads and stores, logicals in memory (proved)

On vmx and vsx, maskz_load and masko_load read only the elements whose lane of the logical is true, and put zero or the element of the other vector elsewhere; mask_store writes these elements and no other byte; the rest of the memory need not exist. f16 included. For integers, loadla and loadlu give the logical telling which elements are not zero, storela and storelu write 1 and 0.

Theorems (`PropPpcMem.v`): `C104_masko_load`, `C104_maskz_load`, `C104_mask_store`, `C104_masko_load_f16`, `C104_maskz_load_f16`, `C104_mask_store_f16`, `C104_loadl`, `C104_storel`.

### C105 POWER vectors: gathers and scatters (proved)

On vmx and vsx, gather reads for each element the one its index designates, gather_linear the one at i*step, scatter and scatter_linear write there and nowhere else, the highest lane winning where two coincide; scatter, gather_linear and scatter_linear of f16 do the same. gather of f16 puts in every element the one designated by the first index (refuted).

Theorems (`PropPpcMem.v`): `C105_gather`, `C105_gather_linear`, `C105_scatter`, `C105_scatter_linear`, `C105_gather_linear_f16`, `C105_scatter_f16`, `C105_scatter_linear_f16`, `C105_gather_f16`, `C105_gather_f16_refuted`.
Note: gather of f16: finding

### C106 POWER vectors: conversions between integer types (proved)

On vmx and vsx, upcvt gives two vectors holding the first and the second half of the elements, in order, converted to the type of twice the width; downcvt gives the elements of its first argument then those of the second, each reduced modulo 2^width; cvt between types of the same width keeps values modulo 2^width; narrowing what was widened gives back the vector.

Theorems (`PropPpcCvt.v`): `C106_upcvt`, `C106_downcvt`, `C106_cvt`, `C106_round_trip`.

### C107 POWER vectors: conversions between integers and floats of the same width (proved)

On vmx and vsx, cvt from an integer type gives the float nearest to each element, ties to even. cvt to an integer type truncates toward zero and saturates, for every input: infinities give the bounds of the type and a NaN gives 0 (the least integer for i64); except on vmx for f64, where it is a C cast whose result is defined exactly when every truncated value is in range, and is then that value.

Theorems (`PropPpcCvt.v`): `C107_cvt_from_int`, `C107_cvt_to_int`, `C107_saturated_unique`, `C107_saturated_in_range`, `C107_cvt_f64_vmx`.

### C108 POWER vectors: conversions that change the width of floats, and f16 (proved)

On vmx and vsx: upcvt of integers to floats gives the nearest floats, upcvt of f32 to f64 is exact, upcvt of f32 to 64-bit integers and downcvt of f64 to 32-bit integers are C casts, defined exactly when every truncated value is in range, and then that value; downcvt of f64 to f32 and of 64-bit integers to f32 rounds once to nearest; downcvt of f32 to 16-bit integers saturates to 32 bits and is then reduced modulo 2^16, so it is the truncated value whenever that fits. cvt, upcvt and downcvt to f16 give the nearest singles in the element order of f16 vectors, those from f16 truncate, saturate to 32 bits and reduce; reinterpret between f16 and 16-bit integers converts each element between half and single precision and the round trip keeps every pattern (a NaN stays a NaN); reinterpretl keeps the truth of every lane.

Theorems (`PropPpcCvt.v`): `C108_upcvt_from_int`, `C108_upcvt_float`, `C108_upcvt_to_int`, `C108_downcvt_float`, `C108_downcvt_from_int`, `C108_downcvt_f64_to_int`, `C108_downcvt_f32_to_int`, `C108_downcvt_f32_in_range`, `C108_cvt_to_f16`, `C108_cvt_from_f16`, `C108_cvt_from_f16_in_range`, `C108_upcvt_from_f16`, `C108_upcvt_f16_to_int`, `C108_upcvt_to_f16`, `C108_downcvt_to_f16`, `C108_downcvt_f32_to_f16`, `C108_downcvt_from_f16`, `C108_reinterpret_to_f16`, `C108_reinterpret_from_f16`, `C108_reinterpret_round_trip`, `C108_reinterpretl_to_f16`, `C108_reinterpretl_from_f16`.
Note: out of range f32 and f16 to narrow integers: finding

### C109 POWER float vectors: comparisons and selection (proved)

On vmx and vsx, the six comparisons of f32, f64 and f16 vectors give, lane by lane, the IEEE comparison of the elements: every comparison with a NaN is false except ne, which is true, and the zeros are equal. andl, orl, xorl, notl and andnotl act on the truth of each lane and if_else1 takes each element, bit for bit, from its second argument where the logical is true and from its third elsewhere.

Theorems (`PropPpcFloat.v`): `C109_compare`, `C109_compare_f16`, `C109_logical_operators`, `C109_logical_operators_f16`, `C109_if_else`, `C109_if_else_f16`, `C109_unordered`.

### C110 POWER float vectors: bitwise operators, neg, abs, min and max (proved)

On vmx and vsx, the bitwise operators on floats act on the bit patterns, neg flips the sign of every element (also of zeros) and abs clears it; except that abs of f64 on vmx is a C comparison with 0 and keeps -0.0. min and max give the lesser and the greater of two numbers, -0.0 being less than 0.0 in the instructions; with a NaN the result is a NaN for f32 on vmx, the other operand on vsx (NaN if signaling), and the C comparison for f64 on vmx: without NaN and zeros of different signs all agree.

Theorems (`PropPpcFloat.v`): `C110_bitwise`, `C110_neg`, `C110_abs`, `C110_min_max_vmx`, `C110_min_max_vsx`, `C110_vmx_f64`, `C110_f16`, `C110_without_nan`, `C110_min_portable_refuted`, `C110_max_portable_refuted`, `C110_abs_portable_refuted`.
Note: differences between vmx and vsx: finding

### C111 POWER float vectors: rounding to integral values (proved)

On vmx and vsx, ceil, floor, trunc and round_to_even of f32, f64 and f16 vectors give in each lane the integral value required (the least not below, the greatest not above, the nearest toward zero, the nearest with ties to even), keep infinities and give a NaN for a NaN, in all language standards.

Theorems (`PropPpcFloat.v`): `C111_round`, `C111_f16`.

### C112 POWER float vectors: sum of the elements (proved)

On vmx and vsx, addv of a float vector adds its elements in index order, from the first to the last, each exactly once, rounding after each addition (f16: in single precision, rounded to a half at the end). When the elements are multiples of a power of two whose absolute sum needs no more bits than the significand has, it is their exact sum.

Theorems (`PropPpcFloat.v`): `C112_addv`, `C112_exact`, `C112_addv_f16`, `C112_exact_f16`, `C112_portable_refuted`.
Note: the order differs from AArch64: finding

### C113 POWER float vectors: logicals, masks and loop tails (proved)

On vmx and vsx, for f32, f64 and f16: all, any and nbtrue tell whether every lane is true, whether some lane is, and how many are; to_mask gives all ones or all zeros per lane and to_logical is true exactly where some bit is set; set1 and set1l fill every lane; loadla, loadlu read true exactly where the element of memory is a number other than zero or a NaN and storela, storelu write 1.0 or 0.0 and touch nothing else, so that loading what was stored gives the logical back; iota gives 0, 1, 2, ...; mask_for_loop_tail is true exactly on lanes k with i + k < n.

Theorems (`PropPpcFloat.v`): `C113_reductions`, `C113_reductions_f16`, `C113_masks`, `C113_masks_f16`, `C113_set1`, `C113_set1_f16`, `C113_loadl`, `C113_storel`, `C113_round_trip`, `C113_loadl_f16`, `C113_storel_f16`, `C113_iota`, `C113_iota_f16`, `C113_loop_tail`, `C113_loop_tail_f16`.

### C114 POWER float vectors: correctly rounded arithmetic (proved)

On vmx and vsx, add, sub, mul, div, sqrt and rec of f32 and f64 vectors give in each lane the result IEEE 754 requires, rounded once to nearest even, with its infinities, NaN and signed zeros; adds and subs are add and sub; the numbers are those of the scalar operators and the vectors those of AArch64. f16 vectors are computed in single precision, and loading, operating and storing writes the correctly rounded half, which is the one the scalar operator gives, and touches nothing else.

Theorems (`PropPpcFloatArith.v`): `C114_arith`, `C114_adds_subs`, `C114_sqrt`, `C114_rec`, `C114_scalar`, `C114_like_arm`, `C114_arith_f16`, `C114_sqrt_rec_f16`, `C114_f16_memory`, `C114_f16_sqrt_memory`.

### C115 POWER float vectors: fma, fms, fnma, fnms (proved)

On vmx and vsx, fma and fms give a b + c and a b - c rounded once, and fnma and fnms give -(a b) + c and -(a b) - c rounded once, except that the zero of an exact cancellation is -0.0 instead of 0.0; the doubles of vmx go through C and are rounded once in C99, twice before, with the usual zeros. f16 vectors are computed so in single precision; after a store the half is the number of the scalar operator, except that a cancellation in fnma or fnms stores -0.0 where the scalar operator gives 0.0.

Theorems (`PropPpcFloatArith.v`): `C115_native`, `C115_vmx_f64`, `C115_f16`, `C115_f16_memory`, `C115_fnma_refuted`, `C115_portable_refuted`.
Note: sign of zero of fnma and fnms: finding

### C116 Integer arithmetic inside GPU kernels (proved)

Inside a kernel (CUDA, ROCm, oneAPI), add, sub, mul, neg and div on integers give the exact sum, difference, product, opposite or quotient truncated toward zero, modulo 2^bits of the type; the operation is undefined exactly when C's is: division by zero, or an exact result outside the range of the (promoted) signed type, such as u16 65535 * 65535. min, max and the comparisons are those of the integers, with comparisons giving the int 0 or 1; abs is the absolute value except on the most negative value, where oneAPI and the types narrower than int give the value back and CUDA and ROCm are undefined. floor, ceil, trunc and round_to_even are the identity.

Theorems (`PropDevice.v`): `C116_arith`, `C116_min_max`, `C116_abs`, `C116_compare`, `C116_round`.
Note: Integer operators of the GPU back ends; also tells exactly when they are undefined.

### C117 Saturation and shifts inside GPU kernels (proved)

Inside a kernel, adds is the exact sum clamped to the type. subs is the exact difference clamped, on oneAPI always and on CUDA and ROCm unless the second argument is the most negative value of a signed type, in which case it adds instead (narrow types) or is undefined. For 0 <= s < bits, shl multiplies by 2^s modulo 2^bits, shr shifts the pattern in zeros and shra is the division by 2^s rounded down.

Theorems (`PropDevice.v`): `C117_adds`, `C117_subs`, `C117_subs_most_negative`, `C117_subs_refuted`, `C117_shifts`.
Note: Unrestricted subs on CUDA and ROCm is refuted.

### C118 Bits, masks and logicals of kernels and of scalar floats (proved)

orb, andb, andnotb, xorb and notb act on each bit of the representation of a value of any of the eleven types; to_mask sets all bits or none, to_logical tells whether some bit is set (so -0.0 is true), and to_logical of to_mask is the logical. andl, orl, andnotl and notl give 0 or 1 and follow the truth of any int; xorl is right on the logicals 0 and 1, but of the true ints 1 and 2 it makes a true one. reinterpret keeps the bits and comes back. The same holds of the scalar operators on floats.

Theorems (`PropDevice.v`): `C118_bitwise`, `C118_bitwise_scalar`, `C118_masks`, `C118_masks_scalar`, `C118_logicals`, `C118_xorl`, `C118_xorl_refuted`, `C118_reinterpret`.
Note: xorl on ints other than 0 and 1 is refuted.

### C119 Conversions of single values, on CPU and GPU (proved)

cvt between types of the same width gives the same on CPU and in kernels: between integers the value modulo 2^bits; from integer to float the nearest float, ties to even (also for f16, which goes through single precision, with infinity for 65520 and more); from float to integer the truncation, undefined exactly when it is not in the range of the type or the argument is infinite or not a number; from a float type to itself the same number.

Theorems (`PropDevice.v`): `C119_int_int`, `C119_int_float`, `C119_float_int`, `C119_float_float`.
Note: Conversions of single values, scalar and device.

### C120 Float arithmetic inside GPU kernels is correctly rounded (proved)

Inside a kernel, on f16, f32 and f64, add, sub, mul, div, sqrt and rec give the float nearest to the exact result, ties to even, with IEEE infinities and NaN's, also for f16 where it is computed in single precision and converted, so half-precision instructions change nothing; adds and subs are add and sub; neg flips and abs clears the sign (also of -0 and infinities); floor, ceil, trunc and round_to_even round every float to the right integer and keep infinities, NaN's and the sign of zero.

Theorems (`PropDevice.v`): `C120_arith`, `C120_saturating`, `C120_sqrt_rec`, `C120_sign`, `C120_rounding`.
Note: Float arithmetic of the GPU back ends.

### C121 fma, fms, fnma and fnms inside GPU kernels (proved)

On oneAPI the four operators compute a b + c, a b - c, - a b + c and - a b - c: on integers modulo 2^bits, undefined exactly when a step overflows; on f32 and f64 rounded once; on f16 rounded to single and then to half, which is one rounding unless the single is the middle of two halves. On CUDA and ROCm fma does the same (with half-precision instructions, f16 is rounded once), but fms, fnma and fnms compute a b + c like fma.

Theorems (`PropDevice.v`): `C121_int`, `C121_int_cuda`, `C121_float`, `C121_half`, `C121_half_hardware`, `C121_cuda`, `C121_cuda_refuted`, `C121_half_refuted`.
Note: fms, fnma and fnms of CUDA and ROCm compute fma: refuted.

### C122 Comparisons, minimum and maximum of floats inside GPU kernels (proved)

Inside a kernel lt, gt, le, ge and eq on floats give 1 exactly when the IEEE relation holds and are 0 with a NaN; ne is 1 when the arguments are different or not comparable, except that with CUDA's half-precision instructions a NaN gives 0. min and max give one of the arguments, not greater (less) than any argument that is a number, so a NaN only when both are; but with CUDA's half-precision instructions min and max of f16 always give the first argument.

Theorems (`PropDevice.v`): `C122_compare`, `C122_ne_refuted`, `C122_min_max`, `C122_first`, `C122_min_refuted`.
Note: f16 min, max and ne with half-precision instructions are refuted.

### C123 A kernel computes what the CPU computes (proved)

Inside a kernel the operators on single values give the same results as the scalar operators on the CPU: on integers add, sub, mul, div, neg, min, max and the shifts (undefined in the same cases), adds, subs unless oneAPI subtracts the most negative value, abs except of the most negative value; on floats add, sub, mul, div, rec and sqrt for either C standard. abs of -0 and min with a NaN differ.

Theorems (`PropDevice.v`): `C123_int`, `C123_int_saturated`, `C123_float`, `C123_abs_refuted`, `C123_min_refuted`.
Note: Agreement between kernels and scalar operators.

### C124 The same integer source gives the same elements on every back end (proved)

Take any straight-line integer program built from vector arguments, constants, iota, the arithmetic, saturated, bitwise and shift operators, min, max, abs, the fma family, comparisons, logical operators, if_else, to_mask and to_logical, nested in any way. When the scalar program - the same operators on the elements of one lane - is defined in every lane, the vector program is defined on every x86, ARM, POWER and CPU back end and every element of its result is the result of the scalar program on the elements of its lane. Hence lanes holding the same arguments hold the same result whatever the extension and the vector length. Three scalar cases are excluded because back ends differ on them: subs of the most negative value, shra on unsigned types, and the fma family on wide signed types when the first factor, the product or the result has no opposite.

Theorems (`PropPortable.v`): `C124_x86`, `C124_arm`, `C124_power`, `C124_cpu`, `C124_agreement`, `C124_subs_refuted`, `C124_shra_refuted`, `C124_div_refuted`.
Note: The refuted theorems show that the excluded cases differ between back ends.

### C125 The loop of the tutorial computes every element of an array on every back end (proved)

Take the loop of the tutorial - full vectors with loadu and storeu while i + len <= n, then one vector with mask_for_loop_tail, maskz_loadu and mask_storeu - with any integer expression as its body and any number of source arrays. If the arrays hold n elements, the destination overlaps no source unless it is that source, n + len fits int, and the scalar expression is defined on every element and on zeros (for the lanes of the last vector after the end), then the loop is defined, element j of the destination becomes the scalar expression on element j of the sources, for every n, and no other byte of the memory changes - on every x86, ARM, POWER and CPU back end. A body without iota writes the same values on all of them. With the body of the tutorial, uppercase_simd writes what uppercase_scalar writes. On ARM SVE, i8 needs vectors of at most 1024 bits; on POWER, types of less than 64 bits need 16-byte aligned arrays; on i32 and i64, the vector version of the tutorial needs every element to be at least 32 above the minimum. The last three, and the conditions on n and zeros, cannot be dropped.

Theorems (`PropLoop.v`): `C125_x86`, `C125_arm`, `C125_power`, `C125_cpu`, `C125_agreement`, `C125_tutorial_x86`, `C125_tutorial_arm`, `C125_tutorial_power`, `C125_tutorial_cpu`, `C125_overflow_refuted`, `C125_near_int_max_refuted`, `C125_tail_refuted`, `C125_sve_i8_refuted`, `C125_power_unaligned_refuted`.
Note: The refuted theorems show that each condition is needed.

### C126 A float program gives the same numbers on every back end (proved)

Take any straight-line program on f32 or f64 vectors built from neg, abs, sqrt, rec, floor, ceil, trunc, add, sub, mul, div, min, max, fma, fms, fnma, fnms, the comparisons, if_else1, set1, set1l, to_logical and the operators on logicals. On x86, ARM, POWER and the CPU back end every element of its result is the number the scalar operators give on the elements of that lane (NaN's compared as NaN), hence the same on all of them, provided a fused multiply-add is available where one is used, and that the scalar program never takes the absolute value of -0, the minimum or maximum of a NaN or of two zeros of different signs, nor fnma or fnms with operands that cancel. Each of these exclusions is needed: outside them two back ends give different numbers.

Theorems (`PropFPortable.v`): `C126_x86`, `C126_arm`, `C126_power`, `C126_cpu`, `C126_agreement`, `C126_abs_refuted`, `C126_min_refuted`, `C126_fnma_refuted`, `C126_unfused_refuted`.
Note: The refuted theorems show that each condition is needed.

### C127 A SIMD loop over float arrays computes the scalar loop on every back end (proved)

The loop of the tutorial (full vectors, then one masked vector) over arrays of f32 or f64, whose body is any float program of C126, writes at each index of the destination the number the scalar program gives on the elements of the source arrays at that index, and nothing else, on x86, ARM, POWER and the CPU back end, whatever the vector length and the number of elements; the destination may be one of the sources. The conditions are those of C126 on each element and on +0 (which fills the last vector), n + length < 2^31 and, on POWER with f32, aligned arrays. A body without abs, min, max, fnma and fnms meets the conditions of C126 on all floats, NaNs and infinities included.

Theorems (`PropFLoop.v`): `C127_x86`, `C127_arm`, `C127_power`, `C127_cpu`, `C127_always`, `C127_agreement`, `C127_unfused_refuted`.
Note: The memory of the CPU model holds elements, the others hold bytes.

### C128 The exponentials have the right limits and values at zero (proved)

The scalar f32 functions exp, exp2 and exp10 (both precisions) return NaN for a NaN, +infinity above a bound (104, 128 included, 39), +0 below one (-104, -150, -50) and exactly 1 for both zeros; expm1 returns NaN for a NaN, +infinity above 89, exactly -1 below -17 and the same zero for a zero. This holds whatever the machine makes of the conversions to int whose result is undefined in C.

Theorems (`PropSleefExp.v`): `C128_exp`, `C128_exp2`, `C128_exp10`, `C128_expm1`.
Note: Accuracy between the bounds is not claimed.

### C129 The logarithms are NaN, infinite or zero where they must be (proved)

The scalar f32 functions log and log2 (both precisions) and log10 return NaN for a NaN and for any negative number, subnormal or infinite ones included, -infinity for both zeros, +infinity for +infinity and +0 for 1. log1p returns NaN for a NaN and below -1, -infinity at -1, the same zero for a zero, and +infinity for every number above 1e38, also the finite ones.

Theorems (`PropSleefLog.v`): `C129_log`, `C129_log1p`, `C129_log1p_overflow_refuted`.
Note: Accuracy is not claimed. log1p is infinite for finite numbers above 1e38, where the logarithm is about 88: finding.

### C130 pow follows the table of special cases of C (proved)

The scalar f32 pow returns 1 for an exponent that is zero or a base that is 1, even if the other argument is a NaN, and otherwise NaN for a NaN. An infinite exponent gives +infinity, +0 or (base -1) 1 according to |base| and its sign. A base that is infinite or zero gives an infinity or a zero, which has the sign of the base exactly when the exponent is an odd integer. A negative finite base gives NaN for an exponent that is not an integer, and otherwise the power of the opposite base, negated exactly when the exponent is odd. The tests of an (odd) integer exponent are right for all floats although they convert to int numbers that do not fit.

Theorems (`PropSleefPow.v`): `C130_one`, `C130_nan`, `C130_infinite_exponent`, `C130_infinite_base`, `C130_zero_base`, `C130_negative_base`.
Note: Accuracy for a positive finite base is not claimed.

### C131 Hyperbolic functions: symmetry, saturation and domain (proved)

For the scalar f32 functions in both precisions: sinh and tanh are odd and cosh even, bit for bit; a NaN gives a NaN; sinh and tanh of a zero is this zero, cosh of a zero is 1; sinh and cosh are infinite beyond 89 (88 in the low precision) and tanh is exactly 1 or -1 beyond 19. atanh is odd, infinite with the sign of x at 1 and -1, NaN beyond. acosh is NaN below 1 and +0 at 1. asinh keeps zeros. asinh and acosh are infinite beyond 18446743523953729536, also for finite numbers.

Theorems (`PropSleefHyp.v`): `C131_sinh`, `C131_cosh`, `C131_tanh`, `C131_asinh`, `C131_acosh`, `C131_asinh_acosh_overflow_refuted`, `C131_atanh`.
Note: Accuracy is not claimed. asinh and acosh are infinite for finite numbers: finding.

### C132 Inverse trigonometric functions: symmetry, domain and the table of atan2 (proved)

For the scalar f32 functions in both precisions: asin and atan are odd bit for bit and keep zeros; a NaN gives a NaN; asin and acos are NaN for every number beyond 1 in magnitude, infinities included; asin(1) and asin(-1) are pi/2 and -pi/2, acos is +0 at 1, pi at -1 and pi/2 at a zero, atan is pi/2 and -pi/2 at the infinities, each correctly rounded. atan2 is odd in y and follows the table of C for zero, infinite and NaN arguments: the sign of x alone chooses between 0 and pi, the result has the sign of y, and the points at infinity give odd multiples of pi/4.

Theorems (`PropSleefInv.v`): `C132_asin`, `C132_acos`, `C132_atan`, `C132_atan2`.
Note: Accuracy is not claimed.

### C133 hypot, cubic root, error and gamma functions at their special points (proved)

For the scalar f32 functions: hypot (both precisions) is symmetric, ignores the sign of its arguments, is +infinity if one is infinite even if the other is a NaN, NaN if another one is, and |x| if the other is a zero. The cubic roots keep zeros, infinities and NaNs, and the low precision one is odd bit for bit. erf is odd bit for bit, keeps zeros and is exactly 1 or -1 beyond 4; erfc is 1 at a zero, +0 above 11 and 2 below -11. tgamma is infinite with the sign of the zero at a zero, NaN at the negative integers from -2^31 on and at -infinity, +infinity above 36, never NaN for a number that is not negative, and 1 at 1. lgamma is NaN only for a NaN, +infinity at the infinities and at the integers from -2^31 to 0, and +0 at 1 and 2. A NaN gives a NaN.

Theorems (`PropSleefSpecial.v`): `C133_hypot`, `C133_cbrt`, `C133_erf`, `C133_erfc`, `C133_tgamma`, `C133_lgamma`.
Note: Accuracy is not claimed. Below -2^31 the test of an integer of the gamma functions is an undefined conversion.

### C134 sinpi and cospi are exact at the integers and half integers up to eight millions (proved)

The scalar f32 sinpi and cospi of n/2 are exactly 0, 1 or -1 according to n modulo 4, for every integer n with |n/2| <= 8000000. A NaN or an infinity gives a NaN and sinpi keeps zeros. Beyond 8000000 sinpi is +0 and cospi is 1 for every finite number, which is the right value only at the even integers.

Theorems (`PropSleefPi.v`): `C134_exact`, `C134_special`, `C134_large`, `C134_large_refuted`.
Note: Accuracy between the half integers is not claimed. sinpi and cospi are constant beyond 8000000: finding.

### C135 sin, cos and tan: defined for every finite number, however large, and right at the special points (proved)

The scalar f32 sin, cos and tan, in both precisions: for every finite number, up to the largest, no float is converted to an int that cannot hold it and the table of the digits of 1/(2 pi) is read only inside its bounds, so that the result is a function of the argument alone. A NaN or an infinity gives a NaN; sin and tan keep zeros with their sign and cos of a zero is exactly 1. The internal reduction is however also run on the infinities and NaNs, before its result is thrown away, and reads four numbers past the end of the table there.

Theorems (`PropSleefTrig.v`): `C135_defined`, `C135_special`, `C135_infinity_refuted`.
Note: Accuracy, finiteness and the symmetry of the results are not claimed.

### C136 fmod and remainder: exact where the quotient is moderate, right at the special points, NaN for huge quotients (proved)

The scalar f32 fmod gives for finite x and nonzero finite y with |x| < 4096 |y| exactly the number x - trunc(x/y) y, subnormals included, with the sign of x also when it is a zero. The scalar f32 remainder gives exactly x when |x| <= |y|/2 and exactly x minus y taken with the sign of x when |y|/2 < |x| <= 5/4 |y|. For both a NaN argument, an infinite x or a zero y gives a NaN, and an infinite y gives x unchanged; the result changes its sign with x and does not depend on the sign of y. The exactness does not extend to all finite arguments as the C standard requires: for the largest number and the least normal number both functions give a NaN.

Theorems (`PropSleefRem.v`): `C136_fmod_exact`, `C136_remainder_exact`, `C136_special`, `C136_signs`, `C136_large_quotient_refuted`.
Note: Nothing is claimed of fmod for quotients from 4096 on, nor of remainder for quotients above 5/4, except that the exact result is not always given.

### C137 exp2, log2, exp10 and log10 are exact at powers of two and of ten (proved)

The scalar f32 exp2 at an integer k is exactly 2^k for every k for which 2^k is a float, subnormals included, in both precisions. The scalar f32 log2 at 2^k is exactly k for every such k, subnormals included, in both precisions. For 0 <= k <= 10 exp10 at k is exactly 10^k in both precisions and log10 at 10^k is exactly k. At the powers of two that are subnormal log10 is right up to 2^-18.

Theorems (`PropSleefPowers.v`): `C137_exp2`, `C137_log2`, `C137_log10_subnormal`, `C137_ten`.
Note: The set of arguments is finite (every power that is a float), and each statement covers all of it; nothing is claimed here of other arguments.

### C138 The mathematical operators on f16, on CPU vectors and on POWER vectors agree with the scalar f32 functions (proved)

The scalar f32 operators have the special cases of C128 to C137 under their API names. Each of the 48 mathematical operators on f16 scalars gives the scalar f32 result on the same numbers rounded once, to nearest with ties to even (an infinity from 65520 on). A NaN argument gives a NaN on f32 and f16 for all 41 operators of one argument and for atan2, fmod and remainder. On f16 fmod is exact when the quotient is below 4096, and exp2 and log2 (both precisions) are exact at every power of two that is a half, subnormals included. On the CPU back end and in the emulated functions of POWER each lane of an f32 result is the scalar result on the same lanes; f16 vectors loaded from memory, passed through an operator and stored give the scalar f16 results. Before the store the lanes of an f16 vector are not always halves.

Theorems (`PropSleefApi.v`): `C138_f16`, `C138_nan`, `C138_names`, `C138_fmod_f16`, `C138_powers_f16`, `C138_lanes`, `C138_vectors_f16`, `C138_f16_lane_refuted`.
Note: f32 and f16 only; the f32 vector functions of the other back ends (src/sleefsimdsp.c) and f64 are not modelled.
