# Formal model of nsimd in Rocq (Coq 8.16.1)

Build: `cd rocq && coq_makefile -f _CoqProject -o Makefile && make -j4`.

This file is generated by `tools/gen_design.py` from `tools/design_head.md` (this text),
`properties.jsonl`, `MANIFEST.json` and the output of `Print Assumptions`.

## 1. Layout and method

`rocq/theories/` has logical name `Verif`. For each area `X`:

* `X.v`       the model: total, computable Gallina; every definition cites the file and lines of /repo
              it models; simplifications are stated in the comments
* `XSpec.v`   the vocabulary of the theorems' statements, independent of the model's helpers
* `XProofs.v` (and `X*.v`) lemmas
* `PropX.v`   the theorems `Cnn_...`, each followed by `Print Assumptions`, with `Example`s showing that
              a concrete, non-trivial case meets the hypotheses

Conventions of the models:

* C integers are `Z` with explicit wrapping (`mod 2^n`, two's complement reading, `CInt.v`).
* Undefined behaviour (signed overflow, over-wide shift, out-of-bounds or indeterminate read, division
  by zero, failed assert) is a distinct outcome, `None`, wherever the modelled code can run into it.
  Where the code is undefined for some inputs, the theorem characterises exactly which.
* Floats are bit patterns. Their values are integers in units of the smallest subnormal, so that no
  axiom on real numbers is needed. Rounding is round-to-nearest-even on those integers.
* Loops are structural recursion, or recursion on fuel with an explicit out-of-fuel outcome and a
  termination theorem (or a refutation of termination).
* Schedules (GPU), allocation histories and memory contents are universally quantified.

A property which is false of the code keeps its number: `properties.jsonl` states the exact true
characterisation, and a theorem with suffix `_refuted` shows a concrete input on which the natural claim
fails. Those are the findings of section 5.

## 2. Plan and proof method per property

| Property | Model | Proof |
|---|---|---|
| C01-C04 | `nsimd_u16_to_f32`, `nsimd_f32_to_u16` on bit patterns, float comparison by decoded value, float addition by rounding of the exact sum (`Fp16.v`) | finite sweep for the 2^16 halves; algebraic proof for the 2^32 singles (interval between consecutive halves) |
| C05 | the NSIMD_NO_IEEE754 branches, frexp/ldexp by their definition | refutation by witness; exactness of decoding by sweep |
| C06 | `ufp`, generic in exponent/significand sizes (`Ufp.v`) | algebra; the loop is the bit length, by induction |
| C07, C08 | classification with the C promotion rules (`FloatClass.v`) | bit algebra |
| C09-C13, C15 | generated scalar functions, generic in width and signedness, with UB outcomes (`ScalarOps.v`) | arithmetic over Z |
| C14, C51 | `round_to_even`, `trunc`, generic in precision (`RoundEven.v`) | arithmetic with rounding lemmas |
| C16-C23, C52 | CPU backend: registers are lists of lanes, memory a partial map (`CpuSimd.v`) | list induction; induction over expressions |
| C24-C28 | generated C++ pack recursion over the unroll factor N (`Pack.v`) | induction on N |
| C29-C31 | allocators over an oracle runtime; live blocks; size arithmetic mod 2^W (`Memory.v`) | arithmetic; invariant by induction on histories |
| C32 | launch geometry and execution under any schedule (`Gpu.v`) | arithmetic, permutation of schedules |
| C33-C37, C53-C55 | fixed point on raw integers with wrapping (`FixedPoint.v`) | arithmetic; loop invariants |
| C38-C40 | counter based generators on registers (`Random.v`) | equality with Random123 by induction on rounds; Feistel inverse |
| C41-C43 | tet1d kernels and expression trees (`Tet1d.v`) | loop invariants, induction over expressions |
| C44-C48 | SPMD mini language, masked semantics vs per-thread semantics (`Spmd.v`) | simulation by induction on programs |
| C49 | x86 integer operators from intrinsic semantics, on registers as integers (`X86Arith.v`) | bit-level lemmas, lane by lane |
| C50, C56, C57 | x86 shuffles as programs over bytes (`X86Shuffle.v`, `X86Deg234.v`, `X86Perm.v`) | each program is run once on symbolic bytes; a soundness theorem lifts the run to all contents |
| C58-C60 | x86 memory operators over a partial byte memory (`X86Mem.v`) | loop invariants, byte-level lemmas |
| C61-C63 | x86 conversions, including the emulated paths (`X86Cvt.v`) | rounding lemmas generic in the format |
| C64-C69 | x86 operators on float and f16 vectors (`X86Float.v`) | lane lemmas, uniqueness of rounding, induction over summation trees |
| C70-C75 | ARM integer operators, NEON and SVE of every vector length (`Arm.v`) | lane lemmas shared with x86, induction over loops and lanes |
| C76-C77 | ARM reverse, zip, unzip on every element type (`ArmPerm.v`) | lane lemmas |
| C78-C80 | ARM memory operators on a byte memory (`ArmMem.v`) | induction over the lanes, the loop lemmas of the x86 memory operators |
| C81-C83 | ARM conversions (`ArmCvt.v`) | lane lemmas of the narrowing and widening instructions, exactness of the double to single chain |
| C84-C88 | ARM operators on float and f16 vectors (`ArmFloat.v`) | lane lemmas, the rounding and summation lemmas of x86 generic in the format, induction over the halves of a vector of any length |
| C89-C91 | the scalar float operators with their C89, C99 and f16 variants (`ScalarFloat.v`) over IEEE operations (`FloatArith.v`) | "nearest, ties to even" stated on values (`FloatArithSpec.v`); the operations are proved correctly rounded for all formats; a lemma on double rounding: a second rounding to a format with less than half the digits is harmless unless the first lands on a midpoint, which no sum, product, quotient or root does unless it is there exactly |
| C92, C93 | add, sub, mul, div, sqrt, rec and the fma family on x86 float and f16 vectors (`X86FloatArith.v`) | lane lemmas over the IEEE operations of `FloatArith.v`; load, operate, store on halves reduced to the scalar operators |
| C94, C95 | the same on ARM (`ArmFloatArith.v`) | lane lemmas; commutation of the spec for the reversed operands of vmla; uniqueness of the results |
| C96 | the float operators of the CPU back end (`CpuFloatArith.v`) | lane lemma of func_body, the scalar theorems |
| C97 | x86, ARM, CPU and scalar together | uniqueness of the correctly rounded result |
| C98 | the integer arithmetic of the POWER back ends (`Ppc.v`) | lane lemmas of the built-ins, scalar theorems for the 64-bit structures |
| C99 | its bitwise operators and shifts | bit by bit, lane by lane |
| C100 | its comparisons, logicals and reductions | invariant: a logical is all ones or all zeros per element |
| C101 | iota, mask_for_loop_tail | composition of the above |
| C102-C105 | POWER permutations and memory operators (`PpcMem.v`) | the byte masks of vec_perm evaluated symbolically on the lanes, equality with the ARM permutations, loop lemmas of the x86 memory operators |
| C106-C108 | POWER conversions (`PpcCvt.v`) | lane lemmas of the unpack, pack and convert instructions, the C casts and rounding lemmas of the x86 and ARM conversions |
| C109-C113 | POWER float operators without rounding, and addv (`PpcFloat.v`) | lane lemmas, the ARM and scalar lemmas on patterns and f16 pairs |
| C114, C115 | POWER float arithmetic | the correctly rounded scalar operations lane by lane; cancellation analysed for the negated forms |
| C116-C118 | GPU operators on integers and bits (`Device.v`), scalar operators on the bits of floats (`ScalarBits.v`) | reduction to the lemmas of the scalar operators; bit by bit |
| C119 | conversions of single values, CPU and GPU | rounding to single is exact for 16-bit integers, then the half rounding lemma |
| C120-C122 | GPU operators on floats | either the scalar path (conversion to single and back) or one rounding in half precision |
| C123 | kernels against the scalar operators | uniqueness of correctly rounded results |
| C124 | expressions of any size evaluated with the operators of each back end (Portable.v), against one lane of scalar operators (PortableSpec.v) | mutual induction on the expression over an abstract back end; the operator theorems of each back end discharge its hypotheses |
| C125 | the loop of examples/tutorial.cpp with any body (Loop.v) over a byte memory, on every back end | induction on the number of vectors over an abstract back end with memory; the memory theorems (C18, C58, C78, C79, C103, C104), the mask_for_loop_tail theorems and C124 discharge its hypotheses |
| C126 | float expressions over vectors and logicals, evaluated with the operators of each back end (FPortable.v) and element by element with the scalar operators (FPortableSpec.v) | mutual induction on expressions over an abstract back end; the operator theorems of each back end (C64-C68, C84-C88, C92-C96, C109-C115) and the uniqueness of correctly rounded results discharge its hypotheses |
| C127 | the loop of Loop.v with a float body: FLoop.v | the loop invariant of LoopProofs.v, proved over abstract memory operators and an abstract body, instantiated with C126 and the memory and mask theorems of each back end |
| C128-C131 | src/sleefsp.c translated function by function by tools/sleef2coq.py (Sleef.v), on the operators of SleefBase.v; undefined conversions to int are a parameter U | case analysis on the value of the argument; NaN propagation lemmas; f(-x) by the bits of the sign |
| C132-C134 | the inverse trigonometric, special and sinpi/cospi functions of Sleef.v | as C128-C131; exactness of products and integers (SleefProofs7.v, SleefProofs8.v) |
| C135 | sin, cos, tan and the reduction rempif of Sleef.v; an undefined conversion is U, a read outside of the table W | a calculus of bounds by powers of two through every operation of the reduction (SleefProofs9.v) |
| C136 | fmod and remainder (SleefRem.v, written by hand: loops) | a calculus of exact operations (has x z: the pattern x is the number z), Sterbenz's lemma, the error of the estimated quotient, the exact product of an integer below 4096 (SleefProofs10.v to SleefProofs16.v) |
| C137 | exp2, log2, exp10, log10 at exact powers (Sleef.v) | the reduced argument is zero, so the polynomial is a constant; what is left, the scaling, is computed for each of the 277 powers of two |
| C138 | the operators in front of the functions (SleefApi.v): names, f16 by conversion, CPU lanes, POWER emulation | the rounding theorems of C02 and the special cases of C128 to C137, case by case on the operator; lanes by computation on symbolic vectors |
@PLAN_EXTRA@

Nothing on the list is inexpressible in the model.

## 3. Trusted base

1. Coq 8.16.1's kernel, including its conversion by `vm_compute` (used for finite sweeps such as the
   65536 halves and the symbolic runs of the shuffle programs). No `native_compute`, no plugin, no
   kernel check switched off, no `Admitted`, no axiom, functor or module type of our own.
2. Axioms: `Print Assumptions` answers "Closed under the global context" for every theorem of section 6
   (the table there is produced by running it). No axiom of the standard library is used, in particular
   neither classical logic nor functional extensionality nor the axioms on reals.
   (vcheck lists seven `Coq.ssr.ssrunder` constants: they are parameters of a module of the standard
   library loaded with its tactics; no theorem depends on them.)
3. That the models say what the code does. They were transcribed by hand from the text of /repo, with
   the citations as a guide for review, except `X86Deg234.v`, translated from the C templates of
   egg/x86_load_store_deg234.py by `tools/gen_deg234.py` (an auxiliary script, not trusted by Coq but
   part of the transcription). egg/*.py is a generator: what is modelled is the C text it emits for
   each extension and type, not the Python program.
4. That the language and hardware semantics used are right:
   * C and C++ integer semantics as above; conversion to a signed type keeps the low bits and `>>` of a
     negative number is arithmetic (implementation defined, as in GCC, Clang and MSVC);
   * IEEE-754 binary formats in round-to-nearest-even mode for f32 and f64, no flush to zero, no excess
     precision;
   * the Intel intrinsics as transcribed in `X86Arith.v` and in `sel` of `X86Shuffle.v` from Intel's
     documentation@TB_EXTRA@;
   * libm's floor, ceil, frexp, ldexp, fmin... by their C definition;
   * malloc/posix_memalign/cudaMalloc: what `MemorySpec.v` says POSIX promises.

## 4. What is modelled, and what is not

Modelled, function by function:

* src/fp16.cpp, src/ufp.cpp, src/gpu.cpp (geometry), src/memory.cpp
* include/nsimd/nsimd.h: isnan/isinf/isnormal, popcnt, allocators, word size
* egg/scalar.py: the integer operators, shifts, bitwise and saturating operators, min/max/abs/neg, fma
  family, round_to_even and trunc@SCALAR_EXTRA@; on floats: add, sub, mul, div, adds, subs, neg, abs, min, max, comparisons,
  floor, ceil, trunc, sqrt, fma family, rec, rec8, rec11, rsqrt, rsqrt8, rsqrt11 (`ScalarFloat.v`)
* egg/platform_cpu.py: the emulated backend, any vector length
* egg/platform_x86.py, for sse2, sse42, avx, avx2, avx512_knl, avx512_skylake: integer add, sub, neg,
  mul, div, fma family, shl, shr, shra, bitwise operators, comparisons, logicals, set1, set1l,
  if_else1, min, max, abs, adds, subs, to_mask, to_logical, loadl, storel, all, any, nbtrue, reverse,
  zip*, unzip*, iota, mask_for_loop_tail; load, store, the masked loads and stores, gather, scatter and
  their linear versions on all types over a byte memory; cvt, upcvt and downcvt on all types; on
  floats and f16: comparisons, if_else1, all, any, nbtrue, set1, set1l, to_mask, to_logical, loadl, storel,
  neg, abs, min, max, floor, ceil, trunc, round_to_even, iota, mask_for_loop_tail, addv, reinterpret and
  reinterpretl of f16, add, sub, mul, div, adds, subs, sqrt, rec, fma family, rec11 and rsqrt11 of f64 on SSE and AVX@X86_EXTRA@
* egg/x86_load_store_deg234.py: load2/3/4, store2/3/4, all types but f16's conversions
* egg/platform_arm.py on the integer types, for neon128, aarch64 and SVE of every vector length: add, sub,
  mul, div, neg, abs, min, max, adds, subs, set1, set1l, len, bitwise operators, shifts, comparisons, logical
  operators, if_else1, all, any, nbtrue, to_mask, to_logical, fma family, iota, mask_for_loop_tail
* egg/platform_arm.py on every element type: reverse, ziplo, ziphi, unziplo, unziphi, zip, unzip, loads
  and stores of degrees 1 to 4, masked loads and stores, gather, scatter and their linear forms, cvt, upcvt,
  downcvt, reinterpret and reinterpretl of f16 (NEON), loadl, storel; on floats and f16: comparisons, logical
  operators, if_else1, all, any, nbtrue, set1, set1l, to_mask, to_logical, neg, abs, min, max, floor, ceil, trunc,
  round_to_even, iota, mask_for_loop_tail, addv, add, sub, mul, div, sqrt, rec, rec11, rsqrt11, fma family
* egg/platform_ppc.py on the integer types, for vmx and vsx: add, sub, mul, div, neg, abs, min, max, adds, subs,
  fma family, bitwise operators, shifts, set1, set1l, comparisons, logical operators, if_else1, all, any, nbtrue,
  to_mask, to_logical, iota, mask_for_loop_tail; on every type: reverse, ziplo, ziphi, unziplo, unziphi, zip, unzip,
  loads and stores of degrees 1 to 4, masked loads and stores, gather, scatter and their linear forms, cvt, upcvt,
  downcvt, reinterpret and reinterpretl of f16; loadl, storel; on floats and f16: comparisons, logical operators,
  if_else1, bitwise operators, neg, abs, min, max, floor, ceil, trunc, round_to_even, addv, all, any, nbtrue, set1,
  set1l, to_mask, to_logical, iota, mask_for_loop_tail, add, sub, mul, div, adds, subs, sqrt, rec, fma family
* egg/gen_adv_cxx_api.py and include/nsimd/cxx_adv_api.hpp: packs of any unroll factor
* egg/modules/random/hatch.py: mulhilo, Philox, ThreeFry
* include/nsimd/modules/fixed_point: arithmetic, comparisons, floor, exp, sqrt, log2, conversions, SIMD
* include/nsimd/modules/tet1d.hpp and egg/modules/tet1d/hatch.py: expressions, assignment, masks, slices
* include/nsimd/modules/spmd.hpp: the CPU macros as a language, launches
* include/nsimd/modules/memory_management.hpp: allocation, pair_malloc and friends
* egg/cuda.py, rocm.py and oneapi.py: the operators on single values inside kernels on all eleven types, except rsqrt
  and the transcendental functions; egg/scalar.py: the operators on the bits of floats, reinterpret and cvt between all
  types of the same width, logicals
* Portable.v: integer expressions over the operators of the CPU, x86, ARM and POWER back ends (no memory, no type change)
* Loop.v: examples/tutorial.cpp, uppercase_scalar and uppercase_simd, the latter with any integer expression as its body
* FPortable.v: the float operators of each back end used together in expressions
* FLoop.v: the loop of examples/tutorial.cpp on floats
* SleefBase.v, Sleef.v: the scalar f32 mathematical functions of src/sleefsp.c (written by tools/sleef2coq.py, each function with the lines it comes from)
* SleefRem.v: fmod and remainder of src/sleefsp.c (by hand)
* The mathematical operators in front of src/sleefsp.c (SleefApi.v): src/rename.h, the templates of egg/scalar.py and egg/gen_archis.py for the CPU back end, src/sleefsimdsp_emulation.c

Not modelled:

* src/sleefdp.c and the SIMD versions src/sleefsimd*.c; the accuracy of the functions of src/sleefsp.c
* on x86 registers: rec8, rec11, rsqrt8 and rsqrt11 of f32 and f16, and of f64 on AVX-512 (approximations of the
  hardware)
* on POWER: rec8, rec11, rsqrt8 and rsqrt11 (estimates of the hardware)
@NOT_EXTRA@
* egg/platform_arm.py, platform_ppc.py, cuda.py, rocm.py, oneapi.py except
  where listed above
* alignment faults, caches, timing; the compiler; GPU hardware (schedules are quantified instead)
* the Python generators as programs, the tests, the build system, the examples

Main simplifications (details in the comments of the files):

* CPU backend, packs, tet1d: a pointer is an element index; alignment is not modelled.
* `nsimd_nat` is unbounded in Gpu, Tet1d and Spmd (the 32-bit thread indices are modelled).
* tet1d: one element type per expression; f16 excluded; asserts enabled.
* SPMD: values are integers, operators total; two array numbers are disjoint arrays; conditions have no
  side effects.
* x86 conversions: the instructions round to nearest even (default MXCSR) and give the integer indefinite
  value out of range; a C cast out of range is undefined (None); NaN payloads are not modelled.
* x86 floats: a comparison, min, max, roundps and addps lane behaves as its IEEE definition in
  `FloatSpec.v`; NaN results of additions are one quiet NaN; f16 reinterpret uses cvtph_ps as fp16.c.
* ARM floats: neon128 is assumed not to flush subnormal numbers to zero (ARMv7 NEON does); NaN results are one
  quiet NaN.
* x86 memory: maskmoveu and the masked intrinsics access exactly the active bytes (non-temporal hints and
  implementation-dependent faults of maskmoveu with an all-zero mask are ignored); addresses are unbounded
  integers and pointer arithmetic does not wrap.
* x86: casts between vector types are no-ops; only the 64-bit mode of `get_emulation_code`; C typing of
  the emitted text is not checked.
* fixed point: `<<` on negative or overflowing signed operands keeps the low bits.

## 5. Findings

Places where the code does not do what its documentation or the natural property says. The theorem
proving it is given when there is one; the others were noticed when reading the code.

@FINDINGS@

