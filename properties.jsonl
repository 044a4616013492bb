{"id": "C01", "title": "Half to single conversion is exact", "statement": "nsimd_u16_to_f32 maps every half-precision bit pattern to a single-precision float denoting exactly the same number: finite values (zero, subnormal, normal) keep value and sign, infinities map to the infinity of the same sign and NaNs map to NaNs.", "quantifier": "all 65536 u16 patterns, against the IEEE-754 value of binary16/binary32 patterns", "why_tests_cant": "Existing tests sample random values and compare with the same conversion; exactness is a statement about real values of every pattern, including each subnormal length.", "anchors": ["src/fp16.cpp: nsimd_u16_to_f32"]}
{"id": "C02", "title": "Single to half conversion rounds to nearest, ties to even", "statement": "For every non-NaN float x, nsimd_f32_to_u16(x) has the sign of x; it is an infinity iff |x| >= 65520; otherwise it denotes a finite half that no other finite half is closer to x than, and when two halves are equally close the one with even significand is returned. NaNs map to a NaN.", "quantifier": "all 2^32 float bit patterns and, for each, all 65536 candidate results", "why_tests_cant": "2^32 inputs times a nearest-value claim over all halves; tests sample a handful of values.", "anchors": ["src/fp16.cpp: nsimd_f32_to_u16"]}
{"id": "C03", "title": "Half -> single -> half is the identity", "statement": "Converting any non-NaN half to single and back returns the same 16 bits; a NaN returns a NaN.", "quantifier": "all u16 patterns", "why_tests_cant": "Has to hold for each pattern; a load/store pair in emulated f16 silently relies on it.", "anchors": ["src/fp16.cpp: nsimd_u16_to_f32", "src/fp16.cpp: nsimd_f32_to_u16"]}
{"id": "C04", "title": "Single to half conversion is monotone", "statement": "If x <= y (both non-NaN floats) then the half produced for x is <= the half produced for y.", "quantifier": "all pairs of non-NaN floats (2^64 pairs)", "why_tests_cant": "Pairs cannot be enumerated; branch boundaries (subnormal/normal/overflow) are where monotonicity would break.", "anchors": ["src/fp16.cpp: nsimd_f32_to_u16"]}
{"id": "C05", "title": "Non-IEEE754 build of the half conversions", "statement": "With NSIMD_NO_IEEE754, u16 -> f32 denotes the IEEE value of every finite half, but f32 -> u16 is wrong: for every float of magnitude in [2^-16, 2^14) the half returned denotes four times the argument (truncated to 11 significant bits), so the round trip of a normal half is not the identity (1.0 comes back as 4.0).", "quantifier": "all finite half patterns; all floats of magnitude in [2^-16, 2^14)", "why_tests_cant": "This configuration is not exercised by the test-suite.", "anchors": ["src/fp16.cpp: NSIMD_NO_IEEE754 branches"]}
{"id": "C06", "title": "ufp measures agreement of leading bits", "statement": "nsimd_ufp_{f16,f32,f64}(a,b) is symmetric, ignores the sign bit, returns MantissaSize+1 when a and b have the same magnitude, and for operands whose exponents are equal or adjacent returns MantissaSize + 1 minus the bit length of the difference of the significands scaled to the smaller exponent; the result always lies in [-1, MantissaSize+1]; it is never maximal for different magnitudes.", "quantifier": "all pairs of bit patterns of the three formats", "why_tests_cant": "ufp is the oracle the tests themselves use; 2^128 pairs.", "anchors": ["src/ufp.cpp: nsimd::ufp, nsimd_ufp_f16, nsimd_ufp_f32, nsimd_ufp_f64"]}
{"id": "C07", "title": "isnan / isinf / isnormal for f32 and f64", "statement": "nsimd_isnan and nsimd_isinf return 1 exactly on NaN / infinite patterns and 0 otherwise. nsimd_isnormal returns 0 exactly on subnormals (its documented use), so it differs from C isnormal on zeros, infinities and NaNs.", "quantifier": "all 32-bit / 64-bit patterns", "why_tests_cant": "2^64 patterns.", "anchors": ["include/nsimd/nsimd.h: nsimd_isnan_f32, nsimd_isinf_f32, nsimd_isnormal_f32, ..._f64"]}
{"id": "C08", "title": "isnan / isinf / isnormal for f16", "statement": "The f16 classification functions do not classify like the f32/f64 ones: nsimd_isnan_f16 is 1 exactly on NaNs and infinities, nsimd_isinf_f16 is never 1, and nsimd_isnormal_f16 is 1 exactly on subnormals and -0.", "quantifier": "all 16-bit patterns", "why_tests_cant": "Tests never compare the f16 classification with the f32 one on infinities and zeros.", "anchors": ["include/nsimd/nsimd.h: nsimd_isnan_f16, nsimd_isinf_f16, nsimd_isnormal_f16"]}
{"id": "C09", "title": "Saturating addition is the clamped exact sum", "statement": "nsimd_scalar_adds on every integer type returns the mathematically exact sum clamped to the range of the type and never evaluates a signed overflow.", "quantifier": "all pairs of values of each of the eight integer types", "why_tests_cant": "2^128 pairs for 64-bit types.", "anchors": ["egg/scalar.py: adds"]}
{"id": "C10", "title": "Saturating subtraction is the clamped exact difference", "statement": "nsimd_scalar_subs on every integer type returns the exact difference clamped to the range of the type, except when the most negative value of a signed type is subtracted: then i8/i16 return the clamped SUM and i32/i64 evaluate an undefined negation.", "quantifier": "all pairs of values of each of the eight integer types", "why_tests_cant": "2^128 pairs; the failing operand (the most negative value) is one value in 2^64.", "anchors": ["egg/scalar.py: subs"]}
{"id": "C11", "title": "Shifts", "statement": "For a shift amount s in [0, nbits): shl multiplies by 2^s modulo 2^nbits, shr divides the unsigned reading by 2^s rounding down, shra divides the signed reading by 2^s rounding toward minus infinity, and shr = shra on unsigned types.", "quantifier": "all values of each integer type and all shift amounts in range", "why_tests_cant": "all values times all shift amounts.", "anchors": ["egg/scalar.py: shift"]}
{"id": "C12", "title": "Bitwise operators act bit by bit", "statement": "orb, andb, xorb, andnotb, notb compute on bit i of the result the boolean function of bit i of the operands (andnotb(a,b) is a and not b), for signed and unsigned integers; results stay in the type's range. to_mask sets every bit to the logical, to_logical is true exactly when some bit is set, and to_logical(to_mask(l)) = l. reinterpret between integer types of the same width keeps every bit; cvt between integer types keeps representable values and otherwise wraps.", "quantifier": "all operands of every type, all bit positions", "why_tests_cant": "unbounded widths/all operands.", "anchors": ["egg/scalar.py: opbit, get_impl"]}
{"id": "C13", "title": "min, max, abs, neg, fma family on integers", "statement": "min/max return the smaller/larger operand; abs returns the absolute value except on the most negative value (itself for i8/i16, undefined for i32/i64); add, sub, mul, neg, fma, fms, fnma, fnms, whenever their C evaluation is defined, return the exact result modulo 2^nbits; they are defined on all operands of u8, i8, i16, u32, u64 and whenever intermediate results are representable, but u16 products can overflow int.", "quantifier": "all operands of every integer type", "why_tests_cant": "2^192 operand triples.", "anchors": ["egg/scalar.py: get_impl"]}
{"id": "C14", "title": "round_to_even", "statement": "nsimd_scalar_round_to_even_{f16,f32,f64} returns, for every finite input, the nearest integer with ties going to the even integer and the sign of the argument (also for zero results), and returns infinities and NaNs unchanged; the source comment's claim that both differences are exact is not needed (and false).", "quantifier": "all bit patterns of binary16, binary32 and binary64", "why_tests_cant": "All floats; ties and inexact differences near zero are corner cases.", "anchors": ["egg/scalar.py: round_to_even"]}
{"id": "C15", "title": "popcnt counts set bits", "statement": "nsimd_popcnt32_/64_ returns the number of one bits of its argument for every argument and terminates after at most 32/64 iterations.", "quantifier": "all 32-bit and 64-bit words", "why_tests_cant": "2^64 words.", "anchors": ["include/nsimd/nsimd.h: nsimd_popcnt32_, nsimd_popcnt64_"]}
{"id": "C16", "title": "CPU vectors behave lane by lane", "statement": "Each arithmetic, comparison, blend and conversion operator of the CPU backend computes lane i of its result from lane i of its operands with the scalar operator; no lane influences another. Division truncates toward zero and is undefined exactly for a zero divisor or the smallest int or wider integer divided by -1; iota holds the lane numbers.", "quantifier": "all vectors, all lanes, all element widths", "why_tests_cant": "all vectors.", "anchors": ["egg/platform_cpu.py: op2, scalar_impl, cmp2, lop2, if_else1, convert1"]}
{"id": "C17", "title": "Vectors of logicals are canonical and boolean", "statement": "Any vector of logicals obtained from set1l, loadl, comparisons, to_logical, mask_for_loop_tail and combined with andl, orl, xorl, andnotl, notl, reinterpretl contains in each lane either 0 or all ones; on those the operators are the boolean connectives, and all/any/nbtrue compute the conjunction, disjunction and count; storel/loadl and to_mask/to_logical round-trip.", "quantifier": "all expressions built from the logical operators, of any size, on all inputs", "why_tests_cant": "The set of expressions is infinite; the CPU backend tests truth with '!= 0' in one place and '== -1' in another.", "anchors": ["egg/platform_cpu.py: lop2, landnot2, lnot1, cmp2, set1l, loadl, storel, all_any, nbtrue1, to_logical1, to_mask1"]}
{"id": "C18", "title": "Masked loads and stores touch only active lanes", "statement": "mask_store changes memory exactly at the addresses of active lanes; maskz_load yields zero and masko_load yields the alternative in inactive lanes, and neither reads the memory of inactive lanes (so an unmapped tail is safe). Plain loads and stores transfer exactly the elements of the vector, in order.", "quantifier": "all masks, memories, addresses and vectors", "why_tests_cant": "all memories and masks.", "anchors": ["egg/platform_cpu.py: maskoz_load, mask_store"]}
{"id": "C19", "title": "Array-of-structures loads and stores are inverse (de)interleavings", "statement": "load{2,3,4} put element deg*i+j of memory in lane i of register j, store{2,3,4} do the converse, they touch exactly deg*len elements, and store-after-load and load-after-store are identities (for f16, on elements other than NaNs and on lanes that are halves, because lanes are kept as f32).", "quantifier": "all memories, degrees 2, 3, 4, any vector length", "why_tests_cant": "all memories.", "anchors": ["egg/platform_cpu.py: load_deg234, store_deg234"]}
{"id": "C20", "title": "zip and unzip are mutually inverse", "statement": "ziplo/ziphi interleave the low/high halves of two vectors, unziplo/unziphi take even/odd lanes; unzip(zip(a,b)) = (a,b) and zip(unzip(a,b)) = (a,b).", "quantifier": "all vectors of any even length", "why_tests_cant": "all vectors.", "anchors": ["egg/platform_cpu.py: zip_half, unzip_half, zip, unzip"]}
{"id": "C21", "title": "Loop tails: a SIMD loop with mask_for_loop_tail processes every element once", "statement": "The documented pattern `for (i = 0; i < n; i += len) { mask = mask_for_loop_tail(i, n); mask_store(mask, dst + i, f(maskz_load(mask, src + i))); }` writes f(src[k]) to dst[k] for all k in [0,n), touches no other element of dst and reads no element of src outside [0,n), as long as n + len <= 2^31 (the loop runs on an int; above that mask_for_loop_tail overflows) and src and dst are equal or disjoint.", "quantifier": "all n >= 0 with n + len <= 2^31, vector lengths len >= 1, memories, operators f", "why_tests_cant": "unbounded n.", "anchors": ["egg/platform_cpu.py: mask_for_loop_tail, maskoz_load, mask_store", "doc/markdown/tutorial.md"]}
{"id": "C22", "title": "upcvt and downcvt preserve order and representable values", "statement": "downcvt(upcvt(v)) = v for integers, with the low half of the lanes in the first output register and the high half in the second; downcvt wraps modulo 2^nbits. cvt between integer types of the same width wraps each lane into the destination type.", "quantifier": "all vectors and all integer type pairs", "why_tests_cant": "all vectors.", "anchors": ["egg/platform_cpu.py: upcvt1, downcvt2"]}
{"id": "C23", "title": "f16 sign-bit manipulation and reinterpret in the emulated backend", "statement": "On vectors of f16 the CPU backend applies orb/andb/xorb/andnotb/notb to the f32 widening of the lanes: setting, flipping or clearing the sign bit of a half that is not a NaN (orb, xorb, andnotb with 0x8000) gives exactly the bitwise result on the 16-bit pattern; for other operands it does not ('preserving all bits' fails: orb(0x0400,0x4000) is 0x7c00 and notb(0x3c00) is 0xc400). reinterpret keeps the memory image of every lane; into f16 the lane is the single-precision copy of the half with these 16 bits.", "quantifier": "all non-NaN half patterns", "why_tests_cant": "The emulated backend works on the f32 widening of the lanes, so results agree on many values.", "anchors": ["egg/platform_cpu.py: scalar_impl, get_type"]}
{"id": "C24", "title": "Unrolled packs are longer vectors", "statement": "An element-wise operator on pack<T,N> acts on the concatenation of the N registers lane by lane; loading a pack reads N*len consecutive elements in order and storing writes them back; len is N*len; any/all/nbtrue/addv agree with those on the concatenation.", "quantifier": "all unroll factors N >= 1, all packs", "why_tests_cant": "unbounded N.", "anchors": ["include/nsimd/cxx_adv_api.hpp: pack, len, all, any, nbtrue, addv, if_else", "egg/gen_adv_cxx_api.py: get_cxx_advanced_generic"]}
{"id": "C25", "title": "Structure loads and stores on unrolled packs", "statement": "load{2,3,4} into packx{2,3,4}<T,N> and store{2,3,4} of N-unrolled packs (de)interleave deg*N*len consecutive elements.", "quantifier": "all N >= 1, degrees 2, 3, 4, all memories", "why_tests_cant": "unbounded N.", "anchors": ["egg/gen_adv_cxx_api.py: get_cxx_advanced_generic (multiplier)"]}
{"id": "C26", "title": "gather and scatter on unrolled packs", "statement": "On pack<T,N>, lane k of gather(base, idx) is base[(k/len)*len + idx[k]] and lane k of gather_linear(base, step) is base[(k/len)*len + (k mod len)*step], where len is the number of lanes of one register; scatter and scatter_linear write there. This is the documented base[idx[k]] / base[k*step] exactly when N = 1 (finding: on unrolled packs the base pointer is advanced although indices and steps are absolute).", "quantifier": "all N >= 1, base, indices, steps", "why_tests_cant": "Generated tests use N = 1.", "anchors": ["egg/gen_adv_cxx_api.py: get_cxx_advanced_generic (var)", "egg/operators.py: Gather, GatherLinear, Scatter, ScatterLinear"]}
{"id": "C27", "title": "iota and mask_for_loop_tail on unrolled packs", "statement": "On pack<T,N> and packl<T,N>, lane k of iota is k mod len and lane k of mask_for_loop_tail(i,n) is i + (k mod len) < n, where len is the number of lanes of one register: they are the documented k and i + k < n exactly when N = 1 (finding: unrolled packs repeat the first register).", "quantifier": "all N >= 1", "why_tests_cant": "Generated tests use N = 1.", "anchors": ["egg/gen_adv_cxx_api.py: get_cxx_advanced_generic", "egg/operators.py: Iota, MaskForLoopTail"]}
{"id": "C28", "title": "to_pack and to_pack_interleave", "statement": "to_pack concatenates the member packs of a packx{1,2,3,4}<T,N> register by register; to_pack_interleave interleaves their registers; no register is lost or duplicated.", "quantifier": "all N >= 1 and 1..4 member packs", "why_tests_cant": "template recursion over unbounded N.", "anchors": ["include/nsimd/cxx_adv_api.hpp: to_pack, to_pack_recurs_helper, to_pack_interleave"]}
{"id": "C29", "title": "Aligned allocation", "statement": "A non-null result of nsimd_aligned_alloc(n) is a multiple of NSIMD_MAX_ALIGNMENT, and its block of n bytes shares no byte with any live block; after every history of allocations and frees all live blocks are aligned, inside the address space and pairwise disjoint; freeing releases that block only; typed allocation of n elements has room for n elements whenever n*sizeof(T) is a representable nsimd_nat. The underlying posix_memalign is assumed to conform to POSIX.", "quantifier": "all histories of allocations and frees, all sizes", "why_tests_cant": "histories; size overflow needs sizes near 2^64.", "anchors": ["src/memory.cpp: nsimd_aligned_alloc", "include/nsimd/nsimd.h: aligned_alloc_for"]}
{"id": "C30", "title": "nsimd::allocator never under-allocates", "statement": "The C++11 allocator<T>::allocate(n) either throws or returns an aligned block of at least n*sizeof(T) bytes when signed overflow wraps; in standard C++ the same holds except exactly when sizeof(T) > 1 and 2^(W-1) <= n*sizeof(T) < 2^W, where the call is undefined (finding). The C++98 allocator has room when n*sizeof(T) < 2^(W-1), and under-allocates for larger n (finding).", "quantifier": "all n in [0, 2^W), all element sizes, all heaps, W = NSIMD_WORD_SIZE", "why_tests_cant": "sizes near 2^64/sizeof(T) are not tested.", "anchors": ["include/nsimd/nsimd.h: allocator::allocate (C++98 and C++11 variants)"]}
{"id": "C31", "title": "Paired host/device buffers", "statement": "copy_to_device followed by copy_to_host between buffers of sz elements restores the host data whatever happened to it in between. On CPU pair_malloc/pair_calloc(sz) give one buffer of sz elements (zero-filled by calloc) seen through two pointers, or two null pointers. On GPUs a failure gives two null pointers, size 0 and leaks nothing; a success gives a device buffer of sz elements but a host buffer of sz bytes (finding), so that copying the pair is undefined when sizeof(T) > 1; pair_free undoes pair_malloc. After a successful pair_calloc the buffer (on GPUs the device buffer) is zero everywhere.", "quantifier": "all element sizes, sizes and contents", "why_tests_cant": "needs GPU and out-of-memory conditions.", "anchors": ["include/nsimd/modules/memory_management.hpp: pair_malloc, pair_calloc, copy_to_device, copy_to_host"]}
{"id": "C32", "title": "Kernel launch geometry covers the range", "statement": "For n elements and blocks of b threads, as long as the threads can be numbered in the index type of the kernel (at most 2^31 for int indices), the guarded global indices are exactly 0..n-1, each once, with at most b-1 idle threads; and whatever the order in which the threads take their steps, the launch leaves in each dst[i] the value computed for i (or the old value where the mask is false) and changes nothing else. Beyond 2^31 elements the int index wraps to a negative index that the guard accepts (finding).", "quantifier": "all n >= 0, b >= 1, kernels, memories and schedules", "why_tests_cant": "unbounded n; rounding-up boundary.", "anchors": ["src/gpu.cpp: nsimd_kernel_param", "include/nsimd/modules/tet1d.hpp: gpu kernels"]}
{"id": "C33", "title": "Fixed-point arithmetic", "statement": "On fp_t<lf,rt> values: + and - and unary - return the exact result whenever it has lf+rt bits; * returns the exact product rounded down to a multiple of 2^-rt and / the exact quotient truncated toward zero whenever that result has lf+rt bits; abs returns the absolute value under the same conditions (and rt <= 30). Division by zero is undefined, and so is every multiplication when rt = 0 and the storage has 32 or 64 bits.", "quantifier": "all lf, rt supported by the storage types and all operands", "why_tests_cant": "all formats and operands.", "anchors": ["include/nsimd/modules/fixed_point/function/{add,sub,mul,div,neg,abs}.hpp", "include/nsimd/modules/fixed_point/fixed.hpp"]}
{"id": "C34", "title": "Fixed-point comparisons", "statement": "==, !=, <, <=, >, >= on fp_t<lf,rt> compare floor(raw / 2^s), where s is the number of bits of the storage type not needed by the format (width - lf - rt), so they compare the represented numbers when both raw values are multiples of 2^s, and they do so for every pair of numbers of the format exactly when s = 0 or lf + rt = 1. (In fp_t<8,8>, 1.0 == 2.0.) The tolerance comparison counts units of the same truncated values.", "quantifier": "all lf, rt and all operands", "why_tests_cant": "tests use operands for which the mask keeps the relevant bits.", "anchors": ["include/nsimd/modules/fixed_point/function/{eq,neq,less,greater}.hpp"]}
{"id": "C35", "title": "Fixed-point floor", "statement": "floor on fp_t<lf,rt> (lf >= 1) clears the low (width of the storage - lf) bits of the raw value; it returns the largest integer not above its argument for every number of the format exactly when rt = 0 and lf is the storage width. With lf = 0 it returns 0 or is undefined.", "quantifier": "all lf, rt and operands", "why_tests_cant": "all formats.", "anchors": ["include/nsimd/modules/fixed_point/function/floor.hpp"]}
{"id": "C36", "title": "Fixed-point SIMD and scalar agree", "statement": "For each lane the SIMD add, sub, mul, div and fma of the fixed-point module return what the scalar operators return whenever those are defined; min, max and abs return the minimum, maximum and absolute value, and rec 1/x truncated toward zero to a multiple of 2^-rt. The SIMD comparisons compare the represented numbers exactly, hence differ from the scalar operators (C34) outside multiples of 2^s.", "quantifier": "all vectors, lf, rt", "why_tests_cant": "all operands.", "anchors": ["include/nsimd/modules/fixed_point/function/simd/*.hpp"]}
{"id": "C37", "title": "Fixed-point integer powers", "statement": "exp(x, n) by repeated squaring terminates for every 64-bit n; for n > 0 it returns exactly x^n when every x^m, 1 <= m <= n, is a number of the format; for n = 0 it returns 1; for n < 0 it returns the power -n of the truncated inverse 1/x; n = INT64_MIN is undefined.", "quantifier": "all exponents and operands", "why_tests_cant": "all exponents.", "anchors": ["include/nsimd/modules/fixed_point/function/exp.hpp"]}
{"id": "C38", "title": "mulhilo is the full double-width product", "statement": "The 32-bit and 64-bit mulhilo helpers return the high and low word of the exact product in every lane.", "quantifier": "all pairs of 32-bit / 64-bit words", "why_tests_cant": "2^128 pairs; carries occur with tiny probability.", "anchors": ["egg/modules/random/hatch.py: mulhilo32, mulhilo64"]}
{"id": "C39", "title": "Philox is a bijection of the counter for each key", "statement": "For each key and each round count, philox maps distinct counters to distinct outputs (so streams indexed by a counter never repeat), and equals the Random123 definition.", "quantifier": "all keys, counters, any number of rounds", "why_tests_cant": "2^256 counters.", "anchors": ["egg/modules/random/hatch.py: gen_philox", "tests/modules/random/reference.hpp"]}
{"id": "C40", "title": "ThreeFry is a bijection of the counter for each key", "statement": "For each key and each round count, threefry maps distinct counters to distinct outputs, and equals the Random123 definition.", "quantifier": "all keys, counters, any number of rounds", "why_tests_cant": "2^256 counters.", "anchors": ["egg/modules/random/hatch.py: gen_threefry", "tests/modules/random/reference.hpp"]}
{"id": "C41", "title": "tet1d expressions evaluate element-wise", "statement": "Assigning an expression to an output array computes, for each index i < n, the expression on the i-th elements of the inputs and writes nothing else, whatever the vector length; inputs aliasing the output at the same position are fine.", "quantifier": "all expressions of the grammar, all n, all vector lengths, all memories", "why_tests_cant": "expressions and n are unbounded.", "anchors": ["include/nsimd/modules/tet1d.hpp: cpu_kernel_component_wise, in_t, out_t operator="]}
{"id": "C42", "title": "tet1d masked assignment", "statement": "out(mask) = expr writes, for each index where the mask expression is true, the value of the expression, and preserves every other element, on CPU for any vector length and on GPU for any schedule. On CPU the expression must be defined in the masked-out lanes too (finding: integer division by an element the mask excludes is still executed by the SIMD loop).", "quantifier": "all mask and value expressions, all n, vector lengths", "why_tests_cant": "unbounded.", "anchors": ["include/nsimd/modules/tet1d.hpp: cpu_kernel_component_wise_mask"]}
{"id": "C43", "title": "tet1d slices and size checks", "statement": "A slice a(i0, i1) denotes elements i0..i1 inclusive with negative indices counted from the end, and is accepted exactly when 0 <= i0 < i1 < size (finding: one-element slices are rejected). When the size checks pass, all arrays of an expression have the size of the expression, so an assignment reads no element outside its arrays (finding: three-operand nodes whose first two operands are scalars fail the check).", "quantifier": "all slice bounds, all expressions", "why_tests_cant": "unbounded.", "anchors": ["include/nsimd/modules/tet1d.hpp: compute_size, operator()"]}
{"id": "C44", "title": "SPMD kernels: launch covers every index once", "statement": "spmd_launch_kernel_1d on CPU calls the kernel for each index 0..n-1 exactly once, in order, whatever the unroll factor and the vector length; a launch that finishes gives each array element i < n the value the kernel computes for index i run alone with ordinary control flow, and changes no other element.", "quantifier": "all n, kernels (of the DSL without k_continue and unmasked or boolean k_set), initial memories, unroll factors, vector lengths", "why_tests_cant": "unbounded n.", "anchors": ["include/nsimd/modules/spmd.hpp: spmd_launch_kernel_1d"]}
{"id": "C45", "title": "SPMD kernels: if/elseif/else under masks equal per-thread control flow", "statement": "Executing a kernel made of assignments, loads, stores and nested k_if / k_elseif / k_else with lane masks gives each lane the state the same kernel gives when run for that lane alone.", "quantifier": "all kernels of the language (any nesting), all inputs, any number of lanes", "why_tests_cant": "programs are unbounded.", "anchors": ["include/nsimd/modules/spmd.hpp: k_if, k_elseif, k_else, k_endif, k_set, k_store"]}
{"id": "C46", "title": "SPMD kernels: k_return", "statement": "k_return stops the lanes that execute it for the rest of the kernel and only those; in a device function it ends the call only, and the lanes are active again in the caller.", "quantifier": "all kernels, inputs", "why_tests_cant": "programs are unbounded.", "anchors": ["include/nsimd/modules/spmd.hpp: k_return"]}
{"id": "C47", "title": "SPMD kernels: while loops, break and continue", "statement": "If the masked execution of a kernel with k_while, k_break and k_return finishes, each lane has the result of ordinary while, break and return in the kernel run for that lane alone. It finishes when each lane alone finishes and no loop condition stays true in a lane that is switched off (always so for top-level loops without k_break or k_return). It never finishes when a lane that is switched off at the loop, or that leaves it by k_break or k_return, has the condition true; and k_continue gives wrong results. The documented claim of identical semantics is therefore refuted.", "quantifier": "all kernels, inputs", "why_tests_cant": "programs are unbounded; failing programs need divergent lanes.", "anchors": ["include/nsimd/modules/spmd.hpp: k_while, k_break, k_continue, k_endwhile"]}
{"id": "C48", "title": "SPMD kernels: k_set on booleans", "statement": "k_set on a k_bool variable in a SIMD kernel sets every lane to mask && value: it is the assignment of the active lanes if and only if the variable was false in all inactive lanes. In the scalar tail it is the assignment of the active lanes. (Finding: inactive lanes lose their value, unlike for numeric variables.)", "quantifier": "all masks and values", "why_tests_cant": "needs divergent lanes.", "anchors": ["include/nsimd/modules/spmd.hpp: k_set_"]}
{"id": "C49", "title": "x86 integer operators return the scalar result in every lane", "statement": "On SSE2, SSE4.2, AVX, AVX2, AVX-512 KNL and AVX-512 Skylake, for the eight integer types, the operators set1, add, sub, neg, mul, div, fma/fms/fnma/fnms, shl, shr, shra, andb/orb/xorb/andnotb/notb, eq/ne/lt/le/gt/ge, andl/orl/xorl/andnotl/notl/set1l, if_else1, min, max, abs, adds, subs, to_mask, to_logical, loadl, storel, all, any and nbtrue return in each lane the value of the corresponding mathematical operation (wrapped modulo 2^bits for the arithmetic ones, clamped for the saturated ones), whatever instruction sequence the extension needs. mul and the fused operators are undefined exactly when the product is computed by the scalar C operator on a signed type and overflows, div exactly on a zero divisor and on MIN/-1 of the 32- and 64-bit signed types. subs does not saturate correctly on the 32- and 64-bit signed types when the subtrahend is the smallest value: it returns clamp(a + MIN).", "quantifier": "all register contents, all masks, all shift amounts below the width, the six extensions and the eight integer types", "why_tests_cant": "2^128 to 2^1024 operand pairs per operator; the emulations (8-bit multiplication by 16-bit products, unsigned comparison by a shift of the origin, 64-bit comparison on SSE2, mask merging on KNL, branch-free saturation) are each correct only by an argument on all bit patterns.", "anchors": ["egg/platform_x86.py: set1, addsub, neg1, mul2, div2, fma_fms, shl_shr, shra, binop2, andnot2, not1, eq2, neq2, gt2, lt2, geq2, leq2, cmp2_with_add, split_cmp2, if_else1, minmax, abs1, adds, subs, to_mask1, to_logical1, loadl, storel, all_any, nbtrue1, get_emulation_code, get_lane, set_lane"]}
{"id": "C50", "title": "x86 structure loads and stores transpose without losing a member", "statement": "On every x86 extension and for every 8- to 64-bit element type, load2/3/4 and store2/3/4 (aligned and unaligned) move an array of structures to and from registers: there is one assignment p of structures to lanes, a permutation that depends only on the degree, the extension and the type and is the same for loads and stores, such that lane i of register k is member k of structure p(i). They touch exactly d registers of memory and nothing after it. Storing what was loaded restores the memory, loading what was stored returns the registers. Lane i is structure i for exactly the combinations of a given table (all of SSE2/SSE4.2 and degree 3; not, for instance, load2 of f32 on AVX/AVX2), so memory order is refuted in general.", "quantifier": "all byte contents of memory and registers, all memory sizes, 6 extensions x 10 types x 3 degrees", "why_tests_cant": "the repository's tests store back what they loaded or check one filled array; they cannot exclude a shuffle that is wrong for other bytes, and never look at the order of the structures.", "anchors": ["egg/x86_load_store_deg234.py: load2_sse, load2_avx, load2_avx512, load3_*, load4_*, store2, store3_*, store4_*", "egg/platform_x86.py: load_deg234, store_deg234, extract, setr"]}
{"id": "C51", "title": "trunc (C89 branch)", "statement": "nsimd_scalar_trunc_{f32,f64}, in the branch used without C99 libm, rounds every finite value toward zero keeping its sign (including the sign of zero results) and returns infinities and NaNs unchanged.", "quantifier": "all bit patterns of binary32 and binary64", "why_tests_cant": "2^32 and 2^64 inputs; the switch between floor and ceil happens at signed zeros.", "anchors": ["egg/scalar.py: trunc"]}
{"id": "C52", "title": "gather and scatter on one vector", "statement": "gather(base, idx) puts base[idx[i]] in lane i and reads nothing else; gather_linear(base, step) puts base[i*step]; scatter and scatter_linear write lane i there and nothing else, the highest lane winning when indices coincide.", "quantifier": "all memories, bases, index vectors, steps, vector lengths", "why_tests_cant": "all memories and index vectors.", "anchors": ["egg/platform_cpu.py: gather, gather_linear, scatter, scatter_linear"]}
{"id": "C53", "title": "Fixed-point square root", "statement": "For x > 0 whose raw value a satisfies (a + 2^rt + 2) * 2^rt fits the storage, sqrt returns the truncated root or the next number above it when 2^-12 <= x <= 2^12, and is never below the truncated root nor above it by more than max(one unit, (a + 2^rt)/2^10 units) otherwise. sqrt(0) is undefined; outside the stated range intermediate sums wrap (fp_t<4,2> sqrt(7.75) is wrong).", "quantifier": "all formats with rt <= 30 and all operands", "why_tests_cant": "the ten Newton iterations must be enough for every operand of every format.", "anchors": ["include/nsimd/modules/fixed_point/function/sqrt.hpp"]}
{"id": "C54", "title": "Fixed-point log2", "statement": "For lf >= 2 and a positive raw value below 2^s (s unused storage bits), log2 terminates and returns min(0, floor(log2 x)), an integer. It is not the logarithm in general: log2(4.0) = 0 in fp_t<8,8>, and in fp_t<12,2> log2(8.0) never returns.", "quantifier": "all formats with rt <= 30 and all such operands; all numbers of iterations for the divergence", "why_tests_cant": "non-termination and all formats.", "anchors": ["include/nsimd/modules/fixed_point/function/log.hpp"]}
{"id": "C55", "title": "Fixed-point conversions", "statement": "With rt <= 30: converting a finite float gives the nearest multiple of 2^-rt, ties away from zero, whenever it fits the storage; converting to float gives the correctly rounded float of raw / 2^rt; converting to float and back is the identity for |raw| <= 2^24 (and not beyond); integers |n| <= 2^24 convert exactly. With rt >= 31 every conversion is undefined.", "quantifier": "all formats, all floats, all raw values", "why_tests_cant": "2^32 floats times all formats.", "anchors": ["include/nsimd/modules/fixed_point/fixed.hpp"]}
{"id": "C56", "title": "x86 lane reversal code", "statement": "On every x86 extension and every element type except f16 (and except f64 on AVX-512, where the emitted code is not valid C), reverse returns the vector whose lane i is lane n-1-i of its argument, and reversing twice gives the argument back. On f16 each half of the vector is reversed in place instead, so that the result is not the reverse of the vector on any extension. (reverse is implemented for the x86 and CPU targets but is not declared as an operator of the API, so that this code is not reachable by users.)", "quantifier": "all x86 extensions (sse2, sse42, avx, avx2, avx512_knl, avx512_skylake), all element types, all register contents, all lanes", "why_tests_cant": "each combination is a different sequence of shuffles with hand written constants; a test checks a few vectors, and repeated or symmetric data hides a misplaced lane", "anchors": ["egg/platform_x86.py: reverse1"]}
{"id": "C57", "title": "x86 zip and unzip", "statement": "On every x86 extension and every element type (including f16), ziplo (ziphi) interleaves the lanes of the first (second) halves of its two arguments, unziplo (unziphi) gathers the lanes of even (odd) index of its two arguments, whatever its local buffers contained; and zip and unzip are inverse of each other in both orders.", "quantifier": "all x86 extensions, all element types, all register contents, all lanes, all initial contents of the local buffers", "why_tests_cant": "each combination is a different sequence of shuffles; a test with particular data cannot show that no lane is lost or duplicated for every content", "anchors": ["egg/platform_x86.py: zip_half, zip, unzip_half, unzip"]}
{"id": "C58", "title": "x86 loads, stores and masked loads and stores", "statement": "On every x86 extension and every element type, load returns the elements of memory in order and needs only the bytes of the vector; store writes exactly the lanes in order and no other byte; maskz_load and masko_load read exactly the elements whose mask lane is true (the others need not be accessible), and the other lanes are zero or come from the last argument; mask_store writes exactly the lanes whose mask lane is true, leaves every other byte unchanged and does not need it to exist. On f16 each lane is the single-precision copy of the half in memory, and stores round to the nearest half.", "quantifier": "all x86 extensions, all element types, all masks, all memory contents and layouts, all addresses, all register contents", "why_tests_cant": "the faults of a masked access depend on which bytes are mapped; a test runs in a memory where the neighbouring bytes exist and usually hold unrelated data", "anchors": ["egg/platform_x86.py: load, store, maskoz_load, mask_store, masko_load, maskz_load"]}
{"id": "C59", "title": "x86 iota and mask_for_loop_tail", "statement": "On every x86 extension and integer element type, lane k of iota() is k, and lane k of mask_for_loop_tail(i, n) is true exactly when i + k < n, for all ints i and n whose difference n - i is an int.", "quantifier": "all x86 extensions, all integer element types, all ints i and n with n - i an int, all lanes", "why_tests_cant": "the boundary i + k = n must be right for each of the 2^64 pairs (i, n), although n - i is converted to the element type", "anchors": ["egg/platform_x86.py: mask_for_loop_tail, iota"]}
{"id": "C60", "title": "x86 gather, scatter and their linear versions", "statement": "On every x86 extension and element type, lane i of gather(a, idx) is the element at a + idx[i] (a signed index, sign-extended from the width of the element) and lane i of gather_linear(a, step) the element at a + i*step; scatter writes lane i at a + idx[i], the highest lane winning on equal indices, and scatter_linear writes lane i at a + i*step (for step 0 the last lane stays); no other byte is read or written.", "quantifier": "all x86 extensions, all element types, all index vectors (repeated and negative too), all steps whose multiples are ints, all memory contents and layouts", "why_tests_cant": "repeated and negative indices and the bytes around each element are rarely exercised, and each width and extension has its own code", "anchors": ["egg/platform_x86.py: gather, scatter, gather_linear, scatter_linear"]}
{"id": "C61", "title": "x86 integer conversions keep order and wrap", "statement": "On every x86 extension, upcvt of an integer vector returns two vectors holding the first and second half of the elements in order, each converted to the type of twice the width; downcvt returns the elements of its first then of its second argument reduced modulo the width of the result type; cvt between types of the same width reinterprets each element; downcvt of the two results of upcvt is the original vector.", "quantifier": "all six x86 extensions, all pairs of integer types of the right widths (mixed signedness included), all register contents", "why_tests_cant": "The instruction sequences differ per extension and type pair (unpack with a sign mask, shuffles, register splitting, scalar loops); tests sample register contents and run on one machine.", "anchors": ["egg/platform_x86.py: upcvt1, downcvt1, convert1"]}
{"id": "C62", "title": "x86 cvt between integers and floats", "statement": "On every x86 extension cvt from an integer type gives the float nearest to each element (exact up to 24 or 53 bits). cvt from a float type gives, for values in range, the integer nearest to each element (ties to even) for f32 to i32 everywhere, f32 to u32 on AVX-512 and f64 to 64-bit integers on avx512_skylake, and the truncated value otherwise. (Hence the same program gives 2 or 1 for 1.5 depending on type and extension, whereas the CPU extension always truncates: refuted as stated by the API.)", "quantifier": "all six x86 extensions, f32 with i32/u32 and f64 with i64/u64, all register contents with values representable in the result type", "why_tests_cant": "The tests compare on integral values only, for which rounding and truncation agree.", "anchors": ["egg/platform_x86.py: convert1"]}
{"id": "C63", "title": "x86 widening and narrowing conversions with floats", "statement": "On every x86 extension: upcvt of integers to floats is exact; upcvt f32 to f64 is exact; downcvt f64 to f32 gives the nearest single (infinite from the middle of the last gap); downcvt of floats to integers truncates; upcvt f32 to 64-bit integers is right for values that fit the 32-bit type (and refuted beyond); downcvt of 64-bit integers to f32 gives the nearest float except for i64 on AVX-512, which gives the float of the element reduced to 32 bits (refuted); conversions of 8, 16 and 32-bit integers to f16 hold the exact or nearest single of each element in element order, conversions from f16 truncate or round as for f32, and 16-bit integers survive the way to f16 and back.", "quantifier": "all six x86 extensions, all type pairs with a float or f16 side, all register contents (values in range for conversions to integers)", "why_tests_cant": "Wrong results appear only for values outside the 32-bit range or for particular roundings; no finite sample of registers covers them, and most extensions are not available on one machine.", "anchors": ["egg/platform_x86.py: convert1, upcvt1, downcvt1"]}
{"id": "C64", "title": "x86 floating-point comparisons and selection", "statement": "On every x86 extension, lane i of eq, ne, gt, lt, ge and le on f32, f64 and f16 vectors is true exactly when the IEEE relation of the two elements (less, equal, greater, unordered) is the one of that name; -0.0 equals +0.0; with a NaN operand every comparison is false except ne, so ge is not the negation of lt (refuted). if_else1 takes element i, bit for bit, from its first operand where the logical is true and from its second where it is false.", "quantifier": "all six x86 extensions, f32, f64 and f16, all register contents and all logicals", "why_tests_cant": "The answers depend on all pairs of bit patterns of a lane, NaN's, signed zeros and infinities included, on each of six instruction sets, most of them not available on one machine.", "anchors": ["egg/platform_x86.py: eq2, neq2, gt2, lt2, geq2, leq2, if_else3"]}
{"id": "C65", "title": "x86 floating-point neg, abs, min and max", "statement": "On every x86 extension: neg flips the sign of each element (of NaN and zero too) as the scalar neg does; abs gives the absolute value with the sign bit cleared, which differs from the scalar abs on -0.0 (refuted); min (max) returns, bit for bit, the first element if it is strictly less (greater) than the second and the second one otherwise, as the scalar does, so that a NaN makes the result the second operand and min is not commutative (refuted).", "quantifier": "all six x86 extensions, f32, f64 and f16, all register contents", "why_tests_cant": "The answers depend on all pairs of bit patterns of a lane, NaN's, signed zeros and infinities included, on each of six instruction sets, most of them not available on one machine.", "anchors": ["egg/platform_x86.py: neg1, abs1, minmax", "egg/scalar.py: get_impl (abs, min, max, neg)"]}
{"id": "C66", "title": "x86 floor, ceil, trunc and round_to_even on floats", "statement": "On every x86 extension, by instruction or by emulation, floor, ceil, trunc and round_to_even map each finite element to the float of the same sign whose value is the integer just below, just above, toward zero, or nearest with ties to even; infinities stay and NaN stays NaN. The result pattern of a finite element is the same on every extension.", "quantifier": "all six x86 extensions, f32, f64 and f16, all register contents", "why_tests_cant": "2^32 and 2^64 patterns per lane; SSE2 goes through scalar C code, AVX-512 trunc through floor, ceil and a comparison: no sample shows they agree everywhere.", "anchors": ["egg/platform_x86.py: round1, trunc1, round_to_even1", "src: nsimd_scalar_floor, nsimd_scalar_ceil, nsimd_scalar_trunc"]}
{"id": "C67", "title": "x86 addv on floats", "statement": "On every x86 extension addv adds each element exactly once, in a fixed order depending on the extension only, with correctly rounded additions; f16 vectors are added in single precision and rounded once to a half. If the elements are multiples of a power of two and the sum of their absolute values fits in a significand, the result is the exact sum. In general the result differs from the left-to-right sum of the emulation (refuted).", "quantifier": "all six x86 extensions, f32, f64 and f16, all register contents", "why_tests_cant": "Sums of arbitrary patterns: a lane added twice or lost shows only on particular contents, and rounding hides small errors.", "anchors": ["egg/platform_x86.py: addv"]}
{"id": "C68", "title": "x86 logicals of floating-point vectors", "statement": "On every x86 extension, for f32, f64 and f16: all, any and nbtrue tell whether all, whether some, and how many lanes are true; to_mask gives all-ones or zero patterns; to_logical is true where the bits are not zero (-0.0 is true); loadl is true where the value in memory is not zero (-0.0 is false), except on f16 with AVX-512 where the bits decide, so loadl on f16 is not portable (refuted); storel writes 1.0 and 0.0 and nothing else in memory; loadl after storel gives the logical back; iota holds 0.0, 1.0, ...; mask_for_loop_tail(i, n) is true on lane k exactly when i + k < n; set1 fills all the lanes.", "quantifier": "all six x86 extensions, all float types, all logicals, memories, addresses, loop bounds with n - i in the int range", "why_tests_cant": "Ranges over all masks, all memory contents and all loop bounds, on instruction sets most machines lack.", "anchors": ["egg/platform_x86.py: all_any, nbtrue1, to_mask1, to_logical1, loadl, storel, iota, mask_for_loop_tail, set1, set1l"]}
{"id": "C69", "title": "x86 reinterpret and reinterpretl of f16", "statement": "On every x86 extension, reinterpreting 16-bit integers as f16 gives the single precision copies of the halves with those patterns, in order; the way back gives the halves nearest to the elements; there and back keeps every pattern that is not a NaN and NaN stays NaN. reinterpretl keeps the truth value of every lane in both directions.", "quantifier": "all six x86 extensions, all register contents and logicals", "why_tests_cant": "65536 patterns in every lane position of six register layouts, and all masks.", "anchors": ["egg/platform_x86.py: reinterpret1, reinterpretl1"]}
{"id": "C70", "title": "ARM integer arithmetic", "statement": "On every ARM extension add, sub, mul, neg and abs give in every lane the exact result modulo 2^n, min and max the smaller and larger element, adds and subs the exact result clamped to the range of the type, set1 its argument in every lane, and len the number of elements of the register. The operations which are done by a C loop (mul on 64-bit elements on NEON; neg and abs of i64 on neon128) are instead undefined exactly when a signed lane overflows.", "quantifier": "neon128, aarch64 and SVE with every vector length (and emulated logicals), the eight integer types, all register contents, all values left by the hardware in inactive lanes", "why_tests_cant": "2^128 and more register contents, vector lengths up to 2048 bits that no single machine has; tests compare with the same loop on random values.", "anchors": ["egg/platform_arm.py: addsub, mul2, neg1, abs1, minmax2, adds, subs, set1, len1, emulate_op1, emulate_op2"]}
{"id": "C71", "title": "ARM integer division", "statement": "On every ARM extension div gives in every lane the quotient truncated towards zero. On NEON and for 8 and 16-bit elements on SVE it is undefined exactly when some lane divides by zero or the smallest value by -1; for 32 and 64-bit elements on SVE these lanes give 0 and the smallest value, and the other lanes are not affected.", "quantifier": "neon128, aarch64 and SVE with every vector length (and emulated logicals), the eight integer types, all register contents, all values left by the hardware in inactive lanes", "why_tests_cant": "All pairs of elements in all lanes; the exceptional pairs are never drawn by the tests.", "anchors": ["egg/platform_arm.py: div2, emulate_op2"]}
{"id": "C72", "title": "ARM bitwise operators and shifts", "statement": "On every ARM extension andb, orb, xorb, andnotb (a and not b) and notb act on every bit independently; for counts 0 <= c < n shl multiplies by 2^c modulo 2^n, shr divides the unsigned pattern by 2^c rounding down, shra divides the signed value by 2^c rounding down.", "quantifier": "neon128, aarch64 and SVE with every vector length (and emulated logicals), the eight integer types, all register contents, all values left by the hardware in inactive lanes, all valid counts", "why_tests_cant": "All patterns and counts, for eight types and unboundedly many vector lengths.", "anchors": ["egg/platform_arm.py: binop2, not1, shl_shr, shra"]}
{"id": "C73", "title": "ARM comparisons, logicals, selection", "statement": "On every ARM extension eq, ne, lt, le, gt, ge are true exactly in the lanes whose elements compare so (signed or unsigned as the type); andl, orl, xorl, andnotl, notl act lane by lane; if_else takes in every lane the second or third operand according to the logical; all, any and nbtrue see exactly the lanes of the vector; to_mask gives all ones or zero; to_logical is true exactly in the lanes with a nonzero element. On SVE the result does not depend on predicate bits that do not belong to a lane.", "quantifier": "neon128, aarch64 and SVE with every vector length (and emulated logicals), the eight integer types, all register contents, all values left by the hardware in inactive lanes, all logicals", "why_tests_cant": "Logicals are represented in three ways (vector masks, predicates with one bit per byte, emulated vectors); all of their contents must be covered.", "anchors": ["egg/platform_arm.py: cmp2, neq2, lop2, lnot1, if_else3, allany1, nbtrue1, to_mask1, to_logical1, lset1, convert_to_predicate, convert_from_predicate"]}
{"id": "C74", "title": "ARM multiply-add operators on integers", "statement": "On every ARM extension fma, fnma, fms and fnms give ab+c, -ab+c, ab-c and -ab-c modulo 2^n in every lane; for 64-bit elements on NEON, where a C loop is used, they are undefined exactly when one of the intermediate results of a signed lane overflows.", "quantifier": "neon128, aarch64 and SVE with every vector length (and emulated logicals), the eight integer types, all register contents, all values left by the hardware in inactive lanes", "why_tests_cant": "All triples of elements in all lanes; the argument order of vmla/svmla/svmad variants only shows on asymmetric inputs.", "anchors": ["egg/platform_arm.py: fmafnma3, fmsfnms3, emulate_op3_neon"]}
{"id": "C75", "title": "ARM iota and mask_for_loop_tail", "statement": "On every ARM extension iota gives the index of every lane (modulo 2^n), and mask_for_loop_tail(i, n) is true exactly in the lanes j with i + j < n, except with i8 elements on SVE vectors of more than 128 elements: there, whenever at least 128 elements but less than a full vector remain, the first lane is left out.", "quantifier": "neon128, aarch64 and SVE with every vector length (and emulated logicals), the eight integer types, all register contents, all values left by the hardware in inactive lanes, all i and n whose difference is an int", "why_tests_cant": "All loop positions at all vector lengths; the failing case needs a vector of more than 1024 bits.", "anchors": ["egg/platform_arm.py: iota, mask_for_loop_tail"]}
{"id": "C76", "title": "ARM reverse", "statement": "reverse puts element n-1-i of its argument in position i for every i, where n is the number of elements of the vector; applying it twice gives back the argument.", "quantifier": "neon128, aarch64 and SVE with every vector length, every element type (integers, f32, f64, f16 native or stored as two registers of singles), all register contents", "why_tests_cant": "Holds for all register contents and all SVE vector lengths; it is composed of different instructions for every element width and extension.", "anchors": ["egg/platform_arm.py: reverse1"]}
{"id": "C77", "title": "ARM zip and unzip", "statement": "ziplo and ziphi interleave the lower and upper halves of their arguments, unziplo and unziphi gather the even and odd elements, zip and unzip return both results; unzip undoes zip and zip undoes unzip.", "quantifier": "neon128, aarch64 and SVE with every vector length, every element type (integers, f32, f64, f16 native or stored as two registers of singles), all register contents", "why_tests_cant": "All register contents at all vector lengths; neon128 has no 64-bit forms and splits registers by hand.", "anchors": ["egg/platform_arm.py: zip_unzip_half, zip_unzip"]}
{"id": "C78", "title": "ARM loads and stores of degrees 1 to 4", "statement": "On every ARM extension load fills element i of the vector with the i-th element of memory and store writes it back there; load2, load3 and load4 (store2, store3, store4) read (write) element i of the j-th vector at element i*deg + j of memory. Only these elements are accessed, the rest of memory is unchanged, and loading what was stored gives the same vectors. f16 elements are widened exactly on the way in and rounded on the way out when the vector holds singles.", "quantifier": "neon128, aarch64 and SVE with every vector length, every element type (integers, f32, f64, f16 native or stored as two registers of singles), all memories, addresses and register contents, all degrees", "why_tests_cant": "All memories and register contents at all vector lengths; neon128 goes element by element for 64-bit types and f16 through arrays.", "anchors": ["egg/platform_arm.py: load1234, store1234"]}
{"id": "C79", "title": "ARM masked loads and stores, loads and stores of logicals", "statement": "On every ARM extension a masked load reads exactly the elements whose lane is true and takes the others from zero or from the given vector; a masked store writes exactly the elements whose lane is true; elements of false lanes need not exist in memory. loadl gives a logical that is true exactly where the element in memory is not zero, and storel writes 1 and 0.", "quantifier": "neon128, aarch64 and SVE with every vector length, every element type (integers, f32, f64, f16 native or stored as two registers of singles), all memories, addresses and register contents, all logicals", "why_tests_cant": "All masks over all memories, including memory that ends in the middle of the vector.", "anchors": ["egg/platform_arm.py: maskoz_load, mask_store, loadl, storel"]}
{"id": "C80", "title": "ARM gathers and scatters", "statement": "On every ARM extension gather reads and scatter writes the element of memory at the signed index held by each lane, and the linear forms at i * step; nothing else is accessed or changed. When several lanes of a scatter have the same index the highest lane wins on NEON and for 8- and 16-bit elements on SVE; for 32- and 64-bit elements on SVE the result is only guaranteed for indices that no other lane has, whatever the order in which the hardware writes the lanes.", "quantifier": "neon128, aarch64 and SVE with every vector length, every element type (integers, f32, f64, f16 native or stored as two registers of singles), all memories, addresses and register contents, all indices and steps, all orders of the writes of an SVE scatter", "why_tests_cant": "All index vectors with duplicates, all hardware orders, all vector lengths.", "anchors": ["egg/platform_arm.py: gather, gather_linear, scatter, scatter_linear"]}
{"id": "C81", "title": "ARM integer conversions", "statement": "On every ARM extension upcvt turns a vector of integers into two vectors of elements of twice the width, the first half of the elements in order in the first and the second half in the second, downcvt puts two vectors into one of half the width in order, and cvt keeps the width; every element is converted as in C between integer types (modulo the width of the target), and downcvt undoes upcvt.", "quantifier": "neon128, aarch64 and SVE with every vector length, all pairs of integer types with the required widths, all register contents, all contents of the unspecified lanes of predicated instructions", "why_tests_cant": "All element values and all vector lengths.", "anchors": ["egg/platform_arm.py: convert1, upcvt1, downcvt1"]}
{"id": "C82", "title": "ARM conversions between integers and floats of the same width", "statement": "On every ARM extension cvt from integers gives the float nearest to each element; cvt from floats to integers truncates toward zero and saturates, a NaN giving 0, for every input, except from f64 on neon128 where it is a C cast: defined exactly when every truncated element is representable, and then equal to it.", "quantifier": "neon128, aarch64 and SVE with every vector length, f32 and f64, all integer types of that width, all register contents including NaN and infinities", "why_tests_cant": "2^32 and 2^64 inputs per lane, on hardware of every vector length; undefined behaviour cannot be observed by a test.", "anchors": ["egg/platform_arm.py: convert1"]}
{"id": "C83", "title": "ARM width-changing conversions with floats, conversions of f16", "statement": "On every ARM extension upcvt from integers to floats of twice the width gives the nearest float, upcvt from f32 to f64 is exact, and upcvt from f32 to 64-bit integers truncates and saturates (on neon128 for representable values); downcvt from f64 to f32 gives the nearest single, downcvt from floats to integers truncates and saturates in the type of the width of the source and reduces the result modulo the width of the target; downcvt from 64-bit integers to f32 gives the nearest single on SVE, while on NEON the integer is rounded to a double first, so that the nearest single is guaranteed only up to 2^53 in magnitude. On NEON vectors of f16 kept as two registers of singles, conversions from integers are exact or nearest in single precision, conversions to integers truncate, and reinterpreting 16-bit integers as f16 and back keeps every pattern but the payload of NaNs.", "quantifier": "neon128, aarch64 and SVE with every vector length, all element types with the required widths, all register contents", "why_tests_cant": "All inputs; double rounding shows for a few integers out of 2^64 only.", "anchors": ["egg/platform_arm.py: convert1, upcvt1, downcvt1, reinterpret1, reinterpretl1"]}
{"id": "C84", "title": "ARM float comparisons and selection", "statement": "On every ARM extension eq, ne, lt, le, gt and ge of floats give, element by element, the logical of the IEEE comparison: all but ne are false and ne is true when an element is NaN, and the two zeros are equal; andl, orl, xorl, andnotl and notl are the operations on truth values, and if_else1 returns the pattern of the element its logical selects. The f16 vectors kept as two registers of singles behave as the comparisons of the singles.", "quantifier": "neon128, aarch64 and SVE with every vector length, f16, f32 and f64 (f16 as halves or as pairs of registers of singles), all register contents, whatever the instructions leave unspecified", "why_tests_cant": "All patterns, NaNs, infinities and zeros included, at every position of vectors of every length.", "anchors": ["egg/platform_arm.py: cmp2, neq2, lop2, not1, if_else3, f16f64"]}
{"id": "C85", "title": "ARM float neg, abs, min and max", "statement": "On every ARM extension neg flips the sign; abs is the absolute value (a zero becomes +0) and min and max are the IEEE 754-2019 minimum and maximum (NaN when an operand is NaN, -0 below +0, commutative), except for f64 on neon128, where abs leaves the sign of a zero, min returns its first operand only when it is less than the second and max only when it is greater. The results are therefore not portable across ARM extensions, nor between ARM and x86.", "quantifier": "neon128, aarch64 and SVE with every vector length, f16, f32 and f64 (f16 as halves or as pairs of registers of singles), all register contents, whatever the instructions leave unspecified", "why_tests_cant": "All pairs of patterns; tests exclude NaN and do not tell the zeros apart.", "anchors": ["egg/platform_arm.py: neg1, abs1, minmax2, f16f64"]}
{"id": "C86", "title": "ARM rounding to integers", "statement": "On every ARM extension floor, ceil, trunc and round_to_even return for each finite element the integer the operation names, with the sign of the element when it is zero, and keep infinities and NaNs; the emulation of neon128 and the instructions of the others agree.", "quantifier": "neon128, aarch64 and SVE with every vector length, f16, f32 and f64 (f16 as halves or as pairs of registers of singles), all register contents, whatever the instructions leave unspecified", "why_tests_cant": "All patterns, subnormals and integers beyond the significand included.", "anchors": ["egg/platform_arm.py: round1, trunc1, round_to_even1"]}
{"id": "C87", "title": "ARM addv on floats", "statement": "addv adds each element exactly once, in an order that depends on the extension only (SVE completing the vector with zeros up to a power of two), each addition being rounded to nearest; when all the partial sums fit in a significand the result is the exact sum on every extension; f16 pairs are summed in single precision and rounded once to a half. The f16 version of NEON with native halves does not compute the sum.", "quantifier": "neon128, aarch64 and SVE with every vector length, f16, f32 and f64 (f16 as halves or as pairs of registers of singles), all register contents, whatever the instructions leave unspecified", "why_tests_cant": "All vectors of every length; the loss of four elements shows only when they are not symmetric.", "anchors": ["egg/platform_arm.py: addv"]}
{"id": "C88", "title": "ARM logicals of floats: reductions, masks, memory, loop tails", "statement": "On float logicals all, any and nbtrue quantify over and count the true elements; to_mask gives all ones or zero, to_logical tests the bits, set1 and set1l fill every element, loadl tests the value against zero (-0.0 is false) and storel writes 1.0 and 0.0 and nothing else, so that loadl reads back what storel wrote; iota counts exactly, and mask_for_loop_tail(i, n) is true of the element k exactly when i + k < n. The same of f16.", "quantifier": "neon128, aarch64 and SVE with every vector length, f16, f32 and f64 (f16 as halves or as pairs of registers of singles), all register contents, whatever the instructions leave unspecified, all memories and addresses", "why_tests_cant": "All logicals, memories, addresses and loop bounds, at every vector length.", "anchors": ["egg/platform_arm.py: allany1, nbtrue1, to_mask1, to_logical1, set1, set1l, loadl, storel, iota, mask_for_loop_tail"]}
{"id": "C89", "title": "Scalar float arithmetic is correctly rounded in every format and standard", "statement": "The scalar add, sub, mul, div, sqrt, rec, rec8 and rec11 (and adds, subs) on f16, f32 and f64 return, for every pair of bit patterns, the number of the type nearest to the exact result, ties to the even pattern, with the IEEE-754 results on zeros, infinities and NaNs. This holds although the f16 operators work in f32 and convert, and although the C89 square root of f32 works in double: the two roundings are never seen. The result is unique up to the payload of a NaN.", "quantifier": "all pairs of bit patterns of f16, f32 and f64, C89 and C99 builds", "why_tests_cant": "There are 2^64 pairs of singles and 2^128 pairs of doubles; that two successive roundings agree with one depends on distances to midpoints that random tests almost never meet.", "anchors": ["egg/scalar.py: opnum, libm_opn, get_impl", "src/fp16.cpp: nsimd_u16_to_f32, nsimd_f32_to_u16"]}
{"id": "C90", "title": "Scalar multiply-add: where it rounds once and where twice", "statement": "The scalar fma, fms, fnma, fnms of f32 and f64 return a*b+c, a*b-c, -a*b+c, -a*b-c rounded once when built as C99 or C++11, and with the product rounded first when built as C89. On f16 both builds return the same result: the value rounded once in single precision and then to half, which is the half nearest to the exact value unless the single lies exactly between two neighbouring halves. The f16 operators are not fused operations of f16 (refuted with a witness), and the C89 and C99 builds disagree on f32 (refuted with a witness).", "quantifier": "all triples of bit patterns of f16, f32 and f64, C89 and C99 builds, the four operators", "why_tests_cant": "The results differ from the fused ones only on rare triples (two roundings in the same direction across a midpoint); agreement for all 2^48 to 2^192 triples cannot be sampled.", "anchors": ["egg/scalar.py: libm_opn, get_impl (fma, fms, fnma, fnms)"]}
{"id": "C91", "title": "Scalar float neg, abs, min, max, comparisons, floor, ceil, trunc and rsqrt", "statement": "On f16, f32 and f64 patterns: neg returns the opposite; abs the absolute value, except that -0.0 stays -0.0; min returns its first argument when that is less and otherwise the second, max likewise; the six comparisons follow the IEEE order with NaN unordered; floor, ceil and trunc return the integral number on the right side with the sign of the argument, in C89 and C99 builds, with or without the library trunc; rsqrt is 1/sqrt with the root and the quotient rounded (on f16 in single precision, then converted to half).", "quantifier": "all bit patterns of f16, f32 and f64, C89, C99 and C++11 builds", "why_tests_cant": "Properties of every pattern of three formats; the C89 code goes through double and f16 through single, so that each claim is about the composition with conversions.", "anchors": ["egg/scalar.py: opnum, cmp, libm_opn, get_impl"]}
{"id": "C92", "title": "x86 float vectors: add, sub, mul, div, sqrt and rec are correctly rounded in every lane", "statement": "On sse2 to avx512_skylake, every lane of add, sub, mul, div, adds, subs, sqrt and rec on f32 and f64 vectors is the number nearest to the exact result, ties to even, with the IEEE-754 results on zeros, infinities and NaNs; rec11 and rsqrt11 of f64 on SSE and AVX are not approximations but 1/x and 1/sqrt(x) with each step so rounded. On f16 vectors the lanes are singles and are rounded as singles; a load, one operator and a store write the correctly rounded half, the same bits as the scalar f16 operator, and touch nothing else. Two f16 operators without a store in between do not give what two scalar f16 operators give (refuted with a witness).", "quantifier": "all six x86 extensions, all registers, all lanes, all byte memories and addresses", "why_tests_cant": "2^64 to 2^128 operand pairs per lane; the f16 claim is about three successive roundings for every pair of halves.", "anchors": ["egg/platform_x86.py: how_it_should_be_op2, addsub, div2, mul2, adds, subs, sqrt1, rec1, rec11_rsqrt11"]}
{"id": "C93", "title": "x86 float vectors: fma family rounds once with FMA or AVX-512 and twice without", "statement": "fma, fms, fnma and fnms of f32 and f64 vectors return a*b+c, a*b-c, -a*b+c, -a*b-c in every lane with a single rounding when the extension is AVX-512 or NSIMD_FMA is defined, and with the product rounded first otherwise; the two builds disagree on f32 (refuted with a witness). On f16 vectors they work on singles in the same way, and a load of the three vectors, the operator and a store write exactly the half that the scalar f16 operator returns, with or without NSIMD_FMA, in C89 and C99.", "quantifier": "all six x86 extensions, with and without NSIMD_FMA, all registers, lanes, memories, the four operators", "why_tests_cant": "Fused and unfused results differ on rare triples only; on halves they never differ, which is a claim about 2^48 triples.", "anchors": ["egg/platform_x86.py: fma_fms"]}
{"id": "C94", "title": "ARM float vectors: add, sub, mul, div, sqrt, rec, rec11 and rsqrt11", "statement": "On neon128, aarch64 and SVE of every vector length, every lane of add, sub, mul, div, sqrt, rec and rec11 on f32, f64 and native f16 vectors is correctly rounded with the IEEE-754 special results, and rsqrt11 is 1/sqrt(x) with both steps so rounded, whether neon128 takes the square root of a float or of a double; rec11 and rsqrt11 are not approximations. On f16 vectors held as two registers of singles the lanes are rounded as singles, and a load, one operator and a store write the correctly rounded half, the same bits as the scalar operator for add, sub, mul and div. (The unit is assumed not to flush subnormal numbers to zero.)", "quantifier": "neon128, aarch64, every SVE length, all registers including unspecified lanes, all lanes, C89 and C99", "why_tests_cant": "Vector lengths are unbounded and operand pairs number 2^32 to 2^128 per lane.", "anchors": ["egg/platform_arm.py: addsub, mul2, div2, sqrt1, recs1, emulate_f64_neon, emulate_op2"]}
{"id": "C95", "title": "ARM float vectors: where the fma family rounds once, twice or in single precision", "statement": "fma, fms, fnma and fnms round once on f32 and f64 for aarch64, on f16, f32 and f64 for SVE of every length, and on f64 for neon128 in C99; neon128 rounds the product first on f32, and on f64 in C89. On native f16 vectors of aarch64 a lane is the value fused in single precision and converted to half, the nearest half unless that single lies exactly between two neighbouring halves. On f16 as two registers of singles, a load of the three vectors, the operator and a store write the number that the scalar f16 operator returns. So neon128 and aarch64 disagree on f32, and aarch64 and SVE disagree on f16 (both refuted with witnesses).", "quantifier": "neon128, aarch64, every SVE length, the four operators, all registers and lanes, C89 and C99", "why_tests_cant": "The single and double roundings differ on rare triples only, and the f16 agreement is a claim about 2^48 triples and all standards.", "anchors": ["egg/platform_arm.py: fmafnma3, fmsfnms3, emulate_op3_neon"]}
{"id": "C96", "title": "CPU back end: float and f16 vectors lane by lane", "statement": "For every number of lanes, every lane of add, sub, mul, div, adds, subs, sqrt and rec on vectors of the emulated CPU back end is correctly rounded (f16 lanes are singles and rounded as such), rsqrt11 is 1/sqrt(x) with both steps rounded, the fma family rounds once in C99 and twice in C89, neg is the opposite, abs the absolute value except that -0.0 is kept, min and max return their second argument when the operands do not compare, floor, ceil and trunc round to the right integral number; none is ever undefined.", "quantifier": "every number of lanes, all patterns in every lane, f16, f32 and f64, C89, C99 and C++11", "why_tests_cant": "The number of lanes is a build parameter and operands number 2^32 to 2^192 per lane.", "anchors": ["egg/platform_cpu.py: op2, scalar_impl, func_body, get_type", "egg/scalar.py: get_impl"]}
{"id": "C97", "title": "All back ends give the same float results", "statement": "For f32 and f64, the same two bit patterns placed in any lane of an x86 vector (any extension), an ARM vector (any extension and length) or a CPU vector (any number of lanes) give the same number under add, sub, mul and div, also the one the scalar operator returns, up to the payload of a NaN; so do sqrt and rec, in either C standard. For the fma family all the builds that round once agree with each other and with the C99 scalar operator, and all those that round twice agree with each other and with the C89 one.", "quantifier": "all bit patterns, all extensions of x86 and ARM, every SVE length, every number of CPU lanes, all lane positions", "why_tests_cant": "A comparison of machines that are never present together, over all operands and vector lengths.", "anchors": ["egg/platform_x86.py", "egg/platform_arm.py", "egg/platform_cpu.py", "egg/scalar.py"]}
{"id": "C98", "title": "POWER vectors: integer arithmetic element by element", "statement": "On vmx and vsx, every element of add, sub, mul, neg, abs, min, max, adds, subs, div, fma, fms, fnma and fnms of integer vectors is the exact result wrapped to the element type (clamped for adds and subs, rounded toward zero for div). The exceptions are exactly: add, sub, mul, neg, abs and the fma family of i64 on vmx when a step of the computation overflows in some element; subs of i64 when an element of the second operand is the least i64; div by zero or overflowing in some element. There the operation has no defined result.", "quantifier": "vmx and vsx, the eight integer types, all vectors, all elements", "why_tests_cant": "2^128 to 2^384 operands; the undefined cases cannot be observed by running.", "anchors": ["egg/platform_ppc.py: simple_op2, div2, minmax2, abs1, neg1, fma, add_sub_s, emulate_64, emulate_with_scalar"]}
{"id": "C99", "title": "POWER vectors: bitwise operators, shifts and broadcast", "statement": "On vmx and vsx, andb, orb, xorb, andnotb and notb act on each of the 128 bits, shl and shr shift each element by the count with zeros inserted, shra of signed elements divides by the power of two rounding down, and set1 repeats its argument. shra of unsigned elements shifts zeros in only for u64 on vmx: on the other unsigned types, and for u64 on vsx, it replicates the most significant bit, so every element of the upper half of the range gives a result different from that of every other back end (refuted with the exact result).", "quantifier": "vmx and vsx, the eight integer types, all vectors, all elements, all counts below the width", "why_tests_cant": "All 2^128 vectors and all counts.", "anchors": ["egg/platform_ppc.py: binary_op2, not1, shift2, set1"]}
{"id": "C100", "title": "POWER vectors: comparisons, logicals, selection, reductions and masks", "statement": "On vmx and vsx, eq, ne, lt, le, gt and ge of integer vectors give well-formed logicals (all ones or all zeros per element) holding the truth value of the comparison of the elements; andl, orl, xorl, andnotl, notl and set1l combine logicals element by element and keep them well-formed; if_else1 selects by element; all, any and nbtrue are the universal, existential and counting reductions; to_mask gives -1 and 0 and to_logical is the test against zero.", "quantifier": "vmx and vsx, the eight integer types, all vectors, all well-formed logicals", "why_tests_cant": "All 2^256 pairs of vectors and every assignment of truth values.", "anchors": ["egg/platform_ppc.py: cmp2, logical_op2, lnot1, lset1, if_else3, allany1, nbtrue1, to_mask, to_logical"]}
{"id": "C101", "title": "POWER vectors: iota and the mask of a loop tail", "statement": "On vmx and vsx, iota holds i in element i, and mask_for_loop_tail(i, n) is true exactly at the elements j with i + j < n, whenever n <= i or n - i fits an int; otherwise the subtraction overflows and the result is undefined.", "quantifier": "vmx and vsx, the eight integer types, all integers i and n", "why_tests_cant": "All pairs of bounds, including those on the limits of int.", "anchors": ["egg/platform_ppc.py: iota, mask_for_loop_tail"]}
{"id": "C102", "title": "POWER vectors: reverse, zip and unzip", "statement": "On vmx and vsx, for every integer type, f32 and f64, element i of reverse is element n-1-i and reverse twice is the identity; ziplo, ziphi interleave the low and high halves of two vectors, unziplo, unziphi collect their even and odd elements, zip and unzip return both and are inverse of each other; zip and unzip of f16 do the same on their eight elements. reverse of f16 reverses each half of the vector in place without exchanging the two halves: element i is element 3-i for i < 4 and 11-i otherwise, which is not the reverse of the API (refuted).", "quantifier": "vmx and vsx, the ten integer and float types and f16, all vectors, all elements", "why_tests_cant": "2^128 to 2^256 operands; the permutation masks are byte tables, one wrong byte shows only for some contents.", "anchors": ["egg/platform_ppc.py: reverse1, zip_unzip_basic, zip, unzip"]}
{"id": "C103", "title": "POWER vectors: loads and stores of one to four interleaved vectors", "statement": "On vmx and vsx, loada, loadu, load2a to load4u put element i*deg+j of memory in element i of vector j, storea to store4u write it back there and nothing outside, and loading what has been stored gives the same vectors, at every address that is a multiple of 16 bytes, and at any address for the 64-bit types and f16. At an address that is not a multiple of 16, loadu and storeu of the 8, 16 and 32-bit types dereference a misaligned pointer to a vector and have no defined result (refuted).", "quantifier": "vmx and vsx, the ten integer and float types and f16, degrees 1 to 4, all memories and addresses, all vectors", "why_tests_cant": "All memory contents and addresses; the undefined case cannot be observed by running.", "anchors": ["egg/platform_ppc.py: load1234, store1234"]}
{"id": "C104", "title": "POWER vectors: masked loads and stores, logicals in memory", "statement": "On vmx and vsx, maskz_load and masko_load read only the elements whose lane of the logical is true, and put zero or the element of the other vector elsewhere; mask_store writes these elements and no other byte; the rest of the memory need not exist. f16 included. For integers, loadla and loadlu give the logical telling which elements are not zero, storela and storelu write 1 and 0.", "quantifier": "vmx and vsx, the ten integer and float types and f16, all well-formed logicals, all memories and addresses (of vectors for the logicals in memory)", "why_tests_cant": "Every assignment of truth values and every set of unmapped addresses.", "anchors": ["egg/platform_ppc.py: maskoz_load, mask_store, loadl, storel"]}
{"id": "C105", "title": "POWER vectors: gathers and scatters", "statement": "On vmx and vsx, gather reads for each element the one its index designates, gather_linear the one at i*step, scatter and scatter_linear write there and nowhere else, the highest lane winning where two coincide; scatter, gather_linear and scatter_linear of f16 do the same. gather of f16 puts in every element the one designated by the first index (refuted).", "quantifier": "vmx and vsx, the ten integer and float types and f16, all memories, addresses, indices and steps whose offsets fit an int", "why_tests_cant": "All index vectors, with coincidences, over all memories.", "anchors": ["egg/platform_ppc.py: gather, gather_linear, scatter, scatter_linear"]}
{"id": "C106", "title": "POWER vectors: conversions between integer types", "statement": "On vmx and vsx, upcvt gives two vectors holding the first and the second half of the elements, in order, converted to the type of twice the width; downcvt gives the elements of its first argument then those of the second, each reduced modulo 2^width; cvt between types of the same width keeps values modulo 2^width; narrowing what was widened gives back the vector.", "quantifier": "vmx and vsx, all pairs of integer types of the right widths, all vectors, all elements", "why_tests_cant": "2^128 operands; the unsigned types are sign extended and masked, which differs only for elements with the top bit set.", "anchors": ["egg/platform_ppc.py: convert1, upcvt1, downcvt1"]}
{"id": "C107", "title": "POWER vectors: conversions between integers and floats of the same width", "statement": "On vmx and vsx, cvt from an integer type gives the float nearest to each element, ties to even. cvt to an integer type truncates toward zero and saturates, for every input: infinities give the bounds of the type and a NaN gives 0 (the least integer for i64); except on vmx for f64, where it is a C cast whose result is defined exactly when every truncated value is in range, and is then that value.", "quantifier": "vmx and vsx, f32 and f64, the integer types of the same width, all vectors including infinities and NaN", "why_tests_cant": "All bit patterns of the floats; the undefined case cannot be observed by running.", "anchors": ["egg/platform_ppc.py: convert1"]}
{"id": "C108", "title": "POWER vectors: conversions that change the width of floats, and f16", "statement": "On vmx and vsx: upcvt of integers to floats gives the nearest floats, upcvt of f32 to f64 is exact, upcvt of f32 to 64-bit integers and downcvt of f64 to 32-bit integers are C casts, defined exactly when every truncated value is in range, and then that value; downcvt of f64 to f32 and of 64-bit integers to f32 rounds once to nearest; downcvt of f32 to 16-bit integers saturates to 32 bits and is then reduced modulo 2^16, so it is the truncated value whenever that fits. cvt, upcvt and downcvt to f16 give the nearest singles in the element order of f16 vectors, those from f16 truncate, saturate to 32 bits and reduce; reinterpret between f16 and 16-bit integers converts each element between half and single precision and the round trip keeps every pattern (a NaN stays a NaN); reinterpretl keeps the truth of every lane.", "quantifier": "vmx and vsx, all pairs of types of the right widths and f16, all vectors including infinities and NaN, all well-formed logicals", "why_tests_cant": "All bit patterns; double rounding and wrapping show only for rare values; the undefined cases cannot be observed by running.", "anchors": ["egg/platform_ppc.py: convert1, upcvt1, downcvt1, reinterpret1, reinterpretl1"]}
{"id": "C109", "title": "POWER float vectors: comparisons and selection", "statement": "On vmx and vsx, the six comparisons of f32, f64 and f16 vectors give, lane by lane, the IEEE comparison of the elements: every comparison with a NaN is false except ne, which is true, and the zeros are equal. andl, orl, xorl, notl and andnotl act on the truth of each lane and if_else1 takes each element, bit for bit, from its second argument where the logical is true and from its third elsewhere.", "quantifier": "vmx and vsx, f32, f64 and f16, all vectors including NaN, infinities and zeros, all well-formed logicals", "why_tests_cant": "All bit patterns of both operands in every lane; the classes of special values interact.", "anchors": ["egg/platform_ppc.py: cmp2, neq2, lop2, lnot1, if_else3"]}
{"id": "C110", "title": "POWER float vectors: bitwise operators, neg, abs, min and max", "statement": "On vmx and vsx, the bitwise operators on floats act on the bit patterns, neg flips the sign of every element (also of zeros) and abs clears it; except that abs of f64 on vmx is a C comparison with 0 and keeps -0.0. min and max give the lesser and the greater of two numbers, -0.0 being less than 0.0 in the instructions; with a NaN the result is a NaN for f32 on vmx, the other operand on vsx (NaN if signaling), and the C comparison for f64 on vmx: without NaN and zeros of different signs all agree.", "quantifier": "vmx and vsx, f32, f64 and f16, all vectors including NaN, infinities and zeros of both signs", "why_tests_cant": "All bit patterns of both operands; tests avoid NaN and zeros of different signs.", "anchors": ["egg/platform_ppc.py: simple_op2, not1, neg1, abs1, minmax2"]}
{"id": "C111", "title": "POWER float vectors: rounding to integral values", "statement": "On vmx and vsx, ceil, floor, trunc and round_to_even of f32, f64 and f16 vectors give in each lane the integral value required (the least not below, the greatest not above, the nearest toward zero, the nearest with ties to even), keep infinities and give a NaN for a NaN, in all language standards.", "quantifier": "vmx and vsx, f32, f64 and f16, C89 and C99, all vectors", "why_tests_cant": "All bit patterns; halves, large values and values next to integers behave differently.", "anchors": ["egg/platform_ppc.py: round1"]}
{"id": "C112", "title": "POWER float vectors: sum of the elements", "statement": "On vmx and vsx, addv of a float vector adds its elements in index order, from the first to the last, each exactly once, rounding after each addition (f16: in single precision, rounded to a half at the end). When the elements are multiples of a power of two whose absolute sum needs no more bits than the significand has, it is their exact sum.", "quantifier": "vmx and vsx, f32, f64 and f16, all vectors", "why_tests_cant": "The result depends on the order of the additions for some vectors only.", "anchors": ["egg/platform_ppc.py: addv"]}
{"id": "C113", "title": "POWER float vectors: logicals, masks and loop tails", "statement": "On vmx and vsx, for f32, f64 and f16: all, any and nbtrue tell whether every lane is true, whether some lane is, and how many are; to_mask gives all ones or all zeros per lane and to_logical is true exactly where some bit is set; set1 and set1l fill every lane; loadla, loadlu read true exactly where the element of memory is a number other than zero or a NaN and storela, storelu write 1.0 or 0.0 and touch nothing else, so that loading what was stored gives the logical back; iota gives 0, 1, 2, ...; mask_for_loop_tail is true exactly on lanes k with i + k < n.", "quantifier": "vmx and vsx, f32, f64 and f16, all logicals, vectors, memories, addresses (aligned for the types that need it) and pairs (i, n) whose difference is an int", "why_tests_cant": "All combinations of lanes, memory contents and loop bounds.", "anchors": ["egg/platform_ppc.py: allany1, nbtrue1, to_mask, to_logical, set1, lset1, loadl, storel, iota, mask_for_loop_tail"]}
{"id": "C114", "title": "POWER float vectors: correctly rounded arithmetic", "statement": "On vmx and vsx, add, sub, mul, div, sqrt and rec of f32 and f64 vectors give in each lane the result IEEE 754 requires, rounded once to nearest even, with its infinities, NaN and signed zeros; adds and subs are add and sub; the numbers are those of the scalar operators and the vectors those of AArch64. f16 vectors are computed in single precision, and loading, operating and storing writes the correctly rounded half, which is the one the scalar operator gives, and touches nothing else.", "quantifier": "vmx and vsx, f32, f64 and f16, all vectors, memories and addresses", "why_tests_cant": "All pairs of bit patterns in each lane; double rounding shows only for rare pairs.", "anchors": ["egg/platform_ppc.py: simple_op2, div2, sqrt1, recs1"]}
{"id": "C115", "title": "POWER float vectors: fma, fms, fnma, fnms", "statement": "On vmx and vsx, fma and fms give a b + c and a b - c rounded once, and fnma and fnms give -(a b) + c and -(a b) - c rounded once, except that the zero of an exact cancellation is -0.0 instead of 0.0; the doubles of vmx go through C and are rounded once in C99, twice before, with the usual zeros. f16 vectors are computed so in single precision; after a store the half is the number of the scalar operator, except that a cancellation in fnma or fnms stores -0.0 where the scalar operator gives 0.0.", "quantifier": "vmx and vsx, f32, f64 and f16, C89 and C99, all vectors, memories and addresses", "why_tests_cant": "All triples of bit patterns; the wrong sign of zero compares equal in tests.", "anchors": ["egg/platform_ppc.py: fma"]}
{"id": "C116", "title": "Integer arithmetic inside GPU kernels", "statement": "Inside a kernel (CUDA, ROCm, oneAPI), add, sub, mul, neg and div on integers give the exact sum, difference, product, opposite or quotient truncated toward zero, modulo 2^bits of the type; the operation is undefined exactly when C's is: division by zero, or an exact result outside the range of the (promoted) signed type, such as u16 65535 * 65535. min, max and the comparisons are those of the integers, with comparisons giving the int 0 or 1; abs is the absolute value except on the most negative value, where oneAPI and the types narrower than int give the value back and CUDA and ROCm are undefined. floor, ceil, trunc and round_to_even are the identity.", "quantifier": "all three device kinds, the eight integer types, all values of the type", "why_tests_cant": "it is about wrap-around and undefined behaviour at every boundary, for every pair of values of every type on each kind of device; a unit test runs one GPU with a few random values", "anchors": ["egg/cuda.py: get_impl", "egg/rocm.py: get_impl", "egg/oneapi.py: get_impl"]}
{"id": "C117", "title": "Saturation and shifts inside GPU kernels", "statement": "Inside a kernel, adds is the exact sum clamped to the type. subs is the exact difference clamped, on oneAPI always and on CUDA and ROCm unless the second argument is the most negative value of a signed type, in which case it adds instead (narrow types) or is undefined. For 0 <= s < bits, shl multiplies by 2^s modulo 2^bits, shr shifts the pattern in zeros and shra is the division by 2^s rounded down.", "quantifier": "all three device kinds, the eight integer types, all values and all shift counts below the width", "why_tests_cant": "for every pair of values of every type on each kind of device; a unit test runs one GPU with a few random values", "anchors": ["egg/cuda.py: get_impl", "egg/rocm.py: get_impl", "egg/oneapi.py: get_impl"]}
{"id": "C118", "title": "Bits, masks and logicals of kernels and of scalar floats", "statement": "orb, andb, andnotb, xorb and notb act on each bit of the representation of a value of any of the eleven types; to_mask sets all bits or none, to_logical tells whether some bit is set (so -0.0 is true), and to_logical of to_mask is the logical. andl, orl, andnotl and notl give 0 or 1 and follow the truth of any int; xorl is right on the logicals 0 and 1, but of the true ints 1 and 2 it makes a true one. reinterpret keeps the bits and comes back. The same holds of the scalar operators on floats.", "quantifier": "all device kinds and the scalar operators, all element types, all values, all ints as logicals", "why_tests_cant": "for every value and every bit; for every pair of values of every type on each kind of device; a unit test runs one GPU with a few random values", "anchors": ["egg/cuda.py: get_impl", "egg/rocm.py: get_impl", "egg/oneapi.py: get_impl", "egg/scalar.py: opbit, reinterpret, get_impl"]}
{"id": "C119", "title": "Conversions of single values, on CPU and GPU", "statement": "cvt between types of the same width gives the same on CPU and in kernels: between integers the value modulo 2^bits; from integer to float the nearest float, ties to even (also for f16, which goes through single precision, with infinity for 65520 and more); from float to integer the truncation, undefined exactly when it is not in the range of the type or the argument is infinite or not a number; from a float type to itself the same number.", "quantifier": "all device kinds, all pairs of element types of the same width, all values", "why_tests_cant": "rounding of every integer and the range of every truncation; for every pair of values of every type on each kind of device; a unit test runs one GPU with a few random values", "anchors": ["egg/cuda.py: get_impl", "egg/rocm.py: get_impl", "egg/oneapi.py: get_impl", "egg/scalar.py: convert, get_impl"]}
{"id": "C120", "title": "Float arithmetic inside GPU kernels is correctly rounded", "statement": "Inside a kernel, on f16, f32 and f64, add, sub, mul, div, sqrt and rec give the float nearest to the exact result, ties to even, with IEEE infinities and NaN's, also for f16 where it is computed in single precision and converted, so half-precision instructions change nothing; adds and subs are add and sub; neg flips and abs clears the sign (also of -0 and infinities); floor, ceil, trunc and round_to_even round every float to the right integer and keep infinities, NaN's and the sign of zero.", "quantifier": "all device kinds, with or without half-precision instructions, the three float types, all patterns", "why_tests_cant": "double rounding through single precision must be innocuous for all pairs of halves; for every pair of values of every type on each kind of device; a unit test runs one GPU with a few random values", "anchors": ["egg/cuda.py: get_impl", "egg/rocm.py: get_impl", "egg/oneapi.py: get_impl"]}
{"id": "C121", "title": "fma, fms, fnma and fnms inside GPU kernels", "statement": "On oneAPI the four operators compute a b + c, a b - c, - a b + c and - a b - c: on integers modulo 2^bits, undefined exactly when a step overflows; on f32 and f64 rounded once; on f16 rounded to single and then to half, which is one rounding unless the single is the middle of two halves. On CUDA and ROCm fma does the same (with half-precision instructions, f16 is rounded once), but fms, fnma and fnms compute a b + c like fma.", "quantifier": "all device kinds, all types, all values", "why_tests_cant": "for every pair of values of every type on each kind of device; a unit test runs one GPU with a few random values, and the operators are compared with the CPU only for the platform at hand", "anchors": ["egg/cuda.py: get_impl", "egg/rocm.py: get_impl", "egg/oneapi.py: get_impl"]}
{"id": "C122", "title": "Comparisons, minimum and maximum of floats inside GPU kernels", "statement": "Inside a kernel lt, gt, le, ge and eq on floats give 1 exactly when the IEEE relation holds and are 0 with a NaN; ne is 1 when the arguments are different or not comparable, except that with CUDA's half-precision instructions a NaN gives 0. min and max give one of the arguments, not greater (less) than any argument that is a number, so a NaN only when both are; but with CUDA's half-precision instructions min and max of f16 always give the first argument.", "quantifier": "all device kinds, with or without half-precision instructions, the three float types, all patterns, either choice between zeros", "why_tests_cant": "NaN, zeros and every ordered pair; for every pair of values of every type on each kind of device; a unit test runs one GPU with a few random values", "anchors": ["egg/cuda.py: get_impl", "egg/rocm.py: get_impl", "egg/oneapi.py: get_impl"]}
{"id": "C123", "title": "A kernel computes what the CPU computes", "statement": "Inside a kernel the operators on single values give the same results as the scalar operators on the CPU: on integers add, sub, mul, div, neg, min, max and the shifts (undefined in the same cases), adds, subs unless oneAPI subtracts the most negative value, abs except of the most negative value; on floats add, sub, mul, div, rec and sqrt for either C standard. abs of -0 and min with a NaN differ.", "quantifier": "all device kinds, all types, all values, C89 and C99 on the CPU", "why_tests_cant": "agreement of two implementations for all inputs; for every pair of values of every type on each kind of device; a unit test runs one GPU with a few random values", "anchors": ["egg/cuda.py: get_impl", "egg/rocm.py: get_impl", "egg/oneapi.py: get_impl", "egg/scalar.py: get_impl"]}
{"id": "C124", "title": "The same integer source gives the same elements on every back end", "statement": "Take any straight-line integer program built from vector arguments, constants, iota, the arithmetic, saturated, bitwise and shift operators, min, max, abs, the fma family, comparisons, logical operators, if_else, to_mask and to_logical, nested in any way. When the scalar program - the same operators on the elements of one lane - is defined in every lane, the vector program is defined on every x86, ARM, POWER and CPU back end and every element of its result is the result of the scalar program on the elements of its lane. Hence lanes holding the same arguments hold the same result whatever the extension and the vector length. Three scalar cases are excluded because back ends differ on them: subs of the most negative value, shra on unsigned types, and the fma family on wide signed types when the first factor, the product or the result has no opposite.", "quantifier": "all programs (expression trees of any size), all integer types, all x86, ARM (SVE of any length), POWER extensions and CPU vectors of any length, all contents of the registers", "why_tests_cant": "unbounded family of programs and all register contents; a test runs a few fixed programs on one machine", "anchors": ["egg/platform_cpu.py: get_impl", "egg/platform_x86.py: get_impl", "egg/platform_arm.py: get_impl", "egg/platform_ppc.py: get_impl", "egg/scalar.py: get_impl"]}
{"id": "C125", "title": "The loop of the tutorial computes every element of an array on every back end", "statement": "Take the loop of the tutorial - full vectors with loadu and storeu while i + len <= n, then one vector with mask_for_loop_tail, maskz_loadu and mask_storeu - with any integer expression as its body and any number of source arrays. If the arrays hold n elements, the destination overlaps no source unless it is that source, n + len fits int, and the scalar expression is defined on every element and on zeros (for the lanes of the last vector after the end), then the loop is defined, element j of the destination becomes the scalar expression on element j of the sources, for every n, and no other byte of the memory changes - on every x86, ARM, POWER and CPU back end. A body without iota writes the same values on all of them. With the body of the tutorial, uppercase_simd writes what uppercase_scalar writes. On ARM SVE, i8 needs vectors of at most 1024 bits; on POWER, types of less than 64 bits need 16-byte aligned arrays; on i32 and i64, the vector version of the tutorial needs every element to be at least 32 above the minimum. The last three, and the conditions on n and zeros, cannot be dropped.", "quantifier": "all lengths of arrays, contents, addresses, memories, bodies (expression trees of any size), integer types, x86, ARM (SVE of any length), POWER extensions and CPU vectors of any length", "why_tests_cant": "unbounded arrays and family of bodies; the tutorial runs on one string on one machine", "anchors": ["examples/tutorial.cpp: uppercase_simd", "examples/tutorial.cpp: uppercase_scalar", "egg/platform_cpu.py: get_impl", "egg/platform_x86.py: get_impl", "egg/platform_arm.py: get_impl", "egg/platform_ppc.py: get_impl"]}
{"id": "C126", "title": "A float program gives the same numbers on every back end", "statement": "Take any straight-line program on f32 or f64 vectors built from neg, abs, sqrt, rec, floor, ceil, trunc, add, sub, mul, div, min, max, fma, fms, fnma, fnms, the comparisons, if_else1, set1, set1l, to_logical and the operators on logicals. On x86, ARM, POWER and the CPU back end every element of its result is the number the scalar operators give on the elements of that lane (NaN's compared as NaN), hence the same on all of them, provided a fused multiply-add is available where one is used, and that the scalar program never takes the absolute value of -0, the minimum or maximum of a NaN or of two zeros of different signs, nor fnma or fnms with operands that cancel. Each of these exclusions is needed: outside them two back ends give different numbers.", "quantifier": "all expression trees of any size, both types, all vectors of arguments, all x86, ARM (SVE of any length) and POWER extensions, CPU vectors of any length, all lanes", "why_tests_cant": "unbounded family of programs over 2^64 values per element and unbounded SVE and CPU vector lengths; tests compare one operator at a time on one machine", "anchors": ["egg/platform_cpu.py: get_impl", "egg/platform_x86.py: get_impl", "egg/platform_arm.py: get_impl", "egg/platform_ppc.py: get_impl", "egg/scalar.py: get_impl"]}
{"id": "C127", "title": "A SIMD loop over float arrays computes the scalar loop on every back end", "statement": "The loop of the tutorial (full vectors, then one masked vector) over arrays of f32 or f64, whose body is any float program of C126, writes at each index of the destination the number the scalar program gives on the elements of the source arrays at that index, and nothing else, on x86, ARM, POWER and the CPU back end, whatever the vector length and the number of elements; the destination may be one of the sources. The conditions are those of C126 on each element and on +0 (which fills the last vector), n + length < 2^31 and, on POWER with f32, aligned arrays. A body without abs, min, max, fnma and fnms meets the conditions of C126 on all floats, NaNs and infinities included.", "quantifier": "all bodies of any size, both types, all lengths of arrays, all contents, addresses and numbers of source arrays, all x86, ARM (SVE of any length) and POWER extensions, CPU vectors of any length", "why_tests_cant": "unbounded family of loop bodies, array lengths and contents, and vector lengths; a wrong tail or a lane that leaks shows only for some n modulo the vector length", "anchors": ["examples/tutorial.cpp: uppercase_simd", "egg/platform_x86.py: mask_for_loop_tail", "egg/platform_arm.py: mask_for_loop_tail", "egg/platform_ppc.py: mask_for_loop_tail", "egg/platform_cpu.py: mask_for_loop_tail1"]}
{"id": "C128", "title": "The exponentials have the right limits and values at zero", "statement": "The scalar f32 functions exp, exp2 and exp10 (both precisions) return NaN for a NaN, +infinity above a bound (104, 128 included, 39), +0 below one (-104, -150, -50) and exactly 1 for both zeros; expm1 returns NaN for a NaN, +infinity above 89, exactly -1 below -17 and the same zero for a zero. This holds whatever the machine makes of the conversions to int whose result is undefined in C.", "quantifier": "all 2^32 patterns of the argument, all results of undefined conversions", "why_tests_cant": "2^32 arguments per function (2^64 for two arguments) and any behaviour of the undefined conversions; the test-suite draws a few random numbers in a range where the function is regular", "anchors": ["src/sleefsp.c: xexpf, xexp2f, xexp2f_u35, xexp10f, xexp10f_u35, xexpm1f, expk2f", "src/rename.h", "egg/scalar.py: get_impl"]}
{"id": "C129", "title": "The logarithms are NaN, infinite or zero where they must be", "statement": "The scalar f32 functions log and log2 (both precisions) and log10 return NaN for a NaN and for any negative number, subnormal or infinite ones included, -infinity for both zeros, +infinity for +infinity and +0 for 1. log1p returns NaN for a NaN and below -1, -infinity at -1, the same zero for a zero, and +infinity for every number above 1e38, also the finite ones.", "quantifier": "all 2^32 patterns of the argument", "why_tests_cant": "2^32 arguments per function (2^64 for two arguments) and any behaviour of the undefined conversions; the test-suite draws a few random numbers in a range where the function is regular", "anchors": ["src/sleefsp.c: xlogf, xlogf_u1, xlog2f, xlog2f_u35, xlog10f, xlog1pf", "src/rename.h"]}
{"id": "C130", "title": "pow follows the table of special cases of C", "statement": "The scalar f32 pow returns 1 for an exponent that is zero or a base that is 1, even if the other argument is a NaN, and otherwise NaN for a NaN. An infinite exponent gives +infinity, +0 or (base -1) 1 according to |base| and its sign. A base that is infinite or zero gives an infinity or a zero, which has the sign of the base exactly when the exponent is an odd integer. A negative finite base gives NaN for an exponent that is not an integer, and otherwise the power of the opposite base, negated exactly when the exponent is odd. The tests of an (odd) integer exponent are right for all floats although they convert to int numbers that do not fit.", "quantifier": "all pairs of 2^32 patterns, all results of undefined conversions", "why_tests_cant": "2^32 arguments per function (2^64 for two arguments) and any behaviour of the undefined conversions; the test-suite draws a few random numbers in a range where the function is regular", "anchors": ["src/sleefsp.c: xpowf, expkf, logkf", "src/rename.h"]}
{"id": "C131", "title": "Hyperbolic functions: symmetry, saturation and domain", "statement": "For the scalar f32 functions in both precisions: sinh and tanh are odd and cosh even, bit for bit; a NaN gives a NaN; sinh and tanh of a zero is this zero, cosh of a zero is 1; sinh and cosh are infinite beyond 89 (88 in the low precision) and tanh is exactly 1 or -1 beyond 19. atanh is odd, infinite with the sign of x at 1 and -1, NaN beyond. acosh is NaN below 1 and +0 at 1. asinh keeps zeros. asinh and acosh are infinite beyond 18446743523953729536, also for finite numbers.", "quantifier": "all 2^32 patterns of the argument, all results of undefined conversions", "why_tests_cant": "2^32 arguments per function (2^64 for two arguments) and any behaviour of the undefined conversions; the test-suite draws a few random numbers in a range where the function is regular", "anchors": ["src/sleefsp.c: xsinhf, xcoshf, xtanhf, xsinhf_u35, xcoshf_u35, xtanhf_u35, xasinhf, xacoshf, xatanhf", "src/rename.h"]}
{"id": "C132", "title": "Inverse trigonometric functions: symmetry, domain and the table of atan2", "statement": "For the scalar f32 functions in both precisions: asin and atan are odd bit for bit and keep zeros; a NaN gives a NaN; asin and acos are NaN for every number beyond 1 in magnitude, infinities included; asin(1) and asin(-1) are pi/2 and -pi/2, acos is +0 at 1, pi at -1 and pi/2 at a zero, atan is pi/2 and -pi/2 at the infinities, each correctly rounded. atan2 is odd in y and follows the table of C for zero, infinite and NaN arguments: the sign of x alone chooses between 0 and pi, the result has the sign of y, and the points at infinity give odd multiples of pi/4.", "quantifier": "all 2^32 patterns of the argument, all pairs of them for atan2", "why_tests_cant": "2^32 arguments per function (2^64 for two arguments) and any behaviour of the undefined conversions; the test-suite draws a few random numbers in a range where the function is regular", "anchors": ["src/sleefsp.c: xasinf, xasinf_u1, xacosf, xacosf_u1, xatanf, xatanf_u1, xatan2f, xatan2f_u1", "src/rename.h", "egg/scalar.py: get_impl"]}
{"id": "C133", "title": "hypot, cubic root, error and gamma functions at their special points", "statement": "For the scalar f32 functions: hypot (both precisions) is symmetric, ignores the sign of its arguments, is +infinity if one is infinite even if the other is a NaN, NaN if another one is, and |x| if the other is a zero. The cubic roots keep zeros, infinities and NaNs, and the low precision one is odd bit for bit. erf is odd bit for bit, keeps zeros and is exactly 1 or -1 beyond 4; erfc is 1 at a zero, +0 above 11 and 2 below -11. tgamma is infinite with the sign of the zero at a zero, NaN at the negative integers from -2^31 on and at -infinity, +infinity above 36, never NaN for a number that is not negative, and 1 at 1. lgamma is NaN only for a NaN, +infinity at the infinities and at the integers from -2^31 to 0, and +0 at 1 and 2. A NaN gives a NaN.", "quantifier": "all 2^32 patterns of the argument (pairs for hypot), all results of undefined conversions", "why_tests_cant": "2^32 arguments per function (2^64 for two arguments) and any behaviour of the undefined conversions; the test-suite draws a few random numbers in a range where the function is regular", "anchors": ["src/sleefsp.c: xhypotf_u05, xhypotf_u35, xcbrtf, xcbrtf_u1, xerff_u1, xerfcf_u15, gammafk, xtgammaf_u1, xlgammaf_u1", "src/rename.h"]}
{"id": "C134", "title": "sinpi and cospi are exact at the integers and half integers up to eight millions", "statement": "The scalar f32 sinpi and cospi of n/2 are exactly 0, 1 or -1 according to n modulo 4, for every integer n with |n/2| <= 8000000. A NaN or an infinity gives a NaN and sinpi keeps zeros. Beyond 8000000 sinpi is +0 and cospi is 1 for every finite number, which is the right value only at the even integers.", "quantifier": "all 2^32 patterns of the argument, all results of undefined conversions", "why_tests_cant": "2^32 arguments per function (2^64 for two arguments) and any behaviour of the undefined conversions; the test-suite draws a few random numbers in a range where the function is regular", "anchors": ["src/sleefsp.c: sinpifk, xsinpif_u05, cospifk, xcospif_u05", "src/rename.h"]}
{"id": "C135", "title": "sin, cos and tan: defined for every finite number, however large, and right at the special points", "statement": "The scalar f32 sin, cos and tan, in both precisions: for every finite number, up to the largest, no float is converted to an int that cannot hold it and the table of the digits of 1/(2 pi) is read only inside its bounds, so that the result is a function of the argument alone. A NaN or an infinity gives a NaN; sin and tan keep zeros with their sign and cos of a zero is exactly 1. The internal reduction is however also run on the infinities and NaNs, before its result is thrown away, and reads four numbers past the end of the table there.", "quantifier": "all 2^32 patterns of the argument, all results of undefined conversions and of reads outside of the table", "why_tests_cant": "2^32 arguments per function; the index in the table depends on the exponent of the argument and a read past its end gives some number without any visible failure", "anchors": ["src/sleefsp.c: rempisubf, rempif, xsinf, xsinf_u1, xcosf, xcosf_u1, xtanf, xtanf_u1", "src/rempitab.c: Sleef_rempitabsp"]}
{"id": "C136", "title": "fmod and remainder: exact where the quotient is moderate, right at the special points, NaN for huge quotients", "statement": "The scalar f32 fmod gives for finite x and nonzero finite y with |x| < 4096 |y| exactly the number x - trunc(x/y) y, subnormals included, with the sign of x also when it is a zero. The scalar f32 remainder gives exactly x when |x| <= |y|/2 and exactly x minus y taken with the sign of x when |y|/2 < |x| <= 5/4 |y|. For both a NaN argument, an infinite x or a zero y gives a NaN, and an infinite y gives x unchanged; the result changes its sign with x and does not depend on the sign of y. The exactness does not extend to all finite arguments as the C standard requires: for the largest number and the least normal number both functions give a NaN.", "quantifier": "all pairs of the 2^32 patterns, all results of undefined conversions", "why_tests_cant": "2^64 pairs of arguments per function; the exactness rests on cancellations in a double-float sum that no sample of pairs settles", "anchors": ["src/sleefsp.c: toward0f, ptruncf, xfmodf, rintfk2, xremainderf"]}
{"id": "C137", "title": "exp2, log2, exp10 and log10 are exact at powers of two and of ten", "statement": "The scalar f32 exp2 at an integer k is exactly 2^k for every k for which 2^k is a float, subnormals included, in both precisions. The scalar f32 log2 at 2^k is exactly k for every such k, subnormals included, in both precisions. For 0 <= k <= 10 exp10 at k is exactly 10^k in both precisions and log10 at 10^k is exactly k. At the powers of two that are subnormal log10 is right up to 2^-18.", "quantifier": "every integer k from -149 to 127 (every power of two that is a float), every power of ten that is an integer and a float, all results of undefined conversions", "why_tests_cant": "the suite draws random arguments and compares within a tolerance, so it neither hits the powers nor requires exactness there, and cannot range over the results of undefined conversions", "anchors": ["src/sleefsp.c: xexp2f, xexp2f_u35, xlog2f, xlog2f_u35, xexp10f, xexp10f_u35, xlog10f"]}
{"id": "C138", "title": "The mathematical operators on f16, on CPU vectors and on POWER vectors agree with the scalar f32 functions", "statement": "The scalar f32 operators have the special cases of C128 to C137 under their API names. Each of the 48 mathematical operators on f16 scalars gives the scalar f32 result on the same numbers rounded once, to nearest with ties to even (an infinity from 65520 on). A NaN argument gives a NaN on f32 and f16 for all 41 operators of one argument and for atan2, fmod and remainder. On f16 fmod is exact when the quotient is below 4096, and exp2 and log2 (both precisions) are exact at every power of two that is a half, subnormals included. On the CPU back end and in the emulated functions of POWER each lane of an f32 result is the scalar result on the same lanes; f16 vectors loaded from memory, passed through an operator and stored give the scalar f16 results. Before the store the lanes of an f16 vector are not always halves.", "quantifier": "all operators, all patterns of the arguments and all vectors, all results of undefined conversions and reads, all contents of uninitialised vectors", "why_tests_cant": "2^32 pairs of halves, 2^32 singles for each of the 48 operators; the tests compare a sample within a tolerance", "anchors": ["egg/operators.py: SrcOperator", "egg/scalar.py: get_impl", "egg/gen_archis.py: get_simd_implementation_src", "src/rename.h", "src/sleefsimdsp_emulation.c", "egg/platform_ppc.py: upcvt1, downcvt1"]}
