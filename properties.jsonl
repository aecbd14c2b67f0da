{"id": "C01", "title": "Scalar foo_vec maps the functor over the buffer", "statement": "For every functor and every mix of pointer / scalar / ramp arguments, foo_vec(out, args..., n) with n >= 1 terminates normally and leaves out[i] = f(arg1[i], ..., argk[i]) for every i < n (k = 1..4), where a pointer argument denotes the element it held before the call, a scalar argument denotes its value and a ramp argument denotes the value after i additions of the slope. Every other memory cell keeps its value. It is enough that in[0,n) and out[0,n) are valid memory; nothing outside is touched. Each input buffer may be disjoint from the output, identical to it, or start at a higher address than it.", "quantifier": "all n from 1 to 2^32-1, all memories, all buffer addresses, all functors, all argument mixes, arities 1 to 4", "why_tests_cant": "a test samples a few lengths and values; the claim is about every length, every address relation and every memory cell that must not change", "anchors": ["detail/math.hpp: apply_on_vector (lines 100-162)", "detail/wrap_arguments.hpp: scalar_pointer_argument, scalar_scalar_argument, scalar_ramp_argument", "detail/define_macros.hpp: NOVA_SIMD_DEFINE_UNARY_WRAPPER, _BINARY_, _TERNARY_, _QUARTERNARY_", "README: lines 112-160"]}
{"id": "C02", "title": "foo_vec_simd equals the elementwise map on every back-end", "statement": "For every back-end, whenever n is a positive multiple of samples_per_loop and the pointers meet the alignment the back-end needs, foo_vec_simd(out, args..., n) terminates normally, leaves out[i] = f(arg1[i], ..., argk[i]) for every i < n and changes no other memory cell, where f is the per-lane function. Valid memory is needed only at in[0,n) and out[0,n): the one-vector-ahead preloading never reads past the end of an input.", "quantifier": "all back-ends (vector width, cache-line unrolling), all n = m * samples_per_loop < 2^32, all memories and aligned addresses, all lane-wise functors, arities 1 to 4", "why_tests_cant": "tests run fixed sizes such as 64 on the one instruction set of the build machine; over-reads are invisible unless the buffer abuts an unmapped page", "anchors": ["detail/unroll_helpers.hpp: compile_time_unroller, mp_iteration_*, generate_simd_loop", "detail/wrap_argument_vector.hpp", "detail/define_macros.hpp"]}
{"id": "C03", "title": "The compile-time-length form does the same as the run-time form", "statement": "foo_vec_simd<n>(out, args...) for n a positive multiple of samples_per_loop terminates normally with exactly the memory that foo_vec_simd(out, args..., n) leaves, for every back-end and arity.", "quantifier": "all back-ends, all n that are positive multiples of samples_per_loop, all memories, addresses, functors and arguments", "why_tests_cant": "the template form instantiates one straight-line program per n; no test suite instantiates all n", "anchors": ["detail/unroll_helpers.hpp: compile_time_unroller::run", "detail/define_macros.hpp"]}
{"id": "C04", "title": "SIMD and scalar drivers agree", "statement": "When the vector functor is the lane-wise lifting of the scalar functor, foo_vec and foo_vec_simd leave the same memory, for every legal SIMD call.", "quantifier": "all back-ends, all legal n, all memories, all addresses where each input is disjoint from, equal to, or above the output, all pointer/scalar arguments", "why_tests_cant": "equality of two programs over all memories and lengths", "anchors": ["detail/math.hpp: apply_on_vector", "detail/unroll_helpers.hpp: generate_simd_loop"]}
{"id": "C05", "title": "In-place and backward-overlapping calls are safe, forward-overlapping ones are not", "statement": "If an input buffer is the output buffer, or starts at a higher address than the output (any distance, for SIMD any aligned distance), every output element is computed from the input as it was before the call. If the output starts a short distance above an input, this fails: already-written outputs are read back as inputs, and scalar and SIMD drivers then give different results.", "quantifier": "all overlaps at non-negative distance, all n; a witness for the forward distance", "why_tests_cant": "aliasing depends on the relation between two addresses; tests use separate arrays or exact in-place calls only", "anchors": ["detail/math.hpp: apply_on_vector", "detail/unroll_helpers.hpp: mp_iteration_1 ... mp_iteration_4"]}
{"id": "C06", "title": "A zero or too short length never returns normally", "statement": "foo_vec with n = 0, and foo_vec_simd with n < samples_per_loop (including 0), do not behave as an empty call: the loop counter wraps and the call runs on through 2^32 iterations, so on any memory in which the output buffer cannot hold 2^32 (respectively 2^32 * samples_per_loop) elements the call ends in an invalid memory access.", "quantifier": "all back-ends, all functors and arguments, all memories and addresses, all n below the unit", "why_tests_cant": "the outcome is undefined behaviour after billions of iterations; a test would crash or never finish", "anchors": ["detail/math.hpp: apply_on_vector (lines 103-162, do ... while (--n))", "detail/unroll_helpers.hpp: generate_simd_loop (lines 227-283)"]}
{"id": "C07", "title": "A SIMD length that is not a multiple leaves the tail untouched", "statement": "For samples_per_loop <= n, foo_vec_simd(out, args..., n) behaves exactly like the call with n rounded down to a multiple of samples_per_loop: the last n mod samples_per_loop outputs keep their old values.", "quantifier": "all back-ends, all n >= samples_per_loop, all memories and arguments", "why_tests_cant": "needs every remainder for every unroll factor", "anchors": ["detail/unroll_helpers.hpp: generate_simd_loop (n /= per_loop)", "simd_unroll_constraints.hpp: samples_per_loop"]}
{"id": "C08", "title": "Alignment: when the SIMD drivers fault", "statement": "On the SSE and AVX back-ends foo_vec_simd on valid memory succeeds if the output and all pointer inputs are aligned to the vector width, and ends in an alignment fault if the output or an input is not. vec::is_aligned answers true exactly for the addresses that aligned load/store accept there. On the generic and NEON back-ends no alignment is needed.", "quantifier": "all back-ends, all addresses, all legal n", "why_tests_cant": "a misaligned access is undefined behaviour, and whether it traps depends on every address bit", "anchors": ["vec/vec_sse.hpp: is_aligned, load_aligned, store_aligned", "vec/vec_avx_float.hpp", "vec/vec_generic.hpp: is_aligned", "detail/wrap_argument_vector.hpp: vector_pointer_argument::get"]}
{"id": "C09", "title": "Ramp arguments are linear", "statement": "A ramp argument (base, slope) contributes base + i*slope at sample i, in exact arithmetic, on the scalar driver and on every SIMD back-end, for run-time and compile-time lengths: no drift, skip or repeat at vector or unroll boundaries.", "quantifier": "all base, slope, all sample indices, all back-ends, over any commutative ring (so for integers, rationals and reals)", "why_tests_cant": "off-by-one errors at chunk borders show only for particular widths and lengths", "anchors": ["detail/wrap_argument_vector.hpp: vector_ramp_argument", "vec/vec_sse.hpp: set_slope", "vec/vec_sse2.hpp: set_slope", "vec/vec_avx_float.hpp: set_slope", "vec/vec_avx_double.hpp: set_slope", "vec/vec_neon.hpp: set_slope", "vec/vec_altivec.hpp: set_slope", "vec/vec_base.hpp: set_slope"]}
{"id": "C10", "title": "Float ramps on a common power-of-two grid are exact on every back-end", "statement": "In real IEEE arithmetic, if base and slope are multiples of one power of two and all values base + i*slope (i < n) and the slope of a whole vector are such multiples by integers of magnitude at most 2^24 (float) or 2^53 (double), the slope of a whole vector also is representable as a float, and base is not -0, then the ramp values seen by the functor are exactly base + i*slope in the scalar and in the SIMD drivers of every back-end, hence bit-identical between them. Integer ramps within range are the special case. With base = -0 the two forms differ: the generic SIMD ramp starts at +0.", "quantifier": "all such bases and slopes, all lengths, all back-ends; a witness for the -0 case", "why_tests_cant": "quantifies over all values in range and all lengths", "anchors": ["detail/wrap_arguments.hpp: scalar_ramp_argument", "detail/wrap_argument_vector.hpp: vector_ramp_argument", "vec/*.hpp: set_slope"]}
{"id": "C11", "title": "Double ramps lose the slope to float precision", "statement": "The SIMD ramp wrapper keeps the per-vector slope in a float. For double buffers the SIMD ramp therefore is not base + i*slope even where double arithmetic is exact: there are base and slope for which SIMD and scalar ramps differ after one vector. It is exact again when size*slope is representable as a float.", "quantifier": "a witness for the failure; all base, slope with a float-representable vector slope for the positive part", "why_tests_cant": "needs the right operand: slopes such as 0.5 or 1 hide it", "anchors": ["detail/wrap_argument_vector.hpp: vector_ramp_argument (line 94: float vSlope)"]}
{"id": "C12", "title": "zerovec / setvec fill exactly n elements", "statement": "zerovec, setvec, zerovec_simd, setvec_simd and the _na variants write the value to out[0,n) and to nothing else, for legal n; the _na variants need no alignment (except on Altivec, see C55); the compile-time forms do the same.", "quantifier": "all n, values, memories, addresses, back-ends", "why_tests_cant": "absence of writes outside the range for every n and address", "anchors": ["simd_memory.hpp: zerovec, setvec, detail::setvec, detail::setvec_simd, zerovec_simd, zerovec_na_simd, setvec_simd, setvec_na_simd"]}
{"id": "C13", "title": "copyvec copies exactly n elements, and over-reads the source", "statement": "Every copyvec variant (copyvec, copyvec_simd, copyvec_aa/na/an/nn_simd, run-time and compile-time length) leaves dest[i] = src[i] for i < n and changes nothing else, provided memory is also readable one vector past the end of src (SIMD forms only). Without that extra vector the run-time SIMD forms end in an invalid read, although every copied element was available.", "quantifier": "all legal n, memories, back-ends, all disjoint buffers (for the SIMD forms also a source overlapping from above); all memories where the vector after src is not readable for the negative part", "why_tests_cant": "the over-read is silent unless the source abuts an unmapped page", "anchors": ["simd_memory.hpp: copyvec, detail::copyvec, COPYVEC_FUNCTION, copyvec_simd (lines 270-352)"]}
{"id": "C14", "title": "addvec accumulates elementwise", "statement": "addvec(out, in, n) and addvec_simd(out, in, n), and the scalar-increment forms, leave out[i] = old out[i] + in[i] (or + f) for i < n, and nothing else changes; in may be out itself.", "quantifier": "all legal n, memories, back-ends, any addition", "why_tests_cant": "all lengths and cells", "anchors": ["simd_memory.hpp: addvec, detail::addvec, addvec_simd (lines 354-492)"]}
{"id": "C15", "title": "set_slope_vec fills a line", "statement": "set_slope_vec(out, f, slope, n) and set_slope_vec_simd leave out[i] = f + i*slope for i < n in exact arithmetic, and nothing else changes. set_slope returns size*slope on every back-end.", "quantifier": "all f, slope over any commutative ring, all legal n, all back-ends", "why_tests_cant": "all lengths, all widths", "anchors": ["simd_memory.hpp: set_slope_vec, set_slope_vec_simd, set_ramp", "vec/*.hpp: set_slope"]}
{"id": "C16", "title": "set_exp_vec fills a geometric sequence", "statement": "set_exp_vec(out, f, curve, n) and set_exp_vec_simd leave out[i] = f * curve^i for i < n in exact arithmetic, and nothing else changes. The integer-power helper used for the step returns curve^size.", "quantifier": "all f, curve over any commutative ring, all legal n, all back-ends", "why_tests_cant": "all lengths, all widths", "anchors": ["simd_memory.hpp: set_exp_vec, pow_i, ipow, set_exp_vec_simd (lines 216-267)", "vec/*.hpp: set_exp"]}
{"id": "C17", "title": "pan2 writes both outputs", "statement": "pan2_vec and pan2_vec_simd leave out0[i] = in[i]*factor0[i] and out1[i] = in[i]*factor1[i] for i < n (factor constant or ramped from its base by its slope per sample, exact arithmetic for the ramp) and change nothing else, for pairwise disjoint outputs and an input disjoint from both; they read nothing outside in[0,n).", "quantifier": "all legal n, memories, factors, slopes, back-ends", "why_tests_cant": "two outputs and three address ranges for all lengths", "anchors": ["simd_pan.hpp: pan2_vec, detail::pan2, pan2_vec_simd"]}
{"id": "C18", "title": "mix, sum, muladd, ampmod, clip compute their formula per sample", "statement": "mix_vec: in0*f0 + in1*f1; sum_vec: the sum of its inputs, added left to right for 2 and 3 inputs and pairwise, (a+b)+(c+d), for 4; muladd_vec: a*b+c; ampmod_vec: signal*(1+modulator*amount); clip_vec: max(min(value, high), low); clip2, plus, minus, times, over, min and max likewise; each as an instance of the buffer drivers, SIMD equal to scalar for every legal call (for muladd: when the back-end does not fuse).", "quantifier": "all legal n, memories, argument mixes, back-ends, all arithmetic operations", "why_tests_cant": "all lengths, widths and mixes of pointer, scalar and ramp arguments", "anchors": ["simd_mix.hpp", "simd_ternary_arithmetic.hpp", "simd_binary_arithmetic.hpp", "detail/define_macros.hpp"]}
{"id": "C19", "title": "peak meter: maximum of absolute values, held over calls", "statement": "On NaN-free input with a non-NaN stored peak >= 0, peak_vec and peak_vec_simd store max(old peak, max |in[i]|), never lower the peak, and return |in[n-1]|. Running it block after block gives the same peak as one call over the concatenation.", "quantifier": "all buffers of finite or infinite values, all legal n, all back-ends (peak_vec_simd on AVX with zeroed upper lanes), all block splits", "why_tests_cant": "order of maximum evaluation differs in SIMD; every buffer must agree", "anchors": ["simd_peakmeter.hpp: peak_vec, peak_vec_simd", "vec/*.hpp: load_first, horizontal_max"]}
{"id": "C20", "title": "peak meters need four vectors per block, more than documented", "statement": "peak_vec_simd and peak_rms_vec_simd process n rounded down to a multiple of 4*size. On AVX float (32), AVX double (16) and the generic back-end for double (16) this unit is larger than samples_per_loop (16 / 8 / 8): a call with n = samples_per_loop runs off the buffer, and larger legal n may ignore the last samples. On SSE, SSE2, NEON, Altivec and generic float the units coincide.", "quantifier": "all back-ends; all memories without 2^32 vectors for the negative part", "why_tests_cant": "the failure is undefined behaviour on other instruction sets than the tested one", "anchors": ["simd_peakmeter.hpp: peak_vec_simd (lines 61-64), peak_rms_vec_simd (lines 119-122)", "simd_unroll_constraints.hpp"]}
{"id": "C21", "title": "A NaN sample makes the SIMD peak meter forget", "statement": "The scalar peak meter ignores NaN samples: its result is the peak of the others. The x86 SIMD one does not: there is a buffer in which a NaN sample makes an earlier, larger peak disappear.", "quantifier": "all buffers for the scalar part, a witness for SIMD", "why_tests_cant": "NaN placement relative to lanes matters", "anchors": ["simd_peakmeter.hpp", "vec/vec_sse.hpp: max_"]}
{"id": "C22", "title": "peak_rms accumulates the sum of squares", "statement": "peak_rms_vec and peak_rms_vec_simd add sum in[i]^2 over i < n to *squared_sum in exact arithmetic and update the peak as the plain peak meter does.", "quantifier": "all buffers, all legal n, all back-ends, over any commutative ring with an absolute value and total maximum", "why_tests_cant": "SIMD reassociates; the algebraic equality over all lengths is a proof, not a sample", "anchors": ["simd_peakmeter.hpp: peak_rms_vec, peak_rms_vec_simd"]}
{"id": "C23", "title": "horizontal_max_vec / horizontal_min_vec start from the smallest positive normal", "statement": "horizontal_max_vec returns max(FLT_MIN, max in[i]) and horizontal_min_vec returns min(FLT_MIN, min in[i]) on NaN-free input, for the scalar and all SIMD forms, FLT_MIN being the smallest positive normal number. They therefore return the true maximum (minimum) only when some element is at least (at most) FLT_MIN: for a buffer of negative numbers the maximum is wrong, for a buffer of positive ones the minimum.", "quantifier": "all NaN-free buffers, all legal n, all back-ends; witnesses for the wrong results", "why_tests_cant": "tests that contain a positive element never see it", "anchors": ["simd_horizontal_functions.hpp: horizontal_max_vec, horizontal_min_vec and _simd"]}
{"id": "C24", "title": "horizontal_sum_vec is the sum", "statement": "horizontal_sum_vec and horizontal_sum_vec_simd return the sum of in[0,n) in exact arithmetic; in float arithmetic they are exact and equal to each other whenever all elements are integers whose absolute values add up to at most 2^24 (float) or 2^53 (double).", "quantifier": "all buffers, all legal n, all back-ends", "why_tests_cant": "SIMD reassociates the sum", "anchors": ["simd_horizontal_functions.hpp: horizontal_sum_vec, horizontal_sum_vec_simd", "vec/*.hpp: horizontal_sum"]}
{"id": "C25", "title": "combined reductions equal the separate ones", "statement": "horizontal_minmax_vec stores min(FLT_MAX, min in[i]) and max(FLT_MIN, max in[i]); horizontal_maxsum_vec stores the max and the sum; each equals what the separate functions compute except that the minimum of minmax starts at FLT_MAX and so is the true minimum on finite input.", "quantifier": "all NaN-free buffers, legal n, back-ends", "why_tests_cant": "relation between three functions over all buffers", "anchors": ["simd_horizontal_functions.hpp: horizontal_minmax_vec, horizontal_maxsum_vec and _simd"]}
{"id": "C26", "title": "vec horizontal operations reduce all lanes", "statement": "horizontal_min / max / sum of a vec equal the reduction over all its lanes on every back-end (max/min on NaN-free lanes; sum in exact arithmetic), so no lane is counted twice or dropped.", "quantifier": "all lane values, all back-ends", "why_tests_cant": "every lane must matter for every value", "anchors": ["vec/vec_sse.hpp: HORIZONTAL_OP", "vec/vec_sse2.hpp", "vec/vec_avx_float.hpp", "vec/vec_avx_double.hpp", "vec/vec_neon.hpp", "vec/vec_altivec.hpp", "vec/vec_base.hpp: horizontal_*"]}
{"id": "C27", "title": "set / get / set_vec / set_slope / set_exp access exactly the lanes they name", "statement": "get(i) after set(i, x) is x, get(j) for j != i is unchanged; set_vec makes all lanes equal; loads followed by stores reproduce memory; all for every lane index below size on every back-end.", "quantifier": "all vectors, lane indices, values, back-ends", "why_tests_cant": "shuffle constants differ per lane and per back-end", "anchors": ["vec/vec_sse.hpp: set, get, set_vec", "vec/vec_sse2.hpp", "vec/vec_avx_float.hpp", "vec/vec_avx_double.hpp", "vec/vec_neon.hpp", "vec/vec_base.hpp"]}
{"id": "C28", "title": "Comparisons yield 0.0 or 1.0 and match the scalar comparison", "statement": "vec comparison operators return exactly 1.0 or 0.0 in each lane; SSE/SSE2, NEON, Altivec and the generic back-end agree with the C++ comparison on all inputs including NaN, infinities and signed zeros. AVX agrees when neither operand is a NaN; on AVX > and >= return 1.0 when an operand is NaN, unlike the scalar functions. The comparison buffer functions (less_vec_simd etc.) leave the buffer of the scalar ones accordingly.", "quantifier": "all pairs of float / double bit patterns; witness on AVX", "why_tests_cant": "2^64 operand pairs", "anchors": ["vec/vec_sse.hpp: operator< ... (381-393)", "vec/vec_avx_float.hpp: 278-290", "vec/vec_avx_double.hpp: 237-249", "simd_binary_arithmetic.hpp: less ... not_equal_to"]}
{"id": "C29", "title": "mask_* and select form a bitwise conditional", "statement": "select(lhs, rhs, mask_OP(a,b)) returns, bit for bit, rhs in each lane where the comparison holds and lhs elsewhere, for SSE (and/or form and blendv form), AVX and Altivec (and the generic back-end's numeric 1/0 masks). On NEON the arguments are the wrong way round: lhs is chosen where the comparison holds.", "quantifier": "all lane values including NaN payloads, all six comparisons, all listed back-ends; NEON as a universal counter-statement", "why_tests_cant": "all operand values", "anchors": ["detail/vec_math.hpp: vec_select", "vec/vec_sse.hpp: select, mask_*", "vec/vec_avx_float.hpp: select", "vec/vec_generic.hpp: select", "vec/vec_neon.hpp: select", "vec/vec_altivec.hpp: select"]}
{"id": "C30", "title": "andnot agrees only on x86", "statement": "andnot(lhs, rhs) is (not lhs) and rhs on SSE and AVX but lhs and (not rhs) on NEON and Altivec: back-ends disagree on concrete inputs; they agree iff lhs = rhs bitwise.", "quantifier": "all bit patterns of the lane width", "why_tests_cant": "all bit patterns", "anchors": ["vec/vec_sse.hpp: andnot", "vec/vec_neon.hpp: andnot", "vec/vec_altivec.hpp: andnot"]}
{"id": "C31", "title": "abs clears the sign bit and nothing else", "statement": "abs of a vec lane equals std::fabs on every non-NaN input, keeps NaN payloads with a cleared sign, is never negative and is idempotent; float and double.", "quantifier": "all bit patterns of float and double", "why_tests_cant": "2^32 / 2^64 inputs", "anchors": ["vec/vec_sse.hpp: abs", "vec/vec_sse2.hpp: abs", "vec/vec_avx_float.hpp: abs", "vec/vec_avx_double.hpp: abs"]}
{"id": "C32", "title": "sign", "statement": "vec sign returns +1 for positive, -1 for negative and a zero for zero inputs, numerically equal to the scalar sign for every non-NaN input. For NaN the scalar function gives -1 and the vector one -1 or +1 by the sign bit of the NaN; for -0 the vector result is -0 and the scalar one +0.", "quantifier": "all bit patterns", "why_tests_cant": "signed zero, infinities, NaN and denormals all matter", "anchors": ["detail/vec_math.hpp: vec_sign", "detail/math.hpp: sign"]}
{"id": "C33", "title": "min and max", "statement": "max_/min_ on vec lanes agree numerically with std::max/std::min for all non-NaN operands. With a NaN operand x86 vec max_ and min_ return the second operand, std::max/std::min the first: they disagree.", "quantifier": "all pairs of bit patterns", "why_tests_cant": "NaN and signed zero pairs", "anchors": ["vec/vec_sse.hpp: max_, min_", "vec.hpp: max_, min_", "simd_binary_arithmetic.hpp: min, max"]}
{"id": "C34", "title": "clip confines to [low, high]", "statement": "clip(value, low, high) for non-NaN arguments with low <= high lies in [low, high], equals value when value is inside, low when below, high when above, for the scalar and the SIMD form; clip2(value, limit) does so for [-limit, limit], limit >= 0. A NaN sample treated by clip stays a NaN in scalar code and becomes high in x86 SIMD code; by clip2 it becomes -limit in scalar code and limit in x86 SIMD code.", "quantifier": "all float / double triples", "why_tests_cant": "all triples including infinities and signed zeros", "anchors": ["simd_ternary_arithmetic.hpp: clip", "simd_binary_arithmetic.hpp: clip2"]}
{"id": "C35", "title": "softclip", "statement": "SIMD softclip equals scalar softclip bit for bit for every input, its absolute value never exceeds 1 (and is at least 0.5 for |x| >= 0.5) for finite input, its sign follows the input, it is the identity for |x| <= 0.5 and odd. softclip of an infinity is NaN.", "quantifier": "all float and double bit patterns", "why_tests_cant": "2^32 / 2^64 inputs; the bound on the result rests on rounding in a division and a subtraction", "anchors": ["softclip.hpp: s_run, vec version"]}
{"id": "C36", "title": "undenormalize flushes exactly the subnormals", "statement": "undenormalize returns 0 for every zero and subnormal and the argument itself for every other value (NaN included); SIMD (x86, generic) and scalar agree bit for bit for every input.", "quantifier": "all bit patterns", "why_tests_cant": "all subnormal patterns", "anchors": ["detail/math.hpp: undenormalize", "detail/vec_math.hpp: vec_undenormalize"]}
{"id": "C37", "title": "signed_sqrt", "statement": "signed_sqrt(x) is sign(x)*sqrt(|x|) correctly rounded; the SIMD version of every vec but NEON's (which uses a square root estimate, see the property on NEON division and square root) and the scalar version agree bit for bit for every non-NaN input including zeros and infinities; it is odd.", "quantifier": "all bit patterns", "why_tests_cant": "all inputs", "anchors": ["detail/math.hpp: signed_sqrt", "detail/vec_math.hpp: vec_signed_sqrt"]}
{"id": "C38", "title": "round: nearest integer, and where the forms part", "statement": "Scalar round gives the nearest integer, halves away from zero. Vector round gives the nearest integer, halves to even, with SSE4.1 or AVX for every finite number and in the magic-number form (vec_round_float) for every |x| <= 2^23, bit for bit like the instruction; all keep the sign of a zero result. So scalar and vector round agree bit for bit on every number up to 2^23 that is not half an odd integer (round_vec and round_vec_simd leave the same buffer) and differ on positive halves above even numbers. Beyond 2^23 the magic form changes every odd integer up to 2^24 by one. The unspecialised template floor(x + 0.5) takes the largest float below 0.5 to 1.", "quantifier": "all floats of the stated ranges, all back-ends, all legal buffers", "why_tests_cant": "2^32 inputs; double rounding", "anchors": ["detail/vec_math.hpp: vec_round_float", "detail/math.hpp: round", "vec/vec_sse.hpp: round", "vec/vec_avx_float.hpp: round", "simd_unary_arithmetic.hpp: round"]}
{"id": "C39", "title": "floor and ceil", "statement": "Scalar floor and ceil of a finite number are the mathematical ones. vec_floor_float and vec_ceil_float (used without SSE4.1 and on NEON) are so for every |x| <= 2^23: floor bit for bit like the scalar function, ceil with the same numeric value but a zero result always +0 (the scalar gives -0 between -1 and 0). The buffer functions agree accordingly on every back-end. Beyond 2^23 the vec forms are wrong: floor(k) = k-1 for integers k = 1 modulo 4 and ceil(k) = k+1 for k = 3 modulo 4.", "quantifier": "all floats of magnitude at most 2^23, all back-ends, all legal buffers; all such k in (2^23, 2^24 - 1)", "why_tests_cant": "2^32 inputs", "anchors": ["detail/vec_math.hpp: vec_floor_float, vec_ceil_float", "vec/vec_sse.hpp: floor, ceil", "vec/vec_neon.hpp: floor, ceil", "simd_unary_arithmetic.hpp: floor, ceil"]}
{"id": "C40", "title": "frac lies in [0, 1]", "statement": "frac(x) = x - floor(x) lies in [0,1] for every finite x, equals the exact fractional part for x >= 0 (and x <= -1/2), otherwise is the nearest representable number to it, and is exactly 1 for every negative x down to -2^-25 (double: -2^-54), so the range is not [0,1). All back-ends give the same bits for |x| <= 2^23 and frac_vec_simd leaves the buffer of frac_vec; beyond, SSE without SSE4.1 and NEON return 1 for integers k = 1 modulo 4, the scalar function 0.", "quantifier": "all finite floats and doubles, all legal buffers", "why_tests_cant": "all inputs; the rounding of the subtraction", "anchors": ["detail/math.hpp: frac", "vec/vec_sse.hpp: frac", "vec/vec_neon.hpp: frac", "simd_unary_arithmetic.hpp: frac"]}
{"id": "C41", "title": "trunc", "statement": "scalar trunc(x) is the truncation toward zero for every x whose truncation fits a 64-bit long and is undefined otherwise (NaN, infinities, magnitudes from 2^63 on). SSE4.1 and AVX truncate every finite number, keep the sign and keep infinities; where the scalar function is defined, the back-ends other than Altivec return the same number. Altivec's vector trunc maps every negative number to 0, truncates below 2^32 and gives 2^32 from there on.", "quantifier": "all floats / doubles, all back-ends", "why_tests_cant": "all inputs; the rest is undefined behaviour", "anchors": ["detail/math.hpp: trunc", "vec/vec_sse.hpp: trunc", "vec/vec_avx_float.hpp: trunc", "vec/vec_altivec.hpp: trunc"]}
{"id": "C42", "title": "generated constants", "statement": "gen_one, gen_05, gen_sign_mask, gen_abs_mask, gen_exp_mask, gen_ones, gen_zero built by shifts from all-ones are the bit patterns of 1.0, 0.5, the sign bit, all but the sign bit, the biased exponent field mask, all ones, and 0 for float and double on SSE, SSE2 and AVX; for the exponent masks, masking a normal number yields its power-of-two part.", "quantifier": "all lanes; the masks' effect on all bit patterns", "why_tests_cant": "the effect of the masks is over all patterns", "anchors": ["vec/vec_sse.hpp: gen_* (64-140)", "vec/vec_sse2.hpp", "vec/vec_avx_float.hpp", "vec/vec_avx_double.hpp"]}
{"id": "C43", "title": "integer vectors behave as 32-bit lanes", "statement": "int_vec + and - act lane-wise modulo 2^32, & and andnot bitwise, mask_eq/lt/gt give all ones or zero, slli/srli multiply / divide by 2^k for k in 0..31, on every back-end, AVX's two-halves emulation included. mask_lt and mask_gt compare signed numbers on SSE/AVX and unsigned ones on NEON/Altivec: they agree exactly when both operands have the same top bit. Shift counts from 32 on clear the lanes, except on Altivec, which takes them modulo 32. convert_to_float gives a nearest float, exact up to 2^24 (of the unsigned number on Altivec); truncate_to_int rounds toward zero when the result fits (x86: 0x80000000 otherwise); together they truncate exactly.", "quantifier": "all vectors of 32-bit lane values, all shift counts 0..127, all floats", "why_tests_cant": "all lane values", "anchors": ["vec/vec_int_sse2.hpp", "vec/vec_int_avx.hpp", "vec/vec_int_neon.hpp", "vec/vec_int_altivec.hpp", "vec/vec_sse.hpp: truncate_to_int"]}
{"id": "C44", "title": "ldexp / frexp helpers", "statement": "frexp_float splits every normal x, of either sign, into a significand of magnitude in [0.5,1) and an exponent with x = s*2^e exactly; ldexp_float multiplies a normal number by 2^n exactly for every 32-bit n for which the product is normal; ldexp_float of the parts returns x bit for bit for every bit pattern. Neither treats 0 as a zero: frexp_float(0) is (0.5, -126) and ldexp_float(0, n) is 2^(n-127) for n in 1..254.", "quantifier": "all normal floats, all 32-bit exponents; all bit patterns for the combination", "why_tests_cant": "all inputs", "anchors": ["detail/vec_math.hpp: frexp_float, ldexp_float"]}
{"id": "C45", "title": "Odd / even symmetry is bit exact", "statement": "On the x86 back-ends SIMD sin, tan and atan satisfy f(-x) = -f(x) and cos(-x) = cos(x) bit for bit for every bit pattern, NaNs included; tanh is odd for every number other than zero and asin for every |x| <= 1. Running sin_vec_simd, tan_vec_simd or atan_vec_simd on negated input gives the negated output. The expectation that tanh and asin are odd everywhere fails: tanh(-0) is +0, and asin gives +0 on both sides beyond 1.", "quantifier": "all bit patterns; all legal n, memories and both x86 back-ends", "why_tests_cant": "2^32 inputs per function", "anchors": ["detail/vec_math.hpp: vec_sin_float, vec_tan_float, vec_asin_float, vec_atan_float, vec_tanh_float, vec_cos_float", "simd_math.hpp"]}
{"id": "C46", "title": "tanh saturates and never exceeds 1", "statement": "On the x86 back-ends SIMD tanh(x) is exactly +-1 for |x| > 22 (infinities included), its magnitude never exceeds 1 and, except at zero, its sign is the sign of x, for every number; tanh_vec_simd never writes anything outside [-1, 1] for input without NaNs. On AVX a NaN becomes +-1.", "quantifier": "all floats; all legal n and memories", "why_tests_cant": "2^32 inputs", "anchors": ["detail/vec_math.hpp: vec_tanh_float", "simd_math.hpp: tanh_vec_simd"]}
{"id": "C47", "title": "asin / acos outside [-1, 1]", "statement": "On the x86 back-ends SIMD asin and acos return +0 for every |x| > 1, infinities included, instead of a NaN, and so do the buffer functions; on AVX they return +0 for a NaN as well.", "quantifier": "all floats with |x| > 1; all legal n and memories", "why_tests_cant": "all inputs", "anchors": ["detail/vec_math.hpp: vec_asin_float, vec_acos_float", "simd_math.hpp: asin_vec_simd, acos_vec_simd"]}
{"id": "C48", "title": "exp saturates", "statement": "On the x86 back-ends SIMD exp(x) is FLT_MAX for x > 88.72283935546875, +0 for x < -88 (infinities included), exactly 1 at both zeros, and finite and non-negative for every number except one: at x = 88.72283935546875 itself the result is a NaN. A NaN stays NaN on SSE but becomes FLT_MAX on AVX. exp_vec_simd therefore writes only finite numbers when its input has no NaN and not that one value.", "quantifier": "all floats; all legal n and memories", "why_tests_cant": "2^32 inputs; the exception is a single bit pattern", "anchors": ["detail/vec_math.hpp: vec_exp_float", "simd_math.hpp: exp_vec_simd"]}
{"id": "C49", "title": "exp accuracy", "statement": "On the x86 back-ends, for every float x in [-87.33, 88.72283172607422], SIMD exp(x) is finite and differs from e^x by a relative error of at most 3e-7 (the source promises 5e-7), and so does every sample written by exp_vec_simd. Below that the promise fails: exp(-88) is less than a tenth of e^-88.", "quantifier": "all floats in the range; all legal n and memories", "why_tests_cant": "a bound against a transcendental function for all inputs, including the rounding of every step", "anchors": ["detail/vec_math.hpp: lines 31-32, vec_exp_float"]}
{"id": "C50", "title": "log, pow and zero", "statement": "On the x86 back-ends SIMD log is finite for every bit pattern (log(0) about -88.03, log(inf) about 88.7), log(1) is exactly 0, pow(0, y) is exactly +0 for every y, pow of any base with a finite exponent is never negative, and signed_pow is pow of the magnitude with the sign of the base, so it is odd in it; likewise for the buffer functions.", "quantifier": "all bit patterns; all legal n and memories", "why_tests_cant": "all inputs", "anchors": ["detail/vec_math.hpp: vec_log_float, vec_pow, vec_signed_pow", "simd_math.hpp: log_vec_simd, pow_vec_simd, spow_vec_simd"]}
{"id": "C51", "title": "tanh and log accuracy", "statement": "On the x86 back-ends SIMD tanh(x) differs from the true value by at most 4e-7 relative plus 2^-148 for every finite float, and log(x) by at most 4e-7 relative for every positive normal float, also near 1; likewise every sample of tanh_vec_simd and log_vec_simd.", "quantifier": "all finite / positive normal floats; all legal n and memories", "why_tests_cant": "as for exp", "anchors": ["detail/vec_math.hpp: vec_tanh_float, vec_log_float"]}
{"id": "C52", "title": "reciprocal by Newton iteration", "statement": "Given any hardware estimate of relative error at most 1.5*2^-12, one Newton step yields 1/x with relative error at most 2^-21 for every x with 2^-126 <= |x| <= 2^125, fused or not; for zeros (estimate infinite) and infinities (estimate zero) the result is NaN, unlike the scalar 1/x.", "quantifier": "all floats in the range, all estimates meeting the hardware's documented bound", "why_tests_cant": "all inputs and all hardware-permitted estimates", "anchors": ["detail/vec_math.hpp: vec_reciprocal_newton", "vec/vec_sse.hpp: reciprocal"]}
{"id": "C53", "title": "muladd: fused and unfused", "statement": "muladd of one lane on every back-end, fused or not, and the scalar a*b+c are each finite and within one rounding of the product plus one of the sum of the exact a*b+c, for all operands with |a*b| <= 2^125 and |c| <= 2^126; they are equal when a*b is representable. The expectation that they always agree fails: with c = -(a*b rounded) one gives the rounding error and the other 0.", "quantifier": "all float triples in the range, all targets", "why_tests_cant": "all triples", "anchors": ["simd_ternary_arithmetic.hpp: muladd", "vec/vec_sse.hpp: madd", "vec/vec_avx_float.hpp: madd"]}
{"id": "C54", "title": "unit conversions are accurate and mutual inverses", "statement": "On the x86 back-ends midi2freq, midi2ratio, oct2freq, db2amp, ratio2midi, amp2db, freq2midi and freq2oct agree with their defining formulas on the reals within explicit relative / absolute bounds, truncated decimal constants and every rounding included; key -> Hz -> key returns within 2e-4 over 0..127 and dB -> amplitude -> dB within 4e-4 over +-200 dB; key 69 = 440 Hz, octave 4.75 = 440 Hz, ratio 1 = 0 semitones, amplitude 1 = 0 dB exactly and amp2db ignores the sign.", "quantifier": "all floats in range; all legal n and memories", "why_tests_cant": "continuous range, transcendental reference", "anchors": ["simd_unit_conversion.hpp"]}
{"id": "C55", "title": "Altivec unaligned access silently moves", "statement": "On Altivec load/store of an address that is not 16-byte aligned access the enclosing aligned vector instead: the *_na copy and fill functions, documented for non-aligned buffers, write the wrong cells for every misaligned address.", "quantifier": "all misaligned addresses", "why_tests_cant": "needs the target and every address offset", "anchors": ["vec/vec_altivec.hpp: load, store", "simd_memory.hpp: setvec_na_simd, copyvec_na_simd"]}
{"id": "C56", "title": "square and cube agree between SIMD and scalar", "statement": "square and cube of a vec lane equal the scalar functions bit for bit for every non-NaN float and double on SSE, AVX, NEON and the generic back-end, although most back-ends multiply a*(a*a) and the scalar code (a*a)*a; square_vec_simd and cube_vec_simd leave the same buffer as square_vec and cube_vec. On Altivec, whose product is a*b+0, the cube of -0 is +0.", "quantifier": "all bit patterns, all legal n, memories and back-ends; a witness on Altivec", "why_tests_cant": "2^32 / 2^64 inputs; overflow, underflow and signed zeros", "anchors": ["detail/math.hpp: square, cube", "vec/*.hpp: square, cube", "vec/vec_altivec.hpp: operator*"]}
{"id": "C57", "title": "log2 and log10 accuracy", "statement": "On the x86 back-ends SIMD log2(x) and log10(x) differ from the true logarithm by at most 5e-7 relative for every positive normal float, also near 1, and so does every sample of log2_vec_simd and log10_vec_simd.", "quantifier": "all positive normal floats; all legal n and memories", "why_tests_cant": "2^31 inputs against a transcendental function", "anchors": ["detail/vec_math.hpp: vec_log2, vec_log10", "simd_math.hpp: log2_vec_simd, log10_vec_simd"]}
{"id": "C58", "title": "pow accuracy", "statement": "On the x86 back-ends, for every positive normal x and finite y with |y ln x| <= 87, SIMD pow(x, y) is finite and differs from x^y by a relative error of at most 5e-7 * (1 + |y ln x|), and so does every sample of pow_vec_simd.", "quantifier": "all pairs of floats in range; all legal n and memories", "why_tests_cant": "2^63 pairs against a transcendental function", "anchors": ["detail/vec_math.hpp: vec_pow", "simd_math.hpp: pow_vec_simd"]}
{"id": "C59", "title": "sin and cos accuracy", "statement": "On the x86 back-ends, for every finite float with |x| <= 8192, SIMD sin(x) and cos(x) are finite and differ from the true values by at most 2.7e-7 relative plus 1.01e-14*|x| plus 2^-148, and so does every sample of sin_vec_simd and cos_vec_simd; sin^2+cos^2 is within 6e-7 of 1; sin(+-0) = +-0 and cos(0) = 1 exactly. Nothing like it holds for large arguments: at x = 2^30 sin is below -1000000 and cos above 1000000.", "quantifier": "all floats in the range; all legal n and memories", "why_tests_cant": "2^31 inputs against a transcendental function, including the rounding of every step of the argument reduction", "anchors": ["detail/vec_math.hpp: vec_sin_float, vec_cos_float", "simd_math.hpp: sin_vec_simd, cos_vec_simd"]}
{"id": "C60", "title": "tan accuracy", "statement": "On the x86 back-ends, for every finite float with |x| <= 8192, SIMD tan(x) is finite (no float in the range hits a pole, not even after the reduction modulo a rounded pi/4) and differs from the true value by at most 4.3e-7*|tan x| + 2.2e-14*|x|*(1 + tan(x)^2) + 2^-146, and so does every sample of tan_vec_simd; tan(+-0) = +-0.", "quantifier": "all floats in the range; all legal n and memories", "why_tests_cant": "as for sin; how near a float can come to a pole is a number-theoretic fact", "anchors": ["detail/vec_math.hpp: vec_tan_float", "simd_math.hpp: tan_vec_simd"]}
{"id": "C61", "title": "asin, acos and atan accuracy", "statement": "On the x86 back-ends SIMD asin is within 7e-7 relative (plus 2^-146) and acos within 2.1e-7 relative (plus 2^-145) of the true value on [-1, 1], acos except at -0.5, and atan within 5e-7 relative (plus 2^-146) for every finite float; atan(+-inf) is +-pi/2 within 1e-7, asin(+-0) = +-0, atan(+-0) = +-0, acos(1) = +0; likewise every sample of the buffer functions. acos(-0.5) is wrong: it exceeds 4, although the true value is 2.09.", "quantifier": "all floats in the domain; all legal n and memories", "why_tests_cant": "2^31 inputs against a transcendental function; the exception is a single bit pattern", "anchors": ["detail/vec_math.hpp: vec_asin_float, vec_acos_float, vec_atan_float", "simd_math.hpp: asin_vec_simd, acos_vec_simd, atan_vec_simd"]}
{"id": "C62", "title": "helpers on SSE registers", "statement": "horizontal_min and horizontal_max of simd_utils.hpp return the minimum and maximum of lanes 0, 1 and 2 of an SSE register and never look at lane 3, so they are not those of the whole register (the max of 1, 2, 3, 4 is 3); extract_0 and extract_3 return the first and last lane; gen_sign_mask, gen_abs_mask, gen_one, gen_05 and gen_025 are the sign bit, its complement, 1, 0.5 and 0.25 with and without SSE2; select_vector(v0, v1, mask) is v1 where the mask is all ones and v0 where it is zero, while for other masks the result depends on SSE4.1.", "quantifier": "all registers without NaN in lanes 0-2 (max/min), all contents of lane 3, all configurations", "why_tests_cant": "four 32-bit lanes; two build configurations", "anchors": ["simd_utils.hpp"]}
{"id": "C63", "title": "functions left to the C library", "statement": "On double and on every vec other than float on AVX and on SSE with SSE2, sin, cos, tan, asin, acos, atan, tanh, log, log2, log10, exp, pow, signed_pow and (except on Altivec) the eight unit conversions of a vec are the scalar functions applied to every element: for any C library whatever, the *_vec_simd function leaves exactly the same memory as the *_vec function.", "quantifier": "all C libraries (as functions), back-ends, legal n, memories and overlaps", "why_tests_cant": "arbitrary library, arbitrary buffers", "anchors": ["vec/vec_base.hpp: apply_unary, apply_binary, collect", "detail/math.hpp", "simd_math.hpp", "simd_unit_conversion.hpp"]}
{"id": "C64", "title": "signed_pow of scalars", "statement": "For any C library, scalar signed_pow(x, y) is pow(|x|, y) for x > 0 and -pow(|x|, y) for x < 0, hence odd in x for every non-zero number. At zero it is not: as C's pow(+-0, 0) is 1, signed_pow(+0, 0) and signed_pow(-0, 0) are both -1, and the SIMD float version returns a result of the other sign for +0.", "quantifier": "all C libraries and bit patterns", "why_tests_cant": "all bit patterns, and any library", "anchors": ["detail/math.hpp: signed_pow", "detail/vec_math.hpp: vec_signed_pow"]}
{"id": "C65", "title": "unit conversions in float and double over a good C library", "statement": "If the C library's log2, log10 and pow have relative error at most e, the scalar (float or double) unit conversions have an error of e plus a few roundings plus that of the shortened constants 0.083333333333 and 0.0022727272727: midi2freq and midi2ratio 2.4e-13 (double) or 9e-9 (float) per semitone, freq2midi 2.1e-10 or 6e-6 keys, freq2oct 1.75e-11 or 5e-7 octaves; oct2freq, db2amp, ratio2midi and amp2db only roundings; a MIDI key survives the way to Hz and back within 6e-10 (double) or 1e-4 (float). However good the library, in double midi2freq(81) falls short of 880 Hz by at least 2.4e-9 and freq2midi(440) of 69 by at least 2e-10.", "quantifier": "all finite arguments in a stated range, all libraries with error at most e, both formats", "why_tests_cant": "continuous range, transcendental reference, any library", "anchors": ["simd_unit_conversion.hpp", "detail/math.hpp: log2, pow"]}
{"id": "C66", "title": "log2 before C++11", "statement": "Compiled as C++98, scalar log2 multiplies the library's log by a float constant: the relative error is at most 1.34e-8 plus that of the library and two roundings, for every finite positive argument; for double it is also at least 1.3e-8 for every argument other than 1 (log2(8) is less than 3 - 3.8e-8), so a double log2 has only float precision.", "quantifier": "all finite positive floats and doubles, all libraries whose float log(2) is correctly rounded", "why_tests_cant": "2^63 doubles against a transcendental function", "anchors": ["detail/math.hpp: log2"]}
{"id": "C67", "title": "division and square root on NEON", "statement": "vec<float> on NEON divides by a table estimate of the reciprocal with two Newton steps: for a finite a and a divisor with 2^-126 <= |b| <= 2^125 whose quotient is between 2^-125 and 2^126 in magnitude, a/b is within 8.5e-6 relative of the true quotient (reciprocal within 8.4e-6, attained up to a few percent; fast_reciprocal within 187/65536) and so is every such sample over_vec_simd and reciprocal_vec_simd write. A zero or subnormal divisor gives the right infinity, a divisor of 2^126 or more gives zero, 0/0 and inf/inf give NaN. It is not IEEE division: 1/1 is 1 - 2^-18, and x/x is 0 for x = 2^126. sqrt and signed_sqrt have no Newton step and a relative error of up to 3.3e-3 (sqrt(4) is 1.99609375, the bound is attained up to a percent), and of zero and of infinity they are NaN, so signed_sqrt_vec_simd turns silence into NaN.", "quantifier": "all float bit patterns; all legal n, memories and overlaps; both variants (fused or not) of the Newton step instruction", "why_tests_cant": "2^64 operand pairs against exact quotients; the worst case is at a few table boundaries; NEON hardware is needed to run it at all", "anchors": ["vec/vec_neon.hpp: vdivq_f32, reciprocal, fast_reciprocal, sqrt, signed_sqrt", "simd_binary_arithmetic.hpp: over_vec_simd", "simd_unary_arithmetic.hpp: reciprocal_vec_simd, signed_sqrt_vec_simd"]}
{"id": "C68", "title": "division and square root on Altivec", "statement": "For every reciprocal and inverse square root estimate that meets the Altivec manual (relative error at most 1/4096, infinity for zero, zero for infinity) one Newton step gives, on vec<float> on Altivec, a/b within 2.6e-7, reciprocal within 1.6e-7 and sqrt within 3e-7 relative for operands and results well inside the normal range, and over_vec_simd and reciprocal_vec_simd write such samples. But x/0, x/inf, 1/0, 1/inf, sqrt(0) and sqrt(inf) are all NaN, where IEEE has infinities and zeros.", "quantifier": "all estimate functions that meet the manual, all float bit patterns in the range, all legal n and memories", "why_tests_cant": "the estimate is left to the processor; 2^64 operand pairs", "anchors": ["vec/vec_altivec.hpp: vec_div, vec_reciprocal, vec_rsqrt, vec_sqrt, reciprocal, sqrt", "simd_binary_arithmetic.hpp: over_vec_simd", "simd_unary_arithmetic.hpp: reciprocal_vec_simd"]}
{"id": "C69", "title": "rounding of float sums", "statement": "horizontal_sum_vec, the sum of horizontal_maxsum_vec, horizontal_sum of one vector, and their SIMD forms on every back-end return a finite number within ((1+u)^(n-1) - 1) * sum |x_i| of the real sum of the n finite elements (u = 2^-24 for float, 2^-53 for double), provided (1+u)^(n-1) * sum |x_i| is below the overflow threshold; peak_rms_vec and peak_rms_vec_simd leave the old value plus the squares within ((1+u)^(n+1) - 1) of their sum plus (1+u)^n * n times half the smallest positive number. (1+u)^k - 1 is at most 2ku for ku <= 1/2. Scalar and SIMD sums need not be equal: 2^24 + 1 + ... + 1 (seven ones) is 2^24 scalar and 2^24 + 6 on SSE.", "quantifier": "all lengths below 2^32 (whole vectors for SIMD), all finite contents without overflow, both formats, all back-ends and compiler options", "why_tests_cant": "the order of additions differs per back-end and the error depends on all n values; tests compare a few buffers with a tolerance", "anchors": ["simd_horizontal_functions.hpp", "simd_peakmeter.hpp: peak_rms_vec, peak_rms_vec_simd", "vec/*.hpp: horizontal_sum"]}
{"id": "C70", "title": "rounding of ramps", "statement": "In every binary, ternary and quaternary function a ramp argument with finite base and slope that stays clear of overflow takes at sample i a finite value within ((1+u)^i - 1) * (|base| + i*|slope|) of base + i*slope; SIMD calls of run-time or fixed length meet the same bound for float, whatever the back-end, and for double ((1+2^-24)*(1+u)^i - 1) * (|base| + i*|slope|) + (1+u)^i * i * 2^-150, because the slope of a vector is kept as a float (which must be in its range). set_slope_vec and set_slope_vec_simd meet the first bound for float and double. Scalar and SIMD ramps need not be equal (ten steps of 0.1f give 1.0000001 or 1), and a ramp may not move at all (2^24 in steps of 1).", "quantifier": "all finite bases and slopes without overflow, all lengths, memories, overlaps, lane-wise functions and back-ends", "why_tests_cant": "errors accumulate with the length; no finite set of ramps settles a bound that grows with n", "anchors": ["detail/wrap_arguments.hpp", "detail/wrap_argument_vector.hpp", "vec/*.hpp: set_slope", "simd_memory.hpp: set_slope_vec, set_slope_vec_simd"]}
{"id": "C71", "title": "rounding of exponential curves", "statement": "set_exp_vec and set_exp_vec_simd (every back-end) leave at out[i] a finite number within ((1+u)^i - 1) * |f*curve^i| of f*curve^i, if the f*curve^k up to the length and, for SIMD, the curve^k up to the number of lanes stay between the smallest normal number and the overflow threshold (with the same allowance for rounding). The two need not be equal (0.1^13 differs by three units in the last place), and if curve^lanes underflows the SIMD form fails although all samples are representable: f = 2^126, curve = 2^-19 gives 0 at sample 8 on AVX instead of 2^-26.", "quantifier": "all finite f and curve in range, all lengths, memories and back-ends", "why_tests_cant": "errors accumulate with the length; the underflow of curve^lanes is far from any test data", "anchors": ["simd_memory.hpp: set_exp_vec, set_exp_vec_simd, pow_i", "vec/*.hpp: set_exp"]}
{"id": "C72", "title": "softclip follows its formula", "statement": "softclip(x), scalar and SIMD, is for every finite x within 2u of x if |x| < 1/2 and of (|x| - 1/4)/x otherwise, and it preserves order among numbers of magnitude up to 2^22 (float) or 2^51 (double). Beyond it does not: softclip(2^22 + 1/2) < softclip(2^22).", "quantifier": "all finite floats and doubles", "why_tests_cant": "2^64 pairs of floats for monotonicity; the failure is at numbers no audio test uses", "anchors": ["softclip.hpp"]}
{"id": "C73", "title": "processing in blocks", "statement": "Calling a foo_vec function on consecutive blocks of any lengths, passing each ramp on where its additions have led it, leaves exactly the memory (or ends in the same fault) that one call on the whole leaves; likewise set_slope_vec and set_exp_vec continued with the iterated start value. The SIMD forms do the same for blocks that are multiples of the loop unit, with pointer and scalar arguments, and with ramps where arithmetic does not round. Beyond that it fails: with floats, SIMD ramps in two blocks differ from one call, a start recomputed as start + n*slope differs from a continued one, and blocks that are not multiples of the unit are processed incompletely by the SIMD forms.", "quantifier": "all partitions into blocks, all total lengths below 2^32, all memories, overlaps, operations, arithmetics and back-ends", "why_tests_cant": "tests call each function once per buffer; the partitions of a buffer are exponentially many", "anchors": ["detail/define_macros.hpp", "detail/wrap_arguments.hpp", "detail/wrap_argument_vector.hpp", "detail/unroll_helpers.hpp", "simd_memory.hpp: set_slope_vec, set_exp_vec"]}
{"id": "C74", "title": "calls touch their own buffers only", "statement": "Whatever a buffer function (foo_vec, foo_vec_simd with run-time or fixed length, zerovec, setvec, set_slope_vec, set_exp_vec, copyvec, addvec, pan2_vec and their SIMD forms) does, including faulting, depends only on the elements [0, n) of its arguments and of its output, and it changes nothing but the elements [0, n) of its output. Consequently calls none of which writes what another reads or writes may be made in any order with the same effect. Exceptions: the SIMD copies read one vector beyond the source, so the contents and validity of that vector matter, and on Altivec a misaligned pointer makes the SIMD functions write below their destination.", "quantifier": "all functions listed, all lengths, memories, operations, overlaps, back-ends; any number of independent calls in any permutation", "why_tests_cant": "non-interference quantifies over all contents of all other memory; tests see one memory", "anchors": ["detail/unroll_helpers.hpp", "detail/wrap_argument_vector.hpp", "simd_memory.hpp", "simd_pan.hpp", "vec/*.hpp: load, store"]}
{"id": "C75", "title": "sin, cos and tan keep order and range", "statement": "For every float argument up to 8192 in magnitude sin and cos of vec<float> (SSE with SSE2, AVX) lie from -1 to 1 with no tolerance; sin never goes down on a half wave around an even multiple of pi and never goes up on one around an odd multiple; cos never goes up from an even multiple of pi to the next multiple and never goes down from an odd one; tan never goes down between two neighbouring poles. sin_vec_simd, cos_vec_simd and tan_vec_simd keep (or reverse) the order of samples of one half wave, and the range, in every buffer.", "quantifier": "all pairs of floats of one half wave, all half waves within +-8192, all legal buffers", "why_tests_cant": "monotonicity is about pairs: 2^60 of them; a step of one unit in the last place across a quadrant boundary is invisible to a tolerance", "anchors": ["detail/vec_math.hpp: vec_sin_float, vec_cos_float, vec_tan_float", "simd_math.hpp: sin_vec_simd, cos_vec_simd, tan_vec_simd"]}
{"id": "C76", "title": "asin, acos and atan keep range and, but for atan, order", "statement": "On [-1, 1] asin never goes down and stays between the floats next to -pi/2 and pi/2; acos never goes up and stays from 0 to the float next to pi, except at -1/2 where the value is above pi; atan of a finite float stays between the floats next to -pi/2 and pi/2. The buffer functions do the same. But atan is not increasing: atan(9327150*2^-24) is less than atan(9327149*2^-24).", "quantifier": "all floats in the domain, all pairs of them, all legal buffers", "why_tests_cant": "monotonicity is about pairs of floats; the dip of atan and the exception of acos are at single bit patterns", "anchors": ["detail/vec_math.hpp: vec_asin_float, vec_acos_float, vec_atan_float", "simd_math.hpp: asin_vec_simd, acos_vec_simd, atan_vec_simd"]}
{"id": "C77", "title": "logarithms, tanh and the conversions built on logarithms keep order, exp does not", "statement": "For vec<float> on SSE (with SSE2) and AVX, log, log2, log10, ratio2midi and amp2db never go down on the positive normal numbers, freq2midi and freq2oct never go down from 2^-117 on, tanh never goes down on the finite floats and exp never goes down from 1 to 88; the buffer functions keep the order of the samples. Below 0 exp does go down: exp(-16667701*2^-29) is less than exp(-16667702*2^-29), though the argument is greater.", "quantifier": "all pairs of floats in the domain, all legal buffers, all lengths", "why_tests_cant": "monotonicity is about pairs of floats, 2^60 of them; a dip of one unit in the last place is invisible to a tolerance", "anchors": ["detail/vec_math.hpp: vec_log_float, vec_exp_float, vec_exp_tanh_float, vec_tanh_float, vec_log2, vec_log10", "simd_unit_conversion.hpp", "simd_math.hpp: log_vec_simd, log2_vec_simd, log10_vec_simd, tanh_vec_simd, exp_vec_simd"]}
{"id": "C78", "title": "NaNs and infinities in the transcendental functions", "statement": "For vec<float> on SSE (with SSE2) and AVX: sin and cos of a NaN or an infinity are NaN, tan and atan of a NaN are NaN, tan of an infinity is that infinity; asin and acos of a NaN are NaN on SSE (zero on AVX, C47). Functions that start with a logarithm hide bad input: log, log2, log10, ratio2midi, amp2db, freq2midi and freq2oct of any bit pattern are finite, and pow of a NaN base can be a number. pow with a NaN exponent and midi2freq, oct2freq, midi2ratio, db2amp of a NaN are NaN on SSE, but on AVX the largest float or, where multiplied by 440, infinity. The buffer functions do the same at every position. And sin of a finite number can be minus infinity.", "quantifier": "all bit patterns, all legal buffers, all lengths", "why_tests_cant": "there are 2^24 NaNs and results depend on which comparison predicate each instruction set uses; tests feed ordinary numbers", "anchors": ["detail/vec_math.hpp: vec_sin_float, vec_cos_float, vec_tan_float, vec_asin_float, vec_acos_float, vec_atan_float, vec_log_float, vec_pow", "simd_unit_conversion.hpp", "vec/vec_avx_float.hpp: mask_gt"]}
{"id": "C79", "title": "Vectorised transcendental functions agree with the scalar ones", "statement": "For vec<float> on SSE (with SSE2) and AVX, and a C library accurate to a relative 1e-6: foo_vec and foo_vec_simd called on the same legal buffers both return, change nothing but the output, and leave outputs that agree sample by sample: to 2e-6 of either value for sin, cos (up to 3.2), tan (up to 1.5), asin, acos, atan, tanh, log, log2, log10 (normal positive numbers) and exp (-87 to 87); to 5e-5 for pow and spow where the result is between e^-87 and e^87; to 1e-5 for the unit conversions (db2amp 2e-5, freq2midi 3e-4 keys, freq2oct 3e-5 octaves) in the musical range. So the plain and the SIMD version are interchangeable there. Agreement does not extend to all arguments: they differ by more than 1.9 at acos(-0.5) and by more than 999999 for sin of 2^30.", "quantifier": "all C libraries with the stated accuracy, all numbers in the ranges, all legal buffers, all lengths", "why_tests_cant": "the tests compare both versions to 5e-6 at 10000 arguments per function and one C library; the accumulated argument grid does not include acos(-0.5) and agreement near the zeros of the functions depends on how close a float can come to a multiple of pi/2", "anchors": ["simd_math.hpp: sin_vec ... exp_vec_simd, pow_vec, spow_vec", "simd_unit_conversion.hpp", "detail/vec_math.hpp", "testsuite/simd_math_tests.cpp"]}
{"id": "C80", "title": "trunc over buffers", "statement": "trunc_vec returns exactly when the integral part of every sample fits a 64-bit long, and then writes every sample without its fractional digits and nothing else; one NaN, infinity or large number anywhere in the input makes the whole call undefined. trunc_vec_simd on AVX and on SSE with SSE4.1 is defined for all bit patterns, truncates all finite numbers and keeps signs; on the other back-ends but Altivec it does what trunc_vec does, undefined cases included. Where both are defined the two leave equal numbers, though not always the same bits (0 or -0), and the compile-time-length form does what the run-time form does. On Altivec negative samples become 0.", "quantifier": "all buffers, lengths, sample values, both formats, all back-ends; in-place and backward-overlapping calls included", "why_tests_cant": "undefined behaviour for one bad sample in millions cannot be observed reliably, and tests run on one back-end", "anchors": ["simd_unary_arithmetic.hpp: trunc_vec, trunc_vec_simd", "detail/math.hpp: trunc, apply_on_vector", "detail/unroll_helpers.hpp: generate_simd_loop"]}
{"id": "C81", "title": "Neutral parameters leave the samples alone", "statement": "Multiplying a buffer by 1, dividing it by 1 (where there is a division instruction), adding -0 and subtracting 0 leave every sample as it is, bit for bit, NaNs staying NaNs; adding 0 and muladd by 1 and 0, fused or not, change nothing but -0, which becomes 0. On Altivec multiplying by 1 turns -0 into 0. Limits at infinity in min, max and clip keep every number. ampmod with the amount 0 keeps the signal and mix with the factors 1 and 0 is the first signal (signs of zeros aside), as long as the other signal is finite: an infinite modulator or second signal turns the samples into NaNs although its factor is 0. In every binary, ternary and quaternary function, scalar, SIMD and compile-time form, a ramp with the slope 0 means the same as the constant, if the constant is a number other than -0; a ramp starting at -0 goes on with 0. set_slope_vec with the slope 0 and set_exp_vec with the curve 1, scalar and SIMD, are setvec.", "quantifier": "all buffers, lengths, alignments allowed by the call and sample values incl. NaNs, infinities and subnormals; both formats, all back-ends; in-place and backward-overlapping calls included", "why_tests_cant": "bit equality must hold for every one of 2^32 or 2^64 bit patterns and every position; signed zeros and infinities are what a test misses", "anchors": ["simd_binary_arithmetic.hpp: plus_vec, minus_vec, times_vec, over_vec, min_vec, max_vec", "simd_ternary_arithmetic.hpp: muladd_vec, ampmod_vec, clip_vec", "simd_mix.hpp: mix_vec", "simd_memory.hpp: set_slope_vec, set_exp_vec", "vec/vec_*.hpp: set_slope, set_exp, slope"]}
{"id": "C82", "title": "Rounding, limiting and scaling keep the order of the samples", "statement": "If one input sample is not greater than another, the outputs are in the same order, infinities included, after: floor, ceil, round, sgn, undenormalize, cube, signed_sqrt (not NEON's, an estimate), square (of samples that are not negative), adding or subtracting a finite constant, multiplying with or dividing by a finite positive constant (division where there is an instruction), muladd with such constants, fused or not, min, max, clip and clip2 with any limits that are numbers. This holds for all numbers, also beyond 2^23 where the back-ends that round by adding and subtracting 2^23 return wrong integers, and where results overflow. For every number floor is not above round and round not above ceil, except on Altivec beyond 2^23, whose floor is an instruction and whose round is not: there 8388609 has the floor 8388609 and is rounded to 8388608.", "quantifier": "all pairs of samples of all buffers; all lengths, alignments and overlaps allowed by the call; both formats, all back-ends, scalar and SIMD forms", "why_tests_cant": "order is a statement about pairs of inputs, 2^64 or 2^128 of them per function; the places where rounding could break it (ties, overflow, the magic constant's binade) are where nobody samples", "anchors": ["simd_unary_arithmetic.hpp: floor_vec, ceil_vec, round_vec, sgn_vec, undenormalize_vec, cube_vec, square_vec", "simd_binary_arithmetic.hpp: plus_vec, minus_vec, times_vec, over_vec, min_vec, max_vec, clip2_vec", "simd_ternary_arithmetic.hpp: muladd_vec, clip_vec", "simd_math.hpp: signed_sqrt_vec", "detail/vec_math.hpp: vec_round_float, vec_floor_float, vec_ceil_float"]}
{"id": "C83", "title": "Rounding and limiting have nothing to do the second time", "statement": "Calling floor, ceil, round or sgn on numbers, and abs or undenormalize on anything, and then the same function again in place on what it left, is the same as calling it once, bit for bit (where the back-end rounds by adding and subtracting 2^23, for numbers within 2^23). The same holds for frac of finite samples that are not negative or at most -1/2. min, max, clip and clip2 with limits that are numbers leave equal numbers the second time. The second call of frac does change tiny negative samples (the frac of -2^-60 is 1, whose frac is 0), and the second call of softclip changes 3/4 to 2/3.", "quantifier": "all buffers, lengths, alignments and overlaps allowed by the calls, all sample values as stated; both formats, all back-ends, scalar and SIMD forms", "why_tests_cant": "a chain of units may apply the same function twice; that this is harmless is a statement about every bit pattern and every position", "anchors": ["simd_unary_arithmetic.hpp: floor_vec, ceil_vec, round_vec, frac_vec, sgn_vec, abs_vec, undenormalize_vec", "simd_binary_arithmetic.hpp: min_vec, max_vec, clip2_vec", "simd_ternary_arithmetic.hpp: clip_vec", "softclip.hpp: softclip_vec"]}
{"id": "C84", "title": "Reductions over negated, scaled and reordered samples", "statement": "horizontal_sum_vec and its SIMD form over negated samples return minus the sum over the samples, exactly (NaN for NaN, zeros of either sign counting as equal), also with infinite or NaN samples and overflow. Over samples that are exactly 2^k times as large they return exactly 2^k times the sum whenever both sums are finite, subnormal numbers included. horizontal_max_vec over the same NaN-free samples in any order returns the same bits, scalar or SIMD, and horizontal_min_vec and the peak stored by peak_vec an equal number. Changing signs of samples changes no bit of what peak_vec, peak_rms_vec and their SIMD forms store and return (for the sum of squares: of samples that are not NaN). The minimum of negated samples is minus the maximum if some sample is at least the smallest normal number, and need not be otherwise. The sum does depend on the order of the samples.", "quantifier": "all buffers, addresses, lengths and sample values as stated; both formats, all back-ends and extensions, scalar and SIMD forms", "why_tests_cant": "relates two runs over arbitrary buffers; polarity, gain and order are free in a signal chain and no test covers all of them, nor the rounding of every intermediate sum", "anchors": ["simd_horizontal_functions.hpp: horizontal_sum_vec, horizontal_max_vec, horizontal_min_vec and _simd forms", "simd_peakmeter.hpp: peak_vec, peak_vec_simd, peak_rms_vec, peak_rms_vec_simd"]}
{"id": "C85", "title": "Converting there and back", "statement": "Applying a transcendental function or unit conversion and then its inverse gives the original number up to rounding, lane by lane and over buffers with two calls in a row: exp(log x) within 4e-7(1+|ln x|) of x relatively for normal positive x up to 3.4e38, log(exp x) within 4e-7(1+|x|) for |x| <= 87, sin(asin x) within 1.4e-6|x| and cos(acos x) within 1e-6 on all of [-1,1] (even at -0.5, where acos itself is wrong), asin(sin x) within 5e-6|x| for |x| <= 1.5, acos(cos x) within 4e-6 for 0.1 <= x <= 3, tan(atan x) within 1e-6|x|(1+|x|) for |x| <= 100, atan(tan x) within 1.4e-6|x| for |x| <= 1.5 (each plus a few subnormal units); semitones, octaves, keys and decibels to ratio, hertz and amplitude and back, and the reverse, within a few parts per million (keys 2e-4 of a key, decibels 4e-4 dB). Frequencies and amplitudes come back as absolute values. The calls change nothing outside the intermediate and the output buffer.", "quantifier": "all floats in the stated ranges, all buffers, addresses and lengths, SSE with SSE2 and AVX back-ends, all extensions", "why_tests_cant": "errors of two approximations compound and are amplified by the derivative of the second; no test covers all 2^32 floats through every pair, and the bounds hold for all of them", "anchors": ["detail/vec_math.hpp: vec_exp_float, vec_log_float, vec_sin_float, vec_cos_float, vec_tan_float, vec_asin_float, vec_acos_float, vec_atan_float", "simd_unit_conversion.hpp: all eight conversions", "simd_math.hpp: the _vec_simd forms"]}
{"id": "C86", "title": "Identities between transcendental functions", "statement": "tan(x) cos(x) is sin(x) within 1e-6|x| for |x| <= 1.5. asin(x) + acos(x) is a right angle within 1.8e-6 on [-1,1] but for x = -0.5, where the sum is off by more than 1.8. log(x y) and log(x / y) of float products and quotients that neither overflow nor underflow are the sum and difference of the logarithms within 8e-7(|ln x| + |ln y|) + 1e-7; exp(x + y) is exp(x) exp(y) within a relative 1e-6 + 6.1e-8|x+y|, and exp(x) exp(-x) is 1 within 6.1e-7. log2 and log10 are the logarithm divided by ln 2 and ln 10 within 1e-6. pow(x, 1) is x, pow(x, 2) is x*x, pow(x, 0.5) is the square root and pow(x, y) pow(x, -y) is 1, up to a relative error of 1e-6 times 1 plus the logarithm. pow(x, 0) is exactly 1 for every x other than zero (negative, infinite and NaN included) and pow(1, y) exactly 1 for finite y; pow(0, 0) is 0 and not the 1 of std::pow.", "quantifier": "all floats in the stated ranges, SSE with SSE2 and AVX, all extensions", "why_tests_cant": "relations between different functions over all pairs of floats; programs simplify formulas by them, and a test samples only a few of 2^64 pairs", "anchors": ["detail/vec_math.hpp: vec_sin_float, vec_cos_float, vec_tan_float, vec_asin_float, vec_acos_float, vec_log_float, vec_exp_float, vec_pow, vec_log2, vec_log10"]}
{"id": "C87", "title": "The same bits on SSE and AVX", "statement": "sin, cos, tan, log, log2, log10, freq2midi, freq2oct, ratio2midi and amp2db give the same bits on SSE and on AVX, with and without SSE4.1 and FMA, for every bit pattern including NaNs; asin, acos, atan, exp, tanh, midi2freq, midi2ratio, oct2freq and db2amp do for every number, infinities included, and pow and signed_pow for every base and every finite exponent. The _vec_simd calls of all of these leave the same memory, wherever both back-ends accept the buffers. A NaN does distinguish the back-ends: asin, acos and exp of a NaN differ in their bits for every NaN.", "quantifier": "all floats, all buffers, addresses and lengths that both back-ends accept, all pairs of back-end (SSE with SSE2, AVX) and extensions", "why_tests_cant": "two builds of the library take different instructions (blendv or and/or, roundps or the 2^23 trick, literals or shifted constants, different comparison predicates); a test runs on one build and one machine, and the outputs must agree for all 2^32 arguments for rendered audio to be reproducible", "anchors": ["detail/vec_math.hpp: all transcendental functions", "vec/vec_sse.hpp, vec/vec_avx_float.hpp: constants, masks, select, round, truncate_to_int", "simd_unit_conversion.hpp"]}
{"id": "C88", "title": "Exchanged arguments and inverted polarity", "statement": "Exchanging the arguments of plus, sum of two, times, the channels (or signals and gains) of mix, the first two signals of a sum of three, the four signals of a sum of four reversed, the factors of muladd and modulator and amount of ampmod leaves the same bits, or a NaN both times, for any bit patterns; not so the outer signals of a sum of three. min and max of exchanged numbers compare equal, though zeros may differ in sign and a NaN makes a difference. x < y is y > x and so on for any bit patterns (on AVX for numbers only), and exactly one of a comparison and its negation yields 1 for numbers (== and != for any bit patterns; on AVX every pair). Exchanging the operands of minus inverts the result. Inverting the polarity of the inputs of plus, minus, sums, mix (signals or gains), muladd (signal and addend), ampmod (signal) or of one operand of times and over inverts the output, for any bit patterns, with overflow, infinities and NaNs; the maximum of inverted numbers is the inverted minimum; clip2 with a limit that is not negative and clip with its limits exchanged and inverted give the inverted result for numbers. In the scalar and the SIMD form.", "quantifier": "all buffers, all scalars, ramps (scalar form), all lengths and addresses the calls accept, float and double, all back-ends and extensions (over: those with a division instruction)", "why_tests_cant": "the SIMD form of a function multiplies, compares and limits with other instructions than the scalar form, operand by operand asymmetric ones (minps, cmpnle, vec_madd with +0); tests fix one order of arguments and one polarity, and the exceptions are single bit patterns", "anchors": ["simd_binary_arithmetic.hpp", "simd_ternary_arithmetic.hpp", "simd_mix.hpp", "vec/*.hpp: operators, min_, max_, madd, comparisons"]}
{"id": "C89", "title": "Gains by a power of two commute with the arithmetic", "statement": "If every sample of the inputs of a second call is 2^k times the corresponding sample of a first call (k any integer, all samples finite), then every output sample of plus_vec, minus_vec, sum_vec (2, 3 and 4 signals), min_vec, max_vec, clip_vec and clip2_vec is 2^k times the first call's, exactly, wherever both are finite; no condition on underflow is needed. Scaling only the signals by 2^k scales times_vec, mix_vec, muladd_vec (fused or not), ampmod_vec and over_vec exactly by 2^k provided products (quotients, fused sums) do not underflow; scaling the divisor of over_vec gives 2^-k; abs_vec scales by 2^k, square_vec by 2^2k, and signed_sqrt_vec by 2^k for samples scaled by 2^2k, the last without a condition on underflow (on NEON it is built on an estimate and is excluded). All hold for the scalar and the SIMD functions of every backend (over_vec_simd: those with a division instruction). Without the condition on underflow the claim fails for times_vec.", "quantifier": "all formats, backends and configurations, all lengths and memories, all integers k, all finite samples, all argument kinds (pointer, constant; ramps for the scalar functions)", "why_tests_cant": "The exactness of scaling is a statement about all pairs of inputs and all exponents, and it fails only near the bottom of the exponent range, where tests rarely look.", "anchors": ["simd_binary_arithmetic.hpp:165-180", "simd_ternary_arithmetic.hpp:34-82", "simd_mix.hpp:37-76", "simd_unary_arithmetic.hpp:50-75", "simd_math.hpp:69"]}
{"id": "C90", "title": "One call gives what two simpler calls through a buffer give", "statement": "A compound function writes the samples that simpler functions write when run one after the other through an intermediate buffer. Bit for bit: muladd_vec is times_vec then plus_vec; sum_vec of three is plus_vec twice; sum_vec of four adds the last two signals first and the result to the sum of the others; clip_vec is min_vec with the upper limit then max_vec with the lower limit; frac_vec is the argument minus its floor_vec; square_vec is times_vec of the signal by itself. Bit for bit up to the payload of a NaN: mix_vec is times_vec then muladd_vec; ampmod_vec is muladd_vec with 1 then times_vec; cube_vec is square_vec then times_vec; minus_vec is times_vec by -1 then plus_vec. On numbers, as numbers (the sign of zero may differ): abs_vec is the larger of the sample and 0 minus the sample; clip2_vec is clip_vec between the negated limit and the limit. This holds for the scalar and the SIMD functions of every backend, but for muladd_vec, mix_vec and ampmod_vec only on backends that do not fuse multiplication and addition (and minus_vec not on Altivec, whose product is itself fused): with the FMA extension muladd_vec_simd gives other numbers than the two calls.", "quantifier": "all formats, backends and configurations, all memories, positions, lengths, samples, argument kinds; the intermediate buffer must not overlap the arguments that the second call still reads", "why_tests_cant": "Replacing a compound call by its parts (or the reverse) is a refactoring that has to be right for every input, every NaN, every overlap of the buffers; whether it is depends on the order of evaluation and on rounding of an intermediate value.", "anchors": ["simd_ternary_arithmetic.hpp:34-82", "simd_mix.hpp:37-76", "simd_binary_arithmetic.hpp:165-180", "simd_unary_arithmetic.hpp:50-75", "vec/vec_avx_float.hpp:272"]}
{"id": "C91", "title": "Samples taken apart and put together again", "statement": "Calls made one after the other over buffers that do not overlap give back what they took apart. For any numbers, infinities included: sgn_vec times abs_vec is the original sample, and ceil_vec is floor_vec between two changes of sign (0 - x by minus_vec, in place). For finite samples that are not negative, or at most -1/2: floor_vec plus frac_vec is the original sample (where a back-end rounds by adding and subtracting 2^23, within 2^23); for negative samples next to zero it is not. For finite samples: min_vec plus max_vec is plus_vec, minus_vec of a signal and itself is +0, over_vec of a nonzero signal and itself is 1. If two samples have the same sign and neither is more than twice the other, minus_vec followed by plus_vec of the second gives back the first (the difference is exact). If the square neither overflows nor underflows, signed_sqrt_vec of square_vec is abs_vec, bit for bit (not on NEON, whose square root is an estimate). All for the scalar and the SIMD functions; results compare equal as numbers, so zeros may differ in sign, where nothing else is said.", "quantifier": "all formats, backends and configurations, all memories, buffer positions, lengths, and samples in the stated ranges; for min_vec, max_vec, minus_vec and over_vec all argument kinds", "why_tests_cant": "Each is an identity over all samples whose validity hangs on rounding: sqrt(x*x) = |x| survives two roundings only because the base is 2, x - y is exact only within a factor of two, and floor + frac fails only for tiny negative samples; sampling the inputs cannot establish any of these.", "anchors": ["simd_unary_arithmetic.hpp:50-75", "simd_binary_arithmetic.hpp:165-180", "vec/vec_avx_float.hpp:217-290", "detail/math.hpp:200-320"]}
{"id": "C92", "title": "Special functions are calls of the general ones", "statement": "Several functions are shorthand for calls of others. addvec(out, in, n) and addvec(out, constant, n) leave exactly the memory that plus_vec(out, out, in, n) leaves, scalar and SIMD. pan2_vec leaves exactly the memory of two times_vec calls, one per output, if the first output does not overlap the input (constant gains: scalar and, except on Altivec, SIMD; ramped gains: scalar); when panning in place the two calls would give something else, because the second would read scaled samples. A ramp argument of times_vec or plus_vec gives the same bits as first filling a buffer with set_slope_vec and passing that (scalar functions), and a constant argument the same bits as a buffer filled by setvec (scalar and SIMD). peak_vec started at zero reports the number that horizontal_max_vec reports on a buffer filled by abs_vec, provided some sample is at least FLT_MIN (DBL_MIN) in magnitude; if all samples are smaller, horizontal_max_vec reports more than the peak (scalar and SIMD). The sum of squares of peak_rms_vec, started at zero, is bit for bit horizontal_sum_vec of a buffer filled by square_vec (scalar). No NaNs are assumed only for the peaks.", "quantifier": "all formats, backends and configurations, all memories, buffer positions, lengths, samples, gains and slopes", "why_tests_cant": "Equality of whole memories, bit for bit, for all samples and buffer layouts relates two loops with different bodies; a test compares finitely many buffers, usually within a tolerance, and would hardly try panning in place or signals that stay below FLT_MIN.", "anchors": ["simd_memory.hpp:355-369", "simd_memory.hpp:431-455", "simd_pan.hpp:34-57", "simd_pan.hpp:112-123", "simd_peakmeter.hpp:38-110", "simd_horizontal_functions.hpp"]}
{"id": "C93", "title": "Mixing any number of buffers into one", "statement": "Clearing a buffer with zerovec and adding any number of buffers to it with addvec, one call each (the same buffer may be added several times), changes nothing but that buffer, and leaves at every index the samples of the inputs at that index added up from zero in the order of the calls. The scalar and the SIMD functions leave exactly the same memory. In float and double, integer samples are mixed exactly as long as their absolute values add up to at most 2^24 (2^53); other finite samples are mixed to within one rounding less than there are inputs, relative to the sum of absolute values, unless that sum comes near overflow. In exact arithmetic the order of the calls does not matter; in float it does. Mixing two buffers gives what plus_vec gives and mixing three what sum_vec gives, up to the sign of zeros and the bits of NaNs. The output must not overlap an input.", "quantifier": "all numbers of inputs, all back-ends, all memories, buffer positions, lengths and samples; the first, second and order statements in any arithmetic", "why_tests_cant": "The number of inputs is unbounded: the statement is an induction over the sequence of calls, each reading what the one before has left; tests mix a handful of buffers. The rounding bound and exactness range over all samples.", "anchors": ["simd_memory.hpp:355-369", "simd_memory.hpp:431-455", "simd_memory.hpp:36-60", "simd_mix.hpp:50-75"]}
{"id": "C94", "title": "Silence stays silence", "statement": "A buffer is silent if every sample of it is +0 or -0. abs, sgn, square, cube, round, floor, ceil, frac, undenormalize, softclip and signed_sqrt of a silent buffer leave a silent buffer, in the scalar form and in the SIMD form on every back-end that has the function, except for signed_sqrt on NEON, which turns silence into NaNs; so do sin, tan, asin, atan and tanh (given, where the C library is called, one with a bounded relative error). cos and exp of silence are exactly 1 where they are vectorised. Sums and differences of silent signals are silent, and so is a silent signal times a finite one, also when muladd or mix adds such products. Hence any number of these functions and of finite gains, called one after the other in place on a silent buffer, leave it silent and everything else as it was. Silence divided by silence gives NaNs in every sample (scalar form), and so does an infinite gain.", "quantifier": "all back-ends and configurations, all memories, buffer positions and lengths, all finite factors, all lists of effects", "why_tests_cant": "The chain of effects is unbounded and each call reads what the one before has left. For a product the other factor ranges over all finite floats and doubles, subnormal and extreme ones included, and whether a zero survives depends on the rounding and masking steps of each back-end, which no test machine has all of.", "anchors": ["simd_unary_arithmetic.hpp:52-80", "simd_math.hpp:55-69", "softclip.hpp:38-93", "simd_binary_arithmetic.hpp:165-172", "simd_ternary_arithmetic.hpp:34-82", "simd_mix.hpp:37-76"]}
