# Formal model of nova-simd: design

Subject: `/repo` (timblechmann/nova-simd at the pinned commit), read as text; nothing of it is
compiled or executed. Tool: Rocq/Coq 8.16.1 with Flocq (IEEE-754 arithmetic), Coquelicot (mean value
theorem) and Interval (bounds of transcendental functions on closed intervals).

Build: `cd rocq && coq_makefile -f _CoqProject -o Makefile && make -j4`.

## 1. Layout of rocq/theories

Model (every definition cites the lines of /repo it stands for):

| file | models |
|---|---|
| `Base.v` | outcomes (`Ok` / `Fault`), bind, iteration |
| `Mem.v` | memory; scalar and vector load/store with bounds and alignment faults |
| `Loop.v` | the C loop `do … while (--n)` on a 32-bit unsigned counter |
| `Backend.v` | the eight `vec<F>` specialisations seen from the buffer functions: width, cache-line unrolling, alignment rule, `set_slope`, `set_exp`, get/set |
| `Args.v` | argument wrappers of `detail/wrap_arguments.hpp`, `wrap_argument_vector.hpp` (pointer / scalar / ramp), scalar and vector |
| `Drivers.v`, `Functors.v` | `detail/unroll_helpers.hpp`, `detail/define_macros.hpp`: `apply_on_vector`, `compile_time_unroller`, `generate_simd_loop`, the `*_functor` entry points, and the instances in `simd_binary_arithmetic.hpp`, `simd_ternary_arithmetic.hpp`, `simd_mix.hpp` |
| `MemFuns.v`, `Pan.v` | `simd_memory.hpp`, `simd_pan.hpp` |
| `Float.v` | IEEE formats, bit patterns, arithmetic under an arbitrary NaN-payload policy |
| `Lanes.v`, `LaneOps.v`, `FloatOps.v` | `vec/*.hpp`: lists of lanes, lane-wise operations per instruction set and compiler configuration (SSE2, SSE3, SSE4.1, FMA) |
| `Reduce.v` | `simd_peakmeter.hpp`, `simd_horizontal_functions.hpp`, horizontal operations of `vec/*.hpp` |
| `ScalarMath.v`, `VecMath.v`, `FloatFuns.v` | `detail/math.hpp`, lane functions of `vec/*.hpp` and `detail/vec_math.hpp`, `softclip.hpp`, `simd_unary_arithmetic.hpp` and their buffer functions |
| `IntVec.v` | `vec/vec_int_*.hpp`; `ldexp_float`, `frexp_float` |
| `TransMath.v`, `TransFuns.v` | the transcendental part of `detail/vec_math.hpp`, `simd_math.hpp`, `simd_unit_conversion.hpp` |
| `Utils.v` | `simd_utils.hpp` |
| `Estimate.v` | division, `reciprocal`, `sqrt`, `signed_sqrt` of `vec/vec_neon.hpp` and `vec/vec_altivec.hpp` |
| `Libm.v` | the std wrappers of `detail/math.hpp`, the element loops of `vec/vec_base.hpp`, and `simd_math.hpp` / `simd_unit_conversion.hpp` for scalars and for every `vec<F>`; the C library is a parameter |

Specifications used in theorem statements: `Spec.v`, `SpecReduce.v`, `SpecRamp.v`, `SpecLane.v`,
`SpecRound.v`, `SpecInt.v`, `SpecMath.v`, `SpecLib.v`, `SpecEst.v`, `SpecDrift.v`. They speak of memories, real numbers, lists and bit
patterns only.

Proofs: `*Facts.v`, `*More.v`, `Real*.v` (facts about real functions; the only users of Interval and
Coquelicot), `*Claims.v`. `Ex*.v` hold data and tactics of the examples.

Statements: `Prop_Drivers.v` (C01–C09), `Prop_Memory.v` (C12–C18, C55), `Prop_Reduce.v` (C19–C27),
`Prop_Ramp.v` (C10, C11), `Prop_Lane.v` (C28–C37, C42, C56), `Prop_Round.v` (C38–C41, C43, C44),
`Prop_Math.v` (C45–C48, C50, C52, C53), `Prop_Accuracy.v` (C49, C51, C54, C57, C58),
`Prop_Trig.v` (C59–C61), `Prop_Lib.v` (C62–C66), `Prop_Estimate.v` (C67, C68), `Prop_Drift.v` (C69–C72). Theorems with hypotheses are followed by an
`Example` showing that these can be met in a non-trivial case. `Print Assumptions` follows each theorem;
in the files whose proofs use Interval, where one run takes long, it is run once for all theorems of the file.

## 2. What is modelled, and how

*Outcome.* Every modelled buffer function returns `Ok v` or `Fault e`, with `e` one of: access
outside valid memory, misaligned access, use of an uninitialised vector, undefined conversion, out of
fuel (never reached: the fuel is the exact iteration count). Undefined behaviour is therefore a distinct outcome and
never a default value. Where C++ leaves a value undefined (the upper half of `_mm256_castps128_ps256`)
the model takes it as a parameter and the theorems quantify over it.

*Memory.* `Z -> option A`: address in units of the element type, `None` = not accessible. Pointers are
element-aligned (a precondition of any `F*` in C++). One element type per memory. Reads and writes of
inaccessible cells fault. Aligned vector accesses at an address that is not a multiple of the vector
width fault on SSE/AVX; Altivec rounds the address down; generic and NEON have no requirement.
Address arithmetic is on unbounded integers.

*Counters.* `unsigned int n` is an integer in [0, 2^32) and `--n` wraps modulo 2^32. Lengths and memories
are universally quantified; no theorem bounds them.

*Arithmetic.* The buffer-level model is parametric in the element type and its operations. It is
instantiated with commutative (semi)rings for statements "in exact arithmetic", and with IEEE
binary32/binary64 (Flocq `binary_float`, round to nearest even, subnormals kept, NaN payloads from a
universally quantified policy).

*Vectors.* `vec<F>` = list of lanes of length `size`. Intrinsics are modelled lane by lane from the
Intel / ARM / Power manuals.

*Simplifications, also stated at the definitions.*
- MXCSR flush-to-zero, other rounding modes, floating-point exceptions, x87 excess precision and
  contraction of `a*b+c` by the compiler are out of scope (the explicit `__FMA__` path is modelled).
- NEON flushes subnormals to zero in hardware; the model does not, so its NEON claims concern inputs
  and results that are not subnormal (or hardware in non-flushing mode). NEON's division and square root
  estimates are modelled from the pseudocode of the ARM manual (`Estimate.v`); of Altivec's hardware
  estimates only the error bound of the manual is assumed (a parameter of the theorems of C68).
- NEON and Altivec: only loads/stores, drivers, bitwise and order functions, reductions, rounding and
  integer vectors; the vectorised transcendental functions only on SSE (with SSE2) and AVX (elsewhere
  the code calls the C library).
- `long` is 64 bits wide (used by scalar `trunc`).
- The hardware reciprocal estimate (`rcpps`) is a parameter assumed to meet its documented error.
- `std::log(2.0)`, `std::log(10.0)` in `vec_log2`, `vec_log10` are the doubles nearest the true values.
- std::max, std::min, std::fabs, std::floor, std::ceil, round, sqrt are modelled by their standard
  semantics.

*Not modelled.* Compilation, inlining, strict aliasing, `assert`; tests and benchmarks; cache effects
of streaming stores (`store_aligned_stream` is an aligned store); timing; `vec.hpp`'s preprocessor selection other than the configuration record. The overloads of
`addvec`/`addvec_simd` that take a slope do not compile when instantiated (`const F in; in += slope`,
and `vslope.set(x)` with one argument). The C library's functions (`std::sin`, …) are
parameters: theorems hold for every library, or for every library with a stated error. 

## 3. Properties

"Drivers" means the loops of `detail/unroll_helpers.hpp` reached through `detail/define_macros.hpp`.
All claims are proved of the model in full as stated in properties.jsonl; where the natural expectation
is false, the property states the true guarantee and the failure, and the failure is a theorem with the
suffix `_refuted` and an explicit witness. Theorem names per property are in MANIFEST.json and in
section 5.

- **C01 Scalar foo_vec maps the functor over the buffer** (proved). Model: `Drivers.v` scalar loops (`apply_on_vector`, run-time and compile-time length), `Args.v`. Proof: loop invariant "the first k outputs are written, the rest of memory is as before", by induction on the iteration count, with the argument wrappers' state (advanced pointer, ramp value) as a function of k. Element type, functor and argument kinds are arbitrary. Scope: All four arities, run-time and compile-time scalar loops; arguments may be pointers, scalars or ramps; any element type and functor.
- **C02 foo_vec_simd equals the elementwise map on every back-end** (proved). Model: `generate_simd_loop`, `compile_time_unroller` over an arbitrary `backend` record; the eight instances are constants. Proof: invariant in units of vectors; the preloading of arguments ahead of stores is tracked as an already loaded vector, with store/load frame lemmas (`KaryFacts.v`, `DriverFacts.v`). Scope: All eight back-ends, any element type and arithmetic; pointer and scalar arguments (ramps in C09 and C10).
- **C03 The compile-time-length form does the same as the run-time form** (proved). Same invariant, the vector count being the induction variable for the unrolled compile-time form; both forms are shown equal to the same final memory. Scope: Under the overlap condition of C05.
- **C04 SIMD and scalar drivers agree** (proved). C01 and C02 have the same functional specification when the vector functor acts lane by lane. Scope: For a vector functor that computes the scalar functor in each lane; per-function lane agreement is C28-C41.
- **C05 In-place and backward-overlapping calls are safe, forward-overlapping ones are not** (proved). The invariant of C01/C02 only needs that cells not yet read are not yet written, which holds for `out <= in`; for `out` above `in` a closed form of the scalar loop (values are read back) and a witness where the SIMD form differs. Scope: Positive theorems for the safe overlaps, closed form for the scalar loop on the unsafe one, refutation of safety there.
- **C06 A zero or too short length never returns normally** (proved). The counter wraps, so an `Ok` result would have stored to 2^32 consecutive cells; a memory that lacks one of them forces a fault. The faults are the model's outcome for an invalid access. Scope: The faults are the model's distinct outcomes for an invalid access.
- **C07 A SIMD length that is not a multiple leaves the tail untouched** (proved). The iteration count is the quotient; the invariant of C02 at that count.
- **C08 Alignment: when the SIMD drivers fault** (proved). Case split on the alignment rule; a misaligned first access faults; `is_aligned` compared with the addresses that load/store accept. Scope: Altivec truncates addresses instead of trapping: C55.
- **C09 Ramp arguments are linear** (proved). Instance with any commutative semiring; the ramp state after k samples (vectors) is base + k*slope by induction. Scope: In any commutative semiring; floating point is C10 and C11.
- **C10 Float ramps on a common power-of-two grid are exact on every back-end** (proved). Flocq: sums of multiples of a common power of two that fit the precision are exact (`RampFloat.v`), hence the ring argument applies; the -0 exception by evaluation. Scope: Flocq IEEE arithmetic; binary, ternary and quaternary drivers, scalar, run-time and compile-time SIMD, all eight back-ends. The -0 exception is a _refuted theorem.
- **C11 Double ramps lose the slope to float precision** (proved). The model of `vec_scalar_ramp` rounds the vector slope to binary32 as the code's `float` member does. General theorem (every slope whose vector slope is inexact in float), concrete witness, and the exact case through C10. Scope: For every double back-end and every slope whose vector slope is exact in double but not a float, the second vector starts at a wrong value; concrete SSE2 witness; exact again otherwise.
- **C12 zerovec / setvec fill exactly n elements** (proved). `MemFuns.v`, loops of `simd_memory.hpp` one by one; induction as in C02. Scope: Every zerovec/setvec form, run-time and compile-time. The _na forms carry the alignment hypothesis on Altivec only.
- **C13 copyvec copies exactly n elements, and over-reads the source** (proved). The copy loops load one vector ahead. Positive theorems under "one more vector readable", fault theorems without it, for every memory in which the next cell is missing. Scope: Positive theorem per variant under 'one more vector is readable'; _over_reads theorem per variant says that without it the call ends in a memory fault; _refuted shows the expectation that only n elements are read fails.
- **C14 addvec accumulates elementwise** (proved). Loops of `simd_memory.hpp`; in place allowed. Scope: The ramped addvec overloads do not compile in C++ (assignment to a const argument, one-argument vec::set) and are not modelled.
- **C15 set_slope_vec fills a line** (proved). Semiring instance; `set_slope` of each back-end from its header. Scope: Exact arithmetic = any commutative semiring with integers; additionally the scalar form in any arithmetic. Rounding of float ramps: C10, C11.
- **C16 set_exp_vec fills a geometric sequence** (proved). Semiring instance; geometric sequence, `pow_i` by its recursion. Scope: Exact arithmetic.
- **C17 pan2 writes both outputs** (proved). `Pan.v`; invariant with two outputs. Disjointness of the outputs is a hypothesis (the code relies on it); the input may coincide with an output. Scope: Constant factors in any arithmetic, ramps in exact arithmetic (scalar ramps in any arithmetic). The input may also be one of the outputs.
- **C18 mix, sum, muladd, ampmod, clip compute their formula per sample** (proved). The functors of the arithmetic headers as instances of C01/C02/C09; the formulas are stated with the sample operations. Scope: Formula per sample in terms of the sample operations (scalar form) and of the lane operations (SIMD form); muladd's SIMD form uses the lane madd, equal to the scalar one when it does not fuse.
- **C19 peak meter: maximum of absolute values, held over calls** (proved). `Reduce.v`; max is associative and commutative up to numeric equality on NaN-free floats, so the order of lanes does not matter; blocks by induction on the list of block lengths. AVX's undefined upper lanes are a parameter; the theorem needs them zero, a refutation shows that it must. Scope: Scalar form for float and double, SIMD form for all eight back-ends, single calls and any split into blocks; AVX under the assumption that the undefined upper lanes are zero, with a refutation without it. is_max is numeric, so +0 and -0 count as equal.
- **C20 peak meters need four vectors per block, more than documented** (proved). Arithmetic of the iteration count; faults as in C06. Scope: Rounding-down for any operations; memory fault for every length below four vectors in every memory that lacks a cell among the next 2^32 groups; which back-ends are affected.
- **C21 A NaN sample makes the SIMD peak meter forget** (proved). `std::max(old, NaN)` keeps old (scalar), `maxps` returns the second operand (witness on SSE by evaluation for all configurations). Scope: Scalar: all buffers. SIMD: witness on SSE float for every compiler configuration.
- **C22 peak_rms accumulates the sum of squares** (proved). Ring instance; IEEE instance for integer samples through exactness of sums and products of bounded integers. Scope: Exact arithmetic on all back-ends; also IEEE arithmetic for integer samples; peak equal to the plain meter's for any operations.
- **C23 horizontal_max_vec / horizontal_min_vec start from the smallest positive normal** (proved). `std::numeric_limits<F>::min()` is the smallest positive normal; fold of max/min from it. Scope: IEEE float and double; the wrong results are stated for every buffer below (above) FLT_MIN, not only for a witness.
- **C24 horizontal_sum_vec is the sum** (proved). Ring instance; exactness for bounded integers.
- **C25 combined reductions equal the separate ones** (proved). As C23, C24.
- **C26 vec horizontal operations reduce all lanes** (proved). Lane lists of fixed length; the shuffles of each back-end evaluated symbolically, then order / ring reasoning.
- **C27 set / get / set_vec / set_slope / set_exp access exactly the lanes they name** (proved). Lists; case split on the lane index. Scope: set_slope and set_exp in exact arithmetic.
- **C28 Comparisons yield 0.0 or 1.0 and match the scalar comparison** (proved). `Bcompare` and the predicate constants of `_mm256_cmp_ps`; AVX's > and >= are coded as not-less-or-equal / not-less-than, hence true for NaN. Scope: NEON and Altivec comparisons modelled as IEEE comparisons (NEON flush-to-zero not modelled).
- **C29 mask_* and select form a bitwise conditional** (proved). Bit-level: `Z.land`, `Z.lor`, `Z.lnot` on lane patterns.
- **C30 andnot agrees only on x86** (proved). Bit-level.
- **C31 abs clears the sign bit and nothing else** (proved). Bit-level; `bits_of_binary_float` round trip.
- **C32 sign** (proved). Case analysis; bit-level. Scope: NaN and -0 behaviour stated separately.
- **C33 min and max** (proved). Comparison lemmas; the x86 rule "second operand if unordered".
- **C34 clip confines to [low, high]** (proved). Comparison lemmas on numbers; evaluation of the comparisons for NaN.
- **C35 softclip** (proved). Real bounds through `Bminus_correct`, `Bdiv_correct` and monotonicity of rounding.
- **C36 undenormalize flushes exactly the subnormals** (proved). Comparison against the smallest normal. Scope: NEON and Altivec have no undenormalize.
- **C37 signed_sqrt** (proved). `Bsqrt_correct`; signs by bits. Scope: NEON square root is an estimate and excluded from the buffer theorem.
- **C38 round: nearest integer, and where the forms part** (proved). Rounding lemma: for |x| <= 2^23, (x + 2^23) - 2^23 is rounding to an integer (ulp analysis in Flocq), plus the sign restored by masks. Scope: Flocq IEEE arithmetic. Lane theorems for vec_round_float hold on any instruction set; the buffer theorem covers all back-ends.
- **C39 floor and ceil** (proved). As C38, then comparison and correction by one.
- **C40 frac lies in [0, 1]** (proved). Sterbenz-like exactness of x - floor x for x >= 0; correct rounding otherwise.
- **C41 trunc** (proved). `Btrunc`; undefined outside the range of `long` as a distinct outcome; Altivec's unsigned conversion. Scope: Lane functions; long assumed 64 bits wide. The buffer functions are the subject of C80.
- **C42 generated constants** (proved). Evaluation of the shift expressions; masking of the exponent field by bit lemmas.
- **C43 integer vectors behave as 32-bit lanes** (proved). Integers modulo 2^32; AVX's two 128-bit halves as list operations.
- **C44 ldexp / frexp helpers** (proved). Bit fields of normal numbers; every bit pattern for the round trip.
- **C45 Odd / even symmetry is bit exact** (proved). Bit-level symbolic execution: the sign bit is split off before and xor-ed back after the computation on |x|. Scope: x86 SIMD paths (AVX; SSE with SSE2), float. Scalar libm functions are not modelled.
- **C46 tanh saturates and never exceeds 1** (proved). Saturation branch by comparison; bounds of the inner branch from the error analysis of C51; NaN by the comparison rule of each back-end. Scope: x86 SIMD paths (AVX; SSE with SSE2), float.
- **C47 asin / acos outside [-1, 1]** (proved). Comparison with 1; the masked result is 0. Scope: x86 SIMD paths (AVX; SSE with SSE2), float. The scalar libm functions are not modelled.
- **C48 exp saturates** (proved). The final selects decide outside the limits; inside, the result is finite because the scaling by 2^n stays in range, except where n = 128. Scope: x86 SIMD paths (AVX; SSE with SSE2), float. The NaN at the upper limit is a _refuted theorem, for every configuration.
- **C49 exp accuracy** (proved). Forward error analysis: exactness of the argument reduction (Cody-Waite constant with short significand), one rounding lemma per operation (`ErrFacts.v`, `ErrTac.v`), polynomial and remainder against exp by Interval. Scope: x86 SIMD paths (AVX; SSE with SSE2), float. Every rounding step of the Cody-Waite/polynomial evaluation is covered.
- **C50 log, pow and zero** (proved). Finiteness by intervals for each operation (`ErrFacts.v`); exact values by evaluation; sign by bits. Scope: x86 SIMD paths (AVX; SSE with SSE2), float.
- **C51 tanh and log accuracy** (proved). As C49; near 1 log is shown relatively accurate through a factorisation x*P(x). tanh: small arguments through an odd polynomial, larger ones through exp. Scope: x86 SIMD paths (AVX; SSE with SSE2), float.
- **C52 reciprocal by Newton iteration** (proved). Two roundings (one if fused) after an exact Newton identity e' = -e^2; the estimate is a universally quantified function. Scope: x86 SIMD paths (AVX; SSE with SSE2), float. The hardware estimate is an arbitrary function meeting the documented error.
- **C53 muladd: fused and unfused** (proved). `Bfma_correct` against two roundings; witness by evaluation. Scope: Lane function on every instruction set; the buffer functions of muladd are covered by C18 for any lane function.
- **C54 unit conversions are accurate and mutual inverses** (proved). Composition of C49/C51/C57 with the decimal constants of the source, whose distance from the exact numbers is bounded by Interval. Scope: x86 SIMD paths (AVX; SSE with SSE2), float. std::log(2.0), std::log(10.0) taken as the nearest doubles.
- **C55 Altivec unaligned access silently moves** (proved). Address arithmetic: Altivec's load/store ignore the low bits. Scope: Follows from the model of lvx/stvx, which ignore the low four address bits.
- **C56 square and cube agree between SIMD and scalar** (proved). Commutativity of the IEEE product; Altivec's product is a*b+0.
- **C57 log2 and log10 accuracy** (proved). log's bound times the rounded factor 1/ln b. Scope: x86 SIMD paths (AVX; SSE with SSE2), float.
- **C58 pow accuracy** (proved). exp(y*log x): error of the product as an absolute error of the exponent. Scope: x86 SIMD paths (AVX; SSE with SSE2), float.
- **C59 sin and cos accuracy** (proved). `TrigFacts.v`: the octant number is exact, y*DP1 and y*DP2 are exact products and the first two subtractions are exact, so the reduction error comes from DP3 and the last rounding only; `SinFacts.v`: rounding of the polynomials and quadrant logic by cases; `RealTrig.v`: distance of the polynomials from sin and cos by Interval. Scope: x86 SIMD paths (AVX; SSE with SSE2), float.
- **C60 tan accuracy** (proved). As C59; near a pole the reciprocal needs a lower bound of the reduced argument: a table over all 5216 quadrant numbers (`far_all`, evaluated in the kernel) shows that no float within 8192 comes closer than the argument error. Scope: x86 SIMD paths (AVX; SSE with SSE2), float.
- **C61 asin, acos and atan accuracy** (proved). Argument halving for asin/acos through sqrt((1-a)/2) (relative accuracy is kept because 1-a is exact there), three-range reduction for atan; polynomials by Interval and the mean value theorem. Scope: x86 SIMD paths (AVX; SSE with SSE2), float.
- **C62 helpers on SSE registers** (proved). Evaluation of the shuffles; maxima through the order embedding `ord` of floats. Scope: __m128 overloads of simd_utils.hpp; lane order as in memory.
- **C63 functions left to the C library** (proved). Induction over the element loops; then C04's driver theorem with the lane-wise function. Scope: The C library is a universally quantified record of functions. Altivec unit conversions excluded: its product is a*b+0.
- **C64 signed_pow of scalars** (proved). Case analysis on the operands. Scope: Any C library; the zero case assumes pow(+-0, 0) = 1, as the C standard prescribes.
- **C65 unit conversions in float and double over a good C library** (proved). Generic in the format: one rounding lemma per operation (`LibUnit.v`), the decimal constants by evaluation; logarithms stay away from 0 because a float other than 1 is at least half an ulp away from 1 (`LibLog.v`). `LibMore.v` builds the correctly rounding library (noncomputable, from Flocq's rounding of the real functions) to show that the hypothesis can be met. Scope: Error bound of the C library is a hypothesis (accurate); a correctly rounding library is shown to meet it. freq2midi, freq2oct, ratio2midi for C++11 or later.
- **C66 log2 before C++11** (proved). The hypothesis pins log(2.f) to one float, so rlog2 is a known constant; then as C65. Scope: Assumes the float log(2.f) is within half an ulp of ln 2.
- **C67 division and square root on NEON** (proved). `vrecpe`, `vrsqrte`, `vrecps` modelled bit for bit (`Estimate.v`: FPRecipEstimate, FPRSqrtEstimate, FPRecipStepFused of the ARM manual). The 256 reciprocal table entries and the 2 x 256 entries of the square root table are each checked against the exact error in the kernel (`EstFacts.v`); exponent handling is proved for all exponents, so the bound on the estimate holds for every normal float. The Newton steps are then bounded by real arithmetic (e to e^2 plus roundings). Bit-level case analysis for zeros, subnormals, infinities and large divisors. The refuting witnesses are computed. Scope: vrecpe and vrsqrte modelled by the pseudocode of the ARM manual (tables computed, not listed), vrecps fused or not; operands near the ends of the range are covered by the separate theorems on small and large divisors; quotients next to overflow and underflow are outside the accuracy theorem.
- **C68 division and square root on Altivec** (proved). The estimate is a function variable with a specification record; one Newton step squares its error, roundings added by the relative error lemma of Flocq. `good_re`, `good_rsqrte` (correctly rounded) show that the specification can be met. Scope: The hardware estimate is a parameter constrained only by what the manual promises; subnormal operands and results near overflow or underflow are outside the accuracy theorems.
- **C69 rounding of float sums** (proved). The reduction theorems of C24 are proved once for any commutative monoid that the machine addition simulates (`ReduceMore.v`); `SumErr.v` instantiates the monoid with triples (exact integer value, integer magnitude, number of leaves), all in units of the smallest positive number, and the relation 'finite, within (g(leaves-1) - 1)*magnitude, bounded by g*magnitude'. The same proof therefore covers every summation tree, scalar or SIMD. A rounded sum has relative error u even when subnormal (Flocq's `FLT_plus_error_N_ex`), so no underflow term is needed; the squares do need one. Scope: Bound of the form (1+u)^k - 1, not the sharper k*u. Sums whose running total could overflow and buffers with infinities or NaN are outside; minima and maxima are C23, C25, C26.
- **C70 rounding of ramps** (proved). `DriverFree.v` restates the SIMD driver theorems with the lanes the vectors actually hold in place of the scalar samples. `RampErr.v` shows that lane l of the J-th vector is a sum of l + J*lanes slopes in the sense of C69, whatever tree `set_slope` of the back-end uses, with one more relative error for the float in which a double ramp keeps its slope. Scope: Errors relative to |base| + i*|slope|; ramps that overflow or contain NaN or infinities are outside (C10 and C11 treat exactly representable ramps).
- **C71 rounding of exponential curves** (proved). Products of factors (1+d) with |d| <= u, by induction over the loop; the SIMD form multiplies lane l (l roundings) J times by curve^lanes (lanes - 1 roundings each): again i in all. Scope: Curves that leave the normal range are outside the bound; the refutation shows why the condition on curve^lanes is needed.
- **C72 softclip follows its formula** (proved). |x| - 1/4 is a float for 1/2 <= |x| <= 2^22, so softclip is the correctly rounded 1 - 1/(4|x|), and rounding is monotone. Witnesses by evaluation. Scope: Infinities and NaN are in C35.
- **C73 processing in blocks** (proved). `BlockRun.v`: a do-while loop over j*u + k*u iterations is the two loops one after the other (`iter_res_add`), and the state in which the first leaves the wrappers is the state the second call builds from the advanced arguments. For SIMD this needs that the vector wrapper after J vectors equals the wrapper built from the advanced argument, which holds for pointers and scalars and, in exact arithmetic, for ramps. Equality is of results, faults included; no assumption on overlap. Witnesses by evaluation. Scope: Ramps in IEEE arithmetic are covered for the scalar forms only; for SIMD the equality is refuted.
- **C74 calls touch their own buffers only** (proved). `Confine.v`: a relational logic. Two runs of the same call are started in memories that agree on R and W; the invariant 'they agree on R and W, and the first equals its start outside W' is preserved by every load from R and store to W, and equal values are loaded, so both runs fault alike. The permutation theorem follows by induction over `Permutation`; membership in W is decided with `classic`. Scope: Calls are atomic in the model: the theorem is about sequences of calls, not about threads that interleave within a call.
- **C75 sin, cos and tan keep order and range** (proved). `MonoFacts.v`: every rounded operation is monotone, so a formula built from sums, products and roots of non-negative rising parts rises. `TrigOrder.v`: within one quadrant sin(b) = b + b*C(b) where the sum of a rising argument and a slowly falling correction rises because neighbouring floats are at least 2^-24 of their size apart, more than the correction can fall; cos(b) = 1 - (z/2 - z*z*P(z)) likewise, with -1..1 from the monotone rounding. `SinOrder.v`: the reduced argument rises within a quadrant because its three subtractions and products round monotonically; across a quadrant boundary the two branches differ by less than the functions change between two floats: by evaluation at the boundaries below 8 (`joints`), by the accuracy theorem and the spacing 2^-20 beyond (`RealOrder.v`). Half waves are three quadrants put together; negative arguments by symmetry. `TanOrder.v` does the same for tan, with -1/t in the odd quadrants. Scope: Order is between values, so +0 and -0 count as equal. Beyond 8192 the reduction loses accuracy and nothing is claimed (C59 shows |sin| above a million).
- **C76 asin, acos and atan keep range and, but for atan, order** (proved). As C75 for the pieces of asin and acos (`ArcOrder.v`), with the values at the joints +-1/2 computed. atan's upper bound: beyond tan(3 pi/8) the correction term is below half a unit in the last place of pi/2 for |x| <= 2^-8 and dominated by x otherwise (`AtanOrder.v`). Dips by evaluation. Scope: atan at the infinities is C61_atan_inf; asin and acos outside [-1, 1] are C47.
- **C77 logarithms, tanh and the conversions built on logarithms keep order, exp does not** (proved). log: within one exponent the floats are 2^-23 or 2^-24 apart and the slope of the polynomial times that exceeds twice the bound on the rounding of the correction term (`log_y_err`), so the sums before the last two (monotone) roundings are in order; from one exponent to the next the values at the 257 joints are computed (`LogOrder.v`). log2, log10 and the conversions add monotone steps (`LogOrder2.v`). exp: with the multiple of ln 2 fixed, reduced arguments are at least 8.93e-8 apart, the slope is at least 0.707 and the product is within 3.05e-8; for non-negative reduced arguments every operation is monotone; at the 126 changes of the multiple both sides are computed (`ExpOrder.v`, table `exp_tops`, whose entries are checked to be neighbours). tanh: the small branch like sin, the medium one from exp, one joint computed (`TanhOrder.v`). The dip of exp by evaluation. Scope: exp between 0 and 1 and the conversions built on pow are not claimed to keep order; no failure between 0 and 1 is known.
- **C78 NaNs and infinities in the transcendental functions** (proved). A NaN operand makes every arithmetic result a NaN (`fadd_nan` and so on, from Flocq's definitions); the conversion to int of a NaN or infinity is 2^31, which fixes the octant (`far_sin`, `far_cos`, `far_tan`); the logarithm of any bit pattern is bounded by interval evaluation over all significands and exponent fields (`log_any`). `NanFacts.v`. Scope: For finite arguments beyond 8192 only the witness is claimed.
- **C79 Vectorised transcendental functions agree with the scalar ones** (proved). Both sides are near the real value: the vectorised function by C48-C61 turned into relative errors (`x_near`, using that no float up to 3.2 is within 8.7e-8 of pi or 4.3e-8 of pi/2, from the binary expansion of pi: `pi_grid`, `pi2_grid`), the scalar one by hypothesis or C65 (`s_near`, `unit_pair`); two numbers near the same real agree (`agree_near`). Buffers through C01/C02 (`alike_leaves`). `AgreeFacts.v`, `RealAgree.v`. Scope: Arguments smaller in magnitude than 2^-100 other than zero are left out for sin, tan, asin, atan and tanh, as their results come near the subnormal numbers. The accuracy of the C library is a hypothesis; that it can be met is shown by the library that rounds correctly.
- **C80 trunc over buffers** (proved). The drivers of Drivers.v again, for a functor with an undefined outcome (`TruncFuns.v`). Defined case by the loop invariant of C01/C02 (`tbody_iter`, `tmp_spec`). Undefined case: the call either faults or does what the driver does for any total function that extends the functor (`tapply_upto`, `tloop_upto`); were it to return, two extensions that differ on the bad sample would leave the same memory, against C01/C02 (`fault_found`). Scope: long assumed 64 bits wide.
- **C81 Neutral parameters leave the samples alone** (proved). Operation level (`NeutralFacts.v`): rounding is the identity on representable numbers, so x*1, x/1 and x+0 are x; zeros and infinities by cases. Lifted to buffers through C18 (`yields_of_leaves`). Flat ramps: `lanes_match` of RampFacts.v holds because adding a zero to a steady value gives it back in every lane and every vector (`flat_match`), so the driver lemmas of C02 apply to the ramp as they do to the constant. Scope: ampmod by 0 on Altivec (whose product changes -0) not claimed.
- **C82 Rounding, limiting and scaling keep the order of the samples** (proved). Each operation on finite numbers has the value `sat (rnd r)` with r the real result, rnd the rounding of the format and sat the limit at the infinities (`fadd_x`, `fsub_x`, `fmul_x`, `ffma_x`); both are monotone (`mono_intro`). Limiters, sgn and undenormalize by the integer `ord` that orders the bit patterns. Odd functions by `odd_mono`. vec_round_float is a composition of monotone operations; its results are integers (`R0_int`: representable numbers from 2^23 on are integers), so vec_floor_float, which subtracts at most 1, cannot swap two results that differ (`magic_floor_mono`). Lifted to buffers by `order_of_leaves`. Scope: softclip, whose order fails beyond 2^22 (double: 2^51), is in C72; the transcendental functions are in C75-C77. NEON's signed_sqrt and the estimated division of NEON and Altivec not claimed.
- **C83 Rounding and limiting have nothing to do the second time** (proved). Number level: rounding an integer gives it back with its sign (`nearby_once`), vec_floor_float and the others agree with the instructions within 2^23; limiters by `ord` (`limit_twice`). Buffer level: `once_of_leaves` runs the call on the memory the first call left, whose buffer fits again (`again_scalar`, `again_simd`). Scope: vec_floor_float, vec_ceil_float and vec_round_float beyond 2^23 not claimed.
- **C84 Reductions over negated, scaled and reordered samples** (proved). The sums run the same additions on both buffers, whatever their grouping: `hsum_vec_par` and `hsum_simd_par` lift any relation between samples that addition respects to the results. Addition respects opposites (`opposite_add`, rounding is odd) and exact scaling (`scaled_add`: a sum of two floats that lands in the subnormal range is exact, elsewhere rounding commutes with the scale). Maxima and minima: `is_max_unique` from C19 and C23; a maximum is at least FLT_MIN and so determined by its value. Meters: they use absolute values and squares only (`peak_simd_signs`, `sqr_sign`). Scope: SIMD meters under the assumption of C19 on the upper AVX lanes.
- **C85 Converting there and back** (proved). `there_and_back` (SpecTrip.v) is the two-call specification. Lane bounds combine the error bounds of C49-C61 with the real analysis of RealTrip.v: Lipschitz bounds for asin, acos, atan and tan, and the error of exp under a shift (`trip_there`, `trip_back` for the unit conversions). At x = -0.5 the model computes acos exactly, and the cosine of the wrong angle is right because cos(4.18879) = cos(2.0944). Buffers: `trip_chain` runs the driver theorem of C10 twice. Scope: 32-bit floats on SSE2 and AVX, the specialisations that use vec_math.hpp.
- **C86 Identities between transcendental functions** (proved). Each identity holds of the real functions; the bounds of C49, C51, C57-C61 on each call and the rounding of the one float operation are combined by the real-number lemmas of RealTrip.v. The exact cases of pow follow from exp(+-0) = 1 and log(1) = 0 (C48, C50): the logarithm is finite for every argument, so its product with zero is zero. The exceptions at -0.5 and at pow(0,0) are `_refuted` theorems. Scope: 32-bit floats on SSE2 and AVX; products, quotients, sums and roots are the correctly rounded lane operations.
- **C87 The same bits on SSE and AVX** (proved). SameFacts.v turns every call into the one on AVX: constants, comparisons on numbers, truncation and select of a full mask are equal (`sm_same`, `rel_same`, `sel_same`). exp and tanh round a number within 2^23 wherever the result is used, so the two forms of rounding coincide (`exp_z_same`); the product handed to exp by pow is no NaN because logarithms are finite (`pow_same_fin`), and for the unit conversions because the logarithm of the base is not zero. Buffers: `simd_same`, `simd2_same` from the driver theorem of C02. Scope: Both sides with the same choice of NaN payloads; the estimates rcpps and rsqrtps are not involved. Sums and muladd do depend on the build: C53, C69.
- **C88 Exchanged arguments and inverted polarity** (proved). SwapFacts.v proves that the operations of Flocq commute up to NaNs (`fadd_comm`, `fmul_comm`, `ffma_comm`, by value and sign, by overflow, by cases on infinities) and are odd (`opposite_mul`, `opposite_fma`, `opposite_div`, `opposite_sub` with the difference as a sum, `opposite_add` from C84). min, max and limits follow from the integer order of floats (`rep`), comparisons from `vrel_srel`. The buffer theorems combine these with C18 and the driver theorems. Scope: Inputs of inverted polarity differ in the sign bit of every sample. Outputs are compared as numbers: zeros of whatever sign are opposite to each other, and so are NaNs.
- **C89 Gains by a power of two commute with the arithmetic** (proved). `SpecGain.v` says what scaled arguments and scaled results are: `scales k` relates two arguments sample by sample, `times_power k` two results where both are finite, `no_underflow` is "zero or at least the smallest normal number". The proofs (`GainFacts.v`) rest on one fact of rounding: round(r 2^k) = round(r) 2^k if r is a multiple of the smallest subnormal number (sums, for k >= 0, and by symmetry for k < 0), or if neither r nor r 2^k underflows. min and max are shown to be the real minimum and maximum on finite samples for every instruction set. For ampmod_vec the condition is put on the results (both above the smallest normal number), since its inner value 1 + modulator*amount is rounded. `C89_times_underflow_refuted` halves the smallest subnormal number. Scope: Exact commutation of power-of-two gains, with the underflow condition shown necessary for products.
- **C90 One call gives what two simpler calls through a buffer give** (proved). `SpecChain.v`: `same_in_steps P one first second` says that `one` succeeds, that `first` succeeds, that `second` run in the memory left by `first` succeeds, and that the samples at `out` are related by P in the two final memories. Hence the theorems also say that the second call is defined (the buffers are still accessible). `ChainFacts.v` shows what the second call reads: the intermediate buffer holds what the first wrote, every other argument, if it is clear of that buffer, what it held before. The output of the second call may be the intermediate buffer itself (`arg_fit m out len (APtr tmp)` allows tmp = out). `C90_muladd_fused_refuted` gives (1 + 2^-12)^2 - (1 + 2^-11), which is 2^-24 fused and 0 in two calls. Scope: Compound functions decomposed into simpler ones through a buffer; refuted for fused muladd.
- **C91 Samples taken apart and put together again** (proved). `SpecParts.v` runs a list of calls in turn (`in_turn`, each in the memory the one before has left); `gives_back` compares the samples at the end with those an argument had at the start, `same_in_turn` with those of one other call. The proofs (`PartsFacts.v`) follow what each call reads (`left_by` of C90) and then use facts about rounding: Flocq's Sterbenz lemma for the difference; C40 for floor and frac; and for the square root a proof that rnd(sqrt(rnd(r r))) = r for representable r whose square is not subnormal, by comparing sqrt(rnd(r r)) with the midpoints around r. That the square does not overflow for |x| < 2^(emax/2) follows from the same equation. `C91_floor_frac_refuted` takes -2^-60, whose floor is -1 and whose frac is 1. Scope: Identities through several calls: sgn*abs, floor+frac, ceil by floor, min+max, Sterbenz, sqrt of square, x-x, x/x; floor+frac refuted below zero.
- **C92 Special functions are calls of the general ones** (proved). The one-call side and the many-call side are compared by `same_effect` (whole memories; `Spec.v`), `same_in_steps` (C90) or `in_turn` (C91). `CallsFacts.v` derives equality of memories from the two postconditions (C12, C14, C15, C17, C18), which fix every cell inside and outside the outputs. For the peaks both results are shown to be the maximum of the same list (C19, C23), the maximum of numbers being unique; the running sum is the same left fold on both sides. `C92_pan2_in_place_refuted` pans one sample of value 2 in place. SIMD panning on Altivec is left out: there times_vec multiplies by a fused multiply-add with +0 and can differ in the sign of a zero. Scope: addvec = plus_vec, pan2 = two gains, ramps and constants = filled buffers, peak = max of abs, sum of squares = sum of square_vec; pan2 in place refuted.
- **C93 Mixing any number of buffers into one** (proved). `SpecBus.v`: `column` are the samples of all inputs at one index, `mixes` relates them to the output and demands that nothing else changes; the calls are run by `in_turn` (C91). `BusFacts.v` proves by induction over the list of inputs that each call adds one element of the column to what the calls before have left (C12, C14), and that it keeps what later calls need. The rounding statements apply the fold lemmas behind C24 and C69 to the column; zeros by cases. `C93_any_order_refuted` mixes 2^24, -2^24 and 1 in two orders. Scope: zerovec and any number of addvec calls: the column sums, scalar = SIMD, exact for integers, rounding bound, order free in exact arithmetic (refuted in float), equal to plus_vec and sum_vec for two and three.
- **C94 Silence stays silence** (proved). `SpecQuiet.v`: `silent` buffers, `leaves_silence`/`leaves_ones`/`leaves_nans` say what every output sample is and that nothing else changes; `effect` lists what can be done in place, `harmless` bounds the gain and picks the functions that are 0 at 0, `harmless_simd` leaves out what NEON and Altivec lack or, for square roots on NEON, estimate (C67). `QuietFacts.v` evaluates every lane function at both zeros on every instruction set and configuration: there are two inputs, so this is complete. Products by cases on the shape of the other factor, any finite number. The C library enters only through the hypothesis `library` (SpecAgree.v): a relative error bound at a value of 0 leaves only 0. The chain is by induction over the list, with the memory left by each call as the next one's. Scope: Unary, transcendental, additive and multiplicative functions of zeros, scalar and SIMD; any list of in-place effects by induction; NaNs for division, infinite gains and signed_sqrt on NEON.

## 4. Trusted base

- Coq's kernel, including its virtual machine, which evaluates the literal parts of some proofs
  (bit patterns of constants, the finite table of `far_all` in `TanFacts.v`, examples), and the
  primitive 63-bit integers and floats of the kernel where Interval computes with them (Real*.v).
- The axioms listed in section 5. All are from Coq's standard library: the axioms of the classical reals
  (`ClassicalDedekindReals.sig_forall_dec`, `ClassicalDedekindReals.sig_not_dec`), `functional_extensionality_dep`,
  `Classical_Prop.classic`, and the specifications of primitive integers and floats (`Uint63.*`,
  `PrimInt63.*`, `PrimFloat.*`, `FloatAxioms.*`). No axiom is declared in this development.
- The reading of C++ and of the vector instruction manuals in section 2 and in the comments of the
  definitions. There is no machine-checked link between the C++ text and the model; the seeded-bug runs
  in `seeded/LOG.jsonl` test that the theorems notice realistic changes of the model. Limits of these runs:
  `theorems_failed` lists the theorems whose own proof script, or that of a lemma they refer to, no longer
  goes through. A script that fails does not by itself show that the theorem is false of the edited model.
  The field `outcome` says what a run settled. `detected` means that every claim expected to break lost a
  theorem. `inconclusive` means that the build of the edited copy stopped before the expected theorems were
  reached (files in `files_not_built`), and `invalid` that the edited file itself did not compile; neither
  says anything about the claim. The ids `redo-*` are corrected versions of such runs. Only the files
  needed for the expected claims were rebuilt, so other theorems may have failed too. Earlier versions of the
  log had no such field and showed inconclusive runs with empty lists, as if nothing had survived.
- The specification files `Spec*.v`, short enough to be read.

## 5. Assumptions per theorem

Output of `Print Assumptions`, abbreviated:

- **S0**: closed under the global context (no axioms)
- **S1**: `Classical_Prop.classic`
- **S2**: `ClassicalDedekindReals.sig_forall_dec`, `FunctionalExtensionality.functional_extensionality_dep`
- **S3**: `ClassicalDedekindReals.sig_forall_dec`, `ClassicalDedekindReals.sig_not_dec`, `Classical_Prop.classic`, `FunctionalExtensionality.functional_extensionality_dep`
- **S4**: `ClassicalDedekindReals.sig_forall_dec`, `ClassicalDedekindReals.sig_not_dec`, `Classical_Prop.classic`, `FloatAxioms.Prim2SF_SF2Prim`, `FloatAxioms.Prim2SF_valid`, `FloatAxioms.SF2Prim_Prim2SF`, `FloatAxioms.abs_spec`, `FloatAxioms.add_spec`, `FloatAxioms.classify_spec`, `FloatAxioms.compare_spec`, `FloatAxioms.div_spec`, `FloatAxioms.eqb_spec`, `FloatAxioms.frshiftexp_spec`, `FloatAxioms.ldshiftexp_spec`, `FloatAxioms.ltb_spec`, `FloatAxioms.mul_spec`, `FloatAxioms.next_down_spec`, `FloatAxioms.next_up_spec`, `FloatAxioms.normfr_mantissa_spec`, `FloatAxioms.of_uint63_spec`, `FloatAxioms.opp_spec`, `FloatAxioms.sqrt_spec`, `FloatAxioms.sub_spec`, `FunctionalExtensionality.functional_extensionality_dep`, `PrimFloat.abs`, `PrimFloat.add`, `PrimFloat.classify`, `PrimFloat.compare`, `PrimFloat.div`, `PrimFloat.eqb`, `PrimFloat.float`, `PrimFloat.frshiftexp`, `PrimFloat.ldshiftexp`, `PrimFloat.ltb`, `PrimFloat.mul`, `PrimFloat.next_down`, `PrimFloat.next_up`, `PrimFloat.normfr_mantissa`, `PrimFloat.of_uint63`, `PrimFloat.opp`, `PrimFloat.sqrt`, `PrimFloat.sub`, `PrimInt63.add`, `PrimInt63.eqb`, `PrimInt63.int`, `PrimInt63.land`, `PrimInt63.leb`, `PrimInt63.lor`, `PrimInt63.lsl`, `PrimInt63.lsr`, `PrimInt63.ltb`, `PrimInt63.sub`, `Uint63.add_spec`, `Uint63.eqb_correct`, `Uint63.eqb_refl`, `Uint63.land_spec`, `Uint63.leb_spec`, `Uint63.lor_spec`, `Uint63.lsl_spec`, `Uint63.lsr_spec`, `Uint63.ltb_spec`, `Uint63.of_to_Z`, `Uint63.sub_spec`
- **S5**: `ClassicalDedekindReals.sig_forall_dec`, `ClassicalDedekindReals.sig_not_dec`, `Classical_Prop.classic`, `FloatAxioms.Prim2SF_SF2Prim`, `FloatAxioms.Prim2SF_valid`, `FloatAxioms.SF2Prim_Prim2SF`, `FloatAxioms.abs_spec`, `FloatAxioms.add_spec`, `FloatAxioms.classify_spec`, `FloatAxioms.compare_spec`, `FloatAxioms.div_spec`, `FloatAxioms.eqb_spec`, `FloatAxioms.frshiftexp_spec`, `FloatAxioms.ldshiftexp_spec`, `FloatAxioms.ltb_spec`, `FloatAxioms.mul_spec`, `FloatAxioms.next_down_spec`, `FloatAxioms.next_up_spec`, `FloatAxioms.normfr_mantissa_spec`, `FloatAxioms.of_uint63_spec`, `FloatAxioms.opp_spec`, `FloatAxioms.sqrt_spec`, `FloatAxioms.sub_spec`, `FunctionalExtensionality.functional_extensionality_dep`, `PrimFloat.abs`, `PrimFloat.add`, `PrimFloat.classify`, `PrimFloat.compare`, `PrimFloat.div`, `PrimFloat.eqb`, `PrimFloat.float`, `PrimFloat.frshiftexp`, `PrimFloat.ldshiftexp`, `PrimFloat.ltb`, `PrimFloat.mul`, `PrimFloat.next_down`, `PrimFloat.next_up`, `PrimFloat.normfr_mantissa`, `PrimFloat.of_uint63`, `PrimFloat.opp`, `PrimFloat.sqrt`, `PrimFloat.sub`, `PrimInt63.add`, `PrimInt63.addc`, `PrimInt63.addcarryc`, `PrimInt63.addmuldiv`, `PrimInt63.compare`, `PrimInt63.div`, `PrimInt63.diveucl`, `PrimInt63.diveucl_21`, `PrimInt63.eqb`, `PrimInt63.head0`, `PrimInt63.int`, `PrimInt63.land`, `PrimInt63.leb`, `PrimInt63.lor`, `PrimInt63.lsl`, `PrimInt63.lsr`, `PrimInt63.ltb`, `PrimInt63.lxor`, `PrimInt63.mod`, `PrimInt63.mul`, `PrimInt63.mulc`, `PrimInt63.sub`, `PrimInt63.subc`, `PrimInt63.subcarryc`, `PrimInt63.tail0`, `Uint63.add_spec`, `Uint63.addc_def_spec`, `Uint63.addcarryc_def_spec`, `Uint63.addmuldiv_def_spec`, `Uint63.compare_def_spec`, `Uint63.div_spec`, `Uint63.diveucl_21_spec`, `Uint63.diveucl_def_spec`, `Uint63.eqb_correct`, `Uint63.eqb_refl`, `Uint63.head0_spec`, `Uint63.land_spec`, `Uint63.leb_spec`, `Uint63.lor_spec`, `Uint63.lsl_spec`, `Uint63.lsr_spec`, `Uint63.ltb_spec`, `Uint63.lxor_spec`, `Uint63.mod_spec`, `Uint63.mul_spec`, `Uint63.mulc_spec`, `Uint63.of_to_Z`, `Uint63.sub_spec`, `Uint63.subc_def_spec`, `Uint63.subcarryc_def_spec`, `Uint63.tail0_spec`

| theorem | assumptions |
|---|---|
| `C01_foo_vec_maps_unary` | S0 |
| `C01_foo_vec_maps_binary` | S0 |
| `C01_foo_vec_maps_ternary` | S0 |
| `C01_foo_vec_maps_quaternary` | S0 |
| `C01_fixed_length_unary` | S0 |
| `C01_fixed_length_binary` | S0 |
| `C01_fixed_length_ternary` | S0 |
| `C01_fixed_length_quaternary` | S0 |
| `C02_foo_vec_simd_maps_unary` | S0 |
| `C02_foo_vec_simd_maps_binary` | S0 |
| `C02_foo_vec_simd_maps_ternary` | S0 |
| `C02_foo_vec_simd_maps_quaternary` | S0 |
| `C03_compile_time_equals_run_time_unary` | S0 |
| `C03_compile_time_equals_run_time_binary` | S0 |
| `C03_compile_time_equals_run_time_ternary` | S0 |
| `C03_compile_time_equals_run_time_quaternary` | S0 |
| `C04_simd_equals_scalar_unary` | S0 |
| `C04_simd_equals_scalar_binary` | S0 |
| `C04_simd_equals_scalar_ternary` | S0 |
| `C04_simd_equals_scalar_quaternary` | S0 |
| `C05_in_place_and_above_are_safe` | S0 |
| `C05_below_reads_back` | S0 |
| `C05_below_is_safe_refuted` | S0 |
| `C06_zero_length_unary` | S0 |
| `C06_zero_length_binary` | S0 |
| `C06_zero_length_ternary` | S0 |
| `C06_zero_length_quaternary` | S0 |
| `C06_short_simd_length_unary` | S0 |
| `C06_short_simd_length_binary` | S0 |
| `C06_short_simd_length_ternary` | S0 |
| `C06_short_simd_length_quaternary` | S0 |
| `C07_tail_untouched_unary` | S0 |
| `C07_tail_untouched_binary` | S0 |
| `C07_tail_untouched_ternary` | S0 |
| `C07_tail_untouched_quaternary` | S0 |
| `C08_misaligned_traps_unary` | S0 |
| `C08_misaligned_traps_binary` | S0 |
| `C08_misaligned_traps_ternary` | S0 |
| `C08_misaligned_traps_quaternary` | S0 |
| `C08_is_aligned_exact` | S0 |
| `C08_no_alignment_needed` | S0 |
| `C09_ramps_are_lines_binary` | S0 |
| `C09_ramps_are_lines_ternary` | S0 |
| `C09_ramps_are_lines_quaternary` | S0 |
| `C10_exact_ramps_binary` | S3 |
| `C10_exact_ramps_ternary` | S3 |
| `C10_exact_ramps_quaternary` | S3 |
| `C10_integer_ramps_are_exact` | S3 |
| `C10_negative_zero_refuted` | S3 |
| `C11_second_vector_is_wrong` | S3 |
| `C11_exact_again` | S3 |
| `C11_simd_equals_scalar_refuted` | S3 |
| `C12_zerovec` | S0 |
| `C12_setvec` | S0 |
| `C12_zerovec_simd` | S0 |
| `C12_zerovec_simd_fixed_length` | S0 |
| `C12_zerovec_na_simd` | S0 |
| `C12_zerovec_na_simd_fixed_length` | S0 |
| `C12_setvec_simd` | S0 |
| `C12_setvec_simd_fixed_length` | S0 |
| `C12_setvec_na_simd` | S0 |
| `C12_setvec_na_simd_fixed_length` | S0 |
| `C13_copyvec` | S0 |
| `C13_copyvec_simd` | S0 |
| `C13_copyvec_simd_over_reads` | S0 |
| `C13_copyvec_aa_simd` | S0 |
| `C13_copyvec_aa_simd_fixed_length` | S0 |
| `C13_copyvec_aa_simd_over_reads` | S0 |
| `C13_copyvec_aa_simd_fixed_length_over_reads` | S0 |
| `C13_copyvec_na_simd` | S0 |
| `C13_copyvec_na_simd_fixed_length` | S0 |
| `C13_copyvec_na_simd_over_reads` | S0 |
| `C13_copyvec_na_simd_fixed_length_over_reads` | S0 |
| `C13_copyvec_an_simd` | S0 |
| `C13_copyvec_an_simd_fixed_length` | S0 |
| `C13_copyvec_an_simd_over_reads` | S0 |
| `C13_copyvec_an_simd_fixed_length_over_reads` | S0 |
| `C13_copyvec_nn_simd` | S0 |
| `C13_copyvec_nn_simd_fixed_length` | S0 |
| `C13_copyvec_nn_simd_over_reads` | S0 |
| `C13_copyvec_nn_simd_fixed_length_over_reads` | S0 |
| `C13_reads_only_the_source_refuted` | S0 |
| `C14_addvec` | S0 |
| `C14_addvec_scalar` | S0 |
| `C14_addvec_simd` | S0 |
| `C14_addvec_scalar_simd` | S0 |
| `C14_addvec_simd_fixed_length` | S0 |
| `C14_addvec_scalar_simd_fixed_length` | S0 |
| `C15_set_slope_vec` | S0 |
| `C15_set_slope_vec_any_arithmetic` | S0 |
| `C15_set_slope_vec_simd` | S0 |
| `C15_set_slope_increment` | S0 |
| `C16_set_exp_vec` | S0 |
| `C16_set_exp_vec_simd` | S0 |
| `C16_pow_i` | S0 |
| `C16_set_exp_next` | S0 |
| `C17_pan2_vec` | S0 |
| `C17_pan2_slope_vec` | S0 |
| `C17_pan2_vec_simd` | S0 |
| `C17_pan2_slope_vec_simd` | S0 |
| `C17_pan2_vec_simd_fixed_length` | S0 |
| `C17_pan2_slope_vec_simd_fixed_length` | S0 |
| `C18_mix_vec` | S0 |
| `C18_mix_vec_simd` | S0 |
| `C18_mix_vec_simd_ramps` | S0 |
| `C18_sum_vec2` | S0 |
| `C18_sum_vec2_simd` | S0 |
| `C18_sum_vec3` | S0 |
| `C18_sum_vec3_simd` | S0 |
| `C18_sum_vec4` | S0 |
| `C18_sum_vec4_simd` | S0 |
| `C18_muladd_vec` | S0 |
| `C18_muladd_vec_simd` | S0 |
| `C18_muladd_vec_simd_ramps` | S0 |
| `C18_ampmod_vec` | S0 |
| `C18_ampmod_vec_simd` | S0 |
| `C18_ampmod_vec_simd_ramps` | S0 |
| `C18_clip_vec` | S0 |
| `C18_clip_vec_simd` | S0 |
| `C18_clip2_vec` | S0 |
| `C18_clip2_vec_simd` | S0 |
| `C18_plus_vec` | S0 |
| `C18_plus_vec_simd` | S0 |
| `C18_minus_vec` | S0 |
| `C18_minus_vec_simd` | S0 |
| `C18_times_vec` | S0 |
| `C18_times_vec_simd` | S0 |
| `C18_over_vec` | S0 |
| `C18_over_vec_simd` | S0 |
| `C18_min_vec` | S0 |
| `C18_min_vec_simd` | S0 |
| `C18_max_vec` | S0 |
| `C18_max_vec_simd` | S0 |
| `C18_muladd_unfused_simd_equals_scalar` | S0 |
| `C19_peak_vec` | S3 |
| `C19_peak_vec_simd` | S3 |
| `C19_peak_vec_blocks` | S3 |
| `C19_peak_vec_simd_blocks` | S3 |
| `C19_one_call_or_many` | S0 |
| `C19_undefined_lanes_refuted` | S3 |
| `C20_peak_vec_simd_rounds_down` | S0 |
| `C20_peak_rms_vec_simd_rounds_down` | S0 |
| `C20_ignores_last_samples_refuted` | S3 |
| `C20_peak_vec_simd_too_short` | S0 |
| `C20_peak_rms_vec_simd_too_short` | S0 |
| `C20_unit_too_large` | S0 |
| `C20_shortest_legal_length_faults` | S0 |
| `C21_peak_vec_skips_nan` | S3 |
| `C21_stored_nan_stays` | S3 |
| `C21_peak_vec_simd_refuted` | S3 |
| `C22_peak_rms_vec` | S0 |
| `C22_peak_rms_vec_simd` | S0 |
| `C22_same_peak_as_plain_meter` | S0 |
| `C22_simd_same_peak_as_plain_meter` | S0 |
| `C22_peak_rms_vec_integers` | S3 |
| `C22_peak_rms_vec_simd_integers` | S3 |
| `C23_flt_min` | S3 |
| `C23_horizontal_max_vec` | S3 |
| `C23_horizontal_max_vec_true_result` | S3 |
| `C23_horizontal_max_vec_wrong_result` | S3 |
| `C23_horizontal_min_vec` | S3 |
| `C23_horizontal_min_vec_true_result` | S3 |
| `C23_horizontal_min_vec_wrong_result` | S3 |
| `C23_horizontal_max_vec_simd` | S3 |
| `C23_horizontal_max_vec_simd_true_result` | S3 |
| `C23_horizontal_max_vec_simd_wrong_result` | S3 |
| `C23_horizontal_min_vec_simd` | S3 |
| `C23_horizontal_min_vec_simd_true_result` | S3 |
| `C23_horizontal_min_vec_simd_wrong_result` | S3 |
| `C24_horizontal_sum_vec` | S0 |
| `C24_horizontal_sum_vec_integers` | S3 |
| `C24_horizontal_sum_vec_simd` | S0 |
| `C24_horizontal_sum_vec_simd_integers` | S3 |
| `C25_horizontal_minmax_vec` | S3 |
| `C25_horizontal_minmax_vec_true_minimum` | S3 |
| `C25_horizontal_minmax_vec_same_max` | S0 |
| `C25_horizontal_maxsum_vec` | S0 |
| `C25_horizontal_minmax_vec_simd` | S3 |
| `C25_horizontal_minmax_vec_simd_true_minimum` | S3 |
| `C25_horizontal_minmax_vec_simd_same_max` | S0 |
| `C25_horizontal_maxsum_vec_simd` | S0 |
| `C26_horizontal_max` | S0 |
| `C26_horizontal_min` | S0 |
| `C26_horizontal_sum` | S0 |
| `C26_horizontal_sum_integers` | S3 |
| `C27_get_set` | S0 |
| `C27_get` | S0 |
| `C27_set_vec` | S0 |
| `C27_set_slope_exact` | S0 |
| `C27_set_exp_exact` | S0 |
| `C27_load_aligned_store_aligned` | S0 |
| `C27_load_store` | S0 |
| `C28_lane_is_one_or_zero` | S3 |
| `C28_lane_equals_scalar` | S3 |
| `C28_comparison_of_finite_numbers` | S3 |
| `C28_comparison_with_infinities` | S3 |
| `C28_comparison_with_nan` | S3 |
| `C28_avx_greater_holds_for_nan` | S3 |
| `C28_avx_equals_scalar_refuted` | S3 |
| `C28_compare_vec_simd_equals_compare_vec` | S3 |
| `C29_select_by_comparison` | S3 |
| `C29_avx_greater_selects_rhs_for_nan` | S3 |
| `C29_neon_select_is_reversed` | S3 |
| `C29_neon_select_refuted` | S3 |
| `C30_andnot_bits` | S3 |
| `C30_back_ends_agree_iff_equal` | S3 |
| `C30_same_on_all_back_ends_refuted` | S3 |
| `C31_abs_clears_the_sign_bit` | S3 |
| `C31_abs_value` | S3 |
| `C31_abs_vec_and_abs_vec_simd` | S3 |
| `C32_sign_lane` | S3 |
| `C32_sign_of_nan` | S3 |
| `C32_sign_of_minus_zero` | S3 |
| `C32_sgn_vec_simd_matches_sgn_vec` | S3 |
| `C32_same_for_nan_refuted` | S3 |
| `C33_max_and_min_of_numbers` | S0 |
| `C33_with_a_nan_the_other_operand` | S0 |
| `C33_with_a_nan_refuted` | S3 |
| `C33_max_vec_simd_matches_max_vec` | S3 |
| `C33_min_vec_simd_matches_min_vec` | S3 |
| `C34_clip_confines` | S3 |
| `C34_clip2_confines` | S3 |
| `C34_clip_vec_and_clip_vec_simd` | S3 |
| `C34_nan_sample_in_clip` | S3 |
| `C34_nan_sample_in_clip2` | S3 |
| `C35_lane_equals_scalar` | S3 |
| `C35_softclip_identity` | S3 |
| `C35_softclip_bounded` | S3 |
| `C35_softclip_odd` | S3 |
| `C35_softclip_of_infinity` | S3 |
| `C35_softclip_vec_and_softclip_vec_simd` | S3 |
| `C36_flushes_exactly_the_subnormals` | S3 |
| `C36_lane_equals_scalar` | S3 |
| `C36_undenormalize_vec_and_undenormalize_vec_simd` | S3 |
| `C37_signed_sqrt_value` | S3 |
| `C37_lane_equals_scalar` | S3 |
| `C37_odd_and_infinite` | S3 |
| `C37_signed_sqrt_vec_and_signed_sqrt_vec_simd` | S3 |
| `C38_scalar_round` | S3 |
| `C38_round_instruction` | S3 |
| `C38_magic_round` | S3 |
| `C38_magic_round_is_the_instruction` | S3 |
| `C38_magic_round_beyond` | S3 |
| `C38_magic_round_unrestricted_refuted` | S3 |
| `C38_forms_agree_off_ties` | S3 |
| `C38_ties_differ` | S3 |
| `C38_round_vec_simd_equals_round_vec` | S3 |
| `C38_floor_of_x_plus_half_refuted` | S3 |
| `C39_scalar_floor_and_ceil` | S3 |
| `C39_magic_floor` | S3 |
| `C39_magic_ceil` | S3 |
| `C39_floor_forms_agree` | S3 |
| `C39_ceil_forms_agree` | S3 |
| `C39_ceil_zero_sign` | S3 |
| `C39_magic_floor_and_ceil_beyond` | S3 |
| `C39_floor_vec_simd_equals_floor_vec` | S3 |
| `C39_ceil_vec_simd_matches_ceil_vec` | S3 |
| `C40_frac_lies_between_0_and_1` | S3 |
| `C40_frac_is_exact` | S3 |
| `C40_frac_is_the_nearest_float` | S3 |
| `C40_frac_of_tiny_negative_is_one` | S3 |
| `C40_frac_below_one_refuted` | S3 |
| `C40_frac_forms_agree` | S3 |
| `C40_magic_frac_beyond` | S3 |
| `C40_frac_vec_simd_equals_frac_vec` | S3 |
| `C41_scalar_trunc` | S3 |
| `C41_scalar_trunc_undefined` | S3 |
| `C41_trunc_instruction` | S3 |
| `C41_trunc_instruction_on_infinities` | S3 |
| `C41_trunc_forms_agree` | S3 |
| `C41_altivec_trunc_of_negative` | S3 |
| `C41_altivec_trunc_of_positive` | S3 |
| `C42_constants` | S3 |
| `C42_values` | S3 |
| `C42_sign_and_abs_masks` | S3 |
| `C42_exponent_mask` | S3 |
| `C43_add_and_sub` | S0 |
| `C43_signed_comparisons` | S0 |
| `C43_unsigned_comparisons` | S0 |
| `C43_comparisons_differ` | S0 |
| `C43_equality` | S0 |
| `C43_and_andnot` | S0 |
| `C43_shifts` | S0 |
| `C43_shifts_from_32` | S0 |
| `C43_set` | S0 |
| `C43_convert_to_float` | S3 |
| `C43_truncate_to_int` | S3 |
| `C43_truncate_to_int_outside` | S3 |
| `C43_convert_of_truncate` | S3 |
| `C44_frexp_splits` | S3 |
| `C44_ldexp_scales` | S3 |
| `C44_ldexp_of_frexp` | S3 |
| `C44_ldexp_of_zero` | S3 |
| `C44_frexp_of_zero` | S3 |
| `C45_sin_odd` | S3 |
| `C45_tan_odd` | S3 |
| `C45_atan_odd` | S3 |
| `C45_cos_even` | S3 |
| `C45_asin_odd` | S3 |
| `C45_asin_unrestricted_refuted` | S3 |
| `C45_tanh_odd` | S5 |
| `C45_tanh_at_zero_refuted` | S3 |
| `C45_sin_vec_simd_mirrors` | S3 |
| `C45_tan_vec_simd_mirrors` | S3 |
| `C45_atan_vec_simd_mirrors` | S3 |
| `C46_tanh_saturates` | S3 |
| `C46_tanh_bounded` | S5 |
| `C46_tanh_sign` | S5 |
| `C46_tanh_nan_avx` | S3 |
| `C46_tanh_vec_simd_bounded` | S5 |
| `C47_asin_outside` | S3 |
| `C47_asin_nan_avx` | S3 |
| `C47_asin_vec_simd_outside` | S3 |
| `C47_acos_outside` | S3 |
| `C47_acos_nan_avx` | S3 |
| `C47_acos_vec_simd_outside` | S3 |
| `C48_exp_above` | S3 |
| `C48_exp_below` | S3 |
| `C48_exp_finite` | S5 |
| `C48_exp_edge_refuted` | S3 |
| `C48_exp_zero` | S3 |
| `C48_exp_nan_sse` | S3 |
| `C48_exp_nan_avx` | S3 |
| `C48_exp_vec_simd_finite` | S5 |
| `C49_exp` | S5 |
| `C49_exp_vec_simd` | S5 |
| `C49_exp_below_refuted` | S4 |
| `C50_log_finite` | S3 |
| `C50_log_of_zero` | S3 |
| `C50_log_of_infinity` | S3 |
| `C50_log_one` | S3 |
| `C50_pow_of_zero` | S3 |
| `C50_pow_not_negative` | S5 |
| `C50_signed_pow` | S5 |
| `C50_signed_pow_odd` | S5 |
| `C50_log_vec_simd_finite` | S3 |
| `C50_pow_vec_simd_not_negative` | S5 |
| `C50_spow_vec_simd_sign` | S5 |
| `C51_tanh` | S5 |
| `C51_tanh_vec_simd` | S5 |
| `C51_log` | S5 |
| `C51_log_vec_simd` | S5 |
| `C52_reciprocal_accurate` | S3 |
| `C52_reciprocal_of_zero` | S3 |
| `C52_reciprocal_of_infinity` | S3 |
| `C53_madd_error` | S3 |
| `C53_scalar_muladd_error` | S3 |
| `C53_exact_product` | S3 |
| `C53_forms_differ_refuted` | S3 |
| `C54_midi2freq` | S5 |
| `C54_midi2freq_vec_simd` | S5 |
| `C54_midi2ratio` | S5 |
| `C54_midi2ratio_vec_simd` | S5 |
| `C54_oct2freq` | S5 |
| `C54_oct2freq_vec_simd` | S5 |
| `C54_db2amp` | S5 |
| `C54_db2amp_vec_simd` | S5 |
| `C54_ratio2midi` | S5 |
| `C54_ratio2midi_vec_simd` | S5 |
| `C54_amp2db` | S5 |
| `C54_amp2db_vec_simd` | S5 |
| `C54_freq2midi` | S5 |
| `C54_freq2midi_vec_simd` | S5 |
| `C54_freq2oct` | S5 |
| `C54_freq2oct_vec_simd` | S5 |
| `C54_key_round_trip` | S5 |
| `C54_db_round_trip` | S5 |
| `C54_exact_points` | S3 |
| `C54_amp2db_even` | S3 |
| `C55_zerovec_na_simd` | S0 |
| `C55_setvec_na_simd` | S0 |
| `C55_copyvec_na_simd` | S0 |
| `C55_copyvec_an_simd` | S0 |
| `C55_copyvec_nn_simd` | S0 |
| `C56_square_and_cube_lanes` | S3 |
| `C56_square_vec_and_square_vec_simd` | S3 |
| `C56_cube_vec_and_cube_vec_simd` | S3 |
| `C56_cube_on_altivec_refuted` | S3 |
| `C57_log2` | S5 |
| `C57_log2_vec_simd` | S5 |
| `C57_log10` | S5 |
| `C57_log10_vec_simd` | S5 |
| `C58_pow` | S5 |
| `C58_pow_vec_simd` | S5 |
| `C59_sin` | S5 |
| `C59_sin_vec_simd` | S5 |
| `C59_cos` | S5 |
| `C59_cos_vec_simd` | S5 |
| `C59_circle` | S5 |
| `C59_sin_zero` | S3 |
| `C59_cos_zero` | S3 |
| `C59_sin_large_refuted` | S3 |
| `C59_cos_large_refuted` | S3 |
| `C60_tan` | S5 |
| `C60_tan_vec_simd` | S5 |
| `C60_tan_zero` | S3 |
| `C61_asin` | S5 |
| `C61_asin_vec_simd` | S5 |
| `C61_acos` | S5 |
| `C61_acos_vec_simd` | S5 |
| `C61_acos_minus_half_refuted` | S3 |
| `C61_atan` | S5 |
| `C61_atan_vec_simd` | S5 |
| `C61_atan_inf` | S4 |
| `C61_asin_zero` | S3 |
| `C61_atan_zero` | S3 |
| `C61_acos_one` | S3 |
| `C62_horizontal_max` | S0 |
| `C62_horizontal_min` | S0 |
| `C62_lane_3_ignored` | S0 |
| `C62_four_lanes_refuted` | S3 |
| `C62_extract` | S0 |
| `C62_constants` | S3 |
| `C62_select` | S3 |
| `C62_select_other_masks_refuted` | S3 |
| `C63_per_element` | S0 |
| `C63_per_element_binary` | S0 |
| `C63_math_simd_equals_scalar` | S3 |
| `C63_pow_simd_equals_scalar` | S3 |
| `C63_unit_simd_equals_scalar` | S3 |
| `C64_signed_pow` | S3 |
| `C64_signed_pow_odd` | S3 |
| `C64_zero_to_the_zero_refuted` | S3 |
| `C64_scalar_and_simd_differ_refuted` | S5 |
| `C65_midi2freq` | S4 |
| `C65_midi2ratio` | S4 |
| `C65_oct2freq` | S4 |
| `C65_db2amp` | S4 |
| `C65_amp2db` | S4 |
| `C65_ratio2midi` | S4 |
| `C65_freq2midi` | S4 |
| `C65_freq2oct` | S4 |
| `C65_key_round_trip` | S4 |
| `C65_a5_refuted` | S5 |
| `C65_a4_refuted` | S5 |
| `C66_log2_old` | S5 |
| `C66_log2_always_short` | S5 |
| `C66_log2_of_8_refuted` | S5 |
| `C67_division_accurate` | S3 |
| `C67_reciprocal_accurate` | S3 |
| `C67_fast_reciprocal_accurate` | S3 |
| `C67_not_more_accurate_refuted` | S3 |
| `C67_division_exact_refuted` | S3 |
| `C67_small_divisor` | S3 |
| `C67_large_divisor` | S3 |
| `C67_self_quotient_refuted` | S3 |
| `C67_indeterminate` | S3 |
| `C67_sqrt_accurate` | S3 |
| `C67_sqrt_not_more_accurate_refuted` | S3 |
| `C67_sqrt_exact_refuted` | S3 |
| `C67_signed_sqrt_accurate` | S3 |
| `C67_sqrt_of_zero_and_infinity` | S3 |
| `C67_over_vec_simd` | S3 |
| `C67_reciprocal_vec_simd` | S3 |
| `C67_signed_sqrt_vec_simd` | S3 |
| `C68_division_accurate` | S3 |
| `C68_reciprocal_accurate` | S3 |
| `C68_sqrt_accurate` | S3 |
| `C68_division_by_zero_and_infinity` | S3 |
| `C68_sqrt_of_zero_and_infinity` | S3 |
| `C68_over_vec_simd` | S3 |
| `C68_reciprocal_vec_simd` | S3 |
| `C69_horizontal_sum_vec` | S3 |
| `C69_horizontal_sum_vec_simd` | S3 |
| `C69_horizontal_maxsum_vec` | S3 |
| `C69_horizontal_maxsum_vec_simd` | S3 |
| `C69_horizontal_sum` | S3 |
| `C69_peak_rms_vec` | S3 |
| `C69_peak_rms_vec_simd` | S3 |
| `C69_growth_is_small` | S2 |
| `C69_same_sum_refuted` | S3 |
| `C70_binary_vec` | S3 |
| `C70_ternary_vec` | S3 |
| `C70_quaternary_vec` | S3 |
| `C70_binary_vec_simd` | S3 |
| `C70_ternary_vec_simd` | S3 |
| `C70_quaternary_vec_simd` | S3 |
| `C70_set_slope_vec` | S3 |
| `C70_set_slope_vec_simd` | S3 |
| `C70_same_ramp_refuted` | S3 |
| `C70_growing_ramp_refuted` | S3 |
| `C71_set_exp_vec` | S3 |
| `C71_set_exp_vec_simd` | S3 |
| `C71_same_curve_refuted` | S3 |
| `C71_small_power_refuted` | S3 |
| `C72_softclip_accurate` | S3 |
| `C72_softclip_simd_accurate` | S3 |
| `C72_softclip_monotone` | S3 |
| `C72_softclip_monotone_refuted` | S3 |
| `C73_unary_vec_in_blocks` | S0 |
| `C73_binary_vec_in_blocks` | S0 |
| `C73_ternary_vec_in_blocks` | S0 |
| `C73_quaternary_vec_in_blocks` | S0 |
| `C73_set_slope_vec_in_blocks` | S0 |
| `C73_set_exp_vec_in_blocks` | S0 |
| `C73_unary_vec_simd_in_blocks` | S0 |
| `C73_binary_vec_simd_in_blocks` | S0 |
| `C73_ternary_vec_simd_in_blocks` | S0 |
| `C73_quaternary_vec_simd_in_blocks` | S0 |
| `C73_binary_ramps_in_blocks` | S0 |
| `C73_ternary_ramps_in_blocks` | S0 |
| `C73_quaternary_ramps_in_blocks` | S0 |
| `C73_simd_ramp_blocks_refuted` | S3 |
| `C73_recomputed_start_refuted` | S3 |
| `C73_partial_units_refuted` | S0 |
| `C74_unary_vec` | S0 |
| `C74_binary_vec` | S0 |
| `C74_ternary_vec` | S0 |
| `C74_quaternary_vec` | S0 |
| `C74_unary_vec_simd` | S0 |
| `C74_unary_vec_simd_ct` | S0 |
| `C74_binary_vec_simd` | S0 |
| `C74_binary_vec_simd_ct` | S0 |
| `C74_ternary_vec_simd` | S0 |
| `C74_ternary_vec_simd_ct` | S0 |
| `C74_quaternary_vec_simd` | S0 |
| `C74_quaternary_vec_simd_ct` | S0 |
| `C74_zerovec` | S0 |
| `C74_setvec` | S0 |
| `C74_set_slope_vec` | S0 |
| `C74_set_exp_vec` | S0 |
| `C74_copyvec` | S0 |
| `C74_addvec` | S0 |
| `C74_addvec_scalar` | S0 |
| `C74_pan2_vec` | S0 |
| `C74_pan2_slope_vec` | S0 |
| `C74_zerovec_simd` | S0 |
| `C74_zerovec_na_simd` | S0 |
| `C74_setvec_simd` | S0 |
| `C74_setvec_na_simd` | S0 |
| `C74_set_slope_vec_simd` | S0 |
| `C74_set_exp_vec_simd` | S0 |
| `C74_addvec_simd` | S0 |
| `C74_addvec_scalar_simd` | S0 |
| `C74_pan2_vec_simd` | S0 |
| `C74_pan2_slope_vec_simd` | S0 |
| `C74_copyvec_simd` | S0 |
| `C74_copy_within_source_refuted` | S0 |
| `C74_misaligned_altivec_refuted` | S0 |
| `C74_any_order` | S1 |
| `C75_sin_range` | S5 |
| `C75_sin_vec_simd_range` | S5 |
| `C75_cos_range` | S5 |
| `C75_cos_vec_simd_range` | S5 |
| `C75_sin_rises` | S5 |
| `C75_sin_vec_simd_rises` | S5 |
| `C75_sin_falls` | S5 |
| `C75_sin_vec_simd_falls` | S5 |
| `C75_cos_falls` | S5 |
| `C75_cos_vec_simd_falls` | S5 |
| `C75_cos_rises` | S5 |
| `C75_cos_vec_simd_rises` | S5 |
| `C75_tan_rises` | S5 |
| `C75_tan_vec_simd_rises` | S5 |
| `C76_asin_rises` | S5 |
| `C76_asin_vec_simd_rises` | S5 |
| `C76_asin_range` | S5 |
| `C76_asin_vec_simd_range` | S5 |
| `C76_acos_falls` | S5 |
| `C76_acos_vec_simd_falls` | S5 |
| `C76_acos_range` | S5 |
| `C76_acos_vec_simd_range` | S5 |
| `C76_acos_minus_half_refuted` | S5 |
| `C76_atan_range` | S5 |
| `C76_atan_vec_simd_range` | S5 |
| `C76_atan_order_refuted` | S3 |
| `C77_log_rises` | S5 |
| `C77_log_vec_simd_rises` | S5 |
| `C77_log2_rises` | S5 |
| `C77_log2_vec_simd_rises` | S5 |
| `C77_log10_rises` | S5 |
| `C77_log10_vec_simd_rises` | S5 |
| `C77_tanh_rises` | S5 |
| `C77_tanh_vec_simd_rises` | S5 |
| `C77_exp_rises` | S4 |
| `C77_exp_vec_simd_rises` | S4 |
| `C77_exp_order_refuted` | S3 |
| `C77_ratio2midi_rises` | S5 |
| `C77_ratio2midi_vec_simd_rises` | S5 |
| `C77_amp2db_rises` | S5 |
| `C77_amp2db_vec_simd_rises` | S5 |
| `C77_freq2midi_rises` | S5 |
| `C77_freq2midi_vec_simd_rises` | S5 |
| `C77_freq2oct_rises` | S5 |
| `C77_freq2oct_vec_simd_rises` | S5 |
| `C78_sin_not_finite` | S3 |
| `C78_cos_not_finite` | S3 |
| `C78_tan_nan` | S3 |
| `C78_atan_nan` | S3 |
| `C78_tan_infinite` | S3 |
| `C78_asin_nan_sse` | S3 |
| `C78_acos_nan_sse` | S3 |
| `C78_sin_finite_refuted` | S3 |
| `C78_sin_vec_simd_nan` | S3 |
| `C78_cos_vec_simd_nan` | S3 |
| `C78_tan_vec_simd_nan` | S3 |
| `C78_atan_vec_simd_nan` | S3 |
| `C78_asin_vec_simd_nan_sse` | S3 |
| `C78_acos_vec_simd_nan_sse` | S3 |
| `C78_log_vec_simd_finite` | S3 |
| `C78_log2_finite` | S3 |
| `C78_log2_vec_simd_finite` | S3 |
| `C78_log10_finite` | S3 |
| `C78_log10_vec_simd_finite` | S3 |
| `C78_ratio2midi_finite` | S3 |
| `C78_ratio2midi_vec_simd_finite` | S3 |
| `C78_amp2db_finite` | S3 |
| `C78_amp2db_vec_simd_finite` | S3 |
| `C78_freq2midi_finite` | S3 |
| `C78_freq2midi_vec_simd_finite` | S3 |
| `C78_freq2oct_finite` | S3 |
| `C78_freq2oct_vec_simd_finite` | S3 |
| `C78_pow_nan_exponent_sse` | S3 |
| `C78_pow_nan_exponent_avx` | S3 |
| `C78_pow_nan_base_refuted` | S3 |
| `C78_midi2freq_nan_sse` | S3 |
| `C78_midi2freq_nan_avx` | S3 |
| `C78_midi2freq_vec_simd_nan` | S3 |
| `C78_oct2freq_nan_sse` | S3 |
| `C78_oct2freq_nan_avx` | S3 |
| `C78_oct2freq_vec_simd_nan` | S3 |
| `C78_midi2ratio_nan_sse` | S3 |
| `C78_midi2ratio_nan_avx` | S3 |
| `C78_midi2ratio_vec_simd_nan` | S3 |
| `C78_db2amp_nan_sse` | S3 |
| `C78_db2amp_nan_avx` | S3 |
| `C78_db2amp_vec_simd_nan` | S3 |
| `C79_math` | S5 |
| `C79_pow` | S5 |
| `C79_unit` | S5 |
| `C79_math_vec` | S5 |
| `C79_pow_vec` | S5 |
| `C79_unit_vec` | S5 |
| `C79_acos_minus_half_refuted` | S4 |
| `C79_sin_large_refuted` | S3 |
| `C80_trunc_vec` | S3 |
| `C80_trunc_vec_undefined` | S3 |
| `C80_trunc_vec_simd` | S3 |
| `C80_trunc_vec_simd_returns` | S3 |
| `C80_trunc_vec_simd_by_element` | S3 |
| `C80_forms_agree` | S3 |
| `C80_same_bits_refuted` | S3 |
| `C80_trunc_vec_simd_ct` | S3 |
| `C80_altivec_negative` | S3 |
| `C81_times_one_vec` | S3 |
| `C81_times_one_vec_simd` | S3 |
| `C81_times_one_altivec` | S3 |
| `C81_times_one_altivec_refuted` | S3 |
| `C81_plus_minus_zero_vec` | S3 |
| `C81_plus_minus_zero_vec_simd` | S3 |
| `C81_plus_zero_vec` | S3 |
| `C81_plus_zero_vec_simd` | S3 |
| `C81_minus_zero_vec` | S3 |
| `C81_minus_zero_vec_simd` | S3 |
| `C81_over_one_vec` | S3 |
| `C81_over_one_vec_simd` | S3 |
| `C81_muladd_one_zero_vec` | S3 |
| `C81_muladd_one_zero_vec_simd` | S3 |
| `C81_min_infinity_vec` | S3 |
| `C81_min_infinity_vec_simd` | S3 |
| `C81_max_minus_infinity_vec` | S3 |
| `C81_max_minus_infinity_vec_simd` | S3 |
| `C81_clip_infinity_vec` | S3 |
| `C81_clip_infinity_vec_simd` | S3 |
| `C81_ampmod_zero_vec` | S3 |
| `C81_ampmod_zero_vec_simd` | S3 |
| `C81_ampmod_zero_infinity_refuted` | S3 |
| `C81_mix_one_zero_vec` | S3 |
| `C81_mix_one_zero_vec_simd` | S3 |
| `C81_mix_one_zero_infinity_refuted` | S3 |
| `C81_flat_ramp_binary` | S3 |
| `C81_flat_ramp_ternary` | S3 |
| `C81_flat_ramp_quaternary` | S3 |
| `C81_flat_ramp_minus_zero_refuted` | S3 |
| `C81_set_slope_zero` | S3 |
| `C81_set_exp_one` | S3 |
| `C82_floor_vec` | S3 |
| `C82_floor_vec_simd` | S3 |
| `C82_ceil_vec` | S3 |
| `C82_ceil_vec_simd` | S3 |
| `C82_round_vec` | S3 |
| `C82_round_vec_simd` | S3 |
| `C82_sgn_vec` | S3 |
| `C82_sgn_vec_simd` | S3 |
| `C82_undenormalize_vec` | S3 |
| `C82_undenormalize_vec_simd` | S3 |
| `C82_cube_vec` | S3 |
| `C82_cube_vec_simd` | S3 |
| `C82_signed_sqrt_vec` | S3 |
| `C82_signed_sqrt_vec_simd` | S3 |
| `C82_square_vec` | S3 |
| `C82_square_vec_simd` | S3 |
| `C82_plus_vec` | S3 |
| `C82_plus_vec_simd` | S3 |
| `C82_minus_vec` | S3 |
| `C82_minus_vec_simd` | S3 |
| `C82_times_vec` | S3 |
| `C82_times_vec_simd` | S3 |
| `C82_over_vec` | S3 |
| `C82_over_vec_simd` | S3 |
| `C82_muladd_vec` | S3 |
| `C82_muladd_vec_simd` | S3 |
| `C82_min_vec` | S3 |
| `C82_min_vec_simd` | S3 |
| `C82_max_vec` | S3 |
| `C82_max_vec_simd` | S3 |
| `C82_clip_vec` | S3 |
| `C82_clip_vec_simd` | S3 |
| `C82_clip2_vec` | S3 |
| `C82_clip2_vec_simd` | S3 |
| `C82_floor_round_ceil_vec` | S3 |
| `C82_floor_round_ceil_vec_simd` | S3 |
| `C82_floor_round_altivec_refuted` | S3 |
| `C83_floor_vec` | S3 |
| `C83_floor_vec_simd` | S3 |
| `C83_ceil_vec` | S3 |
| `C83_ceil_vec_simd` | S3 |
| `C83_round_vec` | S3 |
| `C83_round_vec_simd` | S3 |
| `C83_sgn_vec` | S3 |
| `C83_sgn_vec_simd` | S3 |
| `C83_abs_vec` | S3 |
| `C83_abs_vec_simd` | S3 |
| `C83_undenormalize_vec` | S3 |
| `C83_undenormalize_vec_simd` | S3 |
| `C83_frac_vec` | S3 |
| `C83_frac_vec_simd` | S3 |
| `C83_frac_refuted` | S3 |
| `C83_min_vec` | S3 |
| `C83_min_vec_simd` | S3 |
| `C83_max_vec` | S3 |
| `C83_max_vec_simd` | S3 |
| `C83_clip_vec` | S3 |
| `C83_clip_vec_simd` | S3 |
| `C83_clip2_vec` | S3 |
| `C83_clip2_vec_simd` | S3 |
| `C83_softclip_refuted` | S3 |
| `C84_sum_of_negated_vec` | S3 |
| `C84_sum_of_negated_vec_simd` | S3 |
| `C84_sum_of_scaled_vec` | S3 |
| `C84_sum_of_scaled_vec_simd` | S3 |
| `C84_sum_any_order_refuted` | S3 |
| `C84_max_any_order_vec` | S3 |
| `C84_max_any_order_vec_simd` | S3 |
| `C84_min_any_order_vec` | S3 |
| `C84_min_any_order_vec_simd` | S3 |
| `C84_min_of_negated_vec` | S3 |
| `C84_min_of_negated_vec_simd` | S3 |
| `C84_min_of_negated_refuted` | S3 |
| `C84_peak_any_order_vec` | S3 |
| `C84_peak_any_order_vec_simd` | S3 |
| `C84_peak_ignores_signs_vec` | S3 |
| `C84_peak_ignores_signs_vec_simd` | S3 |
| `C84_peak_rms_ignores_signs_vec` | S3 |
| `C84_peak_rms_ignores_signs_vec_simd` | S3 |
| `C85_exp_log` | S5 |
| `C85_log_exp` | S5 |
| `C85_sin_asin` | S5 |
| `C85_asin_sin` | S5 |
| `C85_cos_acos` | S5 |
| `C85_acos_cos` | S5 |
| `C85_tan_atan` | S5 |
| `C85_atan_tan` | S5 |
| `C85_semitones` | S5 |
| `C85_ratio` | S5 |
| `C85_octave` | S5 |
| `C85_freq_octave` | S5 |
| `C85_freq_key` | S5 |
| `C85_amp` | S5 |
| `C85_exp_log_vec_simd` | S5 |
| `C85_log_exp_vec_simd` | S5 |
| `C85_sin_asin_vec_simd` | S5 |
| `C85_asin_sin_vec_simd` | S5 |
| `C85_cos_acos_vec_simd` | S5 |
| `C85_acos_cos_vec_simd` | S5 |
| `C85_tan_atan_vec_simd` | S5 |
| `C85_atan_tan_vec_simd` | S5 |
| `C85_semitones_vec_simd` | S5 |
| `C85_ratio_vec_simd` | S5 |
| `C85_octave_vec_simd` | S5 |
| `C85_freq_octave_vec_simd` | S5 |
| `C85_freq_key_vec_simd` | S5 |
| `C85_amp_vec_simd` | S5 |
| `C85_key_vec_simd` | S5 |
| `C85_decibels_vec_simd` | S5 |
| `C86_tan_cos` | S5 |
| `C86_asin_acos` | S5 |
| `C86_asin_acos_refuted` | S5 |
| `C86_log_product` | S5 |
| `C86_log_quotient` | S5 |
| `C86_exp_sum` | S5 |
| `C86_exp_inverse` | S5 |
| `C86_log2` | S5 |
| `C86_log10` | S5 |
| `C86_pow_one` | S5 |
| `C86_pow_two` | S5 |
| `C86_pow_half` | S5 |
| `C86_pow_inverse` | S5 |
| `C86_pow_zero_exponent` | S3 |
| `C86_pow_of_one` | S3 |
| `C86_zero_pow_zero_refuted` | S3 |
| `C87_sin` | S3 |
| `C87_cos` | S3 |
| `C87_tan` | S3 |
| `C87_log` | S3 |
| `C87_log2` | S3 |
| `C87_log10` | S3 |
| `C87_freq2midi` | S3 |
| `C87_freq2oct` | S3 |
| `C87_ratio2midi` | S3 |
| `C87_amp2db` | S3 |
| `C87_asin` | S3 |
| `C87_acos` | S3 |
| `C87_atan` | S3 |
| `C87_exp` | S3 |
| `C87_tanh` | S3 |
| `C87_midi2freq` | S5 |
| `C87_midi2ratio` | S5 |
| `C87_oct2freq` | S5 |
| `C87_db2amp` | S5 |
| `C87_pow` | S3 |
| `C87_sin_vec_simd` | S3 |
| `C87_cos_vec_simd` | S3 |
| `C87_tan_vec_simd` | S3 |
| `C87_log_vec_simd` | S3 |
| `C87_log2_vec_simd` | S3 |
| `C87_log10_vec_simd` | S3 |
| `C87_freq2midi_vec_simd` | S3 |
| `C87_freq2oct_vec_simd` | S3 |
| `C87_ratio2midi_vec_simd` | S3 |
| `C87_amp2db_vec_simd` | S3 |
| `C87_asin_vec_simd` | S3 |
| `C87_acos_vec_simd` | S3 |
| `C87_atan_vec_simd` | S3 |
| `C87_exp_vec_simd` | S3 |
| `C87_tanh_vec_simd` | S3 |
| `C87_midi2freq_vec_simd` | S5 |
| `C87_midi2ratio_vec_simd` | S5 |
| `C87_oct2freq_vec_simd` | S5 |
| `C87_db2amp_vec_simd` | S5 |
| `C87_pow_vec_simd` | S3 |
| `C87_spow_vec_simd` | S3 |
| `C87_nan_refuted` | S3 |
| `C88_plus_swap_vec` | S3 |
| `C88_plus_swap_vec_simd` | S3 |
| `C88_sum2_swap_vec` | S3 |
| `C88_sum2_swap_vec_simd` | S3 |
| `C88_times_swap_vec` | S3 |
| `C88_times_swap_vec_simd` | S3 |
| `C88_mix_swap_vec` | S3 |
| `C88_mix_swap_vec_simd` | S3 |
| `C88_mix_gains_vec` | S3 |
| `C88_mix_gains_vec_simd` | S3 |
| `C88_sum3_swap_vec` | S3 |
| `C88_sum3_swap_vec_simd` | S3 |
| `C88_sum4_swap_vec` | S3 |
| `C88_sum4_swap_vec_simd` | S3 |
| `C88_muladd_swap_vec` | S3 |
| `C88_muladd_swap_vec_simd` | S3 |
| `C88_ampmod_swap_vec` | S3 |
| `C88_ampmod_swap_vec_simd` | S3 |
| `C88_sum3_order_refuted` | S3 |
| `C88_min_swap_vec` | S3 |
| `C88_min_swap_vec_simd` | S3 |
| `C88_max_swap_vec` | S3 |
| `C88_max_swap_vec_simd` | S3 |
| `C88_min_zero_refuted` | S3 |
| `C88_min_nan_refuted` | S3 |
| `C88_compare_mirror_vec` | S3 |
| `C88_compare_mirror_vec_simd` | S3 |
| `C88_compare_negated_vec` | S3 |
| `C88_compare_negated_vec_simd` | S3 |
| `C88_compare_mirror_avx_refuted` | S3 |
| `C88_minus_swap_vec` | S3 |
| `C88_minus_swap_vec_simd` | S3 |
| `C88_plus_invert_vec` | S3 |
| `C88_plus_invert_vec_simd` | S3 |
| `C88_minus_invert_vec` | S3 |
| `C88_minus_invert_vec_simd` | S3 |
| `C88_sum3_invert_vec` | S3 |
| `C88_sum3_invert_vec_simd` | S3 |
| `C88_sum4_invert_vec` | S3 |
| `C88_sum4_invert_vec_simd` | S3 |
| `C88_times_invert_vec` | S3 |
| `C88_times_invert_vec_simd` | S3 |
| `C88_times_invert_right_vec` | S3 |
| `C88_times_invert_right_vec_simd` | S3 |
| `C88_over_invert_vec` | S3 |
| `C88_over_invert_vec_simd` | S3 |
| `C88_over_invert_right_vec` | S3 |
| `C88_over_invert_right_vec_simd` | S3 |
| `C88_mix_invert_vec` | S3 |
| `C88_mix_invert_vec_simd` | S3 |
| `C88_mix_invert_gains_vec` | S3 |
| `C88_mix_invert_gains_vec_simd` | S3 |
| `C88_muladd_invert_vec` | S3 |
| `C88_muladd_invert_vec_simd` | S3 |
| `C88_ampmod_invert_vec` | S3 |
| `C88_ampmod_invert_vec_simd` | S3 |
| `C88_min_max_vec` | S3 |
| `C88_min_max_vec_simd` | S3 |
| `C88_clip2_invert_vec` | S3 |
| `C88_clip2_invert_vec_simd` | S3 |
| `C88_clip_invert_vec` | S3 |
| `C88_clip_invert_vec_simd` | S3 |
| `C89_plus_vec` | S3 |
| `C89_plus_vec_simd` | S3 |
| `C89_minus_vec` | S3 |
| `C89_minus_vec_simd` | S3 |
| `C89_sum2_vec` | S3 |
| `C89_sum2_vec_simd` | S3 |
| `C89_sum3_vec` | S3 |
| `C89_sum3_vec_simd` | S3 |
| `C89_sum4_vec` | S3 |
| `C89_sum4_vec_simd` | S3 |
| `C89_min_vec` | S3 |
| `C89_min_vec_simd` | S3 |
| `C89_max_vec` | S3 |
| `C89_max_vec_simd` | S3 |
| `C89_clip_vec` | S3 |
| `C89_clip_vec_simd` | S3 |
| `C89_clip2_vec` | S3 |
| `C89_clip2_vec_simd` | S3 |
| `C89_times_vec` | S3 |
| `C89_times_vec_simd` | S3 |
| `C89_mix_vec` | S3 |
| `C89_mix_vec_simd` | S3 |
| `C89_muladd_vec` | S3 |
| `C89_muladd_vec_simd` | S3 |
| `C89_ampmod_vec` | S3 |
| `C89_ampmod_vec_simd` | S3 |
| `C89_over_vec` | S3 |
| `C89_over_vec_simd` | S3 |
| `C89_over_divisor_vec` | S3 |
| `C89_over_divisor_vec_simd` | S3 |
| `C89_abs_vec` | S3 |
| `C89_abs_vec_simd` | S3 |
| `C89_square_vec` | S3 |
| `C89_square_vec_simd` | S3 |
| `C89_signed_sqrt_vec` | S3 |
| `C89_signed_sqrt_vec_simd` | S3 |
| `C89_times_underflow_refuted` | S3 |
| `C90_muladd_vec` | S3 |
| `C90_muladd_vec_simd` | S3 |
| `C90_mix_vec` | S3 |
| `C90_mix_vec_simd` | S3 |
| `C90_ampmod_vec` | S3 |
| `C90_ampmod_vec_simd` | S3 |
| `C90_sum3_vec` | S3 |
| `C90_sum3_vec_simd` | S3 |
| `C90_sum4_vec` | S3 |
| `C90_sum4_vec_simd` | S3 |
| `C90_clip_vec` | S3 |
| `C90_clip_vec_simd` | S3 |
| `C90_minus_vec` | S3 |
| `C90_minus_vec_simd` | S3 |
| `C90_cube_vec` | S3 |
| `C90_cube_vec_simd` | S3 |
| `C90_frac_vec` | S3 |
| `C90_frac_vec_simd` | S3 |
| `C90_abs_vec` | S3 |
| `C90_abs_vec_simd` | S3 |
| `C90_square_vec` | S3 |
| `C90_clip2_vec` | S3 |
| `C90_square_vec_simd` | S3 |
| `C90_clip2_vec_simd` | S3 |
| `C90_muladd_fused_refuted` | S3 |
| `C91_sgn_abs_vec` | S3 |
| `C91_sgn_abs_vec_simd` | S3 |
| `C91_floor_frac_vec` | S3 |
| `C91_floor_frac_vec_simd` | S3 |
| `C91_ceil_floor_vec` | S3 |
| `C91_ceil_floor_vec_simd` | S3 |
| `C91_min_max_vec` | S3 |
| `C91_min_max_vec_simd` | S3 |
| `C91_difference_vec` | S3 |
| `C91_difference_vec_simd` | S3 |
| `C91_square_root_vec` | S3 |
| `C91_square_root_vec_simd` | S3 |
| `C91_minus_self_vec` | S3 |
| `C91_minus_self_vec_simd` | S3 |
| `C91_over_self_vec` | S3 |
| `C91_over_self_vec_simd` | S3 |
| `C91_floor_frac_refuted` | S3 |
| `C92_addvec` | S3 |
| `C92_addvec_simd` | S3 |
| `C92_addvec_scalar` | S3 |
| `C92_addvec_scalar_simd` | S3 |
| `C92_pan2_vec` | S3 |
| `C92_pan2_vec_simd` | S3 |
| `C92_pan2_slope_vec` | S3 |
| `C92_pan2_in_place_refuted` | S3 |
| `C92_ramp_times_vec` | S3 |
| `C92_ramp_plus_vec` | S3 |
| `C92_constant_times_vec` | S3 |
| `C92_constant_times_vec_simd` | S3 |
| `C92_constant_plus_vec` | S3 |
| `C92_constant_plus_vec_simd` | S3 |
| `C92_peak` | S3 |
| `C92_peak_simd` | S3 |
| `C92_peak_below_smallest_normal` | S3 |
| `C92_peak_below_smallest_normal_simd` | S3 |
| `C92_rms_sum` | S3 |
| `C93_bus` | S0 |
| `C93_bus_simd` | S0 |
| `C93_scalar_and_simd_agree` | S0 |
| `C93_integers` | S3 |
| `C93_integers_simd` | S3 |
| `C93_rounding` | S3 |
| `C93_rounding_simd` | S3 |
| `C93_any_order` | S0 |
| `C93_any_order_refuted` | S3 |
| `C93_bus_of_2` | S3 |
| `C93_bus_of_3` | S3 |
| `C93_bus_of_2_simd` | S3 |
| `C93_bus_of_3_simd` | S3 |
| `C94_abs_vec` | S3 |
| `C94_abs_vec_simd` | S3 |
| `C94_sgn_vec` | S3 |
| `C94_sgn_vec_simd` | S3 |
| `C94_square_vec` | S3 |
| `C94_square_vec_simd` | S3 |
| `C94_cube_vec` | S3 |
| `C94_cube_vec_simd` | S3 |
| `C94_round_vec` | S3 |
| `C94_round_vec_simd` | S3 |
| `C94_floor_vec` | S3 |
| `C94_floor_vec_simd` | S3 |
| `C94_ceil_vec` | S3 |
| `C94_ceil_vec_simd` | S3 |
| `C94_frac_vec` | S3 |
| `C94_frac_vec_simd` | S3 |
| `C94_undenormalize_vec` | S3 |
| `C94_undenormalize_vec_simd` | S3 |
| `C94_softclip_vec` | S3 |
| `C94_softclip_vec_simd` | S3 |
| `C94_signed_sqrt_vec` | S3 |
| `C94_signed_sqrt_vec_simd` | S3 |
| `C94_math_vec` | S3 |
| `C94_math_vec_simd` | S3 |
| `C94_math_vec_simd_ones` | S3 |
| `C94_plus_vec` | S3 |
| `C94_plus_vec_simd` | S3 |
| `C94_minus_vec` | S3 |
| `C94_minus_vec_simd` | S3 |
| `C94_sum3_vec` | S3 |
| `C94_sum3_vec_simd` | S3 |
| `C94_sum4_vec` | S3 |
| `C94_sum4_vec_simd` | S3 |
| `C94_times_vec` | S3 |
| `C94_times_vec_simd` | S3 |
| `C94_muladd_vec` | S3 |
| `C94_muladd_vec_simd` | S3 |
| `C94_mix_vec` | S3 |
| `C94_mix_vec_simd` | S3 |
| `C94_effects` | S3 |
| `C94_effects_simd` | S3 |
| `C94_over_vec_nans` | S3 |
| `C94_times_vec_nans` | S3 |
| `C94_neon_signed_sqrt_vec_simd_nans` | S3 |
