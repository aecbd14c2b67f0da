{
 "claims": [
  {
   "property": "C01",
   "status": "proved",
   "theorems": [
    "C01_foo_vec_maps_unary",
    "C01_foo_vec_maps_binary",
    "C01_foo_vec_maps_ternary",
    "C01_foo_vec_maps_quaternary",
    "C01_fixed_length_unary",
    "C01_fixed_length_binary",
    "C01_fixed_length_ternary",
    "C01_fixed_length_quaternary"
   ],
   "note": "All four arities, run-time and compile-time scalar loops; arguments may be pointers, scalars or ramps; any element type and functor."
  },
  {
   "property": "C02",
   "status": "proved",
   "theorems": [
    "C02_foo_vec_simd_maps_unary",
    "C02_foo_vec_simd_maps_binary",
    "C02_foo_vec_simd_maps_ternary",
    "C02_foo_vec_simd_maps_quaternary"
   ],
   "note": "All eight back-ends, any element type and arithmetic; pointer and scalar arguments (ramps in C09 and C10)."
  },
  {
   "property": "C03",
   "status": "proved",
   "theorems": [
    "C03_compile_time_equals_run_time_unary",
    "C03_compile_time_equals_run_time_binary",
    "C03_compile_time_equals_run_time_ternary",
    "C03_compile_time_equals_run_time_quaternary"
   ],
   "note": "Under the overlap condition of C05."
  },
  {
   "property": "C04",
   "status": "proved",
   "theorems": [
    "C04_simd_equals_scalar_unary",
    "C04_simd_equals_scalar_binary",
    "C04_simd_equals_scalar_ternary",
    "C04_simd_equals_scalar_quaternary"
   ],
   "note": "For a vector functor that computes the scalar functor in each lane; per-function lane agreement is C28-C41."
  },
  {
   "property": "C05",
   "status": "proved",
   "theorems": [
    "C05_in_place_and_above_are_safe",
    "C05_below_reads_back",
    "C05_below_is_safe_refuted"
   ],
   "note": "Positive theorems for the safe overlaps, closed form for the scalar loop on the unsafe one, refutation of safety there."
  },
  {
   "property": "C06",
   "status": "proved",
   "theorems": [
    "C06_zero_length_unary",
    "C06_zero_length_binary",
    "C06_zero_length_ternary",
    "C06_zero_length_quaternary",
    "C06_short_simd_length_unary",
    "C06_short_simd_length_binary",
    "C06_short_simd_length_ternary",
    "C06_short_simd_length_quaternary"
   ],
   "note": "The faults are the model's distinct outcomes for an invalid access."
  },
  {
   "property": "C07",
   "status": "proved",
   "theorems": [
    "C07_tail_untouched_unary",
    "C07_tail_untouched_binary",
    "C07_tail_untouched_ternary",
    "C07_tail_untouched_quaternary"
   ],
   "note": ""
  },
  {
   "property": "C08",
   "status": "proved",
   "theorems": [
    "C08_misaligned_traps_unary",
    "C08_misaligned_traps_binary",
    "C08_misaligned_traps_ternary",
    "C08_misaligned_traps_quaternary",
    "C08_is_aligned_exact",
    "C08_no_alignment_needed"
   ],
   "note": "Altivec truncates addresses instead of trapping: C55."
  },
  {
   "property": "C09",
   "status": "proved",
   "theorems": [
    "C09_ramps_are_lines_binary",
    "C09_ramps_are_lines_ternary",
    "C09_ramps_are_lines_quaternary"
   ],
   "note": "In any commutative semiring; floating point is C10 and C11."
  },
  {
   "property": "C10",
   "status": "proved",
   "theorems": [
    "C10_exact_ramps_binary",
    "C10_exact_ramps_ternary",
    "C10_exact_ramps_quaternary",
    "C10_integer_ramps_are_exact",
    "C10_negative_zero_refuted"
   ],
   "note": "Flocq IEEE arithmetic; binary, ternary and quaternary drivers, scalar, run-time and compile-time SIMD, all eight back-ends. The -0 exception is a _refuted theorem."
  },
  {
   "property": "C11",
   "status": "proved",
   "theorems": [
    "C11_second_vector_is_wrong",
    "C11_exact_again",
    "C11_simd_equals_scalar_refuted"
   ],
   "note": "For every double back-end and every slope whose vector slope is exact in double but not a float, the second vector starts at a wrong value; concrete SSE2 witness; exact again otherwise."
  },
  {
   "property": "C12",
   "status": "proved",
   "theorems": [
    "C12_zerovec",
    "C12_setvec",
    "C12_zerovec_simd",
    "C12_zerovec_simd_fixed_length",
    "C12_zerovec_na_simd",
    "C12_zerovec_na_simd_fixed_length",
    "C12_setvec_simd",
    "C12_setvec_simd_fixed_length",
    "C12_setvec_na_simd",
    "C12_setvec_na_simd_fixed_length"
   ],
   "note": "Every zerovec/setvec form, run-time and compile-time. The _na forms carry the alignment hypothesis on Altivec only."
  },
  {
   "property": "C13",
   "status": "proved",
   "theorems": [
    "C13_copyvec",
    "C13_copyvec_simd",
    "C13_copyvec_simd_over_reads",
    "C13_copyvec_aa_simd",
    "C13_copyvec_aa_simd_fixed_length",
    "C13_copyvec_aa_simd_over_reads",
    "C13_copyvec_aa_simd_fixed_length_over_reads",
    "C13_copyvec_na_simd",
    "C13_copyvec_na_simd_fixed_length",
    "C13_copyvec_na_simd_over_reads",
    "C13_copyvec_na_simd_fixed_length_over_reads",
    "C13_copyvec_an_simd",
    "C13_copyvec_an_simd_fixed_length",
    "C13_copyvec_an_simd_over_reads",
    "C13_copyvec_an_simd_fixed_length_over_reads",
    "C13_copyvec_nn_simd",
    "C13_copyvec_nn_simd_fixed_length",
    "C13_copyvec_nn_simd_over_reads",
    "C13_copyvec_nn_simd_fixed_length_over_reads",
    "C13_reads_only_the_source_refuted"
   ],
   "note": "Positive theorem per variant under 'one more vector is readable'; _over_reads theorem per variant says that without it the call ends in a memory fault; _refuted shows the expectation that only n elements are read fails."
  },
  {
   "property": "C14",
   "status": "proved",
   "theorems": [
    "C14_addvec",
    "C14_addvec_scalar",
    "C14_addvec_simd",
    "C14_addvec_scalar_simd",
    "C14_addvec_simd_fixed_length",
    "C14_addvec_scalar_simd_fixed_length"
   ],
   "note": "The ramped addvec overloads do not compile in C++ (assignment to a const argument, one-argument vec::set) and are not modelled."
  },
  {
   "property": "C15",
   "status": "proved",
   "theorems": [
    "C15_set_slope_vec",
    "C15_set_slope_vec_any_arithmetic",
    "C15_set_slope_vec_simd",
    "C15_set_slope_increment"
   ],
   "note": "Exact arithmetic = any commutative semiring with integers; additionally the scalar form in any arithmetic. Rounding of float ramps: C10, C11."
  },
  {
   "property": "C16",
   "status": "proved",
   "theorems": [
    "C16_set_exp_vec",
    "C16_set_exp_vec_simd",
    "C16_pow_i",
    "C16_set_exp_next"
   ],
   "note": "Exact arithmetic."
  },
  {
   "property": "C17",
   "status": "proved",
   "theorems": [
    "C17_pan2_vec",
    "C17_pan2_slope_vec",
    "C17_pan2_vec_simd",
    "C17_pan2_slope_vec_simd",
    "C17_pan2_vec_simd_fixed_length",
    "C17_pan2_slope_vec_simd_fixed_length"
   ],
   "note": "Constant factors in any arithmetic, ramps in exact arithmetic (scalar ramps in any arithmetic). The input may also be one of the outputs."
  },
  {
   "property": "C18",
   "status": "proved",
   "theorems": [
    "C18_mix_vec",
    "C18_mix_vec_simd",
    "C18_mix_vec_simd_ramps",
    "C18_sum_vec2",
    "C18_sum_vec2_simd",
    "C18_sum_vec3",
    "C18_sum_vec3_simd",
    "C18_sum_vec4",
    "C18_sum_vec4_simd",
    "C18_muladd_vec",
    "C18_muladd_vec_simd",
    "C18_muladd_vec_simd_ramps",
    "C18_ampmod_vec",
    "C18_ampmod_vec_simd",
    "C18_ampmod_vec_simd_ramps",
    "C18_clip_vec",
    "C18_clip_vec_simd",
    "C18_clip2_vec",
    "C18_clip2_vec_simd",
    "C18_plus_vec",
    "C18_plus_vec_simd",
    "C18_minus_vec",
    "C18_minus_vec_simd",
    "C18_times_vec",
    "C18_times_vec_simd",
    "C18_over_vec",
    "C18_over_vec_simd",
    "C18_min_vec",
    "C18_min_vec_simd",
    "C18_max_vec",
    "C18_max_vec_simd",
    "C18_muladd_unfused_simd_equals_scalar"
   ],
   "note": "Formula per sample in terms of the sample operations (scalar form) and of the lane operations (SIMD form); muladd's SIMD form uses the lane madd, equal to the scalar one when it does not fuse."
  },
  {
   "property": "C19",
   "status": "proved",
   "theorems": [
    "C19_peak_vec",
    "C19_peak_vec_simd",
    "C19_peak_vec_blocks",
    "C19_peak_vec_simd_blocks",
    "C19_one_call_or_many",
    "C19_undefined_lanes_refuted"
   ],
   "note": "Scalar form for float and double, SIMD form for all eight back-ends, single calls and any split into blocks; AVX under the assumption that the undefined upper lanes are zero, with a refutation without it. is_max is numeric, so +0 and -0 count as equal."
  },
  {
   "property": "C20",
   "status": "proved",
   "theorems": [
    "C20_peak_vec_simd_rounds_down",
    "C20_peak_rms_vec_simd_rounds_down",
    "C20_ignores_last_samples_refuted",
    "C20_peak_vec_simd_too_short",
    "C20_peak_rms_vec_simd_too_short",
    "C20_unit_too_large",
    "C20_shortest_legal_length_faults"
   ],
   "note": "Rounding-down for any operations; memory fault for every length below four vectors in every memory that lacks a cell among the next 2^32 groups; which back-ends are affected."
  },
  {
   "property": "C21",
   "status": "proved",
   "theorems": [
    "C21_peak_vec_skips_nan",
    "C21_stored_nan_stays",
    "C21_peak_vec_simd_refuted"
   ],
   "note": "Scalar: all buffers. SIMD: witness on SSE float for every compiler configuration."
  },
  {
   "property": "C22",
   "status": "proved",
   "theorems": [
    "C22_peak_rms_vec",
    "C22_peak_rms_vec_simd",
    "C22_same_peak_as_plain_meter",
    "C22_simd_same_peak_as_plain_meter",
    "C22_peak_rms_vec_integers",
    "C22_peak_rms_vec_simd_integers"
   ],
   "note": "Exact arithmetic on all back-ends; also IEEE arithmetic for integer samples; peak equal to the plain meter's for any operations."
  },
  {
   "property": "C23",
   "status": "proved",
   "theorems": [
    "C23_flt_min",
    "C23_horizontal_max_vec",
    "C23_horizontal_max_vec_true_result",
    "C23_horizontal_max_vec_wrong_result",
    "C23_horizontal_min_vec",
    "C23_horizontal_min_vec_true_result",
    "C23_horizontal_min_vec_wrong_result",
    "C23_horizontal_max_vec_simd",
    "C23_horizontal_max_vec_simd_true_result",
    "C23_horizontal_max_vec_simd_wrong_result",
    "C23_horizontal_min_vec_simd",
    "C23_horizontal_min_vec_simd_true_result",
    "C23_horizontal_min_vec_simd_wrong_result"
   ],
   "note": "IEEE float and double; the wrong results are stated for every buffer below (above) FLT_MIN, not only for a witness."
  },
  {
   "property": "C24",
   "status": "proved",
   "theorems": [
    "C24_horizontal_sum_vec",
    "C24_horizontal_sum_vec_integers",
    "C24_horizontal_sum_vec_simd",
    "C24_horizontal_sum_vec_simd_integers"
   ],
   "note": ""
  },
  {
   "property": "C25",
   "status": "proved",
   "theorems": [
    "C25_horizontal_minmax_vec",
    "C25_horizontal_minmax_vec_true_minimum",
    "C25_horizontal_minmax_vec_same_max",
    "C25_horizontal_maxsum_vec",
    "C25_horizontal_minmax_vec_simd",
    "C25_horizontal_minmax_vec_simd_true_minimum",
    "C25_horizontal_minmax_vec_simd_same_max",
    "C25_horizontal_maxsum_vec_simd"
   ],
   "note": ""
  },
  {
   "property": "C26",
   "status": "proved",
   "theorems": [
    "C26_horizontal_max",
    "C26_horizontal_min",
    "C26_horizontal_sum",
    "C26_horizontal_sum_integers"
   ],
   "note": ""
  },
  {
   "property": "C27",
   "status": "proved",
   "theorems": [
    "C27_get_set",
    "C27_get",
    "C27_set_vec",
    "C27_set_slope_exact",
    "C27_set_exp_exact",
    "C27_load_aligned_store_aligned",
    "C27_load_store"
   ],
   "note": "set_slope and set_exp in exact arithmetic."
  },
  {
   "property": "C28",
   "status": "proved",
   "theorems": [
    "C28_lane_is_one_or_zero",
    "C28_lane_equals_scalar",
    "C28_comparison_of_finite_numbers",
    "C28_comparison_with_infinities",
    "C28_comparison_with_nan",
    "C28_avx_greater_holds_for_nan",
    "C28_avx_equals_scalar_refuted",
    "C28_compare_vec_simd_equals_compare_vec"
   ],
   "note": "NEON and Altivec comparisons modelled as IEEE comparisons (NEON flush-to-zero not modelled)."
  },
  {
   "property": "C29",
   "status": "proved",
   "theorems": [
    "C29_select_by_comparison",
    "C29_avx_greater_selects_rhs_for_nan",
    "C29_neon_select_is_reversed",
    "C29_neon_select_refuted"
   ],
   "note": ""
  },
  {
   "property": "C30",
   "status": "proved",
   "theorems": [
    "C30_andnot_bits",
    "C30_back_ends_agree_iff_equal",
    "C30_same_on_all_back_ends_refuted"
   ],
   "note": ""
  },
  {
   "property": "C31",
   "status": "proved",
   "theorems": [
    "C31_abs_clears_the_sign_bit",
    "C31_abs_value",
    "C31_abs_vec_and_abs_vec_simd"
   ],
   "note": ""
  },
  {
   "property": "C32",
   "status": "proved",
   "theorems": [
    "C32_sign_lane",
    "C32_sign_of_nan",
    "C32_sign_of_minus_zero",
    "C32_sgn_vec_simd_matches_sgn_vec",
    "C32_same_for_nan_refuted"
   ],
   "note": "NaN and -0 behaviour stated separately."
  },
  {
   "property": "C33",
   "status": "proved",
   "theorems": [
    "C33_max_and_min_of_numbers",
    "C33_with_a_nan_the_other_operand",
    "C33_with_a_nan_refuted",
    "C33_max_vec_simd_matches_max_vec",
    "C33_min_vec_simd_matches_min_vec"
   ],
   "note": ""
  },
  {
   "property": "C34",
   "status": "proved",
   "theorems": [
    "C34_clip_confines",
    "C34_clip2_confines",
    "C34_clip_vec_and_clip_vec_simd",
    "C34_nan_sample_in_clip",
    "C34_nan_sample_in_clip2"
   ],
   "note": ""
  },
  {
   "property": "C35",
   "status": "proved",
   "theorems": [
    "C35_lane_equals_scalar",
    "C35_softclip_identity",
    "C35_softclip_bounded",
    "C35_softclip_odd",
    "C35_softclip_of_infinity",
    "C35_softclip_vec_and_softclip_vec_simd"
   ],
   "note": ""
  },
  {
   "property": "C36",
   "status": "proved",
   "theorems": [
    "C36_flushes_exactly_the_subnormals",
    "C36_lane_equals_scalar",
    "C36_undenormalize_vec_and_undenormalize_vec_simd"
   ],
   "note": "NEON and Altivec have no undenormalize."
  },
  {
   "property": "C37",
   "status": "proved",
   "theorems": [
    "C37_signed_sqrt_value",
    "C37_lane_equals_scalar",
    "C37_odd_and_infinite",
    "C37_signed_sqrt_vec_and_signed_sqrt_vec_simd"
   ],
   "note": "NEON square root is an estimate and excluded from the buffer theorem."
  },
  {
   "property": "C38",
   "status": "proved",
   "theorems": [
    "C38_scalar_round",
    "C38_round_instruction",
    "C38_magic_round",
    "C38_magic_round_is_the_instruction",
    "C38_magic_round_beyond",
    "C38_magic_round_unrestricted_refuted",
    "C38_forms_agree_off_ties",
    "C38_ties_differ",
    "C38_round_vec_simd_equals_round_vec",
    "C38_floor_of_x_plus_half_refuted"
   ],
   "note": "Flocq IEEE arithmetic. Lane theorems for vec_round_float hold on any instruction set; the buffer theorem covers all back-ends."
  },
  {
   "property": "C39",
   "status": "proved",
   "theorems": [
    "C39_scalar_floor_and_ceil",
    "C39_magic_floor",
    "C39_magic_ceil",
    "C39_floor_forms_agree",
    "C39_ceil_forms_agree",
    "C39_ceil_zero_sign",
    "C39_magic_floor_and_ceil_beyond",
    "C39_floor_vec_simd_equals_floor_vec",
    "C39_ceil_vec_simd_matches_ceil_vec"
   ],
   "note": ""
  },
  {
   "property": "C40",
   "status": "proved",
   "theorems": [
    "C40_frac_lies_between_0_and_1",
    "C40_frac_is_exact",
    "C40_frac_is_the_nearest_float",
    "C40_frac_of_tiny_negative_is_one",
    "C40_frac_below_one_refuted",
    "C40_frac_forms_agree",
    "C40_magic_frac_beyond",
    "C40_frac_vec_simd_equals_frac_vec"
   ],
   "note": ""
  },
  {
   "property": "C41",
   "status": "proved",
   "theorems": [
    "C41_scalar_trunc",
    "C41_scalar_trunc_undefined",
    "C41_trunc_instruction",
    "C41_trunc_instruction_on_infinities",
    "C41_trunc_forms_agree",
    "C41_altivec_trunc_of_negative",
    "C41_altivec_trunc_of_positive"
   ],
   "note": "Lane functions; long assumed 64 bits wide. The buffer functions are the subject of C80."
  },
  {
   "property": "C42",
   "status": "proved",
   "theorems": [
    "C42_constants",
    "C42_values",
    "C42_sign_and_abs_masks",
    "C42_exponent_mask"
   ],
   "note": ""
  },
  {
   "property": "C43",
   "status": "proved",
   "theorems": [
    "C43_add_and_sub",
    "C43_signed_comparisons",
    "C43_unsigned_comparisons",
    "C43_comparisons_differ",
    "C43_equality",
    "C43_and_andnot",
    "C43_shifts",
    "C43_shifts_from_32",
    "C43_set",
    "C43_convert_to_float",
    "C43_truncate_to_int",
    "C43_truncate_to_int_outside",
    "C43_convert_of_truncate"
   ],
   "note": ""
  },
  {
   "property": "C44",
   "status": "proved",
   "theorems": [
    "C44_frexp_splits",
    "C44_ldexp_scales",
    "C44_ldexp_of_frexp",
    "C44_ldexp_of_zero",
    "C44_frexp_of_zero"
   ],
   "note": ""
  },
  {
   "property": "C45",
   "status": "proved",
   "theorems": [
    "C45_sin_odd",
    "C45_tan_odd",
    "C45_atan_odd",
    "C45_cos_even",
    "C45_asin_odd",
    "C45_asin_unrestricted_refuted",
    "C45_tanh_odd",
    "C45_tanh_at_zero_refuted",
    "C45_sin_vec_simd_mirrors",
    "C45_tan_vec_simd_mirrors",
    "C45_atan_vec_simd_mirrors"
   ],
   "note": "x86 SIMD paths (AVX; SSE with SSE2), float. Scalar libm functions are not modelled."
  },
  {
   "property": "C46",
   "status": "proved",
   "theorems": [
    "C46_tanh_saturates",
    "C46_tanh_bounded",
    "C46_tanh_sign",
    "C46_tanh_nan_avx",
    "C46_tanh_vec_simd_bounded"
   ],
   "note": "x86 SIMD paths (AVX; SSE with SSE2), float."
  },
  {
   "property": "C47",
   "status": "proved",
   "theorems": [
    "C47_asin_outside",
    "C47_asin_nan_avx",
    "C47_asin_vec_simd_outside",
    "C47_acos_outside",
    "C47_acos_nan_avx",
    "C47_acos_vec_simd_outside"
   ],
   "note": "x86 SIMD paths (AVX; SSE with SSE2), float. The scalar libm functions are not modelled."
  },
  {
   "property": "C48",
   "status": "proved",
   "theorems": [
    "C48_exp_above",
    "C48_exp_below",
    "C48_exp_finite",
    "C48_exp_edge_refuted",
    "C48_exp_zero",
    "C48_exp_nan_sse",
    "C48_exp_nan_avx",
    "C48_exp_vec_simd_finite"
   ],
   "note": "x86 SIMD paths (AVX; SSE with SSE2), float. The NaN at the upper limit is a _refuted theorem, for every configuration."
  },
  {
   "property": "C49",
   "status": "proved",
   "theorems": [
    "C49_exp",
    "C49_exp_vec_simd",
    "C49_exp_below_refuted"
   ],
   "note": "x86 SIMD paths (AVX; SSE with SSE2), float. Every rounding step of the Cody-Waite/polynomial evaluation is covered."
  },
  {
   "property": "C50",
   "status": "proved",
   "theorems": [
    "C50_log_finite",
    "C50_log_of_zero",
    "C50_log_of_infinity",
    "C50_log_one",
    "C50_pow_of_zero",
    "C50_pow_not_negative",
    "C50_signed_pow",
    "C50_signed_pow_odd",
    "C50_log_vec_simd_finite",
    "C50_pow_vec_simd_not_negative",
    "C50_spow_vec_simd_sign"
   ],
   "note": "x86 SIMD paths (AVX; SSE with SSE2), float."
  },
  {
   "property": "C51",
   "status": "proved",
   "theorems": [
    "C51_tanh",
    "C51_tanh_vec_simd",
    "C51_log",
    "C51_log_vec_simd"
   ],
   "note": "x86 SIMD paths (AVX; SSE with SSE2), float."
  },
  {
   "property": "C52",
   "status": "proved",
   "theorems": [
    "C52_reciprocal_accurate",
    "C52_reciprocal_of_zero",
    "C52_reciprocal_of_infinity"
   ],
   "note": "x86 SIMD paths (AVX; SSE with SSE2), float. The hardware estimate is an arbitrary function meeting the documented error."
  },
  {
   "property": "C53",
   "status": "proved",
   "theorems": [
    "C53_madd_error",
    "C53_scalar_muladd_error",
    "C53_exact_product",
    "C53_forms_differ_refuted"
   ],
   "note": "Lane function on every instruction set; the buffer functions of muladd are covered by C18 for any lane function."
  },
  {
   "property": "C54",
   "status": "proved",
   "theorems": [
    "C54_midi2freq",
    "C54_midi2freq_vec_simd",
    "C54_midi2ratio",
    "C54_midi2ratio_vec_simd",
    "C54_oct2freq",
    "C54_oct2freq_vec_simd",
    "C54_db2amp",
    "C54_db2amp_vec_simd",
    "C54_ratio2midi",
    "C54_ratio2midi_vec_simd",
    "C54_amp2db",
    "C54_amp2db_vec_simd",
    "C54_freq2midi",
    "C54_freq2midi_vec_simd",
    "C54_freq2oct",
    "C54_freq2oct_vec_simd",
    "C54_key_round_trip",
    "C54_db_round_trip",
    "C54_exact_points",
    "C54_amp2db_even"
   ],
   "note": "x86 SIMD paths (AVX; SSE with SSE2), float. std::log(2.0), std::log(10.0) taken as the nearest doubles."
  },
  {
   "property": "C55",
   "status": "proved",
   "theorems": [
    "C55_zerovec_na_simd",
    "C55_setvec_na_simd",
    "C55_copyvec_na_simd",
    "C55_copyvec_an_simd",
    "C55_copyvec_nn_simd"
   ],
   "note": "Follows from the model of lvx/stvx, which ignore the low four address bits."
  },
  {
   "property": "C56",
   "status": "proved",
   "theorems": [
    "C56_square_and_cube_lanes",
    "C56_square_vec_and_square_vec_simd",
    "C56_cube_vec_and_cube_vec_simd",
    "C56_cube_on_altivec_refuted"
   ],
   "note": ""
  },
  {
   "property": "C57",
   "status": "proved",
   "theorems": [
    "C57_log2",
    "C57_log2_vec_simd",
    "C57_log10",
    "C57_log10_vec_simd"
   ],
   "note": "x86 SIMD paths (AVX; SSE with SSE2), float."
  },
  {
   "property": "C58",
   "status": "proved",
   "theorems": [
    "C58_pow",
    "C58_pow_vec_simd"
   ],
   "note": "x86 SIMD paths (AVX; SSE with SSE2), float."
  },
  {
   "property": "C59",
   "status": "proved",
   "theorems": [
    "C59_sin",
    "C59_sin_vec_simd",
    "C59_cos",
    "C59_cos_vec_simd",
    "C59_circle",
    "C59_sin_zero",
    "C59_cos_zero",
    "C59_sin_large_refuted",
    "C59_cos_large_refuted"
   ],
   "note": "x86 SIMD paths (AVX; SSE with SSE2), float."
  },
  {
   "property": "C60",
   "status": "proved",
   "theorems": [
    "C60_tan",
    "C60_tan_vec_simd",
    "C60_tan_zero"
   ],
   "note": "x86 SIMD paths (AVX; SSE with SSE2), float."
  },
  {
   "property": "C61",
   "status": "proved",
   "theorems": [
    "C61_asin",
    "C61_asin_vec_simd",
    "C61_acos",
    "C61_acos_vec_simd",
    "C61_acos_minus_half_refuted",
    "C61_atan",
    "C61_atan_vec_simd",
    "C61_atan_inf",
    "C61_asin_zero",
    "C61_atan_zero",
    "C61_acos_one"
   ],
   "note": "x86 SIMD paths (AVX; SSE with SSE2), float."
  },
  {
   "property": "C62",
   "status": "proved",
   "theorems": [
    "C62_horizontal_max",
    "C62_horizontal_min",
    "C62_lane_3_ignored",
    "C62_four_lanes_refuted",
    "C62_extract",
    "C62_constants",
    "C62_select",
    "C62_select_other_masks_refuted"
   ],
   "note": "__m128 overloads of simd_utils.hpp; lane order as in memory."
  },
  {
   "property": "C63",
   "status": "proved",
   "theorems": [
    "C63_per_element",
    "C63_per_element_binary",
    "C63_math_simd_equals_scalar",
    "C63_pow_simd_equals_scalar",
    "C63_unit_simd_equals_scalar"
   ],
   "note": "The C library is a universally quantified record of functions. Altivec unit conversions excluded: its product is a*b+0."
  },
  {
   "property": "C64",
   "status": "proved",
   "theorems": [
    "C64_signed_pow",
    "C64_signed_pow_odd",
    "C64_zero_to_the_zero_refuted",
    "C64_scalar_and_simd_differ_refuted"
   ],
   "note": "Any C library; the zero case assumes pow(+-0, 0) = 1, as the C standard prescribes."
  },
  {
   "property": "C65",
   "status": "proved",
   "theorems": [
    "C65_midi2freq",
    "C65_midi2ratio",
    "C65_oct2freq",
    "C65_db2amp",
    "C65_amp2db",
    "C65_ratio2midi",
    "C65_freq2midi",
    "C65_freq2oct",
    "C65_key_round_trip",
    "C65_a5_refuted",
    "C65_a4_refuted"
   ],
   "note": "Error bound of the C library is a hypothesis (accurate); a correctly rounding library is shown to meet it. freq2midi, freq2oct, ratio2midi for C++11 or later."
  },
  {
   "property": "C66",
   "status": "proved",
   "theorems": [
    "C66_log2_old",
    "C66_log2_always_short",
    "C66_log2_of_8_refuted"
   ],
   "note": "Assumes the float log(2.f) is within half an ulp of ln 2."
  },
  {
   "property": "C67",
   "status": "proved",
   "theorems": [
    "C67_division_accurate",
    "C67_reciprocal_accurate",
    "C67_fast_reciprocal_accurate",
    "C67_not_more_accurate_refuted",
    "C67_division_exact_refuted",
    "C67_small_divisor",
    "C67_large_divisor",
    "C67_self_quotient_refuted",
    "C67_indeterminate",
    "C67_sqrt_accurate",
    "C67_sqrt_not_more_accurate_refuted",
    "C67_sqrt_exact_refuted",
    "C67_signed_sqrt_accurate",
    "C67_sqrt_of_zero_and_infinity",
    "C67_over_vec_simd",
    "C67_reciprocal_vec_simd",
    "C67_signed_sqrt_vec_simd"
   ],
   "note": "vrecpe and vrsqrte modelled by the pseudocode of the ARM manual (tables computed, not listed), vrecps fused or not; operands near the ends of the range are covered by the separate theorems on small and large divisors; quotients next to overflow and underflow are outside the accuracy theorem."
  },
  {
   "property": "C68",
   "status": "proved",
   "theorems": [
    "C68_division_accurate",
    "C68_reciprocal_accurate",
    "C68_sqrt_accurate",
    "C68_division_by_zero_and_infinity",
    "C68_sqrt_of_zero_and_infinity",
    "C68_over_vec_simd",
    "C68_reciprocal_vec_simd"
   ],
   "note": "The hardware estimate is a parameter constrained only by what the manual promises; subnormal operands and results near overflow or underflow are outside the accuracy theorems."
  },
  {
   "property": "C69",
   "status": "proved",
   "theorems": [
    "C69_horizontal_sum_vec",
    "C69_horizontal_sum_vec_simd",
    "C69_horizontal_maxsum_vec",
    "C69_horizontal_maxsum_vec_simd",
    "C69_horizontal_sum",
    "C69_peak_rms_vec",
    "C69_peak_rms_vec_simd",
    "C69_growth_is_small",
    "C69_same_sum_refuted"
   ],
   "note": "Bound of the form (1+u)^k - 1, not the sharper k*u. Sums whose running total could overflow and buffers with infinities or NaN are outside; minima and maxima are C23, C25, C26."
  },
  {
   "property": "C70",
   "status": "proved",
   "theorems": [
    "C70_binary_vec",
    "C70_ternary_vec",
    "C70_quaternary_vec",
    "C70_binary_vec_simd",
    "C70_ternary_vec_simd",
    "C70_quaternary_vec_simd",
    "C70_set_slope_vec",
    "C70_set_slope_vec_simd",
    "C70_same_ramp_refuted",
    "C70_growing_ramp_refuted"
   ],
   "note": "Errors relative to |base| + i*|slope|; ramps that overflow or contain NaN or infinities are outside (C10 and C11 treat exactly representable ramps)."
  },
  {
   "property": "C71",
   "status": "proved",
   "theorems": [
    "C71_set_exp_vec",
    "C71_set_exp_vec_simd",
    "C71_same_curve_refuted",
    "C71_small_power_refuted"
   ],
   "note": "Curves that leave the normal range are outside the bound; the refutation shows why the condition on curve^lanes is needed."
  },
  {
   "property": "C72",
   "status": "proved",
   "theorems": [
    "C72_softclip_accurate",
    "C72_softclip_simd_accurate",
    "C72_softclip_monotone",
    "C72_softclip_monotone_refuted"
   ],
   "note": "Infinities and NaN are in C35."
  },
  {
   "property": "C73",
   "status": "proved",
   "theorems": [
    "C73_unary_vec_in_blocks",
    "C73_binary_vec_in_blocks",
    "C73_ternary_vec_in_blocks",
    "C73_quaternary_vec_in_blocks",
    "C73_set_slope_vec_in_blocks",
    "C73_set_exp_vec_in_blocks",
    "C73_unary_vec_simd_in_blocks",
    "C73_binary_vec_simd_in_blocks",
    "C73_ternary_vec_simd_in_blocks",
    "C73_quaternary_vec_simd_in_blocks",
    "C73_binary_ramps_in_blocks",
    "C73_ternary_ramps_in_blocks",
    "C73_quaternary_ramps_in_blocks",
    "C73_simd_ramp_blocks_refuted",
    "C73_recomputed_start_refuted",
    "C73_partial_units_refuted"
   ],
   "note": "Ramps in IEEE arithmetic are covered for the scalar forms only; for SIMD the equality is refuted."
  },
  {
   "property": "C74",
   "status": "proved",
   "theorems": [
    "C74_unary_vec",
    "C74_binary_vec",
    "C74_ternary_vec",
    "C74_quaternary_vec",
    "C74_unary_vec_simd",
    "C74_unary_vec_simd_ct",
    "C74_binary_vec_simd",
    "C74_binary_vec_simd_ct",
    "C74_ternary_vec_simd",
    "C74_ternary_vec_simd_ct",
    "C74_quaternary_vec_simd",
    "C74_quaternary_vec_simd_ct",
    "C74_zerovec",
    "C74_setvec",
    "C74_set_slope_vec",
    "C74_set_exp_vec",
    "C74_copyvec",
    "C74_addvec",
    "C74_addvec_scalar",
    "C74_pan2_vec",
    "C74_pan2_slope_vec",
    "C74_zerovec_simd",
    "C74_zerovec_na_simd",
    "C74_setvec_simd",
    "C74_setvec_na_simd",
    "C74_set_slope_vec_simd",
    "C74_set_exp_vec_simd",
    "C74_addvec_simd",
    "C74_addvec_scalar_simd",
    "C74_pan2_vec_simd",
    "C74_pan2_slope_vec_simd",
    "C74_copyvec_simd",
    "C74_copy_within_source_refuted",
    "C74_misaligned_altivec_refuted",
    "C74_any_order"
   ],
   "note": "Calls are atomic in the model: the theorem is about sequences of calls, not about threads that interleave within a call."
  },
  {
   "property": "C75",
   "status": "proved",
   "theorems": [
    "C75_sin_range",
    "C75_sin_vec_simd_range",
    "C75_cos_range",
    "C75_cos_vec_simd_range",
    "C75_sin_rises",
    "C75_sin_vec_simd_rises",
    "C75_sin_falls",
    "C75_sin_vec_simd_falls",
    "C75_cos_falls",
    "C75_cos_vec_simd_falls",
    "C75_cos_rises",
    "C75_cos_vec_simd_rises",
    "C75_tan_rises",
    "C75_tan_vec_simd_rises"
   ],
   "note": "Order is between values, so +0 and -0 count as equal. Beyond 8192 the reduction loses accuracy and nothing is claimed (C59 shows |sin| above a million)."
  },
  {
   "property": "C76",
   "status": "proved",
   "theorems": [
    "C76_asin_rises",
    "C76_asin_vec_simd_rises",
    "C76_asin_range",
    "C76_asin_vec_simd_range",
    "C76_acos_falls",
    "C76_acos_vec_simd_falls",
    "C76_acos_range",
    "C76_acos_vec_simd_range",
    "C76_acos_minus_half_refuted",
    "C76_atan_range",
    "C76_atan_vec_simd_range",
    "C76_atan_order_refuted"
   ],
   "note": "atan at the infinities is C61_atan_inf; asin and acos outside [-1, 1] are C47."
  },
  {
   "property": "C77",
   "status": "proved",
   "theorems": [
    "C77_log_rises",
    "C77_log_vec_simd_rises",
    "C77_log2_rises",
    "C77_log2_vec_simd_rises",
    "C77_log10_rises",
    "C77_log10_vec_simd_rises",
    "C77_tanh_rises",
    "C77_tanh_vec_simd_rises",
    "C77_exp_rises",
    "C77_exp_vec_simd_rises",
    "C77_exp_order_refuted",
    "C77_ratio2midi_rises",
    "C77_ratio2midi_vec_simd_rises",
    "C77_amp2db_rises",
    "C77_amp2db_vec_simd_rises",
    "C77_freq2midi_rises",
    "C77_freq2midi_vec_simd_rises",
    "C77_freq2oct_rises",
    "C77_freq2oct_vec_simd_rises"
   ],
   "note": "exp between 0 and 1 and the conversions built on pow are not claimed to keep order; no failure between 0 and 1 is known."
  },
  {
   "property": "C78",
   "status": "proved",
   "theorems": [
    "C78_sin_not_finite",
    "C78_cos_not_finite",
    "C78_tan_nan",
    "C78_atan_nan",
    "C78_tan_infinite",
    "C78_asin_nan_sse",
    "C78_acos_nan_sse",
    "C78_sin_finite_refuted",
    "C78_sin_vec_simd_nan",
    "C78_cos_vec_simd_nan",
    "C78_tan_vec_simd_nan",
    "C78_atan_vec_simd_nan",
    "C78_asin_vec_simd_nan_sse",
    "C78_acos_vec_simd_nan_sse",
    "C78_log_vec_simd_finite",
    "C78_log2_finite",
    "C78_log2_vec_simd_finite",
    "C78_log10_finite",
    "C78_log10_vec_simd_finite",
    "C78_ratio2midi_finite",
    "C78_ratio2midi_vec_simd_finite",
    "C78_amp2db_finite",
    "C78_amp2db_vec_simd_finite",
    "C78_freq2midi_finite",
    "C78_freq2midi_vec_simd_finite",
    "C78_freq2oct_finite",
    "C78_freq2oct_vec_simd_finite",
    "C78_pow_nan_exponent_sse",
    "C78_pow_nan_exponent_avx",
    "C78_pow_nan_base_refuted",
    "C78_midi2freq_nan_sse",
    "C78_midi2freq_nan_avx",
    "C78_midi2freq_vec_simd_nan",
    "C78_oct2freq_nan_sse",
    "C78_oct2freq_nan_avx",
    "C78_oct2freq_vec_simd_nan",
    "C78_midi2ratio_nan_sse",
    "C78_midi2ratio_nan_avx",
    "C78_midi2ratio_vec_simd_nan",
    "C78_db2amp_nan_sse",
    "C78_db2amp_nan_avx",
    "C78_db2amp_vec_simd_nan"
   ],
   "note": "For finite arguments beyond 8192 only the witness is claimed."
  },
  {
   "property": "C79",
   "status": "proved",
   "theorems": [
    "C79_math",
    "C79_pow",
    "C79_unit",
    "C79_math_vec",
    "C79_pow_vec",
    "C79_unit_vec",
    "C79_acos_minus_half_refuted",
    "C79_sin_large_refuted"
   ],
   "note": "Arguments smaller in magnitude than 2^-100 other than zero are left out for sin, tan, asin, atan and tanh, as their results come near the subnormal numbers. The accuracy of the C library is a hypothesis; that it can be met is shown by the library that rounds correctly."
  },
  {
   "property": "C80",
   "status": "proved",
   "theorems": [
    "C80_trunc_vec",
    "C80_trunc_vec_undefined",
    "C80_trunc_vec_simd",
    "C80_trunc_vec_simd_returns",
    "C80_trunc_vec_simd_by_element",
    "C80_forms_agree",
    "C80_same_bits_refuted",
    "C80_trunc_vec_simd_ct",
    "C80_altivec_negative"
   ],
   "note": "long assumed 64 bits wide."
  },
  {
   "property": "C81",
   "status": "proved",
   "theorems": [
    "C81_times_one_vec",
    "C81_times_one_vec_simd",
    "C81_times_one_altivec",
    "C81_times_one_altivec_refuted",
    "C81_plus_minus_zero_vec",
    "C81_plus_minus_zero_vec_simd",
    "C81_plus_zero_vec",
    "C81_plus_zero_vec_simd",
    "C81_minus_zero_vec",
    "C81_minus_zero_vec_simd",
    "C81_over_one_vec",
    "C81_over_one_vec_simd",
    "C81_muladd_one_zero_vec",
    "C81_muladd_one_zero_vec_simd",
    "C81_min_infinity_vec",
    "C81_min_infinity_vec_simd",
    "C81_max_minus_infinity_vec",
    "C81_max_minus_infinity_vec_simd",
    "C81_clip_infinity_vec",
    "C81_clip_infinity_vec_simd",
    "C81_ampmod_zero_vec",
    "C81_ampmod_zero_vec_simd",
    "C81_ampmod_zero_infinity_refuted",
    "C81_mix_one_zero_vec",
    "C81_mix_one_zero_vec_simd",
    "C81_mix_one_zero_infinity_refuted",
    "C81_flat_ramp_binary",
    "C81_flat_ramp_ternary",
    "C81_flat_ramp_quaternary",
    "C81_flat_ramp_minus_zero_refuted",
    "C81_set_slope_zero",
    "C81_set_exp_one"
   ],
   "note": "ampmod by 0 on Altivec (whose product changes -0) not claimed."
  },
  {
   "property": "C82",
   "status": "proved",
   "theorems": [
    "C82_floor_vec",
    "C82_floor_vec_simd",
    "C82_ceil_vec",
    "C82_ceil_vec_simd",
    "C82_round_vec",
    "C82_round_vec_simd",
    "C82_sgn_vec",
    "C82_sgn_vec_simd",
    "C82_undenormalize_vec",
    "C82_undenormalize_vec_simd",
    "C82_cube_vec",
    "C82_cube_vec_simd",
    "C82_signed_sqrt_vec",
    "C82_signed_sqrt_vec_simd",
    "C82_square_vec",
    "C82_square_vec_simd",
    "C82_plus_vec",
    "C82_plus_vec_simd",
    "C82_minus_vec",
    "C82_minus_vec_simd",
    "C82_times_vec",
    "C82_times_vec_simd",
    "C82_over_vec",
    "C82_over_vec_simd",
    "C82_muladd_vec",
    "C82_muladd_vec_simd",
    "C82_min_vec",
    "C82_min_vec_simd",
    "C82_max_vec",
    "C82_max_vec_simd",
    "C82_clip_vec",
    "C82_clip_vec_simd",
    "C82_clip2_vec",
    "C82_clip2_vec_simd",
    "C82_floor_round_ceil_vec",
    "C82_floor_round_ceil_vec_simd",
    "C82_floor_round_altivec_refuted"
   ],
   "note": "softclip, whose order fails beyond 2^22 (double: 2^51), is in C72; the transcendental functions are in C75-C77. NEON's signed_sqrt and the estimated division of NEON and Altivec not claimed."
  },
  {
   "property": "C83",
   "status": "proved",
   "theorems": [
    "C83_floor_vec",
    "C83_floor_vec_simd",
    "C83_ceil_vec",
    "C83_ceil_vec_simd",
    "C83_round_vec",
    "C83_round_vec_simd",
    "C83_sgn_vec",
    "C83_sgn_vec_simd",
    "C83_abs_vec",
    "C83_abs_vec_simd",
    "C83_undenormalize_vec",
    "C83_undenormalize_vec_simd",
    "C83_frac_vec",
    "C83_frac_vec_simd",
    "C83_frac_refuted",
    "C83_min_vec",
    "C83_min_vec_simd",
    "C83_max_vec",
    "C83_max_vec_simd",
    "C83_clip_vec",
    "C83_clip_vec_simd",
    "C83_clip2_vec",
    "C83_clip2_vec_simd",
    "C83_softclip_refuted"
   ],
   "note": "vec_floor_float, vec_ceil_float and vec_round_float beyond 2^23 not claimed."
  },
  {
   "property": "C84",
   "status": "proved",
   "theorems": [
    "C84_sum_of_negated_vec",
    "C84_sum_of_negated_vec_simd",
    "C84_sum_of_scaled_vec",
    "C84_sum_of_scaled_vec_simd",
    "C84_sum_any_order_refuted",
    "C84_max_any_order_vec",
    "C84_max_any_order_vec_simd",
    "C84_min_any_order_vec",
    "C84_min_any_order_vec_simd",
    "C84_min_of_negated_vec",
    "C84_min_of_negated_vec_simd",
    "C84_min_of_negated_refuted",
    "C84_peak_any_order_vec",
    "C84_peak_any_order_vec_simd",
    "C84_peak_ignores_signs_vec",
    "C84_peak_ignores_signs_vec_simd",
    "C84_peak_rms_ignores_signs_vec",
    "C84_peak_rms_ignores_signs_vec_simd"
   ],
   "note": "SIMD meters under the assumption of C19 on the upper AVX lanes."
  },
  {
   "property": "C85",
   "status": "proved",
   "theorems": [
    "C85_exp_log",
    "C85_log_exp",
    "C85_sin_asin",
    "C85_asin_sin",
    "C85_cos_acos",
    "C85_acos_cos",
    "C85_tan_atan",
    "C85_atan_tan",
    "C85_semitones",
    "C85_ratio",
    "C85_octave",
    "C85_freq_octave",
    "C85_freq_key",
    "C85_amp",
    "C85_exp_log_vec_simd",
    "C85_log_exp_vec_simd",
    "C85_sin_asin_vec_simd",
    "C85_asin_sin_vec_simd",
    "C85_cos_acos_vec_simd",
    "C85_acos_cos_vec_simd",
    "C85_tan_atan_vec_simd",
    "C85_atan_tan_vec_simd",
    "C85_semitones_vec_simd",
    "C85_ratio_vec_simd",
    "C85_octave_vec_simd",
    "C85_freq_octave_vec_simd",
    "C85_freq_key_vec_simd",
    "C85_amp_vec_simd",
    "C85_key_vec_simd",
    "C85_decibels_vec_simd"
   ],
   "note": "32-bit floats on SSE2 and AVX, the specialisations that use vec_math.hpp."
  },
  {
   "property": "C86",
   "status": "proved",
   "theorems": [
    "C86_tan_cos",
    "C86_asin_acos",
    "C86_asin_acos_refuted",
    "C86_log_product",
    "C86_log_quotient",
    "C86_exp_sum",
    "C86_exp_inverse",
    "C86_log2",
    "C86_log10",
    "C86_pow_one",
    "C86_pow_two",
    "C86_pow_half",
    "C86_pow_inverse",
    "C86_pow_zero_exponent",
    "C86_pow_of_one",
    "C86_zero_pow_zero_refuted"
   ],
   "note": "32-bit floats on SSE2 and AVX; products, quotients, sums and roots are the correctly rounded lane operations."
  },
  {
   "property": "C87",
   "status": "proved",
   "theorems": [
    "C87_sin",
    "C87_cos",
    "C87_tan",
    "C87_log",
    "C87_log2",
    "C87_log10",
    "C87_freq2midi",
    "C87_freq2oct",
    "C87_ratio2midi",
    "C87_amp2db",
    "C87_asin",
    "C87_acos",
    "C87_atan",
    "C87_exp",
    "C87_tanh",
    "C87_midi2freq",
    "C87_midi2ratio",
    "C87_oct2freq",
    "C87_db2amp",
    "C87_pow",
    "C87_sin_vec_simd",
    "C87_cos_vec_simd",
    "C87_tan_vec_simd",
    "C87_log_vec_simd",
    "C87_log2_vec_simd",
    "C87_log10_vec_simd",
    "C87_freq2midi_vec_simd",
    "C87_freq2oct_vec_simd",
    "C87_ratio2midi_vec_simd",
    "C87_amp2db_vec_simd",
    "C87_asin_vec_simd",
    "C87_acos_vec_simd",
    "C87_atan_vec_simd",
    "C87_exp_vec_simd",
    "C87_tanh_vec_simd",
    "C87_midi2freq_vec_simd",
    "C87_midi2ratio_vec_simd",
    "C87_oct2freq_vec_simd",
    "C87_db2amp_vec_simd",
    "C87_pow_vec_simd",
    "C87_spow_vec_simd",
    "C87_nan_refuted"
   ],
   "note": "Both sides with the same choice of NaN payloads; the estimates rcpps and rsqrtps are not involved. Sums and muladd do depend on the build: C53, C69."
  },
  {
   "property": "C88",
   "status": "proved",
   "theorems": [
    "C88_plus_swap_vec",
    "C88_plus_swap_vec_simd",
    "C88_sum2_swap_vec",
    "C88_sum2_swap_vec_simd",
    "C88_times_swap_vec",
    "C88_times_swap_vec_simd",
    "C88_mix_swap_vec",
    "C88_mix_swap_vec_simd",
    "C88_mix_gains_vec",
    "C88_mix_gains_vec_simd",
    "C88_sum3_swap_vec",
    "C88_sum3_swap_vec_simd",
    "C88_sum4_swap_vec",
    "C88_sum4_swap_vec_simd",
    "C88_muladd_swap_vec",
    "C88_muladd_swap_vec_simd",
    "C88_ampmod_swap_vec",
    "C88_ampmod_swap_vec_simd",
    "C88_sum3_order_refuted",
    "C88_min_swap_vec",
    "C88_min_swap_vec_simd",
    "C88_max_swap_vec",
    "C88_max_swap_vec_simd",
    "C88_min_zero_refuted",
    "C88_min_nan_refuted",
    "C88_compare_mirror_vec",
    "C88_compare_mirror_vec_simd",
    "C88_compare_negated_vec",
    "C88_compare_negated_vec_simd",
    "C88_compare_mirror_avx_refuted",
    "C88_minus_swap_vec",
    "C88_minus_swap_vec_simd",
    "C88_plus_invert_vec",
    "C88_plus_invert_vec_simd",
    "C88_minus_invert_vec",
    "C88_minus_invert_vec_simd",
    "C88_sum3_invert_vec",
    "C88_sum3_invert_vec_simd",
    "C88_sum4_invert_vec",
    "C88_sum4_invert_vec_simd",
    "C88_times_invert_vec",
    "C88_times_invert_vec_simd",
    "C88_times_invert_right_vec",
    "C88_times_invert_right_vec_simd",
    "C88_over_invert_vec",
    "C88_over_invert_vec_simd",
    "C88_over_invert_right_vec",
    "C88_over_invert_right_vec_simd",
    "C88_mix_invert_vec",
    "C88_mix_invert_vec_simd",
    "C88_mix_invert_gains_vec",
    "C88_mix_invert_gains_vec_simd",
    "C88_muladd_invert_vec",
    "C88_muladd_invert_vec_simd",
    "C88_ampmod_invert_vec",
    "C88_ampmod_invert_vec_simd",
    "C88_min_max_vec",
    "C88_min_max_vec_simd",
    "C88_clip2_invert_vec",
    "C88_clip2_invert_vec_simd",
    "C88_clip_invert_vec",
    "C88_clip_invert_vec_simd"
   ],
   "note": "Inputs of inverted polarity differ in the sign bit of every sample. Outputs are compared as numbers: zeros of whatever sign are opposite to each other, and so are NaNs."
  },
  {
   "property": "C89",
   "status": "proved",
   "theorems": [
    "C89_plus_vec",
    "C89_plus_vec_simd",
    "C89_minus_vec",
    "C89_minus_vec_simd",
    "C89_sum2_vec",
    "C89_sum2_vec_simd",
    "C89_sum3_vec",
    "C89_sum3_vec_simd",
    "C89_sum4_vec",
    "C89_sum4_vec_simd",
    "C89_min_vec",
    "C89_min_vec_simd",
    "C89_max_vec",
    "C89_max_vec_simd",
    "C89_clip_vec",
    "C89_clip_vec_simd",
    "C89_clip2_vec",
    "C89_clip2_vec_simd",
    "C89_times_vec",
    "C89_times_vec_simd",
    "C89_mix_vec",
    "C89_mix_vec_simd",
    "C89_muladd_vec",
    "C89_muladd_vec_simd",
    "C89_ampmod_vec",
    "C89_ampmod_vec_simd",
    "C89_over_vec",
    "C89_over_vec_simd",
    "C89_over_divisor_vec",
    "C89_over_divisor_vec_simd",
    "C89_abs_vec",
    "C89_abs_vec_simd",
    "C89_square_vec",
    "C89_square_vec_simd",
    "C89_signed_sqrt_vec",
    "C89_signed_sqrt_vec_simd",
    "C89_times_underflow_refuted"
   ],
   "note": "Exact commutation of power-of-two gains, with the underflow condition shown necessary for products."
  },
  {
   "property": "C90",
   "status": "proved",
   "theorems": [
    "C90_muladd_vec",
    "C90_muladd_vec_simd",
    "C90_mix_vec",
    "C90_mix_vec_simd",
    "C90_ampmod_vec",
    "C90_ampmod_vec_simd",
    "C90_sum3_vec",
    "C90_sum3_vec_simd",
    "C90_sum4_vec",
    "C90_sum4_vec_simd",
    "C90_clip_vec",
    "C90_clip_vec_simd",
    "C90_minus_vec",
    "C90_minus_vec_simd",
    "C90_cube_vec",
    "C90_cube_vec_simd",
    "C90_frac_vec",
    "C90_frac_vec_simd",
    "C90_abs_vec",
    "C90_abs_vec_simd",
    "C90_square_vec",
    "C90_clip2_vec",
    "C90_square_vec_simd",
    "C90_clip2_vec_simd",
    "C90_muladd_fused_refuted"
   ],
   "note": "Compound functions decomposed into simpler ones through a buffer; refuted for fused muladd."
  },
  {
   "property": "C91",
   "status": "proved",
   "theorems": [
    "C91_sgn_abs_vec",
    "C91_sgn_abs_vec_simd",
    "C91_floor_frac_vec",
    "C91_floor_frac_vec_simd",
    "C91_ceil_floor_vec",
    "C91_ceil_floor_vec_simd",
    "C91_min_max_vec",
    "C91_min_max_vec_simd",
    "C91_difference_vec",
    "C91_difference_vec_simd",
    "C91_square_root_vec",
    "C91_square_root_vec_simd",
    "C91_minus_self_vec",
    "C91_minus_self_vec_simd",
    "C91_over_self_vec",
    "C91_over_self_vec_simd",
    "C91_floor_frac_refuted"
   ],
   "note": "Identities through several calls: sgn*abs, floor+frac, ceil by floor, min+max, Sterbenz, sqrt of square, x-x, x/x; floor+frac refuted below zero."
  },
  {
   "property": "C92",
   "status": "proved",
   "theorems": [
    "C92_addvec",
    "C92_addvec_simd",
    "C92_addvec_scalar",
    "C92_addvec_scalar_simd",
    "C92_pan2_vec",
    "C92_pan2_vec_simd",
    "C92_pan2_slope_vec",
    "C92_pan2_in_place_refuted",
    "C92_ramp_times_vec",
    "C92_ramp_plus_vec",
    "C92_constant_times_vec",
    "C92_constant_times_vec_simd",
    "C92_constant_plus_vec",
    "C92_constant_plus_vec_simd",
    "C92_peak",
    "C92_peak_simd",
    "C92_peak_below_smallest_normal",
    "C92_peak_below_smallest_normal_simd",
    "C92_rms_sum"
   ],
   "note": "addvec = plus_vec, pan2 = two gains, ramps and constants = filled buffers, peak = max of abs, sum of squares = sum of square_vec; pan2 in place refuted."
  },
  {
   "property": "C93",
   "status": "proved",
   "theorems": [
    "C93_bus",
    "C93_bus_simd",
    "C93_scalar_and_simd_agree",
    "C93_integers",
    "C93_integers_simd",
    "C93_rounding",
    "C93_rounding_simd",
    "C93_any_order",
    "C93_any_order_refuted",
    "C93_bus_of_2",
    "C93_bus_of_3",
    "C93_bus_of_2_simd",
    "C93_bus_of_3_simd"
   ],
   "note": "zerovec and any number of addvec calls: the column sums, scalar = SIMD, exact for integers, rounding bound, order free in exact arithmetic (refuted in float), equal to plus_vec and sum_vec for two and three."
  },
  {
   "property": "C94",
   "status": "proved",
   "theorems": [
    "C94_abs_vec",
    "C94_abs_vec_simd",
    "C94_sgn_vec",
    "C94_sgn_vec_simd",
    "C94_square_vec",
    "C94_square_vec_simd",
    "C94_cube_vec",
    "C94_cube_vec_simd",
    "C94_round_vec",
    "C94_round_vec_simd",
    "C94_floor_vec",
    "C94_floor_vec_simd",
    "C94_ceil_vec",
    "C94_ceil_vec_simd",
    "C94_frac_vec",
    "C94_frac_vec_simd",
    "C94_undenormalize_vec",
    "C94_undenormalize_vec_simd",
    "C94_softclip_vec",
    "C94_softclip_vec_simd",
    "C94_signed_sqrt_vec",
    "C94_signed_sqrt_vec_simd",
    "C94_math_vec",
    "C94_math_vec_simd",
    "C94_math_vec_simd_ones",
    "C94_plus_vec",
    "C94_plus_vec_simd",
    "C94_minus_vec",
    "C94_minus_vec_simd",
    "C94_sum3_vec",
    "C94_sum3_vec_simd",
    "C94_sum4_vec",
    "C94_sum4_vec_simd",
    "C94_times_vec",
    "C94_times_vec_simd",
    "C94_muladd_vec",
    "C94_muladd_vec_simd",
    "C94_mix_vec",
    "C94_mix_vec_simd",
    "C94_effects",
    "C94_effects_simd",
    "C94_over_vec_nans",
    "C94_times_vec_nans",
    "C94_neon_signed_sqrt_vec_simd_nans"
   ],
   "note": "Unary, transcendental, additive and multiplicative functions of zeros, scalar and SIMD; any list of in-place effects by induction; NaNs for division, infinite gains and signed_sqrt on NEON."
  }
 ]
}
