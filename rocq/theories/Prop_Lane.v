(** C28-C37, C42, C56: lane-wise functions. *)
From Coq Require Import ZArith Reals List Lia Bool Lra.
From Flocq Require Import Core IEEE754.Binary IEEE754.Bits.
From Verif Require Import
  Base Mem Backend Args Drivers Functors Lanes Float LaneOps FloatOps ScalarMath VecMath FloatFuns Spec SpecLane
  FloatFacts LaneFacts LaneMore FloatRound ReduceMore VecFacts VecMore VecMore2 ExData ExFloat ExLane LaneClaims.
Import ListNotations.
Local Open Scope Z_scope.

(** * C28: comparisons *)

(** Each lane of a vec comparison is exactly 1.0 or 0.0. *)
Theorem C28_lane_is_one_or_zero : 
  forall t (c : cfg) (I : isa) (r : rel) (a b : F t),
    oprel c I r a b = f_ofZ t 1 \/ oprel c I r a b = f_ofZ t 0.
Proof. exact C28_lane_is_one_or_zero_lemma. Qed.
Print Assumptions C28_lane_is_one_or_zero.

(** It is the C++ comparison of the two numbers: on SSE, NEON, Altivec and the
    generic vec for every pair of bit patterns, on AVX when neither is a NaN. *)
Theorem C28_lane_equals_scalar : 
  forall t (c : cfg) (I : isa) (r : rel) (a b : F t),
    I <> AVX \/ (number a /\ number b) ->
    oprel c I r a b = if srel r a b then f_ofZ t 1 else f_ofZ t 0.
Proof. exact C28_lane_equals_scalar_lemma. Qed.
Print Assumptions C28_lane_equals_scalar.

Example C28_lane_equals_scalar_ex :
  (SSE <> AVX \/ (number (qnan F32) /\ number (f_ofZ F32 1))) /\
  (AVX <> AVX \/ (number (f_lit F64 1 1023) /\ number (f_ofZ F64 (-1)))).
Proof. split; [left; discriminate|right; split; vm_compute; reflexivity]. Qed.

(** What the comparison means on finite numbers: the relation of the real
    values, on every back-end; so +0 and -0 are equal. *)
Theorem C28_comparison_of_finite_numbers : 
  forall t (c : cfg) (I : isa) (r : rel) (a b : F t),
    isfin a = true -> isfin b = true ->
    (real_rel r (val a) (val b) -> oprel c I r a b = f_ofZ t 1) /\
    (~ real_rel r (val a) (val b) -> oprel c I r a b = f_ofZ t 0).
Proof. exact C28_comparison_of_finite_numbers_lemma. Qed.
Print Assumptions C28_comparison_of_finite_numbers.

Example C28_comparison_of_finite_numbers_ex :
  isfin (f_lit F32 1 (-149)) = true /\ isfin (fneg (f_ofZ F32 0)) = true.
Proof. split; reflexivity. Qed.

(** The same with infinities, an infinity counting as plus or minus 2^128
    (float) or 2^1024 (double), beyond every finite number. *)
Theorem C28_comparison_with_infinities : 
  forall t (c : cfg) (I : isa) (r : rel) (a b : F t),
    number a -> number b ->
    (real_rel r (xval a) (xval b) -> oprel c I r a b = f_ofZ t 1) /\
    (~ real_rel r (xval a) (xval b) -> oprel c I r a b = f_ofZ t 0).
Proof. exact C28_comparison_with_infinities_lemma. Qed.
Print Assumptions C28_comparison_with_infinities.

Example C28_comparison_with_infinities_ex :
  number (of_bits F32 0x7f800000) /\ number (of_bits F32 0xff800000).
Proof. split; reflexivity. Qed.

(** With a NaN only != holds. *)
Theorem C28_comparison_with_nan : 
  forall t (c : cfg) (I : isa) (r : rel) (a b : F t),
    I <> AVX -> isnan a = true \/ isnan b = true ->
    oprel c I r a b = match r with NE => f_ofZ t 1 | _ => f_ofZ t 0 end.
Proof. exact C28_comparison_with_nan_lemma. Qed.
Print Assumptions C28_comparison_with_nan.

Example C28_comparison_with_nan_ex :
  SSE <> AVX /\ (isnan (qnan F64) = true \/ isnan (f_ofZ F64 3) = true).
Proof. split; [discriminate|left; reflexivity]. Qed.

(** On AVX > and >= hold for every pair with a NaN, where the C++ comparison is
    false. *)
Theorem C28_avx_greater_holds_for_nan : 
  forall t (c : cfg) (r : rel) (a b : F t),
    r = GT \/ r = GE -> isnan a = true \/ isnan b = true ->
    oprel c AVX r a b = f_ofZ t 1 /\ srel r a b = false.
Proof. exact C28_avx_greater_holds_for_nan_lemma. Qed.
Print Assumptions C28_avx_greater_holds_for_nan.

Example C28_avx_greater_holds_for_nan_ex :
  (GT = GT \/ GT = GE) /\ (isnan (qnan F64) = true \/ isnan (f_ofZ F64 3) = true).
Proof. split; left; reflexivity. Qed.

(** So agreement on all inputs fails on AVX. *)
Theorem C28_avx_equals_scalar_refuted : 
  exists (r : rel) (a b : F F32), bits (oprel all_ext AVX r a b) <> bits (if srel r a b then f_ofZ F32 1 else f_ofZ F32 0).
Proof. exact C28_avx_equals_scalar_refuted_lemma. Qed.
Print Assumptions C28_avx_equals_scalar_refuted.

(** less_vec, less_equal_vec, greater_vec, greater_equal_vec, equal_vec,
    notequal_vec and their _simd forms leave the same buffer of 1.0 and 0.0. *)
Theorem C28_compare_vec_simd_equals_compare_vec : 
  forall (c : cfg) (B : backend) (n : nans (fmt_of B)) (m : mem (F (fmt_of B))) (out : Z) (a1 a2 : arg (F (fmt_of B))) (len : Z) (r : rel),
    legal_simd_length B len -> aligned B out -> accessible m out len ->
    simd_fit B m out len a1 -> plain a1 -> simd_fit B m out len a2 -> plain a2 ->
    isa_of B <> AVX \/ (each_arg number m a1 len /\ each_arg number m a2 len) ->
    let result := fun i => lift2 (fun x y => if srel r x y then f_ofZ (fmt_of B) 1 else f_ofZ (fmt_of B) 0)
                             (sample (farith n) m a1 i) (sample (farith n) m a2 i) in
    leaves m (compare_vec n r m out a1 a2 len) out len result /\
    leaves m (compare_vec_simd c B n r m out a1 a2 len) out len result.
Proof. exact C28_compare_vec_simd_equals_compare_vec_lemma. Qed.
Print Assumptions C28_compare_vec_simd_equals_compare_vec.

Example C28_compare_vec_simd_equals_compare_vec_ex :
  let m := block 0 80 (fun a => f_lit F32 (a - 50) (-2)) in
  legal_simd_length SSE32 16 /\ aligned SSE32 32 /\ accessible m 32 16 /\
  simd_fit SSE32 m 32 16 (APtr 48) /\ plain (A := F F32) (APtr 48) /\ simd_fit SSE32 m 32 16 (AScal (f_ofZ F32 2)) /\ plain (AScal (f_ofZ F32 2)) /\
  (isa_of SSE32 <> AVX \/ (each_arg number m (APtr 48) 16 /\ each_arg number m (AScal (f_ofZ F32 2)) 16)) /\
  each_arg number m (APtr 48) 16 /\ each_arg number m (AScal (f_ofZ F32 2)) 16.
Proof. fitl. left. discriminate. Qed.

(** * C29: mask and select *)

(** select(lhs, rhs, mask_OP(a, b)) is bit for bit rhs where the comparison
    holds and lhs elsewhere; lhs and rhs may be NaNs. *)
Theorem C29_select_by_comparison : 
  forall t (c : cfg) (I : isa) (r : rel) (a b lhs rhs : F t),
    I <> NEON -> (I = AVX -> r = GT \/ r = GE -> number a /\ number b) ->
    bits (select c I lhs rhs (vmask I r a b)) = if srel r a b then bits rhs else bits lhs.
Proof. exact C29_select_by_comparison_lemma. Qed.
Print Assumptions C29_select_by_comparison.

Example C29_select_by_comparison_ex :
  AVX <> NEON /\ (AVX = AVX -> LT = GT \/ LT = GE -> number (qnan F32) /\ number (f_ofZ F32 1)).
Proof. split; [discriminate|]. intros _ [H|H]; discriminate. Qed.

(** AVX's mask_gt and mask_ge are set for NaNs. *)
Theorem C29_avx_greater_selects_rhs_for_nan : 
  forall t (c : cfg) (r : rel) (a b lhs rhs : F t),
    r = GT \/ r = GE -> isnan a = true \/ isnan b = true ->
    select c AVX lhs rhs (vmask AVX r a b) = rhs /\ srel r a b = false.
Proof. exact C29_avx_greater_selects_rhs_for_nan_lemma. Qed.
Print Assumptions C29_avx_greater_selects_rhs_for_nan.

Example C29_avx_greater_selects_rhs_for_nan_ex :
  (GE = GT \/ GE = GE) /\ (isnan (f_ofZ F64 3) = true \/ isnan (qnan F64) = true).
Proof. split; right; reflexivity. Qed.

(** On NEON the operands of select are the wrong way round, for all inputs. *)
Theorem C29_neon_select_is_reversed : 
  forall t (c : cfg) (r : rel) (a b lhs rhs : F t),
    bits (select c NEON lhs rhs (vmask NEON r a b)) = if srel r a b then bits lhs else bits rhs.
Proof. exact C29_neon_select_is_reversed_lemma. Qed.
Print Assumptions C29_neon_select_is_reversed.

(** A witness. *)
Theorem C29_neon_select_refuted : 
  exists (r : rel) (a b lhs rhs : F F32),
    bits (select all_ext NEON lhs rhs (vmask NEON r a b)) <> if srel r a b then bits rhs else bits lhs.
Proof. exact C29_neon_select_refuted_lemma. Qed.
Print Assumptions C29_neon_select_refuted.

(** * C30: andnot *)

(** andnot bit by bit: (not lhs) and rhs on x86, lhs and (not rhs) on NEON and
    Altivec. *)
Theorem C30_andnot_bits : 
  forall t (x y : F t) (k : Z),
    0 <= k < width t ->
    (forall I, I = SSE \/ I = AVX -> Z.testbit (bits (andnot I x y)) k = negb (Z.testbit (bits x) k) && Z.testbit (bits y) k) /\
    (forall I, I = NEON \/ I = ALTIVEC -> Z.testbit (bits (andnot I x y)) k = Z.testbit (bits x) k && negb (Z.testbit (bits y) k)).
Proof. exact C30_andnot_bits_lemma. Qed.
Print Assumptions C30_andnot_bits.

Example C30_andnot_bits_ex :
  0 <= 5 < width F32.
Proof. split; [discriminate|reflexivity]. Qed.

(** So the two families agree exactly when the operands are the same bits. *)
Theorem C30_back_ends_agree_iff_equal : 
  forall t (x y : F t) (I J : isa),
    I = SSE \/ I = AVX -> J = NEON \/ J = ALTIVEC ->
    (bits (andnot I x y) = bits (andnot J x y) <-> bits x = bits y).
Proof. exact C30_back_ends_agree_iff_equal_lemma. Qed.
Print Assumptions C30_back_ends_agree_iff_equal.

Example C30_back_ends_agree_iff_equal_ex :
  (AVX = SSE \/ AVX = AVX) /\ (NEON = NEON \/ NEON = ALTIVEC).
Proof. split; [right|left]; reflexivity. Qed.

(** A witness. *)
Theorem C30_same_on_all_back_ends_refuted : 
  exists (I J : isa) (x y : F F32), bits (andnot I x y) <> bits (andnot J x y).
Proof. exact C30_same_on_all_back_ends_refuted_lemma. Qed.
Print Assumptions C30_same_on_all_back_ends_refuted.

(** * C31: abs *)

(** abs clears the top bit and changes nothing else, NaN payloads included. *)
Theorem C31_abs_clears_the_sign_bit : 
  forall t (c : cfg) (I : isa) (x : F t),
    bits (vabs c I x) = bits x mod 2 ^ (width t - 1).
Proof. exact C31_abs_clears_the_sign_bit_lemma. Qed.
Print Assumptions C31_abs_clears_the_sign_bit.

(** It is the absolute value, never negative, idempotent and even. *)
Theorem C31_abs_value : 
  forall t (c : cfg) (I : isa) (x : F t),
    isfin (vabs c I x) = isfin x /\ isnan (vabs c I x) = isnan x /\ sgn (vabs c I x) = false /\
    val (vabs c I x) = Rabs (val x) /\ vabs c I (vabs c I x) = vabs c I x /\ vabs c I (fneg x) = vabs c I x.
Proof. exact C31_abs_value_lemma. Qed.
Print Assumptions C31_abs_value.

(** abs_vec and abs_vec_simd leave std::fabs of every sample. *)
Theorem C31_abs_vec_and_abs_vec_simd : 
  forall (c : cfg) (B : backend) (n : nans (fmt_of B)) (m : mem (F (fmt_of B))) (out inp len : Z),
    legal_simd_length B len -> aligned B out -> accessible m out len -> simd_fit B m out len (APtr inp) ->
    leaves m (abs_vec B m out inp len) out len (fun i => lift1 fabs (m (inp + i))) /\
    leaves m (abs_vec_simd c B n m out inp len) out len (fun i => lift1 fabs (m (inp + i))).
Proof. exact C31_abs_vec_and_abs_vec_simd_lemma. Qed.
Print Assumptions C31_abs_vec_and_abs_vec_simd.

Example C31_abs_vec_and_abs_vec_simd_ex :
  let m := block 0 80 (fun a => f_lit F32 (a - 50) (-2)) in
  legal_simd_length AVX32 32 /\ aligned AVX32 32 /\ accessible m 32 32 /\ simd_fit AVX32 m 32 32 (APtr 40).
Proof. fitl. Qed.

(** * C32: sign *)

(** sign is 1 above zero, -1 below and a zero at zero, for lanes and samples,
    subnormals and infinities included. *)
Theorem C32_sign_lane : 
  forall t (c : cfg) (I : isa) (x : F t),
    (flt (f_ofZ t 0) x = true -> vsign c I x = f_ofZ t 1 /\ s_sign x = f_ofZ t 1) /\
    (flt x (f_ofZ t 0) = true -> vsign c I x = f_ofZ t (-1) /\ s_sign x = f_ofZ t (-1)) /\
    (feq x (f_ofZ t 0) = true -> feq (vsign c I x) (f_ofZ t 0) = true /\ s_sign x = f_ofZ t 0).
Proof. exact C32_sign_lane_lemma. Qed.
Print Assumptions C32_sign_lane.

Example C32_sign_lane_ex :
  flt (f_ofZ F32 0) (f_lit F32 1 (-149)) = true /\ flt (of_bits F32 0xff800000) (f_ofZ F32 0) = true /\ feq (fneg (f_ofZ F32 0)) (f_ofZ F32 0) = true.
Proof. repeat split; reflexivity. Qed.

(** A NaN gives -1 in scalar code; in SIMD code plus or minus one by its sign bit. *)
Theorem C32_sign_of_nan : 
  forall t (c : cfg) (I : isa) (x : F t),
    isnan x = true ->
    s_sign x = f_ofZ t (-1) /\
    (I <> GEN -> vsign c I x = if sgn x then f_ofZ t (-1) else f_ofZ t 1).
Proof. exact C32_sign_of_nan_lemma. Qed.
Print Assumptions C32_sign_of_nan.

Example C32_sign_of_nan_ex :
  isnan (qnan F32) = true.
Proof. reflexivity. Qed.

(** The SIMD form keeps the sign of a zero, the scalar form does not. *)
Theorem C32_sign_of_minus_zero : 
  forall t (c : cfg) (I : isa),
    I <> GEN -> vsign c I (fneg (f_ofZ t 0)) = fneg (f_ofZ t 0) /\ s_sign (fneg (f_ofZ t 0)) = f_ofZ t 0.
Proof. exact C32_sign_of_minus_zero_lemma. Qed.
Print Assumptions C32_sign_of_minus_zero.

Example C32_sign_of_minus_zero_ex :
  AVX <> GEN.
Proof. discriminate. Qed.

(** On buffers without NaNs sgn_vec and sgn_vec_simd leave equal numbers. *)
Theorem C32_sgn_vec_simd_matches_sgn_vec : 
  forall (c : cfg) (B : backend) (n : nans (fmt_of B)) (m : mem (F (fmt_of B))) (out inp len : Z),
    legal_simd_length B len -> aligned B out -> accessible m out len -> simd_fit B m out len (APtr inp) ->
    each number m inp len ->
    same_numbers (sgn_vec B m out inp len) (sgn_vec_simd c B n m out inp len) out len.
Proof. exact C32_sgn_vec_simd_matches_sgn_vec_lemma. Qed.
Print Assumptions C32_sgn_vec_simd_matches_sgn_vec.

Example C32_sgn_vec_simd_matches_sgn_vec_ex :
  let m := block 0 80 (fun a => f_lit F32 (a - 50) (-2)) in
  legal_simd_length AVX32 32 /\ aligned AVX32 32 /\ accessible m 32 32 /\ simd_fit AVX32 m 32 32 (APtr 40) /\ each number m 40 32.
Proof. fitl. Qed.

(** With a NaN they differ. *)
Theorem C32_same_for_nan_refuted : 
  exists x : F F32, bits (vsign all_ext SSE x) <> bits (s_sign x).
Proof. exact C32_same_for_nan_refuted_lemma. Qed.
Print Assumptions C32_same_for_nan_refuted.

(** * C33: min and max *)

(** For numbers, infinities and signed zeros included, max_ is an upper bound of
    both and one of them, min_ likewise, and both equal std::max and std::min. *)
Theorem C33_max_and_min_of_numbers : 
  forall t (n : nans t) (I : isa) (a b : F t),
    number a -> number b ->
    (fle a (vmax I n a b) = true /\ fle b (vmax I n a b) = true /\ (vmax I n a b = a \/ vmax I n a b = b)) /\
    (fle (vmin I n a b) a = true /\ fle (vmin I n a b) b = true /\ (vmin I n a b = a \/ vmin I n a b = b)) /\
    feq (vmax I n a b) (smax a b) = true /\ feq (vmin I n a b) (smin a b) = true.
Proof. exact C33_max_and_min_of_numbers_lemma. Qed.
Print Assumptions C33_max_and_min_of_numbers.

Example C33_max_and_min_of_numbers_ex :
  number (fneg (f_ofZ F32 0)) /\ number (of_bits F32 0x7f800000).
Proof. split; reflexivity. Qed.

(** With a NaN operand x86 vectors return the second operand, std::max and
    std::min the first. *)
Theorem C33_with_a_nan_the_other_operand : 
  forall t (n : nans t) (I : isa) (a b : F t),
    I = SSE \/ I = AVX -> isnan a = true \/ isnan b = true ->
    vmax I n a b = b /\ vmin I n a b = b /\ smax a b = a /\ smin a b = a.
Proof. exact C33_with_a_nan_the_other_operand_lemma. Qed.
Print Assumptions C33_with_a_nan_the_other_operand.

Example C33_with_a_nan_the_other_operand_ex :
  (SSE = SSE \/ SSE = AVX) /\ (isnan (qnan F32) = true \/ isnan (f_ofZ F32 7) = true).
Proof. split; left; reflexivity. Qed.

(** A witness. *)
Theorem C33_with_a_nan_refuted : 
  exists a b : F F32, bits (vmax SSE (n0 F32) a b) <> bits (smax a b).
Proof. exact C33_with_a_nan_refuted_lemma. Qed.
Print Assumptions C33_with_a_nan_refuted.

(** max_vec and max_vec_simd leave equal numbers on buffers without NaNs. *)
Theorem C33_max_vec_simd_matches_max_vec : 
  forall (c : cfg) (B : backend) (n : nans (fmt_of B)) (m : mem (F (fmt_of B))) (out : Z) (a1 a2 : arg (F (fmt_of B))) (len : Z),
    legal_simd_length B len -> aligned B out -> accessible m out len ->
    simd_fit B m out len a1 -> plain a1 -> simd_fit B m out len a2 -> plain a2 ->
    each_arg number m a1 len -> each_arg number m a2 len ->
    same_numbers (max_vec (farith n) (fops_scalar n) m out a1 a2 len)
                 (max_vec_simd (farith n) (fops c B n) B m out a1 a2 len) out len.
Proof. exact C33_max_vec_simd_matches_max_vec_lemma. Qed.
Print Assumptions C33_max_vec_simd_matches_max_vec.

Example C33_max_vec_simd_matches_max_vec_ex :
  let m := block 0 80 (fun a => f_lit F32 (a - 50) (-2)) in
  legal_simd_length SSE32 16 /\ aligned SSE32 32 /\ accessible m 32 16 /\
  simd_fit SSE32 m 32 16 (APtr 48) /\ plain (A := F F32) (APtr 48) /\ simd_fit SSE32 m 32 16 (AScal (f_ofZ F32 2)) /\ plain (AScal (f_ofZ F32 2)) /\
  each_arg number m (APtr 48) 16 /\ each_arg number m (AScal (f_ofZ F32 2)) 16.
Proof. fitl. Qed.

(** min_vec and min_vec_simd leave equal numbers on buffers without NaNs. *)
Theorem C33_min_vec_simd_matches_min_vec : 
  forall (c : cfg) (B : backend) (n : nans (fmt_of B)) (m : mem (F (fmt_of B))) (out : Z) (a1 a2 : arg (F (fmt_of B))) (len : Z),
    legal_simd_length B len -> aligned B out -> accessible m out len ->
    simd_fit B m out len a1 -> plain a1 -> simd_fit B m out len a2 -> plain a2 ->
    each_arg number m a1 len -> each_arg number m a2 len ->
    same_numbers (min_vec (farith n) (fops_scalar n) m out a1 a2 len)
                 (min_vec_simd (farith n) (fops c B n) B m out a1 a2 len) out len.
Proof. exact C33_min_vec_simd_matches_min_vec_lemma. Qed.
Print Assumptions C33_min_vec_simd_matches_min_vec.

Example C33_min_vec_simd_matches_min_vec_ex :
  let m := block 0 80 (fun a => f_lit F32 (a - 50) (-2)) in
  legal_simd_length SSE32 16 /\ aligned SSE32 32 /\ accessible m 32 16 /\
  simd_fit SSE32 m 32 16 (APtr 48) /\ plain (A := F F32) (APtr 48) /\ simd_fit SSE32 m 32 16 (AScal (f_ofZ F32 2)) /\ plain (AScal (f_ofZ F32 2)) /\
  each_arg number m (APtr 48) 16 /\ each_arg number m (AScal (f_ofZ F32 2)) 16.
Proof. fitl. Qed.

(** * C34: clip *)

(** clip(value, low, high) lies in [low, high], is value inside, low below and
    high above, for samples and lanes of every back-end. *)
Theorem C34_clip_confines : 
  forall (c : cfg) (B : backend) (n : nans (fmt_of B)) (v low high : F (fmt_of B)),
    number v -> fle low high = true ->
    confined v low high (clip_functor (fops_scalar n) v low high) /\
    confined v low high (clip_functor (fops c B n) v low high).
Proof. exact C34_clip_confines_lemma. Qed.
Print Assumptions C34_clip_confines.

Example C34_clip_confines_ex :
  number (of_bits F32 0x7f800000) /\ fle (fneg (f_ofZ F32 0)) (f_ofZ F32 0) = true.
Proof. split; reflexivity. Qed.

(** clip2(value, limit) does the same for [-limit, limit]. *)
Theorem C34_clip2_confines : 
  forall (c : cfg) (B : backend) (n : nans (fmt_of B)) (v limit : F (fmt_of B)),
    number v -> fle (f_ofZ (fmt_of B) 0) limit = true ->
    confined v (fneg limit) limit (clip2_functor (fops_scalar n) v limit) /\
    confined v (fneg limit) limit (clip2_functor (fops c B n) v limit).
Proof. exact C34_clip2_confines_lemma. Qed.
Print Assumptions C34_clip2_confines.

Example C34_clip2_confines_ex :
  number (of_bits F32 0x7f800000) /\ fle (f_ofZ F32 0) (of_bits F32 0x7f800000) = true.
Proof. split; reflexivity. Qed.

(** clip_vec and clip_vec_simd confine every sample of a buffer. *)
Theorem C34_clip_vec_and_clip_vec_simd : 
  forall (c : cfg) (B : backend) (n : nans (fmt_of B)) (m : mem (F (fmt_of B))) (out inp len : Z) (low high : F (fmt_of B)),
    legal_simd_length B len -> aligned B out -> accessible m out len -> simd_fit B m out len (APtr inp) ->
    each number m inp len -> fle low high = true ->
    exists r s : Z -> F (fmt_of B),
      leaves m (clip_vec (farith n) (fops_scalar n) m out (APtr inp) (AScal low) (AScal high) len) out len (fun i => Some (r i)) /\
      leaves m (clip_vec_simd (farith n) (fops c B n) B m out (APtr inp) (AScal low) (AScal high) len) out len (fun i => Some (s i)) /\
      forall i v, 0 <= i < len -> m (inp + i) = Some v -> confined v low high (r i) /\ confined v low high (s i).
Proof. exact C34_clip_vec_and_clip_vec_simd_lemma. Qed.
Print Assumptions C34_clip_vec_and_clip_vec_simd.

Example C34_clip_vec_and_clip_vec_simd_ex :
  let m := block 0 80 (fun a => f_lit F32 (a - 50) (-2)) in
  legal_simd_length AVX32 32 /\ aligned AVX32 32 /\ accessible m 32 32 /\ simd_fit AVX32 m 32 32 (APtr 40) /\ each number m 40 32 /\ fle (f_ofZ F32 (-1)) (f_ofZ F32 1) = true.
Proof. fitl. Qed.

(** A NaN sample stays a NaN in scalar code and becomes high in x86 SIMD code. *)
Theorem C34_nan_sample_in_clip : 
  forall (c : cfg) (B : backend) (n : nans (fmt_of B)) (v low high : F (fmt_of B)),
    isnan v = true -> fle low high = true -> isa_of B = SSE \/ isa_of B = AVX ->
    clip_functor (fops_scalar n) v low high = v /\
    feq (clip_functor (fops c B n) v low high) high = true.
Proof. exact C34_nan_sample_in_clip_lemma. Qed.
Print Assumptions C34_nan_sample_in_clip.

Example C34_nan_sample_in_clip_ex :
  isnan (qnan F32) = true /\ fle (f_ofZ F32 (-1)) (f_ofZ F32 1) = true /\ (isa_of AVX32 = SSE \/ isa_of AVX32 = AVX).
Proof. repeat split; try reflexivity. right; reflexivity. Qed.

(** clip2 sends a NaN to -limit in scalar code and to limit in x86 SIMD code. *)
Theorem C34_nan_sample_in_clip2 : 
  forall (c : cfg) (B : backend) (n : nans (fmt_of B)) (v limit : F (fmt_of B)),
    isnan v = true -> fle (f_ofZ (fmt_of B) 0) limit = true -> isa_of B = SSE \/ isa_of B = AVX ->
    feq (clip2_functor (fops_scalar n) v limit) (fneg limit) = true /\
    feq (clip2_functor (fops c B n) v limit) limit = true.
Proof. exact C34_nan_sample_in_clip2_lemma. Qed.
Print Assumptions C34_nan_sample_in_clip2.

Example C34_nan_sample_in_clip2_ex :
  isnan (qnan F32) = true /\ fle (f_ofZ F32 0) (f_ofZ F32 1) = true /\ (isa_of AVX32 = SSE \/ isa_of AVX32 = AVX).
Proof. repeat split; try reflexivity. right; reflexivity. Qed.

(** * C35: softclip *)

(** SIMD softclip is scalar softclip bit for bit, for every input. *)
Theorem C35_lane_equals_scalar : 
  forall t (n : nans t) (c : cfg) (I : isa) (x : F t), vsoftclip c I n x = s_softclip n x.
Proof. exact C35_lane_equals_scalar_lemma. Qed.
Print Assumptions C35_lane_equals_scalar.

(** It is the identity, bit for bit, up to magnitude one half. *)
Theorem C35_softclip_identity : 
  forall t (n : nans t) (x : F t),
    isfin x = true -> (Rabs (val x) <= / 2)%R -> s_softclip n x = x.
Proof. exact C35_softclip_identity_lemma. Qed.
Print Assumptions C35_softclip_identity.

Example C35_softclip_identity_ex :
  isfin (fneg (f_lit F32 1 (-1))) = true /\ (Rabs (val (fneg (f_lit F32 1 (-1)))) <= / 2)%R.
Proof. split; [reflexivity|]. rewrite val_fneg, Rabs_Ropp, f_lit_pow by easy. rewrite Rabs_pos_eq; cbn; lra. Qed.

(** Beyond, its magnitude lies in [1/2, 1], its sign is that of the input and it
    is (|x| - 1/4) / x with both operations rounded. *)
Theorem C35_softclip_bounded : 
  forall t (n : nans t) (x : F t),
    isfin x = true -> (/ 2 <= Rabs (val x))%R ->
    isfin (s_softclip n x) = true /\ sgn (s_softclip n x) = sgn x /\
    (/ 2 <= Rabs (val (s_softclip n x)) <= 1)%R /\
    val (s_softclip n x) = rnd t (rnd t (Rabs (val x) - / 4) / val x).
Proof. exact C35_softclip_bounded_lemma. Qed.
Print Assumptions C35_softclip_bounded.

Example C35_softclip_bounded_ex :
  isfin (f_max F32) = true /\ (/ 2 <= Rabs (val (f_ofZ F32 3)))%R.
Proof. split; [reflexivity|]. destruct (f_ofZ_int (n0 F32) 3) as [_ E]; [vm_compute; discriminate|]. rewrite E, Rabs_pos_eq; lra. Qed.

(** It is odd. *)
Theorem C35_softclip_odd : 
  forall t (n : nans t) (x : F t), isfin x = true -> s_softclip n (fneg x) = fneg (s_softclip n x).
Proof. exact C35_softclip_odd_lemma. Qed.
Print Assumptions C35_softclip_odd.

Example C35_softclip_odd_ex :
  isfin (f_ofZ F64 5) = true.
Proof. reflexivity. Qed.

(** Of an infinity it is a NaN, not plus or minus one. *)
Theorem C35_softclip_of_infinity : 
  forall t (n : nans t) (x : F t), isfin x = false -> number x -> isnan (s_softclip n x) = true.
Proof. exact C35_softclip_of_infinity_lemma. Qed.
Print Assumptions C35_softclip_of_infinity.

Example C35_softclip_of_infinity_ex :
  isfin (of_bits F32 0xff800000) = false /\ number (of_bits F32 0xff800000).
Proof. split; reflexivity. Qed.

(** softclip_vec and softclip_vec_simd leave the same buffer. *)
Theorem C35_softclip_vec_and_softclip_vec_simd : 
  forall (c : cfg) (B : backend) (n : nans (fmt_of B)) (m : mem (F (fmt_of B))) (out inp len : Z),
    legal_simd_length B len -> aligned B out -> accessible m out len -> simd_fit B m out len (APtr inp) ->
    same_effect (softclip_vec B n m out inp len) (softclip_vec_simd c B n m out inp len).
Proof. exact C35_softclip_vec_and_softclip_vec_simd_lemma. Qed.
Print Assumptions C35_softclip_vec_and_softclip_vec_simd.

Example C35_softclip_vec_and_softclip_vec_simd_ex :
  let m := block 0 80 (fun a => f_lit F32 (a - 50) (-2)) in
  legal_simd_length AVX32 32 /\ aligned AVX32 32 /\ accessible m 32 32 /\ simd_fit AVX32 m 32 32 (APtr 40).
Proof. fitl. Qed.

(** * C36: undenormalize *)

(** undenormalize is +0 for zeros and subnormals and the argument for everything
    else, NaNs included. *)
Theorem C36_flushes_exactly_the_subnormals : 
  forall t (x : F t),
    (tiny x -> bits (s_undenormalize x) = 0) /\ (~ tiny x -> s_undenormalize x = x).
Proof. exact C36_flushes_exactly_the_subnormals_lemma. Qed.
Print Assumptions C36_flushes_exactly_the_subnormals.

Example C36_flushes_exactly_the_subnormals_ex :
  tiny (of_bits F32 0x807fffff) /\ ~ tiny (of_bits F32 0x80800000) /\ ~ tiny (qnan F32).
Proof. rewrite !tiny_mag. vm_compute. repeat split; congruence. Qed.

(** SIMD and scalar form agree bit for bit.  (NEON and Altivec have none.) *)
Theorem C36_lane_equals_scalar : 
  forall t (c : cfg) (I : isa) (x : F t), I <> NEON -> vundenormalize c I x = s_undenormalize x.
Proof. exact C36_lane_equals_scalar_lemma. Qed.
Print Assumptions C36_lane_equals_scalar.

Example C36_lane_equals_scalar_ex :
  AVX <> NEON.
Proof. discriminate. Qed.

(** The buffer functions leave the same buffer. *)
Theorem C36_undenormalize_vec_and_undenormalize_vec_simd : 
  forall (c : cfg) (B : backend) (n : nans (fmt_of B)) (m : mem (F (fmt_of B))) (out inp len : Z),
    isa_of B <> NEON ->
    legal_simd_length B len -> aligned B out -> accessible m out len -> simd_fit B m out len (APtr inp) ->
    same_effect (undenormalize_vec B m out inp len) (undenormalize_vec_simd c B n m out inp len).
Proof. exact C36_undenormalize_vec_and_undenormalize_vec_simd_lemma. Qed.
Print Assumptions C36_undenormalize_vec_and_undenormalize_vec_simd.

Example C36_undenormalize_vec_and_undenormalize_vec_simd_ex :
  let m := block 0 80 (fun a => f_lit F32 (a - 50) (-2)) in
  isa_of AVX32 <> NEON /\ legal_simd_length AVX32 32 /\ aligned AVX32 32 /\ accessible m 32 32 /\ simd_fit AVX32 m 32 32 (APtr 40).
Proof. fitl. discriminate. Qed.

(** * C37: signed_sqrt *)

(** signed_sqrt(x) has the sign of x and magnitude sqrt(|x|) correctly rounded. *)
Theorem C37_signed_sqrt_value : 
  forall t (n : nans t) (x : F t),
    isfin x = true ->
    isfin (s_signed_sqrt n x) = true /\ sgn (s_signed_sqrt n x) = sgn x /\
    Rabs (val (s_signed_sqrt n x)) = rnd t (sqrt (Rabs (val x))).
Proof. exact C37_signed_sqrt_value_lemma. Qed.
Print Assumptions C37_signed_sqrt_value.

Example C37_signed_sqrt_value_ex :
  isfin (fneg (f_ofZ F32 2)) = true.
Proof. reflexivity. Qed.

(** The SIMD form agrees bit for bit on every number, zeros of both signs and
    infinities included.  NEON's form is an estimate (C67). *)
Theorem C37_lane_equals_scalar : 
  forall t (n : nans t) (c : cfg) (I : isa) (x : F t),
    I <> NEON -> number x -> vsigned_sqrt c I n x = s_signed_sqrt n x.
Proof. exact C37_lane_equals_scalar_lemma. Qed.
Print Assumptions C37_lane_equals_scalar.

Example C37_lane_equals_scalar_ex :
  SSE <> NEON /\ number (fneg (f_ofZ F32 0)).
Proof. split; [discriminate|reflexivity]. Qed.

(** It is odd, and keeps infinities. *)
Theorem C37_odd_and_infinite : 
  forall t (n : nans t) (x : F t),
    number x -> s_signed_sqrt n (fneg x) = fneg (s_signed_sqrt n x) /\ (isfin x = false -> s_signed_sqrt n x = x).
Proof. exact C37_odd_and_infinite_lemma. Qed.
Print Assumptions C37_odd_and_infinite.

Example C37_odd_and_infinite_ex :
  number (of_bits F32 0xff800000).
Proof. reflexivity. Qed.

(** The buffer functions leave the same buffer. *)
Theorem C37_signed_sqrt_vec_and_signed_sqrt_vec_simd : 
  forall (c : cfg) (B : backend) (n : nans (fmt_of B)) (m : mem (F (fmt_of B))) (out inp len : Z),
    isa_of B <> NEON ->
    legal_simd_length B len -> aligned B out -> accessible m out len -> simd_fit B m out len (APtr inp) ->
    each number m inp len ->
    same_effect (signed_sqrt_vec B n m out inp len) (signed_sqrt_vec_simd c B n m out inp len).
Proof. exact C37_signed_sqrt_vec_and_signed_sqrt_vec_simd_lemma. Qed.
Print Assumptions C37_signed_sqrt_vec_and_signed_sqrt_vec_simd.

Example C37_signed_sqrt_vec_and_signed_sqrt_vec_simd_ex :
  let m := block 0 80 (fun a => f_lit F32 (a - 50) (-2)) in
  isa_of AVX32 <> NEON /\ legal_simd_length AVX32 32 /\ aligned AVX32 32 /\ accessible m 32 32 /\ simd_fit AVX32 m 32 32 (APtr 40) /\ each number m 40 32.
Proof. fitl. discriminate. Qed.

(** * C42: generated constants *)

(** The constants shifted together from all ones (SSE) or given as literals are
    1.0, 0.5, 0.0, the sign bit, all other bits and all bits, with and without
    SSE2, float and double. *)
Theorem C42_constants : 
  forall t (c : cfg) (I : isa),
    I <> GEN ->
    gen_one c I = f_ofZ t 1 /\ gen_05 c I = f_lit t 1 (-1) /\ bits (gen_zero (t := t)) = 0 /\
    bits (gen_sign_mask (t := t) c I) = 2 ^ (width t - 1) /\
    bits (gen_abs_mask (t := t) c I) = 2 ^ (width t - 1) - 1 /\
    bits (gen_ones (t := t) I) = 2 ^ width t - 1.
Proof. exact C42_constants_lemma. Qed.
Print Assumptions C42_constants.

Example C42_constants_ex :
  SSE <> GEN.
Proof. discriminate. Qed.

(** Their values. *)
Theorem C42_values : 
  forall t (c : cfg) (I : isa),
    isfin (gen_one (t := t) c I) = true /\ val (gen_one (t := t) c I) = 1%R /\
    isfin (gen_05 (t := t) c I) = true /\ val (gen_05 (t := t) c I) = (1 / 2)%R.
Proof. exact C42_values_lemma. Qed.
Print Assumptions C42_values.

(** The masks' effect on every bit pattern: negation, absolute value, and the
    two parts make up the number. *)
Theorem C42_sign_and_abs_masks : 
  forall t (c : cfg) (I : isa) (x : F t),
    bxor x (gen_sign_mask c I) = fneg x /\ band x (gen_abs_mask c I) = fabs x /\
    bor (band x (gen_sign_mask c I)) (band x (gen_abs_mask c I)) = x.
Proof. exact C42_sign_and_abs_masks_lemma. Qed.
Print Assumptions C42_sign_and_abs_masks.

(** gen_exp_mask turns a normal float into the power of two of its exponent. *)
Theorem C42_exponent_mask : 
  forall x : F F32,
    isfin x = true -> ~ tiny x ->
    exists e, isfin (band x gen_exp_mask) = true /\ val (band x gen_exp_mask) = bpow radix2 e /\
              (bpow radix2 e <= Rabs (val x) < bpow radix2 (e + 1))%R.
Proof. exact C42_exponent_mask_lemma. Qed.
Print Assumptions C42_exponent_mask.

Example C42_exponent_mask_ex :
  isfin (f_ofZ F32 (-100)) = true /\ ~ tiny (f_ofZ F32 (-100)).
Proof. split; [reflexivity|]. rewrite tiny_mag. vm_compute. congruence. Qed.

(** * C56: square and cube *)

(** square and cube of a lane are those of the scalar functions bit for bit for
    every number, although the products of cube are formed in another order. *)
Theorem C56_square_and_cube_lanes : 
  forall t (n : nans t) (I : isa) (x : F t),
    I <> ALTIVEC -> number x -> vsquare I n x = s_square n x /\ vcube I n x = s_cube n x.
Proof. exact C56_square_and_cube_lanes_lemma. Qed.
Print Assumptions C56_square_and_cube_lanes.

Example C56_square_and_cube_lanes_ex :
  AVX <> ALTIVEC /\ number (f_lit F32 1 100).
Proof. split; [discriminate|reflexivity]. Qed.

(** The buffer functions leave the same buffer. *)
Theorem C56_square_vec_and_square_vec_simd : 
  forall (B : backend) (n : nans (fmt_of B)) (m : mem (F (fmt_of B))) (out inp len : Z),
    isa_of B <> ALTIVEC ->
    legal_simd_length B len -> aligned B out -> accessible m out len -> simd_fit B m out len (APtr inp) ->
    each number m inp len ->
    same_effect (square_vec B n m out inp len) (square_vec_simd B n m out inp len).
Proof. exact C56_square_vec_and_square_vec_simd_lemma. Qed.
Print Assumptions C56_square_vec_and_square_vec_simd.

Example C56_square_vec_and_square_vec_simd_ex :
  let m := block 0 80 (fun a => f_lit F32 (a - 50) (-2)) in
  isa_of AVX32 <> ALTIVEC /\ legal_simd_length AVX32 32 /\ aligned AVX32 32 /\ accessible m 32 32 /\ simd_fit AVX32 m 32 32 (APtr 40) /\ each number m 40 32.
Proof. fitl. discriminate. Qed.

(** The buffer functions leave the same buffer. *)
Theorem C56_cube_vec_and_cube_vec_simd : 
  forall (B : backend) (n : nans (fmt_of B)) (m : mem (F (fmt_of B))) (out inp len : Z),
    isa_of B <> ALTIVEC ->
    legal_simd_length B len -> aligned B out -> accessible m out len -> simd_fit B m out len (APtr inp) ->
    each number m inp len ->
    same_effect (cube_vec B n m out inp len) (cube_vec_simd B n m out inp len).
Proof. exact C56_cube_vec_and_cube_vec_simd_lemma. Qed.
Print Assumptions C56_cube_vec_and_cube_vec_simd.

Example C56_cube_vec_and_cube_vec_simd_ex :
  let m := block 0 80 (fun a => f_lit F32 (a - 50) (-2)) in
  isa_of AVX32 <> ALTIVEC /\ legal_simd_length AVX32 32 /\ aligned AVX32 32 /\ accessible m 32 32 /\ simd_fit AVX32 m 32 32 (APtr 40) /\ each number m 40 32.
Proof. fitl. discriminate. Qed.

(** Not on Altivec: its product adds +0, so the cube of -0 is +0. *)
Theorem C56_cube_on_altivec_refuted : 
  exists x : F F32, number x /\ bits (vcube ALTIVEC (n0 F32) x) <> bits (s_cube (n0 F32) x).
Proof. exact C56_cube_on_altivec_refuted_lemma. Qed.
Print Assumptions C56_cube_on_altivec_refuted.
