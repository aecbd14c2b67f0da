(** Exchanged arguments and inverted polarity (C88). *)
From Coq Require Import ZArith Reals List Lia Bool Lra.
From Flocq Require Import Core IEEE754.Binary IEEE754.Bits.
From Verif Require Import
  Base Mem Backend Args Drivers Functors Lanes Float LaneOps FloatOps VecMath FloatFuns Spec SpecLane SpecAgree SpecAlike SpecSwap
  FloatFacts ExData ExFloat ExMath SwapFacts SwapClaims.
Import ListNotations.
Local Open Scope Z_scope.

(** * C88: exchanged arguments and inverted polarity *)

(** The operands of a sum may be exchanged: the same bits, or NaN both times; *)
Theorem C88_plus_swap_vec : 
  forall (t : fmt) (n : nans t) (m : mem (F t)) (out : Z) (a1 a2 : arg (F t)) (len : Z), call_fits m out len [a1; a2] ->
    alike same_or_nan m (plus_vec (farith n) (fops_scalar n) m out a1 a2 len) (plus_vec (farith n) (fops_scalar n) m out a2 a1 len) out len.
Proof. exact C88_plus_swap_vec_lemma. Qed.

Example C88_plus_swap_vec_ex :
  forall (n : nans F32), call_fits polar 0 32 [APtr 16; AScal (f_ofZ F32 3)].
Proof. intros n. polar_tac. Qed.

Theorem C88_plus_swap_vec_simd : 
  forall (c : cfg) (B : backend) (n : nans (fmt_of B)) (m : mem (F (fmt_of B))) (out : Z) (a1 a2 : arg (F (fmt_of B))) (len : Z), simd_call_fits B m out len [a1; a2] ->
    alike same_or_nan m (plus_vec_simd (farith n) (fops c B n) B m out a1 a2 len) (plus_vec_simd (farith n) (fops c B n) B m out a2 a1 len) out len.
Proof. exact C88_plus_swap_vec_simd_lemma. Qed.

Example C88_plus_swap_vec_simd_ex :
  forall (n : nans F32), simd_call_fits AVX32 polar 0 32 [APtr 16; AScal (f_ofZ F32 3)].
Proof. intros n. polar_tac. Qed.

Theorem C88_sum2_swap_vec : 
  forall (t : fmt) (n : nans t) (m : mem (F t)) (out : Z) (a1 a2 : arg (F t)) (len : Z), call_fits m out len [a1; a2] ->
    alike same_or_nan m (sum_vec2 (farith n) (fops_scalar n) m out a1 a2 len) (sum_vec2 (farith n) (fops_scalar n) m out a2 a1 len) out len.
Proof. exact C88_sum2_swap_vec_lemma. Qed.

Example C88_sum2_swap_vec_ex :
  forall (n : nans F32), call_fits polar 0 32 [APtr 16; AScal (f_ofZ F32 3)].
Proof. intros n. polar_tac. Qed.

Theorem C88_sum2_swap_vec_simd : 
  forall (c : cfg) (B : backend) (n : nans (fmt_of B)) (m : mem (F (fmt_of B))) (out : Z) (a1 a2 : arg (F (fmt_of B))) (len : Z), simd_call_fits B m out len [a1; a2] ->
    alike same_or_nan m (sum_vec2_simd (farith n) (fops c B n) B m out a1 a2 len) (sum_vec2_simd (farith n) (fops c B n) B m out a2 a1 len) out len.
Proof. exact C88_sum2_swap_vec_simd_lemma. Qed.

Example C88_sum2_swap_vec_simd_ex :
  forall (n : nans F32), simd_call_fits AVX32 polar 0 32 [APtr 16; AScal (f_ofZ F32 3)].
Proof. intros n. polar_tac. Qed.

(** so may those of a product, *)
Theorem C88_times_swap_vec : 
  forall (t : fmt) (n : nans t) (m : mem (F t)) (out : Z) (a1 a2 : arg (F t)) (len : Z), call_fits m out len [a1; a2] ->
    alike same_or_nan m (times_vec (farith n) (fops_scalar n) m out a1 a2 len) (times_vec (farith n) (fops_scalar n) m out a2 a1 len) out len.
Proof. exact C88_times_swap_vec_lemma. Qed.

Example C88_times_swap_vec_ex :
  forall (n : nans F32), call_fits polar 0 32 [APtr 16; AScal (f_ofZ F32 3)].
Proof. intros n. polar_tac. Qed.

Theorem C88_times_swap_vec_simd : 
  forall (c : cfg) (B : backend) (n : nans (fmt_of B)) (m : mem (F (fmt_of B))) (out : Z) (a1 a2 : arg (F (fmt_of B))) (len : Z), simd_call_fits B m out len [a1; a2] ->
    alike same_or_nan m (times_vec_simd (farith n) (fops c B n) B m out a1 a2 len) (times_vec_simd (farith n) (fops c B n) B m out a2 a1 len) out len.
Proof. exact C88_times_swap_vec_simd_lemma. Qed.

Example C88_times_swap_vec_simd_ex :
  forall (n : nans F32), simd_call_fits AVX32 polar 0 32 [APtr 16; AScal (f_ofZ F32 3)].
Proof. intros n. polar_tac. Qed.

(** the two channels of a mix, and each signal with its gain, *)
Theorem C88_mix_swap_vec : 
  forall (t : fmt) (n : nans t) (m : mem (F t)) (out : Z) (a1 a2 a3 a4 : arg (F t)) (len : Z), call_fits m out len [a1; a2; a3; a4] ->
    alike same_or_nan m (mix_vec (farith n) (fops_scalar n) m out a1 a2 a3 a4 len) (mix_vec (farith n) (fops_scalar n) m out a3 a4 a1 a2 len) out len.
Proof. exact C88_mix_swap_vec_lemma. Qed.

Example C88_mix_swap_vec_ex :
  forall (n : nans F32), call_fits polar 0 32 [APtr 16; AScal (f_ofZ F32 3); APtr 24; AScal (f_ofZ F32 5)].
Proof. intros n. polar_tac. Qed.

Theorem C88_mix_swap_vec_simd : 
  forall (c : cfg) (B : backend) (n : nans (fmt_of B)) (m : mem (F (fmt_of B))) (out : Z) (a1 a2 a3 a4 : arg (F (fmt_of B))) (len : Z), simd_call_fits B m out len [a1; a2; a3; a4] ->
    alike same_or_nan m (mix_vec_simd (farith n) (fops c B n) B m out a1 a2 a3 a4 len) (mix_vec_simd (farith n) (fops c B n) B m out a3 a4 a1 a2 len) out len.
Proof. exact C88_mix_swap_vec_simd_lemma. Qed.

Example C88_mix_swap_vec_simd_ex :
  forall (n : nans F32), simd_call_fits AVX32 polar 0 32 [APtr 16; AScal (f_ofZ F32 3); APtr 24; AScal (f_ofZ F32 5)].
Proof. intros n. polar_tac. Qed.

Theorem C88_mix_gains_vec : 
  forall (t : fmt) (n : nans t) (m : mem (F t)) (out : Z) (a1 a2 a3 a4 : arg (F t)) (len : Z), call_fits m out len [a1; a2; a3; a4] ->
    alike same_or_nan m (mix_vec (farith n) (fops_scalar n) m out a1 a2 a3 a4 len) (mix_vec (farith n) (fops_scalar n) m out a2 a1 a4 a3 len) out len.
Proof. exact C88_mix_gains_vec_lemma. Qed.

Example C88_mix_gains_vec_ex :
  forall (n : nans F32), call_fits polar 0 32 [APtr 16; AScal (f_ofZ F32 3); APtr 24; AScal (f_ofZ F32 5)].
Proof. intros n. polar_tac. Qed.

Theorem C88_mix_gains_vec_simd : 
  forall (c : cfg) (B : backend) (n : nans (fmt_of B)) (m : mem (F (fmt_of B))) (out : Z) (a1 a2 a3 a4 : arg (F (fmt_of B))) (len : Z), simd_call_fits B m out len [a1; a2; a3; a4] ->
    alike same_or_nan m (mix_vec_simd (farith n) (fops c B n) B m out a1 a2 a3 a4 len) (mix_vec_simd (farith n) (fops c B n) B m out a2 a1 a4 a3 len) out len.
Proof. exact C88_mix_gains_vec_simd_lemma. Qed.

Example C88_mix_gains_vec_simd_ex :
  forall (n : nans F32), simd_call_fits AVX32 polar 0 32 [APtr 16; AScal (f_ofZ F32 3); APtr 24; AScal (f_ofZ F32 5)].
Proof. intros n. polar_tac. Qed.

(** the first two signals of a sum of three, *)
Theorem C88_sum3_swap_vec : 
  forall (t : fmt) (n : nans t) (m : mem (F t)) (out : Z) (a1 a2 a3 : arg (F t)) (len : Z), call_fits m out len [a1; a2; a3] ->
    alike same_or_nan m (sum_vec3 (farith n) (fops_scalar n) m out a1 a2 a3 len) (sum_vec3 (farith n) (fops_scalar n) m out a2 a1 a3 len) out len.
Proof. exact C88_sum3_swap_vec_lemma. Qed.

Example C88_sum3_swap_vec_ex :
  forall (n : nans F32), call_fits polar 0 32 [APtr 16; AScal (f_ofZ F32 3); APtr 24].
Proof. intros n. polar_tac. Qed.

Theorem C88_sum3_swap_vec_simd : 
  forall (c : cfg) (B : backend) (n : nans (fmt_of B)) (m : mem (F (fmt_of B))) (out : Z) (a1 a2 a3 : arg (F (fmt_of B))) (len : Z), simd_call_fits B m out len [a1; a2; a3] ->
    alike same_or_nan m (sum_vec3_simd (farith n) (fops c B n) B m out a1 a2 a3 len) (sum_vec3_simd (farith n) (fops c B n) B m out a2 a1 a3 len) out len.
Proof. exact C88_sum3_swap_vec_simd_lemma. Qed.

Example C88_sum3_swap_vec_simd_ex :
  forall (n : nans F32), simd_call_fits AVX32 polar 0 32 [APtr 16; AScal (f_ofZ F32 3); APtr 24].
Proof. intros n. polar_tac. Qed.

(** four signals for the reversed ones, *)
Theorem C88_sum4_swap_vec : 
  forall (t : fmt) (n : nans t) (m : mem (F t)) (out : Z) (a1 a2 a3 a4 : arg (F t)) (len : Z), call_fits m out len [a1; a2; a3; a4] ->
    alike same_or_nan m (sum_vec4 (farith n) (fops_scalar n) m out a1 a2 a3 a4 len) (sum_vec4 (farith n) (fops_scalar n) m out a4 a3 a2 a1 len) out len.
Proof. exact C88_sum4_swap_vec_lemma. Qed.

Example C88_sum4_swap_vec_ex :
  forall (n : nans F32), call_fits polar 0 32 [APtr 16; AScal (f_ofZ F32 3); APtr 24; AScal (f_ofZ F32 5)].
Proof. intros n. polar_tac. Qed.

Theorem C88_sum4_swap_vec_simd : 
  forall (c : cfg) (B : backend) (n : nans (fmt_of B)) (m : mem (F (fmt_of B))) (out : Z) (a1 a2 a3 a4 : arg (F (fmt_of B))) (len : Z), simd_call_fits B m out len [a1; a2; a3; a4] ->
    alike same_or_nan m (sum_vec4_simd (farith n) (fops c B n) B m out a1 a2 a3 a4 len) (sum_vec4_simd (farith n) (fops c B n) B m out a4 a3 a2 a1 len) out len.
Proof. exact C88_sum4_swap_vec_simd_lemma. Qed.

Example C88_sum4_swap_vec_simd_ex :
  forall (n : nans F32), simd_call_fits AVX32 polar 0 32 [APtr 16; AScal (f_ofZ F32 3); APtr 24; AScal (f_ofZ F32 5)].
Proof. intros n. polar_tac. Qed.

(** the factors of muladd, fused or not, *)
Theorem C88_muladd_swap_vec : 
  forall (t : fmt) (n : nans t) (m : mem (F t)) (out : Z) (a1 a2 a3 : arg (F t)) (len : Z), call_fits m out len [a1; a2; a3] ->
    alike same_or_nan m (muladd_vec (farith n) (fops_scalar n) m out a1 a2 a3 len) (muladd_vec (farith n) (fops_scalar n) m out a2 a1 a3 len) out len.
Proof. exact C88_muladd_swap_vec_lemma. Qed.

Example C88_muladd_swap_vec_ex :
  forall (n : nans F32), call_fits polar 0 32 [APtr 16; AScal (f_ofZ F32 3); APtr 24].
Proof. intros n. polar_tac. Qed.

Theorem C88_muladd_swap_vec_simd : 
  forall (c : cfg) (B : backend) (n : nans (fmt_of B)) (m : mem (F (fmt_of B))) (out : Z) (a1 a2 a3 : arg (F (fmt_of B))) (len : Z), simd_call_fits B m out len [a1; a2; a3] ->
    alike same_or_nan m (muladd_vec_simd (farith n) (fops c B n) B m out a1 a2 a3 len) (muladd_vec_simd (farith n) (fops c B n) B m out a2 a1 a3 len) out len.
Proof. exact C88_muladd_swap_vec_simd_lemma. Qed.

Example C88_muladd_swap_vec_simd_ex :
  forall (n : nans F32), simd_call_fits AVX32 polar 0 32 [APtr 16; AScal (f_ofZ F32 3); APtr 24].
Proof. intros n. polar_tac. Qed.

(** and modulator and amount of ampmod. *)
Theorem C88_ampmod_swap_vec : 
  forall (t : fmt) (n : nans t) (m : mem (F t)) (out : Z) (a1 a2 a3 : arg (F t)) (len : Z), call_fits m out len [a1; a2; a3] ->
    alike same_or_nan m (ampmod_vec (farith n) (fops_scalar n) m out a1 a2 a3 len) (ampmod_vec (farith n) (fops_scalar n) m out a1 a3 a2 len) out len.
Proof. exact C88_ampmod_swap_vec_lemma. Qed.

Example C88_ampmod_swap_vec_ex :
  forall (n : nans F32), call_fits polar 0 32 [APtr 16; AScal (f_ofZ F32 3); APtr 24].
Proof. intros n. polar_tac. Qed.

Theorem C88_ampmod_swap_vec_simd : 
  forall (c : cfg) (B : backend) (n : nans (fmt_of B)) (m : mem (F (fmt_of B))) (out : Z) (a1 a2 a3 : arg (F (fmt_of B))) (len : Z), simd_call_fits B m out len [a1; a2; a3] ->
    alike same_or_nan m (ampmod_vec_simd (farith n) (fops c B n) B m out a1 a2 a3 len) (ampmod_vec_simd (farith n) (fops c B n) B m out a1 a3 a2 len) out len.
Proof. exact C88_ampmod_swap_vec_simd_lemma. Qed.

Example C88_ampmod_swap_vec_simd_ex :
  forall (n : nans F32), simd_call_fits AVX32 polar 0 32 [APtr 16; AScal (f_ofZ F32 3); APtr 24].
Proof. intros n. polar_tac. Qed.

(** The order of the sum of three does matter, though. *)
Theorem C88_sum3_order_refuted : 
  forall (t : fmt) (n : nans t), exists (m : mem (F t)) (out : Z) (a1 a2 a3 : arg (F t)) (len : Z), call_fits m out len [a1; a2; a3] /\
    ~ alike same_or_nan m (sum_vec3 (farith n) (fops_scalar n) m out a1 a2 a3 len) (sum_vec3 (farith n) (fops_scalar n) m out a3 a2 a1 len) out len.
Proof. exact C88_sum3_order_refuted_lemma. Qed.

Example C88_sum3_order_refuted_ex :
  val (f_lit F32 1 60) = bpow radix2 60.
Proof. destruct (lit32 1 60) as [_ V]; [lia|lia|]. rewrite V. apply Rmult_1_l. Qed.

(** The operands of min and max may be exchanged if they are numbers: the results
    compare equal, though zeros may differ in sign. *)
Theorem C88_min_swap_vec : 
  forall (t : fmt) (n : nans t) (m : mem (F t)) (out : Z) (a1 a2 : arg (F t)) (len : Z), call_fits m out len [a1; a2] ->
    samples (farith n) number m a1 len -> samples (farith n) number m a2 len -> alike equal_numbers m (min_vec (farith n) (fops_scalar n) m out a1 a2 len) (min_vec (farith n) (fops_scalar n) m out a2 a1 len) out len.
Proof. exact C88_min_swap_vec_lemma. Qed.

Example C88_min_swap_vec_ex :
  forall (n : nans F32), call_fits polar 0 32 [APtr 16; AScal (f_ofZ F32 3)] /\ samples (farith n) number polar (APtr 16) 32 /\ samples (farith n) number polar (AScal (f_ofZ F32 3)) 32.
Proof. intros n. polar_tac. Qed.

Theorem C88_min_swap_vec_simd : 
  forall (c : cfg) (B : backend) (n : nans (fmt_of B)) (m : mem (F (fmt_of B))) (out : Z) (a1 a2 : arg (F (fmt_of B))) (len : Z), simd_call_fits B m out len [a1; a2] ->
    samples (farith n) number m a1 len -> samples (farith n) number m a2 len -> alike equal_numbers m (min_vec_simd (farith n) (fops c B n) B m out a1 a2 len) (min_vec_simd (farith n) (fops c B n) B m out a2 a1 len) out len.
Proof. exact C88_min_swap_vec_simd_lemma. Qed.

Example C88_min_swap_vec_simd_ex :
  forall (n : nans F32), simd_call_fits AVX32 polar 0 32 [APtr 16; AScal (f_ofZ F32 3)] /\ samples (farith n) number polar (APtr 16) 32 /\ samples (farith n) number polar (AScal (f_ofZ F32 3)) 32.
Proof. intros n. polar_tac. Qed.

Theorem C88_max_swap_vec : 
  forall (t : fmt) (n : nans t) (m : mem (F t)) (out : Z) (a1 a2 : arg (F t)) (len : Z), call_fits m out len [a1; a2] ->
    samples (farith n) number m a1 len -> samples (farith n) number m a2 len -> alike equal_numbers m (max_vec (farith n) (fops_scalar n) m out a1 a2 len) (max_vec (farith n) (fops_scalar n) m out a2 a1 len) out len.
Proof. exact C88_max_swap_vec_lemma. Qed.

Example C88_max_swap_vec_ex :
  forall (n : nans F32), call_fits polar 0 32 [APtr 16; AScal (f_ofZ F32 3)] /\ samples (farith n) number polar (APtr 16) 32 /\ samples (farith n) number polar (AScal (f_ofZ F32 3)) 32.
Proof. intros n. polar_tac. Qed.

Theorem C88_max_swap_vec_simd : 
  forall (c : cfg) (B : backend) (n : nans (fmt_of B)) (m : mem (F (fmt_of B))) (out : Z) (a1 a2 : arg (F (fmt_of B))) (len : Z), simd_call_fits B m out len [a1; a2] ->
    samples (farith n) number m a1 len -> samples (farith n) number m a2 len -> alike equal_numbers m (max_vec_simd (farith n) (fops c B n) B m out a1 a2 len) (max_vec_simd (farith n) (fops c B n) B m out a2 a1 len) out len.
Proof. exact C88_max_swap_vec_simd_lemma. Qed.

Example C88_max_swap_vec_simd_ex :
  forall (n : nans F32), simd_call_fits AVX32 polar 0 32 [APtr 16; AScal (f_ofZ F32 3)] /\ samples (farith n) number polar (APtr 16) 32 /\ samples (farith n) number polar (AScal (f_ofZ F32 3)) 32.
Proof. intros n. polar_tac. Qed.

(** Their bits may differ, *)
Theorem C88_min_zero_refuted : 
  forall (t : fmt) (n : nans t), exists (m : mem (F t)) (out : Z) (x y : F t) (len : Z), call_fits m out len [AScal x; AScal y] /\
    ~ alike same_or_nan m (min_vec (farith n) (fops_scalar n) m out (AScal x) (AScal y) len) (min_vec (farith n) (fops_scalar n) m out (AScal y) (AScal x) len) out len.
Proof. exact C88_min_zero_refuted_lemma. Qed.

Example C88_min_zero_refuted_ex :
  feq (f_ofZ F32 0) (fneg (f_ofZ F32 0)) = true.
Proof. vm_compute. reflexivity. Qed.

(** and a NaN operand makes a difference. *)
Theorem C88_min_nan_refuted : 
  forall (t : fmt) (n : nans t), exists (m : mem (F t)) (out : Z) (x y : F t) (len : Z), call_fits m out len [AScal x; AScal y] /\
    ~ alike (fun x y => same_or_nan x y \/ equal_numbers x y) m (min_vec (farith n) (fops_scalar n) m out (AScal x) (AScal y) len) (min_vec (farith n) (fops_scalar n) m out (AScal y) (AScal x) len) out len.
Proof. exact C88_min_nan_refuted_lemma. Qed.

Example C88_min_nan_refuted_ex :
  isnan (qnan F32) = true.
Proof. vm_compute. reflexivity. Qed.

(** x < y is y > x, and so on, for any bit patterns; on AVX for numbers. *)
Theorem C88_compare_mirror_vec : 
  forall (t : fmt) (n : nans t) (r : rel) (m : mem (F t)) (out : Z) (a1 a2 : arg (F t)) (len : Z), call_fits m out len [a1; a2] ->
    alike same_or_nan m (compare_vec n r m out a1 a2 len) (compare_vec n (mirrored r) m out a2 a1 len) out len.
Proof. exact C88_compare_mirror_vec_lemma. Qed.

Example C88_compare_mirror_vec_ex :
  forall (n : nans F32), call_fits polar 0 32 [APtr 16; AScal (f_ofZ F32 3)].
Proof. intros n. polar_tac. Qed.

Theorem C88_compare_mirror_vec_simd : 
  forall (c : cfg) (B : backend) (n : nans (fmt_of B)) (r : rel) (m : mem (F (fmt_of B))) (out : Z) (a1 a2 : arg (F (fmt_of B))) (len : Z), simd_call_fits B m out len [a1; a2] ->
    (samples (farith n) number m a1 len /\ samples (farith n) number m a2 len) \/ is_avx B = false -> alike same_or_nan m (compare_vec_simd c B n r m out a1 a2 len) (compare_vec_simd c B n (mirrored r) m out a2 a1 len) out len.
Proof. exact C88_compare_mirror_vec_simd_lemma. Qed.

Example C88_compare_mirror_vec_simd_ex :
  forall (n : nans F32), simd_call_fits AVX32 polar 0 32 [APtr 16; AScal (f_ofZ F32 3)] /\ ((samples (farith n) number polar (APtr 16) 32 /\ samples (farith n) number polar (AScal (f_ofZ F32 3)) 32) \/ is_avx AVX32 = false).
Proof. intros n. split; [polar_tac|]. left. polar_tac. Qed.

(** Of x < y and x >= y, and of the other such pairs, exactly one holds for numbers,
    and of == and != for any bit patterns; on AVX of all pairs for any. *)
Theorem C88_compare_negated_vec : 
  forall (t : fmt) (n : nans t) (r : rel) (m : mem (F t)) (out : Z) (a1 a2 : arg (F t)) (len : Z), call_fits m out len [a1; a2] ->
    (samples (farith n) number m a1 len /\ samples (farith n) number m a2 len) \/ r = EQ \/ r = NE -> alike contrary m (compare_vec n r m out a1 a2 len) (compare_vec n (negated r) m out a1 a2 len) out len.
Proof. exact C88_compare_negated_vec_lemma. Qed.

Example C88_compare_negated_vec_ex :
  forall (n : nans F32), call_fits polar 0 32 [APtr 16; AScal (f_ofZ F32 3)] /\ ((samples (farith n) number polar (APtr 16) 32 /\ samples (farith n) number polar (AScal (f_ofZ F32 3)) 32) \/ EQ = EQ \/ EQ = NE).
Proof. intros n. split; [polar_tac|]. left. polar_tac. Qed.

Theorem C88_compare_negated_vec_simd : 
  forall (c : cfg) (B : backend) (n : nans (fmt_of B)) (r : rel) (m : mem (F (fmt_of B))) (out : Z) (a1 a2 : arg (F (fmt_of B))) (len : Z), simd_call_fits B m out len [a1; a2] ->
    (samples (farith n) number m a1 len /\ samples (farith n) number m a2 len) \/ r = EQ \/ r = NE \/ is_avx B = true -> alike contrary m (compare_vec_simd c B n r m out a1 a2 len) (compare_vec_simd c B n (negated r) m out a1 a2 len) out len.
Proof. exact C88_compare_negated_vec_simd_lemma. Qed.

Example C88_compare_negated_vec_simd_ex :
  forall (n : nans F32), simd_call_fits AVX32 polar 0 32 [APtr 16; AScal (f_ofZ F32 3)] /\ ((samples (farith n) number polar (APtr 16) 32 /\ samples (farith n) number polar (AScal (f_ofZ F32 3)) 32) \/ EQ = EQ \/ EQ = NE \/ is_avx AVX32 = true).
Proof. intros n. split; [polar_tac|]. left. polar_tac. Qed.

(** With a NaN, x > y and y < x part on AVX. *)
Theorem C88_compare_mirror_avx_refuted : 
  forall (c : cfg) (n : nans F32), exists (m : mem (F F32)) (out : Z) (a1 a2 : arg (F F32)) (len : Z), simd_call_fits AVX32 m out len [a1; a2] /\
    ~ alike same_or_nan m (compare_vec_simd c AVX32 n GT m out a1 a2 len) (compare_vec_simd c AVX32 n LT m out a2 a1 len) out len.
Proof. exact C88_compare_mirror_avx_refuted_lemma. Qed.

Example C88_compare_mirror_avx_refuted_ex :
  isnan (qnan F32) = true.
Proof. vm_compute. reflexivity. Qed.

(** Exchanging the operands of a difference inverts its sign, whatever they are. *)
Theorem C88_minus_swap_vec : 
  forall (t : fmt) (n : nans t) (m : mem (F t)) (out : Z) (a1 a2 : arg (F t)) (len : Z), call_fits m out len [a1; a2] ->
    alike opposite m (minus_vec (farith n) (fops_scalar n) m out a1 a2 len) (minus_vec (farith n) (fops_scalar n) m out a2 a1 len) out len.
Proof. exact C88_minus_swap_vec_lemma. Qed.

Example C88_minus_swap_vec_ex :
  forall (n : nans F32), call_fits polar 0 32 [APtr 16; AScal (f_ofZ F32 3)].
Proof. intros n. polar_tac. Qed.

Theorem C88_minus_swap_vec_simd : 
  forall (c : cfg) (B : backend) (n : nans (fmt_of B)) (m : mem (F (fmt_of B))) (out : Z) (a1 a2 : arg (F (fmt_of B))) (len : Z), simd_call_fits B m out len [a1; a2] ->
    alike opposite m (minus_vec_simd (farith n) (fops c B n) B m out a1 a2 len) (minus_vec_simd (farith n) (fops c B n) B m out a2 a1 len) out len.
Proof. exact C88_minus_swap_vec_simd_lemma. Qed.

Example C88_minus_swap_vec_simd_ex :
  forall (n : nans F32), simd_call_fits AVX32 polar 0 32 [APtr 16; AScal (f_ofZ F32 3)].
Proof. intros n. polar_tac. Qed.

(** Inverting the polarity of the inputs inverts that of the output, for any bit
    patterns: sums and differences, *)
Theorem C88_plus_invert_vec : 
  forall (t : fmt) (n : nans t) (m : mem (F t)) (out : Z) (a1 a2 b1 b2 : arg (F t)) (len : Z), call_fits m out len [a1; a2; b1; b2] ->
    inverts (farith n) m a1 b1 len -> inverts (farith n) m a2 b2 len -> alike opposite m (plus_vec (farith n) (fops_scalar n) m out a1 a2 len) (plus_vec (farith n) (fops_scalar n) m out b1 b2 len) out len.
Proof. exact C88_plus_invert_vec_lemma. Qed.

Example C88_plus_invert_vec_ex :
  forall (n : nans F32), call_fits polar 0 32 [APtr 16; AScal (f_ofZ F32 3); APtr 80; AScal (fneg (f_ofZ F32 3))] /\ inverts (farith n) polar (APtr 16) (APtr 80) 32 /\ inverts (farith n) polar (AScal (f_ofZ F32 3)) (AScal (fneg (f_ofZ F32 3))) 32.
Proof. intros n. polar_tac. Qed.

Theorem C88_plus_invert_vec_simd : 
  forall (c : cfg) (B : backend) (n : nans (fmt_of B)) (m : mem (F (fmt_of B))) (out : Z) (a1 a2 b1 b2 : arg (F (fmt_of B))) (len : Z), simd_call_fits B m out len [a1; a2; b1; b2] ->
    inverts (farith n) m a1 b1 len -> inverts (farith n) m a2 b2 len -> alike opposite m (plus_vec_simd (farith n) (fops c B n) B m out a1 a2 len) (plus_vec_simd (farith n) (fops c B n) B m out b1 b2 len) out len.
Proof. exact C88_plus_invert_vec_simd_lemma. Qed.

Example C88_plus_invert_vec_simd_ex :
  forall (n : nans F32), simd_call_fits AVX32 polar 0 32 [APtr 16; AScal (f_ofZ F32 3); APtr 80; AScal (fneg (f_ofZ F32 3))] /\ inverts (farith n) polar (APtr 16) (APtr 80) 32 /\ inverts (farith n) polar (AScal (f_ofZ F32 3)) (AScal (fneg (f_ofZ F32 3))) 32.
Proof. intros n. polar_tac. Qed.

Theorem C88_minus_invert_vec : 
  forall (t : fmt) (n : nans t) (m : mem (F t)) (out : Z) (a1 a2 b1 b2 : arg (F t)) (len : Z), call_fits m out len [a1; a2; b1; b2] ->
    inverts (farith n) m a1 b1 len -> inverts (farith n) m a2 b2 len -> alike opposite m (minus_vec (farith n) (fops_scalar n) m out a1 a2 len) (minus_vec (farith n) (fops_scalar n) m out b1 b2 len) out len.
Proof. exact C88_minus_invert_vec_lemma. Qed.

Example C88_minus_invert_vec_ex :
  forall (n : nans F32), call_fits polar 0 32 [APtr 16; AScal (f_ofZ F32 3); APtr 80; AScal (fneg (f_ofZ F32 3))] /\ inverts (farith n) polar (APtr 16) (APtr 80) 32 /\ inverts (farith n) polar (AScal (f_ofZ F32 3)) (AScal (fneg (f_ofZ F32 3))) 32.
Proof. intros n. polar_tac. Qed.

Theorem C88_minus_invert_vec_simd : 
  forall (c : cfg) (B : backend) (n : nans (fmt_of B)) (m : mem (F (fmt_of B))) (out : Z) (a1 a2 b1 b2 : arg (F (fmt_of B))) (len : Z), simd_call_fits B m out len [a1; a2; b1; b2] ->
    inverts (farith n) m a1 b1 len -> inverts (farith n) m a2 b2 len -> alike opposite m (minus_vec_simd (farith n) (fops c B n) B m out a1 a2 len) (minus_vec_simd (farith n) (fops c B n) B m out b1 b2 len) out len.
Proof. exact C88_minus_invert_vec_simd_lemma. Qed.

Example C88_minus_invert_vec_simd_ex :
  forall (n : nans F32), simd_call_fits AVX32 polar 0 32 [APtr 16; AScal (f_ofZ F32 3); APtr 80; AScal (fneg (f_ofZ F32 3))] /\ inverts (farith n) polar (APtr 16) (APtr 80) 32 /\ inverts (farith n) polar (AScal (f_ofZ F32 3)) (AScal (fneg (f_ofZ F32 3))) 32.
Proof. intros n. polar_tac. Qed.

Theorem C88_sum3_invert_vec : 
  forall (t : fmt) (n : nans t) (m : mem (F t)) (out : Z) (a1 a2 a3 b1 b2 b3 : arg (F t)) (len : Z), call_fits m out len [a1; a2; a3; b1; b2; b3] ->
    inverts (farith n) m a1 b1 len -> inverts (farith n) m a2 b2 len -> inverts (farith n) m a3 b3 len -> alike opposite m (sum_vec3 (farith n) (fops_scalar n) m out a1 a2 a3 len) (sum_vec3 (farith n) (fops_scalar n) m out b1 b2 b3 len) out len.
Proof. exact C88_sum3_invert_vec_lemma. Qed.

Example C88_sum3_invert_vec_ex :
  forall (n : nans F32), call_fits polar 0 32 [APtr 16; AScal (f_ofZ F32 3); APtr 24; APtr 80; AScal (fneg (f_ofZ F32 3)); APtr 88] /\ inverts (farith n) polar (APtr 16) (APtr 80) 32 /\ inverts (farith n) polar (AScal (f_ofZ F32 3)) (AScal (fneg (f_ofZ F32 3))) 32 /\ inverts (farith n) polar (APtr 24) (APtr 88) 32.
Proof. intros n. polar_tac. Qed.

Theorem C88_sum3_invert_vec_simd : 
  forall (c : cfg) (B : backend) (n : nans (fmt_of B)) (m : mem (F (fmt_of B))) (out : Z) (a1 a2 a3 b1 b2 b3 : arg (F (fmt_of B))) (len : Z), simd_call_fits B m out len [a1; a2; a3; b1; b2; b3] ->
    inverts (farith n) m a1 b1 len -> inverts (farith n) m a2 b2 len -> inverts (farith n) m a3 b3 len -> alike opposite m (sum_vec3_simd (farith n) (fops c B n) B m out a1 a2 a3 len) (sum_vec3_simd (farith n) (fops c B n) B m out b1 b2 b3 len) out len.
Proof. exact C88_sum3_invert_vec_simd_lemma. Qed.

Example C88_sum3_invert_vec_simd_ex :
  forall (n : nans F32), simd_call_fits AVX32 polar 0 32 [APtr 16; AScal (f_ofZ F32 3); APtr 24; APtr 80; AScal (fneg (f_ofZ F32 3)); APtr 88] /\ inverts (farith n) polar (APtr 16) (APtr 80) 32 /\ inverts (farith n) polar (AScal (f_ofZ F32 3)) (AScal (fneg (f_ofZ F32 3))) 32 /\ inverts (farith n) polar (APtr 24) (APtr 88) 32.
Proof. intros n. polar_tac. Qed.

Theorem C88_sum4_invert_vec : 
  forall (t : fmt) (n : nans t) (m : mem (F t)) (out : Z) (a1 a2 a3 a4 b1 b2 b3 b4 : arg (F t)) (len : Z), call_fits m out len [a1; a2; a3; a4; b1; b2; b3; b4] ->
    inverts (farith n) m a1 b1 len -> inverts (farith n) m a2 b2 len -> inverts (farith n) m a3 b3 len -> inverts (farith n) m a4 b4 len -> alike opposite m (sum_vec4 (farith n) (fops_scalar n) m out a1 a2 a3 a4 len) (sum_vec4 (farith n) (fops_scalar n) m out b1 b2 b3 b4 len) out len.
Proof. exact C88_sum4_invert_vec_lemma. Qed.

Example C88_sum4_invert_vec_ex :
  forall (n : nans F32), call_fits polar 0 32 [APtr 16; AScal (f_ofZ F32 3); APtr 24; AScal (f_ofZ F32 5); APtr 80; AScal (fneg (f_ofZ F32 3)); APtr 88; AScal (fneg (f_ofZ F32 5))] /\ inverts (farith n) polar (APtr 16) (APtr 80) 32 /\ inverts (farith n) polar (AScal (f_ofZ F32 3)) (AScal (fneg (f_ofZ F32 3))) 32 /\ inverts (farith n) polar (APtr 24) (APtr 88) 32 /\ inverts (farith n) polar (AScal (f_ofZ F32 5)) (AScal (fneg (f_ofZ F32 5))) 32.
Proof. intros n. polar_tac. Qed.

Theorem C88_sum4_invert_vec_simd : 
  forall (c : cfg) (B : backend) (n : nans (fmt_of B)) (m : mem (F (fmt_of B))) (out : Z) (a1 a2 a3 a4 b1 b2 b3 b4 : arg (F (fmt_of B))) (len : Z), simd_call_fits B m out len [a1; a2; a3; a4; b1; b2; b3; b4] ->
    inverts (farith n) m a1 b1 len -> inverts (farith n) m a2 b2 len -> inverts (farith n) m a3 b3 len -> inverts (farith n) m a4 b4 len -> alike opposite m (sum_vec4_simd (farith n) (fops c B n) B m out a1 a2 a3 a4 len) (sum_vec4_simd (farith n) (fops c B n) B m out b1 b2 b3 b4 len) out len.
Proof. exact C88_sum4_invert_vec_simd_lemma. Qed.

Example C88_sum4_invert_vec_simd_ex :
  forall (n : nans F32), simd_call_fits AVX32 polar 0 32 [APtr 16; AScal (f_ofZ F32 3); APtr 24; AScal (f_ofZ F32 5); APtr 80; AScal (fneg (f_ofZ F32 3)); APtr 88; AScal (fneg (f_ofZ F32 5))] /\ inverts (farith n) polar (APtr 16) (APtr 80) 32 /\ inverts (farith n) polar (AScal (f_ofZ F32 3)) (AScal (fneg (f_ofZ F32 3))) 32 /\ inverts (farith n) polar (APtr 24) (APtr 88) 32 /\ inverts (farith n) polar (AScal (f_ofZ F32 5)) (AScal (fneg (f_ofZ F32 5))) 32.
Proof. intros n. polar_tac. Qed.

(** products and quotients in either operand, *)
Theorem C88_times_invert_vec : 
  forall (t : fmt) (n : nans t) (m : mem (F t)) (out : Z) (a1 a2 b1 : arg (F t)) (len : Z), call_fits m out len [a1; a2; b1] ->
    inverts (farith n) m a1 b1 len -> alike opposite m (times_vec (farith n) (fops_scalar n) m out a1 a2 len) (times_vec (farith n) (fops_scalar n) m out b1 a2 len) out len.
Proof. exact C88_times_invert_vec_lemma. Qed.

Example C88_times_invert_vec_ex :
  forall (n : nans F32), call_fits polar 0 32 [APtr 16; AScal (f_ofZ F32 3); APtr 80] /\ inverts (farith n) polar (APtr 16) (APtr 80) 32.
Proof. intros n. polar_tac. Qed.

Theorem C88_times_invert_vec_simd : 
  forall (c : cfg) (B : backend) (n : nans (fmt_of B)) (m : mem (F (fmt_of B))) (out : Z) (a1 a2 b1 : arg (F (fmt_of B))) (len : Z), simd_call_fits B m out len [a1; a2; b1] ->
    inverts (farith n) m a1 b1 len -> alike opposite m (times_vec_simd (farith n) (fops c B n) B m out a1 a2 len) (times_vec_simd (farith n) (fops c B n) B m out b1 a2 len) out len.
Proof. exact C88_times_invert_vec_simd_lemma. Qed.

Example C88_times_invert_vec_simd_ex :
  forall (n : nans F32), simd_call_fits AVX32 polar 0 32 [APtr 16; AScal (f_ofZ F32 3); APtr 80] /\ inverts (farith n) polar (APtr 16) (APtr 80) 32.
Proof. intros n. polar_tac. Qed.

Theorem C88_times_invert_right_vec : 
  forall (t : fmt) (n : nans t) (m : mem (F t)) (out : Z) (a1 a2 b2 : arg (F t)) (len : Z), call_fits m out len [a1; a2; b2] ->
    inverts (farith n) m a2 b2 len -> alike opposite m (times_vec (farith n) (fops_scalar n) m out a1 a2 len) (times_vec (farith n) (fops_scalar n) m out a1 b2 len) out len.
Proof. exact C88_times_invert_right_vec_lemma. Qed.

Example C88_times_invert_right_vec_ex :
  forall (n : nans F32), call_fits polar 0 32 [APtr 16; AScal (f_ofZ F32 3); AScal (fneg (f_ofZ F32 3))] /\ inverts (farith n) polar (AScal (f_ofZ F32 3)) (AScal (fneg (f_ofZ F32 3))) 32.
Proof. intros n. polar_tac. Qed.

Theorem C88_times_invert_right_vec_simd : 
  forall (c : cfg) (B : backend) (n : nans (fmt_of B)) (m : mem (F (fmt_of B))) (out : Z) (a1 a2 b2 : arg (F (fmt_of B))) (len : Z), simd_call_fits B m out len [a1; a2; b2] ->
    inverts (farith n) m a2 b2 len -> alike opposite m (times_vec_simd (farith n) (fops c B n) B m out a1 a2 len) (times_vec_simd (farith n) (fops c B n) B m out a1 b2 len) out len.
Proof. exact C88_times_invert_right_vec_simd_lemma. Qed.

Example C88_times_invert_right_vec_simd_ex :
  forall (n : nans F32), simd_call_fits AVX32 polar 0 32 [APtr 16; AScal (f_ofZ F32 3); AScal (fneg (f_ofZ F32 3))] /\ inverts (farith n) polar (AScal (f_ofZ F32 3)) (AScal (fneg (f_ofZ F32 3))) 32.
Proof. intros n. polar_tac. Qed.

Theorem C88_over_invert_vec : 
  forall (t : fmt) (n : nans t) (m : mem (F t)) (out : Z) (a1 a2 b1 : arg (F t)) (len : Z), call_fits m out len [a1; a2; b1] ->
    inverts (farith n) m a1 b1 len -> alike opposite m (over_vec (farith n) (fops_scalar n) m out a1 a2 len) (over_vec (farith n) (fops_scalar n) m out b1 a2 len) out len.
Proof. exact C88_over_invert_vec_lemma. Qed.

Example C88_over_invert_vec_ex :
  forall (n : nans F32), call_fits polar 0 32 [APtr 16; AScal (f_ofZ F32 3); APtr 80] /\ inverts (farith n) polar (APtr 16) (APtr 80) 32.
Proof. intros n. polar_tac. Qed.

Theorem C88_over_invert_vec_simd : 
  forall (c : cfg) (B : backend) (n : nans (fmt_of B)) (m : mem (F (fmt_of B))) (out : Z) (a1 a2 b1 : arg (F (fmt_of B))) (len : Z), divides B = true -> simd_call_fits B m out len [a1; a2; b1] ->
    inverts (farith n) m a1 b1 len -> alike opposite m (over_vec_simd (farith n) (fops c B n) B m out a1 a2 len) (over_vec_simd (farith n) (fops c B n) B m out b1 a2 len) out len.
Proof. exact C88_over_invert_vec_simd_lemma. Qed.

Example C88_over_invert_vec_simd_ex :
  forall (n : nans F32), divides AVX32 = true /\ simd_call_fits AVX32 polar 0 32 [APtr 16; AScal (f_ofZ F32 3); APtr 80] /\ inverts (farith n) polar (APtr 16) (APtr 80) 32.
Proof. intros n. polar_tac. Qed.

Theorem C88_over_invert_right_vec : 
  forall (t : fmt) (n : nans t) (m : mem (F t)) (out : Z) (a1 a2 b2 : arg (F t)) (len : Z), call_fits m out len [a1; a2; b2] ->
    inverts (farith n) m a2 b2 len -> alike opposite m (over_vec (farith n) (fops_scalar n) m out a1 a2 len) (over_vec (farith n) (fops_scalar n) m out a1 b2 len) out len.
Proof. exact C88_over_invert_right_vec_lemma. Qed.

Example C88_over_invert_right_vec_ex :
  forall (n : nans F32), call_fits polar 0 32 [APtr 16; AScal (f_ofZ F32 3); AScal (fneg (f_ofZ F32 3))] /\ inverts (farith n) polar (AScal (f_ofZ F32 3)) (AScal (fneg (f_ofZ F32 3))) 32.
Proof. intros n. polar_tac. Qed.

Theorem C88_over_invert_right_vec_simd : 
  forall (c : cfg) (B : backend) (n : nans (fmt_of B)) (m : mem (F (fmt_of B))) (out : Z) (a1 a2 b2 : arg (F (fmt_of B))) (len : Z), divides B = true -> simd_call_fits B m out len [a1; a2; b2] ->
    inverts (farith n) m a2 b2 len -> alike opposite m (over_vec_simd (farith n) (fops c B n) B m out a1 a2 len) (over_vec_simd (farith n) (fops c B n) B m out a1 b2 len) out len.
Proof. exact C88_over_invert_right_vec_simd_lemma. Qed.

Example C88_over_invert_right_vec_simd_ex :
  forall (n : nans F32), divides AVX32 = true /\ simd_call_fits AVX32 polar 0 32 [APtr 16; AScal (f_ofZ F32 3); AScal (fneg (f_ofZ F32 3))] /\ inverts (farith n) polar (AScal (f_ofZ F32 3)) (AScal (fneg (f_ofZ F32 3))) 32.
Proof. intros n. polar_tac. Qed.

(** the signals of a mix, or its gains, *)
Theorem C88_mix_invert_vec : 
  forall (t : fmt) (n : nans t) (m : mem (F t)) (out : Z) (a1 a2 a3 a4 b1 b3 : arg (F t)) (len : Z), call_fits m out len [a1; a2; a3; a4; b1; b3] ->
    inverts (farith n) m a1 b1 len -> inverts (farith n) m a3 b3 len -> alike opposite m (mix_vec (farith n) (fops_scalar n) m out a1 a2 a3 a4 len) (mix_vec (farith n) (fops_scalar n) m out b1 a2 b3 a4 len) out len.
Proof. exact C88_mix_invert_vec_lemma. Qed.

Example C88_mix_invert_vec_ex :
  forall (n : nans F32), call_fits polar 0 32 [APtr 16; AScal (f_ofZ F32 3); APtr 24; AScal (f_ofZ F32 5); APtr 80; APtr 88] /\ inverts (farith n) polar (APtr 16) (APtr 80) 32 /\ inverts (farith n) polar (APtr 24) (APtr 88) 32.
Proof. intros n. polar_tac. Qed.

Theorem C88_mix_invert_vec_simd : 
  forall (c : cfg) (B : backend) (n : nans (fmt_of B)) (m : mem (F (fmt_of B))) (out : Z) (a1 a2 a3 a4 b1 b3 : arg (F (fmt_of B))) (len : Z), simd_call_fits B m out len [a1; a2; a3; a4; b1; b3] ->
    inverts (farith n) m a1 b1 len -> inverts (farith n) m a3 b3 len -> alike opposite m (mix_vec_simd (farith n) (fops c B n) B m out a1 a2 a3 a4 len) (mix_vec_simd (farith n) (fops c B n) B m out b1 a2 b3 a4 len) out len.
Proof. exact C88_mix_invert_vec_simd_lemma. Qed.

Example C88_mix_invert_vec_simd_ex :
  forall (n : nans F32), simd_call_fits AVX32 polar 0 32 [APtr 16; AScal (f_ofZ F32 3); APtr 24; AScal (f_ofZ F32 5); APtr 80; APtr 88] /\ inverts (farith n) polar (APtr 16) (APtr 80) 32 /\ inverts (farith n) polar (APtr 24) (APtr 88) 32.
Proof. intros n. polar_tac. Qed.

Theorem C88_mix_invert_gains_vec : 
  forall (t : fmt) (n : nans t) (m : mem (F t)) (out : Z) (a1 a2 a3 a4 b2 b4 : arg (F t)) (len : Z), call_fits m out len [a1; a2; a3; a4; b2; b4] ->
    inverts (farith n) m a2 b2 len -> inverts (farith n) m a4 b4 len -> alike opposite m (mix_vec (farith n) (fops_scalar n) m out a1 a2 a3 a4 len) (mix_vec (farith n) (fops_scalar n) m out a1 b2 a3 b4 len) out len.
Proof. exact C88_mix_invert_gains_vec_lemma. Qed.

Example C88_mix_invert_gains_vec_ex :
  forall (n : nans F32), call_fits polar 0 32 [APtr 16; AScal (f_ofZ F32 3); APtr 24; AScal (f_ofZ F32 5); AScal (fneg (f_ofZ F32 3)); AScal (fneg (f_ofZ F32 5))] /\ inverts (farith n) polar (AScal (f_ofZ F32 3)) (AScal (fneg (f_ofZ F32 3))) 32 /\ inverts (farith n) polar (AScal (f_ofZ F32 5)) (AScal (fneg (f_ofZ F32 5))) 32.
Proof. intros n. polar_tac. Qed.

Theorem C88_mix_invert_gains_vec_simd : 
  forall (c : cfg) (B : backend) (n : nans (fmt_of B)) (m : mem (F (fmt_of B))) (out : Z) (a1 a2 a3 a4 b2 b4 : arg (F (fmt_of B))) (len : Z), simd_call_fits B m out len [a1; a2; a3; a4; b2; b4] ->
    inverts (farith n) m a2 b2 len -> inverts (farith n) m a4 b4 len -> alike opposite m (mix_vec_simd (farith n) (fops c B n) B m out a1 a2 a3 a4 len) (mix_vec_simd (farith n) (fops c B n) B m out a1 b2 a3 b4 len) out len.
Proof. exact C88_mix_invert_gains_vec_simd_lemma. Qed.

Example C88_mix_invert_gains_vec_simd_ex :
  forall (n : nans F32), simd_call_fits AVX32 polar 0 32 [APtr 16; AScal (f_ofZ F32 3); APtr 24; AScal (f_ofZ F32 5); AScal (fneg (f_ofZ F32 3)); AScal (fneg (f_ofZ F32 5))] /\ inverts (farith n) polar (AScal (f_ofZ F32 3)) (AScal (fneg (f_ofZ F32 3))) 32 /\ inverts (farith n) polar (AScal (f_ofZ F32 5)) (AScal (fneg (f_ofZ F32 5))) 32.
Proof. intros n. polar_tac. Qed.

(** muladd, fused or not, *)
Theorem C88_muladd_invert_vec : 
  forall (t : fmt) (n : nans t) (m : mem (F t)) (out : Z) (a1 a2 a3 b1 b3 : arg (F t)) (len : Z), call_fits m out len [a1; a2; a3; b1; b3] ->
    inverts (farith n) m a1 b1 len -> inverts (farith n) m a3 b3 len -> alike opposite m (muladd_vec (farith n) (fops_scalar n) m out a1 a2 a3 len) (muladd_vec (farith n) (fops_scalar n) m out b1 a2 b3 len) out len.
Proof. exact C88_muladd_invert_vec_lemma. Qed.

Example C88_muladd_invert_vec_ex :
  forall (n : nans F32), call_fits polar 0 32 [APtr 16; AScal (f_ofZ F32 3); APtr 24; APtr 80; APtr 88] /\ inverts (farith n) polar (APtr 16) (APtr 80) 32 /\ inverts (farith n) polar (APtr 24) (APtr 88) 32.
Proof. intros n. polar_tac. Qed.

Theorem C88_muladd_invert_vec_simd : 
  forall (c : cfg) (B : backend) (n : nans (fmt_of B)) (m : mem (F (fmt_of B))) (out : Z) (a1 a2 a3 b1 b3 : arg (F (fmt_of B))) (len : Z), simd_call_fits B m out len [a1; a2; a3; b1; b3] ->
    inverts (farith n) m a1 b1 len -> inverts (farith n) m a3 b3 len -> alike opposite m (muladd_vec_simd (farith n) (fops c B n) B m out a1 a2 a3 len) (muladd_vec_simd (farith n) (fops c B n) B m out b1 a2 b3 len) out len.
Proof. exact C88_muladd_invert_vec_simd_lemma. Qed.

Example C88_muladd_invert_vec_simd_ex :
  forall (n : nans F32), simd_call_fits AVX32 polar 0 32 [APtr 16; AScal (f_ofZ F32 3); APtr 24; APtr 80; APtr 88] /\ inverts (farith n) polar (APtr 16) (APtr 80) 32 /\ inverts (farith n) polar (APtr 24) (APtr 88) 32.
Proof. intros n. polar_tac. Qed.

(** and the signal of ampmod. *)
Theorem C88_ampmod_invert_vec : 
  forall (t : fmt) (n : nans t) (m : mem (F t)) (out : Z) (a1 a2 a3 b1 : arg (F t)) (len : Z), call_fits m out len [a1; a2; a3; b1] ->
    inverts (farith n) m a1 b1 len -> alike opposite m (ampmod_vec (farith n) (fops_scalar n) m out a1 a2 a3 len) (ampmod_vec (farith n) (fops_scalar n) m out b1 a2 a3 len) out len.
Proof. exact C88_ampmod_invert_vec_lemma. Qed.

Example C88_ampmod_invert_vec_ex :
  forall (n : nans F32), call_fits polar 0 32 [APtr 16; AScal (f_ofZ F32 3); APtr 24; APtr 80] /\ inverts (farith n) polar (APtr 16) (APtr 80) 32.
Proof. intros n. polar_tac. Qed.

Theorem C88_ampmod_invert_vec_simd : 
  forall (c : cfg) (B : backend) (n : nans (fmt_of B)) (m : mem (F (fmt_of B))) (out : Z) (a1 a2 a3 b1 : arg (F (fmt_of B))) (len : Z), simd_call_fits B m out len [a1; a2; a3; b1] ->
    inverts (farith n) m a1 b1 len -> alike opposite m (ampmod_vec_simd (farith n) (fops c B n) B m out a1 a2 a3 len) (ampmod_vec_simd (farith n) (fops c B n) B m out b1 a2 a3 len) out len.
Proof. exact C88_ampmod_invert_vec_simd_lemma. Qed.

Example C88_ampmod_invert_vec_simd_ex :
  forall (n : nans F32), simd_call_fits AVX32 polar 0 32 [APtr 16; AScal (f_ofZ F32 3); APtr 24; APtr 80] /\ inverts (farith n) polar (APtr 16) (APtr 80) 32.
Proof. intros n. polar_tac. Qed.

(** The maximum of the inverted numbers is the inverted minimum. *)
Theorem C88_min_max_vec : 
  forall (t : fmt) (n : nans t) (m : mem (F t)) (out : Z) (a1 a2 b1 b2 : arg (F t)) (len : Z), call_fits m out len [a1; a2; b1; b2] ->
    inverts (farith n) m a1 b1 len -> inverts (farith n) m a2 b2 len -> samples (farith n) number m a1 len -> samples (farith n) number m a2 len -> alike opposite m (min_vec (farith n) (fops_scalar n) m out a1 a2 len) (max_vec (farith n) (fops_scalar n) m out b1 b2 len) out len.
Proof. exact C88_min_max_vec_lemma. Qed.

Example C88_min_max_vec_ex :
  forall (n : nans F32), call_fits polar 0 32 [APtr 16; AScal (f_ofZ F32 3); APtr 80; AScal (fneg (f_ofZ F32 3))] /\ inverts (farith n) polar (APtr 16) (APtr 80) 32 /\ inverts (farith n) polar (AScal (f_ofZ F32 3)) (AScal (fneg (f_ofZ F32 3))) 32 /\ samples (farith n) number polar (APtr 16) 32 /\ samples (farith n) number polar (AScal (f_ofZ F32 3)) 32.
Proof. intros n. polar_tac. Qed.

Theorem C88_min_max_vec_simd : 
  forall (c : cfg) (B : backend) (n : nans (fmt_of B)) (m : mem (F (fmt_of B))) (out : Z) (a1 a2 b1 b2 : arg (F (fmt_of B))) (len : Z), simd_call_fits B m out len [a1; a2; b1; b2] ->
    inverts (farith n) m a1 b1 len -> inverts (farith n) m a2 b2 len -> samples (farith n) number m a1 len -> samples (farith n) number m a2 len -> alike opposite m (min_vec_simd (farith n) (fops c B n) B m out a1 a2 len) (max_vec_simd (farith n) (fops c B n) B m out b1 b2 len) out len.
Proof. exact C88_min_max_vec_simd_lemma. Qed.

Example C88_min_max_vec_simd_ex :
  forall (n : nans F32), simd_call_fits AVX32 polar 0 32 [APtr 16; AScal (f_ofZ F32 3); APtr 80; AScal (fneg (f_ofZ F32 3))] /\ inverts (farith n) polar (APtr 16) (APtr 80) 32 /\ inverts (farith n) polar (AScal (f_ofZ F32 3)) (AScal (fneg (f_ofZ F32 3))) 32 /\ samples (farith n) number polar (APtr 16) 32 /\ samples (farith n) number polar (AScal (f_ofZ F32 3)) 32.
Proof. intros n. polar_tac. Qed.

(** clip2 of inverted numbers, with a limit that is not negative, is inverted, *)
Theorem C88_clip2_invert_vec : 
  forall (t : fmt) (n : nans t) (m : mem (F t)) (out : Z) (a1 a2 b1 : arg (F t)) (len : Z), call_fits m out len [a1; a2; b1] ->
    inverts (farith n) m a1 b1 len -> samples (farith n) number m a1 len -> samples (farith n) (fun k => fle (f_ofZ t 0) k = true) m a2 len -> alike opposite m (clip2_vec (farith n) (fops_scalar n) m out a1 a2 len) (clip2_vec (farith n) (fops_scalar n) m out b1 a2 len) out len.
Proof. exact C88_clip2_invert_vec_lemma. Qed.

Example C88_clip2_invert_vec_ex :
  forall (n : nans F32), call_fits polar 0 32 [APtr 16; AScal (f_ofZ F32 3); APtr 80] /\ inverts (farith n) polar (APtr 16) (APtr 80) 32 /\ samples (farith n) number polar (APtr 16) 32 /\ samples (farith n) (fun k => fle (f_ofZ F32 0) k = true) polar (AScal (f_ofZ F32 3)) 32.
Proof. intros n. polar_tac. Qed.

Theorem C88_clip2_invert_vec_simd : 
  forall (c : cfg) (B : backend) (n : nans (fmt_of B)) (m : mem (F (fmt_of B))) (out : Z) (a1 a2 b1 : arg (F (fmt_of B))) (len : Z), simd_call_fits B m out len [a1; a2; b1] ->
    inverts (farith n) m a1 b1 len -> samples (farith n) number m a1 len -> samples (farith n) (fun k => fle (f_ofZ (fmt_of B) 0) k = true) m a2 len -> alike opposite m (clip2_vec_simd (farith n) (fops c B n) B m out a1 a2 len) (clip2_vec_simd (farith n) (fops c B n) B m out b1 a2 len) out len.
Proof. exact C88_clip2_invert_vec_simd_lemma. Qed.

Example C88_clip2_invert_vec_simd_ex :
  forall (n : nans F32), simd_call_fits AVX32 polar 0 32 [APtr 16; AScal (f_ofZ F32 3); APtr 80] /\ inverts (farith n) polar (APtr 16) (APtr 80) 32 /\ samples (farith n) number polar (APtr 16) 32 /\ samples (farith n) (fun k => fle (f_ofZ F32 0) k = true) polar (AScal (f_ofZ F32 3)) 32.
Proof. intros n. polar_tac. Qed.

(** and so is clip when the limits change places. *)
Theorem C88_clip_invert_vec : 
  forall (t : fmt) (n : nans t) (m : mem (F t)) (out : Z) (a1 a2 a3 b1 b2 b3 : arg (F t)) (len : Z), call_fits m out len [a1; a2; a3; b1; b2; b3] ->
    inverts (farith n) m a1 b1 len -> inverts (farith n) m a2 b2 len -> inverts (farith n) m a3 b3 len -> samples (farith n) number m a1 len -> below (farith n) m a2 a3 len -> alike opposite m (clip_vec (farith n) (fops_scalar n) m out a1 a2 a3 len) (clip_vec (farith n) (fops_scalar n) m out b1 b3 b2 len) out len.
Proof. exact C88_clip_invert_vec_lemma. Qed.

Example C88_clip_invert_vec_ex :
  forall (n : nans F32), call_fits polar 0 32 [APtr 16; AScal (f_ofZ F32 3); AScal (f_ofZ F32 4); APtr 80; AScal (fneg (f_ofZ F32 3)); AScal (fneg (f_ofZ F32 4))] /\ inverts (farith n) polar (APtr 16) (APtr 80) 32 /\ inverts (farith n) polar (AScal (f_ofZ F32 3)) (AScal (fneg (f_ofZ F32 3))) 32 /\ inverts (farith n) polar (AScal (f_ofZ F32 4)) (AScal (fneg (f_ofZ F32 4))) 32 /\ samples (farith n) number polar (APtr 16) 32 /\ below (farith n) polar (AScal (f_ofZ F32 3)) (AScal (f_ofZ F32 4)) 32.
Proof. intros n. polar_tac. Qed.

Theorem C88_clip_invert_vec_simd : 
  forall (c : cfg) (B : backend) (n : nans (fmt_of B)) (m : mem (F (fmt_of B))) (out : Z) (a1 a2 a3 b1 b2 b3 : arg (F (fmt_of B))) (len : Z), simd_call_fits B m out len [a1; a2; a3; b1; b2; b3] ->
    inverts (farith n) m a1 b1 len -> inverts (farith n) m a2 b2 len -> inverts (farith n) m a3 b3 len -> samples (farith n) number m a1 len -> below (farith n) m a2 a3 len -> alike opposite m (clip_vec_simd (farith n) (fops c B n) B m out a1 a2 a3 len) (clip_vec_simd (farith n) (fops c B n) B m out b1 b3 b2 len) out len.
Proof. exact C88_clip_invert_vec_simd_lemma. Qed.

Example C88_clip_invert_vec_simd_ex :
  forall (n : nans F32), simd_call_fits AVX32 polar 0 32 [APtr 16; AScal (f_ofZ F32 3); AScal (f_ofZ F32 4); APtr 80; AScal (fneg (f_ofZ F32 3)); AScal (fneg (f_ofZ F32 4))] /\ inverts (farith n) polar (APtr 16) (APtr 80) 32 /\ inverts (farith n) polar (AScal (f_ofZ F32 3)) (AScal (fneg (f_ofZ F32 3))) 32 /\ inverts (farith n) polar (AScal (f_ofZ F32 4)) (AScal (fneg (f_ofZ F32 4))) 32 /\ samples (farith n) number polar (APtr 16) 32 /\ below (farith n) polar (AScal (f_ofZ F32 3)) (AScal (f_ofZ F32 4)) 32.
Proof. intros n. polar_tac. Qed.

(** All theorems of this file together, for one run of Print Assumptions. *)
Definition all_Swap := (
  C88_plus_swap_vec,
  C88_plus_swap_vec_simd,
  C88_sum2_swap_vec,
  C88_sum2_swap_vec_simd,
  C88_times_swap_vec,
  C88_times_swap_vec_simd,
  C88_mix_swap_vec,
  C88_mix_swap_vec_simd,
  C88_mix_gains_vec,
  C88_mix_gains_vec_simd,
  C88_sum3_swap_vec,
  C88_sum3_swap_vec_simd,
  C88_sum4_swap_vec,
  C88_sum4_swap_vec_simd,
  C88_muladd_swap_vec,
  C88_muladd_swap_vec_simd,
  C88_ampmod_swap_vec,
  C88_ampmod_swap_vec_simd,
  C88_sum3_order_refuted,
  C88_min_swap_vec,
  C88_min_swap_vec_simd,
  C88_max_swap_vec,
  C88_max_swap_vec_simd,
  C88_min_zero_refuted,
  C88_min_nan_refuted,
  C88_compare_mirror_vec,
  C88_compare_mirror_vec_simd,
  C88_compare_negated_vec,
  C88_compare_negated_vec_simd,
  C88_compare_mirror_avx_refuted,
  C88_minus_swap_vec,
  C88_minus_swap_vec_simd,
  C88_plus_invert_vec,
  C88_plus_invert_vec_simd,
  C88_minus_invert_vec,
  C88_minus_invert_vec_simd,
  C88_sum3_invert_vec,
  C88_sum3_invert_vec_simd,
  C88_sum4_invert_vec,
  C88_sum4_invert_vec_simd,
  C88_times_invert_vec,
  C88_times_invert_vec_simd,
  C88_times_invert_right_vec,
  C88_times_invert_right_vec_simd,
  C88_over_invert_vec,
  C88_over_invert_vec_simd,
  C88_over_invert_right_vec,
  C88_over_invert_right_vec_simd,
  C88_mix_invert_vec,
  C88_mix_invert_vec_simd,
  C88_mix_invert_gains_vec,
  C88_mix_invert_gains_vec_simd,
  C88_muladd_invert_vec,
  C88_muladd_invert_vec_simd,
  C88_ampmod_invert_vec,
  C88_ampmod_invert_vec_simd,
  C88_min_max_vec,
  C88_min_max_vec_simd,
  C88_clip2_invert_vec,
  C88_clip2_invert_vec_simd,
  C88_clip_invert_vec,
  C88_clip_invert_vec_simd).
Print Assumptions all_Swap.
