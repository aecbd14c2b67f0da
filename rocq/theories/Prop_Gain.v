(** Samples scaled by a power of two (C89). *)
From Coq Require Import ZArith Reals List Lia Bool Lra.
From Flocq Require Import Core IEEE754.Binary IEEE754.Bits.
From Verif Require Import
  Base Mem Backend Args Drivers Functors Lanes Float LaneOps FloatOps VecMath FloatFuns Spec SpecLane SpecAgree SpecAlike SpecSwap SpecGain
  FloatFacts FloatRound ExData ExFloat ExMath SwapFacts GainFacts GainClaims.
Import ListNotations.
Local Open Scope Z_scope.

(** * C89: samples scaled by a power of two *)

(** Sums and differences scale with their operands, whatever underflows; *)
Theorem C89_plus_vec : 
  forall (t : fmt) (n : nans t) (m : mem (F t)) (out k : Z) (a1 a2 b1 b2 : arg (F t)) (len : Z), call_fits m out len [a1; a2; b1; b2] ->
    scales (farith n) m k a1 b1 len -> scales (farith n) m k a2 b2 len -> 
    alike (times_power k) m (plus_vec (farith n) (fops_scalar n) m out a1 a2 len) (plus_vec (farith n) (fops_scalar n) m out b1 b2 len) out len.
Proof. exact C89_plus_vec_lemma. Qed.

Example C89_plus_vec_ex :
  forall (n : nans F32), call_fits loud 0 32 [APtr 16; AScal (f_ofZ F32 3); APtr 80; AScal (f_ofZ F32 12)] /\ scales (farith n) loud 2 (APtr 16) (APtr 80) 32 /\ scales (farith n) loud 2 (AScal (f_ofZ F32 3)) (AScal (f_ofZ F32 12)) 32.
Proof. intros n. loud_tac. Qed.

Theorem C89_plus_vec_simd : 
  forall (c : cfg) (B : backend) (n : nans (fmt_of B)) (m : mem (F (fmt_of B))) (out k : Z) (a1 a2 b1 b2 : arg (F (fmt_of B))) (len : Z), simd_call_fits B m out len [a1; a2; b1; b2] ->
    scales (farith n) m k a1 b1 len -> scales (farith n) m k a2 b2 len -> 
    alike (times_power k) m (plus_vec_simd (farith n) (fops c B n) B m out a1 a2 len) (plus_vec_simd (farith n) (fops c B n) B m out b1 b2 len) out len.
Proof. exact C89_plus_vec_simd_lemma. Qed.

Example C89_plus_vec_simd_ex :
  forall (n : nans F32), simd_call_fits AVX32 loud 0 32 [APtr 16; AScal (f_ofZ F32 3); APtr 80; AScal (f_ofZ F32 12)] /\ scales (farith n) loud 2 (APtr 16) (APtr 80) 32 /\ scales (farith n) loud 2 (AScal (f_ofZ F32 3)) (AScal (f_ofZ F32 12)) 32.
Proof. intros n. loud_tac. Qed.

Theorem C89_minus_vec : 
  forall (t : fmt) (n : nans t) (m : mem (F t)) (out k : Z) (a1 a2 b1 b2 : arg (F t)) (len : Z), call_fits m out len [a1; a2; b1; b2] ->
    scales (farith n) m k a1 b1 len -> scales (farith n) m k a2 b2 len -> 
    alike (times_power k) m (minus_vec (farith n) (fops_scalar n) m out a1 a2 len) (minus_vec (farith n) (fops_scalar n) m out b1 b2 len) out len.
Proof. exact C89_minus_vec_lemma. Qed.

Example C89_minus_vec_ex :
  forall (n : nans F32), call_fits loud 0 32 [APtr 16; AScal (f_ofZ F32 3); APtr 80; AScal (f_ofZ F32 12)] /\ scales (farith n) loud 2 (APtr 16) (APtr 80) 32 /\ scales (farith n) loud 2 (AScal (f_ofZ F32 3)) (AScal (f_ofZ F32 12)) 32.
Proof. intros n. loud_tac. Qed.

Theorem C89_minus_vec_simd : 
  forall (c : cfg) (B : backend) (n : nans (fmt_of B)) (m : mem (F (fmt_of B))) (out k : Z) (a1 a2 b1 b2 : arg (F (fmt_of B))) (len : Z), simd_call_fits B m out len [a1; a2; b1; b2] ->
    scales (farith n) m k a1 b1 len -> scales (farith n) m k a2 b2 len -> 
    alike (times_power k) m (minus_vec_simd (farith n) (fops c B n) B m out a1 a2 len) (minus_vec_simd (farith n) (fops c B n) B m out b1 b2 len) out len.
Proof. exact C89_minus_vec_simd_lemma. Qed.

Example C89_minus_vec_simd_ex :
  forall (n : nans F32), simd_call_fits AVX32 loud 0 32 [APtr 16; AScal (f_ofZ F32 3); APtr 80; AScal (f_ofZ F32 12)] /\ scales (farith n) loud 2 (APtr 16) (APtr 80) 32 /\ scales (farith n) loud 2 (AScal (f_ofZ F32 3)) (AScal (f_ofZ F32 12)) 32.
Proof. intros n. loud_tac. Qed.

Theorem C89_sum2_vec : 
  forall (t : fmt) (n : nans t) (m : mem (F t)) (out k : Z) (a1 a2 b1 b2 : arg (F t)) (len : Z), call_fits m out len [a1; a2; b1; b2] ->
    scales (farith n) m k a1 b1 len -> scales (farith n) m k a2 b2 len -> 
    alike (times_power k) m (sum_vec2 (farith n) (fops_scalar n) m out a1 a2 len) (sum_vec2 (farith n) (fops_scalar n) m out b1 b2 len) out len.
Proof. exact C89_sum2_vec_lemma. Qed.

Example C89_sum2_vec_ex :
  forall (n : nans F32), call_fits loud 0 32 [APtr 16; AScal (f_ofZ F32 3); APtr 80; AScal (f_ofZ F32 12)] /\ scales (farith n) loud 2 (APtr 16) (APtr 80) 32 /\ scales (farith n) loud 2 (AScal (f_ofZ F32 3)) (AScal (f_ofZ F32 12)) 32.
Proof. intros n. loud_tac. Qed.

Theorem C89_sum2_vec_simd : 
  forall (c : cfg) (B : backend) (n : nans (fmt_of B)) (m : mem (F (fmt_of B))) (out k : Z) (a1 a2 b1 b2 : arg (F (fmt_of B))) (len : Z), simd_call_fits B m out len [a1; a2; b1; b2] ->
    scales (farith n) m k a1 b1 len -> scales (farith n) m k a2 b2 len -> 
    alike (times_power k) m (sum_vec2_simd (farith n) (fops c B n) B m out a1 a2 len) (sum_vec2_simd (farith n) (fops c B n) B m out b1 b2 len) out len.
Proof. exact C89_sum2_vec_simd_lemma. Qed.

Example C89_sum2_vec_simd_ex :
  forall (n : nans F32), simd_call_fits AVX32 loud 0 32 [APtr 16; AScal (f_ofZ F32 3); APtr 80; AScal (f_ofZ F32 12)] /\ scales (farith n) loud 2 (APtr 16) (APtr 80) 32 /\ scales (farith n) loud 2 (AScal (f_ofZ F32 3)) (AScal (f_ofZ F32 12)) 32.
Proof. intros n. loud_tac. Qed.

Theorem C89_sum3_vec : 
  forall (t : fmt) (n : nans t) (m : mem (F t)) (out k : Z) (a1 a2 a3 b1 b2 b3 : arg (F t)) (len : Z), call_fits m out len [a1; a2; a3; b1; b2; b3] ->
    scales (farith n) m k a1 b1 len -> scales (farith n) m k a2 b2 len -> scales (farith n) m k a3 b3 len -> 
    alike (times_power k) m (sum_vec3 (farith n) (fops_scalar n) m out a1 a2 a3 len) (sum_vec3 (farith n) (fops_scalar n) m out b1 b2 b3 len) out len.
Proof. exact C89_sum3_vec_lemma. Qed.

Example C89_sum3_vec_ex :
  forall (n : nans F32), call_fits loud 0 32 [APtr 16; AScal (f_ofZ F32 3); APtr 24; APtr 80; AScal (f_ofZ F32 12); APtr 88] /\ scales (farith n) loud 2 (APtr 16) (APtr 80) 32 /\ scales (farith n) loud 2 (AScal (f_ofZ F32 3)) (AScal (f_ofZ F32 12)) 32 /\ scales (farith n) loud 2 (APtr 24) (APtr 88) 32.
Proof. intros n. loud_tac. Qed.

Theorem C89_sum3_vec_simd : 
  forall (c : cfg) (B : backend) (n : nans (fmt_of B)) (m : mem (F (fmt_of B))) (out k : Z) (a1 a2 a3 b1 b2 b3 : arg (F (fmt_of B))) (len : Z), simd_call_fits B m out len [a1; a2; a3; b1; b2; b3] ->
    scales (farith n) m k a1 b1 len -> scales (farith n) m k a2 b2 len -> scales (farith n) m k a3 b3 len -> 
    alike (times_power k) m (sum_vec3_simd (farith n) (fops c B n) B m out a1 a2 a3 len) (sum_vec3_simd (farith n) (fops c B n) B m out b1 b2 b3 len) out len.
Proof. exact C89_sum3_vec_simd_lemma. Qed.

Example C89_sum3_vec_simd_ex :
  forall (n : nans F32), simd_call_fits AVX32 loud 0 32 [APtr 16; AScal (f_ofZ F32 3); APtr 24; APtr 80; AScal (f_ofZ F32 12); APtr 88] /\ scales (farith n) loud 2 (APtr 16) (APtr 80) 32 /\ scales (farith n) loud 2 (AScal (f_ofZ F32 3)) (AScal (f_ofZ F32 12)) 32 /\ scales (farith n) loud 2 (APtr 24) (APtr 88) 32.
Proof. intros n. loud_tac. Qed.

Theorem C89_sum4_vec : 
  forall (t : fmt) (n : nans t) (m : mem (F t)) (out k : Z) (a1 a2 a3 a4 b1 b2 b3 b4 : arg (F t)) (len : Z), call_fits m out len [a1; a2; a3; a4; b1; b2; b3; b4] ->
    scales (farith n) m k a1 b1 len -> scales (farith n) m k a2 b2 len -> scales (farith n) m k a3 b3 len -> scales (farith n) m k a4 b4 len -> 
    alike (times_power k) m (sum_vec4 (farith n) (fops_scalar n) m out a1 a2 a3 a4 len) (sum_vec4 (farith n) (fops_scalar n) m out b1 b2 b3 b4 len) out len.
Proof. exact C89_sum4_vec_lemma. Qed.

Example C89_sum4_vec_ex :
  forall (n : nans F32), call_fits loud 0 32 [APtr 16; AScal (f_ofZ F32 3); APtr 24; AScal (f_ofZ F32 5); APtr 80; AScal (f_ofZ F32 12); APtr 88; AScal (f_ofZ F32 20)] /\ scales (farith n) loud 2 (APtr 16) (APtr 80) 32 /\ scales (farith n) loud 2 (AScal (f_ofZ F32 3)) (AScal (f_ofZ F32 12)) 32 /\ scales (farith n) loud 2 (APtr 24) (APtr 88) 32 /\ scales (farith n) loud 2 (AScal (f_ofZ F32 5)) (AScal (f_ofZ F32 20)) 32.
Proof. intros n. loud_tac. Qed.

Theorem C89_sum4_vec_simd : 
  forall (c : cfg) (B : backend) (n : nans (fmt_of B)) (m : mem (F (fmt_of B))) (out k : Z) (a1 a2 a3 a4 b1 b2 b3 b4 : arg (F (fmt_of B))) (len : Z), simd_call_fits B m out len [a1; a2; a3; a4; b1; b2; b3; b4] ->
    scales (farith n) m k a1 b1 len -> scales (farith n) m k a2 b2 len -> scales (farith n) m k a3 b3 len -> scales (farith n) m k a4 b4 len -> 
    alike (times_power k) m (sum_vec4_simd (farith n) (fops c B n) B m out a1 a2 a3 a4 len) (sum_vec4_simd (farith n) (fops c B n) B m out b1 b2 b3 b4 len) out len.
Proof. exact C89_sum4_vec_simd_lemma. Qed.

Example C89_sum4_vec_simd_ex :
  forall (n : nans F32), simd_call_fits AVX32 loud 0 32 [APtr 16; AScal (f_ofZ F32 3); APtr 24; AScal (f_ofZ F32 5); APtr 80; AScal (f_ofZ F32 12); APtr 88; AScal (f_ofZ F32 20)] /\ scales (farith n) loud 2 (APtr 16) (APtr 80) 32 /\ scales (farith n) loud 2 (AScal (f_ofZ F32 3)) (AScal (f_ofZ F32 12)) 32 /\ scales (farith n) loud 2 (APtr 24) (APtr 88) 32 /\ scales (farith n) loud 2 (AScal (f_ofZ F32 5)) (AScal (f_ofZ F32 20)) 32.
Proof. intros n. loud_tac. Qed.

(** so do minima and maxima, *)
Theorem C89_min_vec : 
  forall (t : fmt) (n : nans t) (m : mem (F t)) (out k : Z) (a1 a2 b1 b2 : arg (F t)) (len : Z), call_fits m out len [a1; a2; b1; b2] ->
    scales (farith n) m k a1 b1 len -> scales (farith n) m k a2 b2 len -> 
    alike (times_power k) m (min_vec (farith n) (fops_scalar n) m out a1 a2 len) (min_vec (farith n) (fops_scalar n) m out b1 b2 len) out len.
Proof. exact C89_min_vec_lemma. Qed.

Example C89_min_vec_ex :
  forall (n : nans F32), call_fits loud 0 32 [APtr 16; AScal (f_ofZ F32 3); APtr 80; AScal (f_ofZ F32 12)] /\ scales (farith n) loud 2 (APtr 16) (APtr 80) 32 /\ scales (farith n) loud 2 (AScal (f_ofZ F32 3)) (AScal (f_ofZ F32 12)) 32.
Proof. intros n. loud_tac. Qed.

Theorem C89_min_vec_simd : 
  forall (c : cfg) (B : backend) (n : nans (fmt_of B)) (m : mem (F (fmt_of B))) (out k : Z) (a1 a2 b1 b2 : arg (F (fmt_of B))) (len : Z), simd_call_fits B m out len [a1; a2; b1; b2] ->
    scales (farith n) m k a1 b1 len -> scales (farith n) m k a2 b2 len -> 
    alike (times_power k) m (min_vec_simd (farith n) (fops c B n) B m out a1 a2 len) (min_vec_simd (farith n) (fops c B n) B m out b1 b2 len) out len.
Proof. exact C89_min_vec_simd_lemma. Qed.

Example C89_min_vec_simd_ex :
  forall (n : nans F32), simd_call_fits AVX32 loud 0 32 [APtr 16; AScal (f_ofZ F32 3); APtr 80; AScal (f_ofZ F32 12)] /\ scales (farith n) loud 2 (APtr 16) (APtr 80) 32 /\ scales (farith n) loud 2 (AScal (f_ofZ F32 3)) (AScal (f_ofZ F32 12)) 32.
Proof. intros n. loud_tac. Qed.

Theorem C89_max_vec : 
  forall (t : fmt) (n : nans t) (m : mem (F t)) (out k : Z) (a1 a2 b1 b2 : arg (F t)) (len : Z), call_fits m out len [a1; a2; b1; b2] ->
    scales (farith n) m k a1 b1 len -> scales (farith n) m k a2 b2 len -> 
    alike (times_power k) m (max_vec (farith n) (fops_scalar n) m out a1 a2 len) (max_vec (farith n) (fops_scalar n) m out b1 b2 len) out len.
Proof. exact C89_max_vec_lemma. Qed.

Example C89_max_vec_ex :
  forall (n : nans F32), call_fits loud 0 32 [APtr 16; AScal (f_ofZ F32 3); APtr 80; AScal (f_ofZ F32 12)] /\ scales (farith n) loud 2 (APtr 16) (APtr 80) 32 /\ scales (farith n) loud 2 (AScal (f_ofZ F32 3)) (AScal (f_ofZ F32 12)) 32.
Proof. intros n. loud_tac. Qed.

Theorem C89_max_vec_simd : 
  forall (c : cfg) (B : backend) (n : nans (fmt_of B)) (m : mem (F (fmt_of B))) (out k : Z) (a1 a2 b1 b2 : arg (F (fmt_of B))) (len : Z), simd_call_fits B m out len [a1; a2; b1; b2] ->
    scales (farith n) m k a1 b1 len -> scales (farith n) m k a2 b2 len -> 
    alike (times_power k) m (max_vec_simd (farith n) (fops c B n) B m out a1 a2 len) (max_vec_simd (farith n) (fops c B n) B m out b1 b2 len) out len.
Proof. exact C89_max_vec_simd_lemma. Qed.

Example C89_max_vec_simd_ex :
  forall (n : nans F32), simd_call_fits AVX32 loud 0 32 [APtr 16; AScal (f_ofZ F32 3); APtr 80; AScal (f_ofZ F32 12)] /\ scales (farith n) loud 2 (APtr 16) (APtr 80) 32 /\ scales (farith n) loud 2 (AScal (f_ofZ F32 3)) (AScal (f_ofZ F32 12)) 32.
Proof. intros n. loud_tac. Qed.

(** and clipped samples, if the limits are scaled as well. *)
Theorem C89_clip_vec : 
  forall (t : fmt) (n : nans t) (m : mem (F t)) (out k : Z) (a1 a2 a3 b1 b2 b3 : arg (F t)) (len : Z), call_fits m out len [a1; a2; a3; b1; b2; b3] ->
    scales (farith n) m k a1 b1 len -> scales (farith n) m k a2 b2 len -> scales (farith n) m k a3 b3 len -> 
    alike (times_power k) m (clip_vec (farith n) (fops_scalar n) m out a1 a2 a3 len) (clip_vec (farith n) (fops_scalar n) m out b1 b2 b3 len) out len.
Proof. exact C89_clip_vec_lemma. Qed.

Example C89_clip_vec_ex :
  forall (n : nans F32), call_fits loud 0 32 [APtr 16; AScal (f_ofZ F32 3); APtr 24; APtr 80; AScal (f_ofZ F32 12); APtr 88] /\ scales (farith n) loud 2 (APtr 16) (APtr 80) 32 /\ scales (farith n) loud 2 (AScal (f_ofZ F32 3)) (AScal (f_ofZ F32 12)) 32 /\ scales (farith n) loud 2 (APtr 24) (APtr 88) 32.
Proof. intros n. loud_tac. Qed.

Theorem C89_clip_vec_simd : 
  forall (c : cfg) (B : backend) (n : nans (fmt_of B)) (m : mem (F (fmt_of B))) (out k : Z) (a1 a2 a3 b1 b2 b3 : arg (F (fmt_of B))) (len : Z), simd_call_fits B m out len [a1; a2; a3; b1; b2; b3] ->
    scales (farith n) m k a1 b1 len -> scales (farith n) m k a2 b2 len -> scales (farith n) m k a3 b3 len -> 
    alike (times_power k) m (clip_vec_simd (farith n) (fops c B n) B m out a1 a2 a3 len) (clip_vec_simd (farith n) (fops c B n) B m out b1 b2 b3 len) out len.
Proof. exact C89_clip_vec_simd_lemma. Qed.

Example C89_clip_vec_simd_ex :
  forall (n : nans F32), simd_call_fits AVX32 loud 0 32 [APtr 16; AScal (f_ofZ F32 3); APtr 24; APtr 80; AScal (f_ofZ F32 12); APtr 88] /\ scales (farith n) loud 2 (APtr 16) (APtr 80) 32 /\ scales (farith n) loud 2 (AScal (f_ofZ F32 3)) (AScal (f_ofZ F32 12)) 32 /\ scales (farith n) loud 2 (APtr 24) (APtr 88) 32.
Proof. intros n. loud_tac. Qed.

Theorem C89_clip2_vec : 
  forall (t : fmt) (n : nans t) (m : mem (F t)) (out k : Z) (a1 a2 b1 b2 : arg (F t)) (len : Z), call_fits m out len [a1; a2; b1; b2] ->
    scales (farith n) m k a1 b1 len -> scales (farith n) m k a2 b2 len -> 
    alike (times_power k) m (clip2_vec (farith n) (fops_scalar n) m out a1 a2 len) (clip2_vec (farith n) (fops_scalar n) m out b1 b2 len) out len.
Proof. exact C89_clip2_vec_lemma. Qed.

Example C89_clip2_vec_ex :
  forall (n : nans F32), call_fits loud 0 32 [APtr 16; AScal (f_ofZ F32 3); APtr 80; AScal (f_ofZ F32 12)] /\ scales (farith n) loud 2 (APtr 16) (APtr 80) 32 /\ scales (farith n) loud 2 (AScal (f_ofZ F32 3)) (AScal (f_ofZ F32 12)) 32.
Proof. intros n. loud_tac. Qed.

Theorem C89_clip2_vec_simd : 
  forall (c : cfg) (B : backend) (n : nans (fmt_of B)) (m : mem (F (fmt_of B))) (out k : Z) (a1 a2 b1 b2 : arg (F (fmt_of B))) (len : Z), simd_call_fits B m out len [a1; a2; b1; b2] ->
    scales (farith n) m k a1 b1 len -> scales (farith n) m k a2 b2 len -> 
    alike (times_power k) m (clip2_vec_simd (farith n) (fops c B n) B m out a1 a2 len) (clip2_vec_simd (farith n) (fops c B n) B m out b1 b2 len) out len.
Proof. exact C89_clip2_vec_simd_lemma. Qed.

Example C89_clip2_vec_simd_ex :
  forall (n : nans F32), simd_call_fits AVX32 loud 0 32 [APtr 16; AScal (f_ofZ F32 3); APtr 80; AScal (f_ofZ F32 12)] /\ scales (farith n) loud 2 (APtr 16) (APtr 80) 32 /\ scales (farith n) loud 2 (AScal (f_ofZ F32 3)) (AScal (f_ofZ F32 12)) 32.
Proof. intros n. loud_tac. Qed.

(** A gain of 2^k may be applied before or after a product, a mix, a muladd, an
    amplitude modulation or a division, where nothing underflows. *)
Theorem C89_times_vec : 
  forall (t : fmt) (n : nans t) (m : mem (F t)) (out k : Z) (a1 a2 b1 : arg (F t)) (len : Z), call_fits m out len [a1; a2; b1] ->
    scales (farith n) m k a1 b1 len -> products_fit (farith n) m a1 a2 len -> products_fit (farith n) m b1 a2 len -> 
    alike (times_power k) m (times_vec (farith n) (fops_scalar n) m out a1 a2 len) (times_vec (farith n) (fops_scalar n) m out b1 a2 len) out len.
Proof. exact C89_times_vec_lemma. Qed.

Example C89_times_vec_ex :
  forall (n : nans F32), call_fits loud 0 32 [APtr 16; AScal (f_ofZ F32 3); APtr 80] /\ scales (farith n) loud 2 (APtr 16) (APtr 80) 32 /\ products_fit (farith n) loud (APtr 16) (AScal (f_ofZ F32 3)) 32 /\ products_fit (farith n) loud (APtr 80) (AScal (f_ofZ F32 3)) 32.
Proof. intros n. loud_tac. Qed.

Theorem C89_times_vec_simd : 
  forall (c : cfg) (B : backend) (n : nans (fmt_of B)) (m : mem (F (fmt_of B))) (out k : Z) (a1 a2 b1 : arg (F (fmt_of B))) (len : Z), simd_call_fits B m out len [a1; a2; b1] ->
    scales (farith n) m k a1 b1 len -> products_fit (farith n) m a1 a2 len -> products_fit (farith n) m b1 a2 len -> 
    alike (times_power k) m (times_vec_simd (farith n) (fops c B n) B m out a1 a2 len) (times_vec_simd (farith n) (fops c B n) B m out b1 a2 len) out len.
Proof. exact C89_times_vec_simd_lemma. Qed.

Example C89_times_vec_simd_ex :
  forall (n : nans F32), simd_call_fits AVX32 loud 0 32 [APtr 16; AScal (f_ofZ F32 3); APtr 80] /\ scales (farith n) loud 2 (APtr 16) (APtr 80) 32 /\ products_fit (farith n) loud (APtr 16) (AScal (f_ofZ F32 3)) 32 /\ products_fit (farith n) loud (APtr 80) (AScal (f_ofZ F32 3)) 32.
Proof. intros n. loud_tac. Qed.

Theorem C89_mix_vec : 
  forall (t : fmt) (n : nans t) (m : mem (F t)) (out k : Z) (a1 a2 a3 a4 b1 b3 : arg (F t)) (len : Z), call_fits m out len [a1; a2; a3; a4; b1; b3] ->
    scales (farith n) m k a1 b1 len -> scales (farith n) m k a3 b3 len -> products_fit (farith n) m a1 a2 len -> products_fit (farith n) m b1 a2 len -> products_fit (farith n) m a3 a4 len -> products_fit (farith n) m b3 a4 len -> 
    alike (times_power k) m (mix_vec (farith n) (fops_scalar n) m out a1 a2 a3 a4 len) (mix_vec (farith n) (fops_scalar n) m out b1 a2 b3 a4 len) out len.
Proof. exact C89_mix_vec_lemma. Qed.

Example C89_mix_vec_ex :
  forall (n : nans F32), call_fits loud 0 32 [APtr 16; AScal (f_ofZ F32 3); APtr 24; AScal (f_ofZ F32 5); APtr 80; APtr 88] /\ scales (farith n) loud 2 (APtr 16) (APtr 80) 32 /\ scales (farith n) loud 2 (APtr 24) (APtr 88) 32 /\ products_fit (farith n) loud (APtr 16) (AScal (f_ofZ F32 3)) 32 /\ products_fit (farith n) loud (APtr 80) (AScal (f_ofZ F32 3)) 32 /\ products_fit (farith n) loud (APtr 24) (AScal (f_ofZ F32 5)) 32 /\ products_fit (farith n) loud (APtr 88) (AScal (f_ofZ F32 5)) 32.
Proof. intros n. loud_tac. Qed.

Theorem C89_mix_vec_simd : 
  forall (c : cfg) (B : backend) (n : nans (fmt_of B)) (m : mem (F (fmt_of B))) (out k : Z) (a1 a2 a3 a4 b1 b3 : arg (F (fmt_of B))) (len : Z), simd_call_fits B m out len [a1; a2; a3; a4; b1; b3] ->
    scales (farith n) m k a1 b1 len -> scales (farith n) m k a3 b3 len -> products_fit (farith n) m a1 a2 len -> products_fit (farith n) m b1 a2 len -> products_fit (farith n) m a3 a4 len -> products_fit (farith n) m b3 a4 len -> 
    alike (times_power k) m (mix_vec_simd (farith n) (fops c B n) B m out a1 a2 a3 a4 len) (mix_vec_simd (farith n) (fops c B n) B m out b1 a2 b3 a4 len) out len.
Proof. exact C89_mix_vec_simd_lemma. Qed.

Example C89_mix_vec_simd_ex :
  forall (n : nans F32), simd_call_fits AVX32 loud 0 32 [APtr 16; AScal (f_ofZ F32 3); APtr 24; AScal (f_ofZ F32 5); APtr 80; APtr 88] /\ scales (farith n) loud 2 (APtr 16) (APtr 80) 32 /\ scales (farith n) loud 2 (APtr 24) (APtr 88) 32 /\ products_fit (farith n) loud (APtr 16) (AScal (f_ofZ F32 3)) 32 /\ products_fit (farith n) loud (APtr 80) (AScal (f_ofZ F32 3)) 32 /\ products_fit (farith n) loud (APtr 24) (AScal (f_ofZ F32 5)) 32 /\ products_fit (farith n) loud (APtr 88) (AScal (f_ofZ F32 5)) 32.
Proof. intros n. loud_tac. Qed.

Theorem C89_muladd_vec : 
  forall (t : fmt) (n : nans t) (m : mem (F t)) (out k : Z) (a1 a2 a3 b1 b3 : arg (F t)) (len : Z), call_fits m out len [a1; a2; a3; b1; b3] ->
    scales (farith n) m k a1 b1 len -> scales (farith n) m k a3 b3 len -> products_fit (farith n) m a1 a2 len -> products_fit (farith n) m b1 a2 len -> 
    alike (times_power k) m (muladd_vec (farith n) (fops_scalar n) m out a1 a2 a3 len) (muladd_vec (farith n) (fops_scalar n) m out b1 a2 b3 len) out len.
Proof. exact C89_muladd_vec_lemma. Qed.

Example C89_muladd_vec_ex :
  forall (n : nans F32), call_fits loud 0 32 [APtr 16; AScal (f_ofZ F32 3); APtr 24; APtr 80; APtr 88] /\ scales (farith n) loud 2 (APtr 16) (APtr 80) 32 /\ scales (farith n) loud 2 (APtr 24) (APtr 88) 32 /\ products_fit (farith n) loud (APtr 16) (AScal (f_ofZ F32 3)) 32 /\ products_fit (farith n) loud (APtr 80) (AScal (f_ofZ F32 3)) 32.
Proof. intros n. loud_tac. Qed.

Theorem C89_muladd_vec_simd : 
  forall (c : cfg) (B : backend) (n : nans (fmt_of B)) (m : mem (F (fmt_of B))) (out k : Z) (a1 a2 a3 b1 b3 : arg (F (fmt_of B))) (len : Z), simd_call_fits B m out len [a1; a2; a3; b1; b3] ->
    scales (farith n) m k a1 b1 len -> scales (farith n) m k a3 b3 len -> products_fit (farith n) m a1 a2 len -> products_fit (farith n) m b1 a2 len -> muladds_fit (farith n) m a1 a2 a3 len -> muladds_fit (farith n) m b1 a2 b3 len -> 
    alike (times_power k) m (muladd_vec_simd (farith n) (fops c B n) B m out a1 a2 a3 len) (muladd_vec_simd (farith n) (fops c B n) B m out b1 a2 b3 len) out len.
Proof. exact C89_muladd_vec_simd_lemma. Qed.

Example C89_muladd_vec_simd_ex :
  forall (n : nans F32), simd_call_fits AVX32 loud 0 32 [APtr 16; AScal (f_ofZ F32 3); APtr 24; APtr 80; APtr 88] /\ scales (farith n) loud 2 (APtr 16) (APtr 80) 32 /\ scales (farith n) loud 2 (APtr 24) (APtr 88) 32 /\ products_fit (farith n) loud (APtr 16) (AScal (f_ofZ F32 3)) 32 /\ products_fit (farith n) loud (APtr 80) (AScal (f_ofZ F32 3)) 32 /\ muladds_fit (farith n) loud (APtr 16) (AScal (f_ofZ F32 3)) (APtr 24) 32 /\ muladds_fit (farith n) loud (APtr 80) (AScal (f_ofZ F32 3)) (APtr 88) 32.
Proof. intros n. loud_tac. Qed.

Theorem C89_ampmod_vec : 
  forall (t : fmt) (n : nans t) (m : mem (F t)) (out k : Z) (a1 a2 a3 b1 : arg (F t)) (len : Z), call_fits m out len [a1; a2; a3; b1] ->
    scales (farith n) m k a1 b1 len -> 
    alike (times_power_normal k) m (ampmod_vec (farith n) (fops_scalar n) m out a1 a2 a3 len) (ampmod_vec (farith n) (fops_scalar n) m out b1 a2 a3 len) out len.
Proof. exact C89_ampmod_vec_lemma. Qed.

Example C89_ampmod_vec_ex :
  forall (n : nans F32), call_fits loud 0 32 [APtr 16; AScal (f_ofZ F32 3); APtr 24; APtr 80] /\ scales (farith n) loud 2 (APtr 16) (APtr 80) 32.
Proof. intros n. loud_tac. Qed.

Theorem C89_ampmod_vec_simd : 
  forall (c : cfg) (B : backend) (n : nans (fmt_of B)) (m : mem (F (fmt_of B))) (out k : Z) (a1 a2 a3 b1 : arg (F (fmt_of B))) (len : Z), simd_call_fits B m out len [a1; a2; a3; b1] ->
    scales (farith n) m k a1 b1 len -> 
    alike (times_power_normal k) m (ampmod_vec_simd (farith n) (fops c B n) B m out a1 a2 a3 len) (ampmod_vec_simd (farith n) (fops c B n) B m out b1 a2 a3 len) out len.
Proof. exact C89_ampmod_vec_simd_lemma. Qed.

Example C89_ampmod_vec_simd_ex :
  forall (n : nans F32), simd_call_fits AVX32 loud 0 32 [APtr 16; AScal (f_ofZ F32 3); APtr 24; APtr 80] /\ scales (farith n) loud 2 (APtr 16) (APtr 80) 32.
Proof. intros n. loud_tac. Qed.

Theorem C89_over_vec : 
  forall (t : fmt) (n : nans t) (m : mem (F t)) (out k : Z) (a1 a2 b1 : arg (F t)) (len : Z), call_fits m out len [a1; a2; b1] ->
    scales (farith n) m k a1 b1 len -> quotients_fit (farith n) m a1 a2 len -> quotients_fit (farith n) m b1 a2 len -> 
    alike (times_power k) m (over_vec (farith n) (fops_scalar n) m out a1 a2 len) (over_vec (farith n) (fops_scalar n) m out b1 a2 len) out len.
Proof. exact C89_over_vec_lemma. Qed.

Example C89_over_vec_ex :
  forall (n : nans F32), call_fits loud 0 32 [APtr 16; AScal (f_ofZ F32 3); APtr 80] /\ scales (farith n) loud 2 (APtr 16) (APtr 80) 32 /\ quotients_fit (farith n) loud (APtr 16) (AScal (f_ofZ F32 3)) 32 /\ quotients_fit (farith n) loud (APtr 80) (AScal (f_ofZ F32 3)) 32.
Proof. intros n. loud_tac. Qed.

Theorem C89_over_vec_simd : 
  forall (c : cfg) (B : backend) (n : nans (fmt_of B)) (m : mem (F (fmt_of B))) (out k : Z) (a1 a2 b1 : arg (F (fmt_of B))) (len : Z), divides B = true -> simd_call_fits B m out len [a1; a2; b1] ->
    scales (farith n) m k a1 b1 len -> quotients_fit (farith n) m a1 a2 len -> quotients_fit (farith n) m b1 a2 len -> 
    alike (times_power k) m (over_vec_simd (farith n) (fops c B n) B m out a1 a2 len) (over_vec_simd (farith n) (fops c B n) B m out b1 a2 len) out len.
Proof. exact C89_over_vec_simd_lemma. Qed.

Example C89_over_vec_simd_ex :
  forall (n : nans F32), divides AVX32 = true /\ simd_call_fits AVX32 loud 0 32 [APtr 16; AScal (f_ofZ F32 3); APtr 80] /\ scales (farith n) loud 2 (APtr 16) (APtr 80) 32 /\ quotients_fit (farith n) loud (APtr 16) (AScal (f_ofZ F32 3)) 32 /\ quotients_fit (farith n) loud (APtr 80) (AScal (f_ofZ F32 3)) 32.
Proof. intros n. loud_tac. Qed.

(** A divisor scaled by 2^k scales the quotient by 2^-k. *)
Theorem C89_over_divisor_vec : 
  forall (t : fmt) (n : nans t) (m : mem (F t)) (out k : Z) (a1 a2 b2 : arg (F t)) (len : Z), call_fits m out len [a1; a2; b2] ->
    scales (farith n) m k a2 b2 len -> quotients_fit (farith n) m a1 a2 len -> quotients_fit (farith n) m a1 b2 len -> 
    alike (times_power (- k)) m (over_vec (farith n) (fops_scalar n) m out a1 a2 len) (over_vec (farith n) (fops_scalar n) m out a1 b2 len) out len.
Proof. exact C89_over_divisor_vec_lemma. Qed.

Example C89_over_divisor_vec_ex :
  forall (n : nans F32), call_fits loud 0 32 [APtr 16; AScal (f_ofZ F32 3); AScal (f_ofZ F32 12)] /\ scales (farith n) loud 2 (AScal (f_ofZ F32 3)) (AScal (f_ofZ F32 12)) 32 /\ quotients_fit (farith n) loud (APtr 16) (AScal (f_ofZ F32 3)) 32 /\ quotients_fit (farith n) loud (APtr 16) (AScal (f_ofZ F32 12)) 32.
Proof. intros n. loud_tac. Qed.

Theorem C89_over_divisor_vec_simd : 
  forall (c : cfg) (B : backend) (n : nans (fmt_of B)) (m : mem (F (fmt_of B))) (out k : Z) (a1 a2 b2 : arg (F (fmt_of B))) (len : Z), divides B = true -> simd_call_fits B m out len [a1; a2; b2] ->
    scales (farith n) m k a2 b2 len -> quotients_fit (farith n) m a1 a2 len -> quotients_fit (farith n) m a1 b2 len -> 
    alike (times_power (- k)) m (over_vec_simd (farith n) (fops c B n) B m out a1 a2 len) (over_vec_simd (farith n) (fops c B n) B m out a1 b2 len) out len.
Proof. exact C89_over_divisor_vec_simd_lemma. Qed.

Example C89_over_divisor_vec_simd_ex :
  forall (n : nans F32), divides AVX32 = true /\ simd_call_fits AVX32 loud 0 32 [APtr 16; AScal (f_ofZ F32 3); AScal (f_ofZ F32 12)] /\ scales (farith n) loud 2 (AScal (f_ofZ F32 3)) (AScal (f_ofZ F32 12)) 32 /\ quotients_fit (farith n) loud (APtr 16) (AScal (f_ofZ F32 3)) 32 /\ quotients_fit (farith n) loud (APtr 16) (AScal (f_ofZ F32 12)) 32.
Proof. intros n. loud_tac. Qed.

(** Absolute values scale with the sample, *)
Theorem C89_abs_vec : 
  forall (B : backend) (n : nans (fmt_of B)) (m : mem (F (fmt_of B))) (out k p q len : Z), call_fits m out len [APtr p; APtr q] ->
    scales (farith n) m (k) (APtr p) (APtr q) len -> 
    alike (times_power (k)) m (abs_vec B m out p len) (abs_vec B m out q len) out len.
Proof. exact C89_abs_vec_lemma. Qed.

Example C89_abs_vec_ex :
  forall (n : nans (fmt_of AVX32)), call_fits (A := F (fmt_of AVX32)) loud 0 32 [APtr 16; APtr 80] /\ scales (farith n) loud 2 (APtr 16) (APtr 80) 32.
Proof. intros n. loud_tac. Qed.

Theorem C89_abs_vec_simd : 
  forall (c : cfg) (B : backend) (n : nans (fmt_of B)) (m : mem (F (fmt_of B))) (out k p q len : Z), simd_call_fits B m out len [APtr p; APtr q] ->
    scales (farith n) m (k) (APtr p) (APtr q) len -> 
    alike (times_power (k)) m (abs_vec_simd c B n m out p len) (abs_vec_simd c B n m out q len) out len.
Proof. exact C89_abs_vec_simd_lemma. Qed.

Example C89_abs_vec_simd_ex :
  forall (n : nans (fmt_of AVX32)), simd_call_fits AVX32 loud 0 32 [APtr 16; APtr 80] /\ scales (farith n) loud 2 (APtr 16) (APtr 80) 32.
Proof. intros n. loud_tac. Qed.

(** squares with the square of the factor, *)
Theorem C89_square_vec : 
  forall (B : backend) (n : nans (fmt_of B)) (m : mem (F (fmt_of B))) (out k p q len : Z), call_fits m out len [APtr p; APtr q] ->
    scales (farith n) m (k) (APtr p) (APtr q) len -> products_fit (farith n) m (APtr p) (APtr p) len -> products_fit (farith n) m (APtr q) (APtr q) len -> 
    alike (times_power (2 * k)) m (square_vec B n m out p len) (square_vec B n m out q len) out len.
Proof. exact C89_square_vec_lemma. Qed.

Example C89_square_vec_ex :
  forall (n : nans (fmt_of AVX32)), call_fits (A := F (fmt_of AVX32)) loud 0 32 [APtr 16; APtr 80] /\ scales (farith n) loud 2 (APtr 16) (APtr 80) 32 /\ products_fit (farith n) loud (APtr 16) (APtr 16) 32 /\ products_fit (farith n) loud (APtr 80) (APtr 80) 32.
Proof. intros n. loud_tac. Qed.

Theorem C89_square_vec_simd : 
  forall (B : backend) (n : nans (fmt_of B)) (m : mem (F (fmt_of B))) (out k p q len : Z), simd_call_fits B m out len [APtr p; APtr q] ->
    scales (farith n) m (k) (APtr p) (APtr q) len -> products_fit (farith n) m (APtr p) (APtr p) len -> products_fit (farith n) m (APtr q) (APtr q) len -> 
    alike (times_power (2 * k)) m (square_vec_simd B n m out p len) (square_vec_simd B n m out q len) out len.
Proof. exact C89_square_vec_simd_lemma. Qed.

Example C89_square_vec_simd_ex :
  forall (n : nans (fmt_of AVX32)), simd_call_fits AVX32 loud 0 32 [APtr 16; APtr 80] /\ scales (farith n) loud 2 (APtr 16) (APtr 80) 32 /\ products_fit (farith n) loud (APtr 16) (APtr 16) 32 /\ products_fit (farith n) loud (APtr 80) (APtr 80) 32.
Proof. intros n. loud_tac. Qed.

(** and square roots with its root; these cannot underflow. *)
Theorem C89_signed_sqrt_vec : 
  forall (B : backend) (n : nans (fmt_of B)) (m : mem (F (fmt_of B))) (out k p q len : Z), call_fits m out len [APtr p; APtr q] ->
    scales (farith n) m (2 * k) (APtr p) (APtr q) len -> 
    alike (times_power (k)) m (signed_sqrt_vec B n m out p len) (signed_sqrt_vec B n m out q len) out len.
Proof. exact C89_signed_sqrt_vec_lemma. Qed.

Example C89_signed_sqrt_vec_ex :
  forall (n : nans (fmt_of AVX32)), call_fits (A := F (fmt_of AVX32)) loud 0 32 [APtr 16; APtr 80] /\ scales (farith n) loud (2 * 1) (APtr 16) (APtr 80) 32.
Proof. intros n. loud_tac. Qed.

Theorem C89_signed_sqrt_vec_simd : 
  forall (c : cfg) (B : backend) (n : nans (fmt_of B)) (m : mem (F (fmt_of B))) (out k p q len : Z), isa_of B <> NEON -> simd_call_fits B m out len [APtr p; APtr q] ->
    scales (farith n) m (2 * k) (APtr p) (APtr q) len -> 
    alike (times_power (k)) m (signed_sqrt_vec_simd c B n m out p len) (signed_sqrt_vec_simd c B n m out q len) out len.
Proof. exact C89_signed_sqrt_vec_simd_lemma. Qed.

Example C89_signed_sqrt_vec_simd_ex :
  forall (n : nans (fmt_of AVX32)), isa_of AVX32 <> NEON /\ simd_call_fits AVX32 loud 0 32 [APtr 16; APtr 80] /\ scales (farith n) loud (2 * 1) (APtr 16) (APtr 80) 32.
Proof. intros n. loud_tac. Qed.

(** Where something does underflow, the product need not scale. *)
Theorem C89_times_underflow_refuted : 
  forall (t : fmt) (n : nans t), exists (m : mem (F t)) (out k : Z) (a1 a2 b1 : arg (F t)) (len : Z), call_fits m out len [a1; a2; b1] /\
    scales (farith n) m k a1 b1 len /\
    ~ alike (times_power k) m (times_vec (farith n) (fops_scalar n) m out a1 a2 len) (times_vec (farith n) (fops_scalar n) m out b1 a2 len) out len.
Proof. exact C89_times_underflow_refuted_lemma. Qed.

Example C89_times_underflow_refuted_ex :
  val (f_lit F32 1 (-149)) = bpow radix2 (-149).
Proof. destruct (f_lit_exact (t := F32) 1 (-149)) as (_ & V & _); [vm_compute; discriminate|vm_compute; discriminate|reflexivity|]. rewrite V. apply Rmult_1_l. Qed.

(** All theorems of this file together, for one run of Print Assumptions. *)
Definition all_Gain := (
  C89_plus_vec,
  C89_plus_vec_simd,
  C89_minus_vec,
  C89_minus_vec_simd,
  C89_sum2_vec,
  C89_sum2_vec_simd,
  C89_sum3_vec,
  C89_sum3_vec_simd,
  C89_sum4_vec,
  C89_sum4_vec_simd,
  C89_min_vec,
  C89_min_vec_simd,
  C89_max_vec,
  C89_max_vec_simd,
  C89_clip_vec,
  C89_clip_vec_simd,
  C89_clip2_vec,
  C89_clip2_vec_simd,
  C89_times_vec,
  C89_times_vec_simd,
  C89_mix_vec,
  C89_mix_vec_simd,
  C89_muladd_vec,
  C89_muladd_vec_simd,
  C89_ampmod_vec,
  C89_ampmod_vec_simd,
  C89_over_vec,
  C89_over_vec_simd,
  C89_over_divisor_vec,
  C89_over_divisor_vec_simd,
  C89_abs_vec,
  C89_abs_vec_simd,
  C89_square_vec,
  C89_square_vec_simd,
  C89_signed_sqrt_vec,
  C89_signed_sqrt_vec_simd,
  C89_times_underflow_refuted).
Print Assumptions all_Gain.
