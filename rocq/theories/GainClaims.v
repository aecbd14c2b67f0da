(** Proofs of the statements of Prop_Gain.v. *)
From Coq Require Import ZArith Reals List Lia Bool Lra.
From Flocq Require Import Core IEEE754.Binary IEEE754.Bits.
From Verif Require Import
  Base Mem Backend Args Drivers Functors Lanes Float LaneOps FloatOps VecMath FloatFuns Spec SpecLane SpecAgree SpecAlike SpecSwap SpecGain
  FloatFacts LaneFacts FloatRound VecFacts VecMore VecMore2 KeepFacts MemClaims AgreeFacts AlikeFacts ExData ExFloat ExMath SwapFacts GainFacts.
Import ListNotations.
Local Open Scope Z_scope.

Lemma C89_plus_vec_lemma : 
  forall (t : fmt) (n : nans t) (m : mem (F t)) (out k : Z) (a1 a2 b1 b2 : arg (F t)) (len : Z), call_fits m out len [a1; a2; b1; b2] ->
    scales (farith n) m k a1 b1 len -> scales (farith n) m k a2 b2 len -> 
    alike (times_power k) m (plus_vec (farith n) (fops_scalar n) m out a1 a2 len) (plus_vec (farith n) (fops_scalar n) m out b1 b2 len) out len.
Proof.
  intros t n m out k a1 a2 b1 b2 len H J0 J1. fits H. eapply alike_leaves; [apply C18_plus_vec_lemma; tauto|apply C18_plus_vec_lemma; tauto|]. lanes. gains. apply tp_add; apply tp_of; assumption.
Qed.

Lemma C89_plus_vec_simd_lemma : 
  forall (c : cfg) (B : backend) (n : nans (fmt_of B)) (m : mem (F (fmt_of B))) (out k : Z) (a1 a2 b1 b2 : arg (F (fmt_of B))) (len : Z), simd_call_fits B m out len [a1; a2; b1; b2] ->
    scales (farith n) m k a1 b1 len -> scales (farith n) m k a2 b2 len -> 
    alike (times_power k) m (plus_vec_simd (farith n) (fops c B n) B m out a1 a2 len) (plus_vec_simd (farith n) (fops c B n) B m out b1 b2 len) out len.
Proof.
  intros c B n m out k a1 a2 b1 b2 len H J0 J1. fits_simd H. eapply alike_leaves; [apply C18_plus_vec_simd_lemma; tauto|apply C18_plus_vec_simd_lemma; tauto|]. lanes. gains. apply tp_add; apply tp_of; assumption.
Qed.

Lemma C89_minus_vec_lemma : 
  forall (t : fmt) (n : nans t) (m : mem (F t)) (out k : Z) (a1 a2 b1 b2 : arg (F t)) (len : Z), call_fits m out len [a1; a2; b1; b2] ->
    scales (farith n) m k a1 b1 len -> scales (farith n) m k a2 b2 len -> 
    alike (times_power k) m (minus_vec (farith n) (fops_scalar n) m out a1 a2 len) (minus_vec (farith n) (fops_scalar n) m out b1 b2 len) out len.
Proof.
  intros t n m out k a1 a2 b1 b2 len H J0 J1. fits H. eapply alike_leaves; [apply C18_minus_vec_lemma; tauto|apply C18_minus_vec_lemma; tauto|]. lanes. gains. apply tp_sub; apply tp_of; assumption.
Qed.

Lemma C89_minus_vec_simd_lemma : 
  forall (c : cfg) (B : backend) (n : nans (fmt_of B)) (m : mem (F (fmt_of B))) (out k : Z) (a1 a2 b1 b2 : arg (F (fmt_of B))) (len : Z), simd_call_fits B m out len [a1; a2; b1; b2] ->
    scales (farith n) m k a1 b1 len -> scales (farith n) m k a2 b2 len -> 
    alike (times_power k) m (minus_vec_simd (farith n) (fops c B n) B m out a1 a2 len) (minus_vec_simd (farith n) (fops c B n) B m out b1 b2 len) out len.
Proof.
  intros c B n m out k a1 a2 b1 b2 len H J0 J1. fits_simd H. eapply alike_leaves; [apply C18_minus_vec_simd_lemma; tauto|apply C18_minus_vec_simd_lemma; tauto|]. lanes. gains. apply tp_sub; apply tp_of; assumption.
Qed.

Lemma C89_sum2_vec_lemma : 
  forall (t : fmt) (n : nans t) (m : mem (F t)) (out k : Z) (a1 a2 b1 b2 : arg (F t)) (len : Z), call_fits m out len [a1; a2; b1; b2] ->
    scales (farith n) m k a1 b1 len -> scales (farith n) m k a2 b2 len -> 
    alike (times_power k) m (sum_vec2 (farith n) (fops_scalar n) m out a1 a2 len) (sum_vec2 (farith n) (fops_scalar n) m out b1 b2 len) out len.
Proof.
  intros t n m out k a1 a2 b1 b2 len H J0 J1. fits H. eapply alike_leaves; [apply C18_sum_vec2_lemma; tauto|apply C18_sum_vec2_lemma; tauto|]. lanes. gains. apply tp_add; apply tp_of; assumption.
Qed.

Lemma C89_sum2_vec_simd_lemma : 
  forall (c : cfg) (B : backend) (n : nans (fmt_of B)) (m : mem (F (fmt_of B))) (out k : Z) (a1 a2 b1 b2 : arg (F (fmt_of B))) (len : Z), simd_call_fits B m out len [a1; a2; b1; b2] ->
    scales (farith n) m k a1 b1 len -> scales (farith n) m k a2 b2 len -> 
    alike (times_power k) m (sum_vec2_simd (farith n) (fops c B n) B m out a1 a2 len) (sum_vec2_simd (farith n) (fops c B n) B m out b1 b2 len) out len.
Proof.
  intros c B n m out k a1 a2 b1 b2 len H J0 J1. fits_simd H. eapply alike_leaves; [apply C18_sum_vec2_simd_lemma; tauto|apply C18_sum_vec2_simd_lemma; tauto|]. lanes. gains. apply tp_add; apply tp_of; assumption.
Qed.

Lemma C89_sum3_vec_lemma : 
  forall (t : fmt) (n : nans t) (m : mem (F t)) (out k : Z) (a1 a2 a3 b1 b2 b3 : arg (F t)) (len : Z), call_fits m out len [a1; a2; a3; b1; b2; b3] ->
    scales (farith n) m k a1 b1 len -> scales (farith n) m k a2 b2 len -> scales (farith n) m k a3 b3 len -> 
    alike (times_power k) m (sum_vec3 (farith n) (fops_scalar n) m out a1 a2 a3 len) (sum_vec3 (farith n) (fops_scalar n) m out b1 b2 b3 len) out len.
Proof.
  intros t n m out k a1 a2 a3 b1 b2 b3 len H J0 J1 J2. fits H. eapply alike_leaves; [apply C18_sum_vec3_lemma; tauto|apply C18_sum_vec3_lemma; tauto|]. lanes. gains. apply tp_add; [apply tp_add|]; apply tp_of; assumption.
Qed.

Lemma C89_sum3_vec_simd_lemma : 
  forall (c : cfg) (B : backend) (n : nans (fmt_of B)) (m : mem (F (fmt_of B))) (out k : Z) (a1 a2 a3 b1 b2 b3 : arg (F (fmt_of B))) (len : Z), simd_call_fits B m out len [a1; a2; a3; b1; b2; b3] ->
    scales (farith n) m k a1 b1 len -> scales (farith n) m k a2 b2 len -> scales (farith n) m k a3 b3 len -> 
    alike (times_power k) m (sum_vec3_simd (farith n) (fops c B n) B m out a1 a2 a3 len) (sum_vec3_simd (farith n) (fops c B n) B m out b1 b2 b3 len) out len.
Proof.
  intros c B n m out k a1 a2 a3 b1 b2 b3 len H J0 J1 J2. fits_simd H. eapply alike_leaves; [apply C18_sum_vec3_simd_lemma; tauto|apply C18_sum_vec3_simd_lemma; tauto|]. lanes. gains. apply tp_add; [apply tp_add|]; apply tp_of; assumption.
Qed.

Lemma C89_sum4_vec_lemma : 
  forall (t : fmt) (n : nans t) (m : mem (F t)) (out k : Z) (a1 a2 a3 a4 b1 b2 b3 b4 : arg (F t)) (len : Z), call_fits m out len [a1; a2; a3; a4; b1; b2; b3; b4] ->
    scales (farith n) m k a1 b1 len -> scales (farith n) m k a2 b2 len -> scales (farith n) m k a3 b3 len -> scales (farith n) m k a4 b4 len -> 
    alike (times_power k) m (sum_vec4 (farith n) (fops_scalar n) m out a1 a2 a3 a4 len) (sum_vec4 (farith n) (fops_scalar n) m out b1 b2 b3 b4 len) out len.
Proof.
  intros t n m out k a1 a2 a3 a4 b1 b2 b3 b4 len H J0 J1 J2 J3. fits H. eapply alike_leaves; [apply C18_sum_vec4_lemma; tauto|apply C18_sum_vec4_lemma; tauto|]. lanes. gains. apply tp_add; apply tp_add; apply tp_of; assumption.
Qed.

Lemma C89_sum4_vec_simd_lemma : 
  forall (c : cfg) (B : backend) (n : nans (fmt_of B)) (m : mem (F (fmt_of B))) (out k : Z) (a1 a2 a3 a4 b1 b2 b3 b4 : arg (F (fmt_of B))) (len : Z), simd_call_fits B m out len [a1; a2; a3; a4; b1; b2; b3; b4] ->
    scales (farith n) m k a1 b1 len -> scales (farith n) m k a2 b2 len -> scales (farith n) m k a3 b3 len -> scales (farith n) m k a4 b4 len -> 
    alike (times_power k) m (sum_vec4_simd (farith n) (fops c B n) B m out a1 a2 a3 a4 len) (sum_vec4_simd (farith n) (fops c B n) B m out b1 b2 b3 b4 len) out len.
Proof.
  intros c B n m out k a1 a2 a3 a4 b1 b2 b3 b4 len H J0 J1 J2 J3. fits_simd H. eapply alike_leaves; [apply C18_sum_vec4_simd_lemma; tauto|apply C18_sum_vec4_simd_lemma; tauto|]. lanes. gains. apply tp_add; apply tp_add; apply tp_of; assumption.
Qed.

Lemma C89_min_vec_lemma : 
  forall (t : fmt) (n : nans t) (m : mem (F t)) (out k : Z) (a1 a2 b1 b2 : arg (F t)) (len : Z), call_fits m out len [a1; a2; b1; b2] ->
    scales (farith n) m k a1 b1 len -> scales (farith n) m k a2 b2 len -> 
    alike (times_power k) m (min_vec (farith n) (fops_scalar n) m out a1 a2 len) (min_vec (farith n) (fops_scalar n) m out b1 b2 len) out len.
Proof.
  intros t n m out k a1 a2 b1 b2 len H J0 J1. fits H. eapply alike_leaves; [apply C18_min_vec_lemma; tauto|apply C18_min_vec_lemma; tauto|]. lanes. gains. apply tp_of, (fs_smin n); assumption.
Qed.

Lemma C89_min_vec_simd_lemma : 
  forall (c : cfg) (B : backend) (n : nans (fmt_of B)) (m : mem (F (fmt_of B))) (out k : Z) (a1 a2 b1 b2 : arg (F (fmt_of B))) (len : Z), simd_call_fits B m out len [a1; a2; b1; b2] ->
    scales (farith n) m k a1 b1 len -> scales (farith n) m k a2 b2 len -> 
    alike (times_power k) m (min_vec_simd (farith n) (fops c B n) B m out a1 a2 len) (min_vec_simd (farith n) (fops c B n) B m out b1 b2 len) out len.
Proof.
  intros c B n m out k a1 a2 b1 b2 len H J0 J1. fits_simd H. eapply alike_leaves; [apply C18_min_vec_simd_lemma; tauto|apply C18_min_vec_simd_lemma; tauto|]. lanes. gains. apply tp_of, fs_vmin; assumption.
Qed.

Lemma C89_max_vec_lemma : 
  forall (t : fmt) (n : nans t) (m : mem (F t)) (out k : Z) (a1 a2 b1 b2 : arg (F t)) (len : Z), call_fits m out len [a1; a2; b1; b2] ->
    scales (farith n) m k a1 b1 len -> scales (farith n) m k a2 b2 len -> 
    alike (times_power k) m (max_vec (farith n) (fops_scalar n) m out a1 a2 len) (max_vec (farith n) (fops_scalar n) m out b1 b2 len) out len.
Proof.
  intros t n m out k a1 a2 b1 b2 len H J0 J1. fits H. eapply alike_leaves; [apply C18_max_vec_lemma; tauto|apply C18_max_vec_lemma; tauto|]. lanes. gains. apply tp_of, (fs_smax n); assumption.
Qed.

Lemma C89_max_vec_simd_lemma : 
  forall (c : cfg) (B : backend) (n : nans (fmt_of B)) (m : mem (F (fmt_of B))) (out k : Z) (a1 a2 b1 b2 : arg (F (fmt_of B))) (len : Z), simd_call_fits B m out len [a1; a2; b1; b2] ->
    scales (farith n) m k a1 b1 len -> scales (farith n) m k a2 b2 len -> 
    alike (times_power k) m (max_vec_simd (farith n) (fops c B n) B m out a1 a2 len) (max_vec_simd (farith n) (fops c B n) B m out b1 b2 len) out len.
Proof.
  intros c B n m out k a1 a2 b1 b2 len H J0 J1. fits_simd H. eapply alike_leaves; [apply C18_max_vec_simd_lemma; tauto|apply C18_max_vec_simd_lemma; tauto|]. lanes. gains. apply tp_of, fs_vmax; assumption.
Qed.

Lemma C89_clip_vec_lemma : 
  forall (t : fmt) (n : nans t) (m : mem (F t)) (out k : Z) (a1 a2 a3 b1 b2 b3 : arg (F t)) (len : Z), call_fits m out len [a1; a2; a3; b1; b2; b3] ->
    scales (farith n) m k a1 b1 len -> scales (farith n) m k a2 b2 len -> scales (farith n) m k a3 b3 len -> 
    alike (times_power k) m (clip_vec (farith n) (fops_scalar n) m out a1 a2 a3 len) (clip_vec (farith n) (fops_scalar n) m out b1 b2 b3 len) out len.
Proof.
  intros t n m out k a1 a2 a3 b1 b2 b3 len H J0 J1 J2. fits H. eapply alike_leaves; [apply C18_clip_vec_lemma; tauto|apply C18_clip_vec_lemma; tauto|]. lanes. gains. apply tp_of, (fs_smax n); [apply (fs_smin n)|]; assumption.
Qed.

Lemma C89_clip_vec_simd_lemma : 
  forall (c : cfg) (B : backend) (n : nans (fmt_of B)) (m : mem (F (fmt_of B))) (out k : Z) (a1 a2 a3 b1 b2 b3 : arg (F (fmt_of B))) (len : Z), simd_call_fits B m out len [a1; a2; a3; b1; b2; b3] ->
    scales (farith n) m k a1 b1 len -> scales (farith n) m k a2 b2 len -> scales (farith n) m k a3 b3 len -> 
    alike (times_power k) m (clip_vec_simd (farith n) (fops c B n) B m out a1 a2 a3 len) (clip_vec_simd (farith n) (fops c B n) B m out b1 b2 b3 len) out len.
Proof.
  intros c B n m out k a1 a2 a3 b1 b2 b3 len H J0 J1 J2. fits_simd H. eapply alike_leaves; [apply C18_clip_vec_simd_lemma; tauto|apply C18_clip_vec_simd_lemma; tauto|]. lanes. gains. apply tp_of, fs_vmax; [apply fs_vmin|]; assumption.
Qed.

Lemma C89_clip2_vec_lemma : 
  forall (t : fmt) (n : nans t) (m : mem (F t)) (out k : Z) (a1 a2 b1 b2 : arg (F t)) (len : Z), call_fits m out len [a1; a2; b1; b2] ->
    scales (farith n) m k a1 b1 len -> scales (farith n) m k a2 b2 len -> 
    alike (times_power k) m (clip2_vec (farith n) (fops_scalar n) m out a1 a2 len) (clip2_vec (farith n) (fops_scalar n) m out b1 b2 len) out len.
Proof.
  intros t n m out k a1 a2 b1 b2 len H J0 J1. fits H. eapply alike_leaves; [apply C18_clip2_vec_lemma; tauto|apply C18_clip2_vec_lemma; tauto|]. lanes. gains. apply tp_of, (fs_smax n); [apply fs_neg|apply (fs_smin n)]; assumption.
Qed.

Lemma C89_clip2_vec_simd_lemma : 
  forall (c : cfg) (B : backend) (n : nans (fmt_of B)) (m : mem (F (fmt_of B))) (out k : Z) (a1 a2 b1 b2 : arg (F (fmt_of B))) (len : Z), simd_call_fits B m out len [a1; a2; b1; b2] ->
    scales (farith n) m k a1 b1 len -> scales (farith n) m k a2 b2 len -> 
    alike (times_power k) m (clip2_vec_simd (farith n) (fops c B n) B m out a1 a2 len) (clip2_vec_simd (farith n) (fops c B n) B m out b1 b2 len) out len.
Proof.
  intros c B n m out k a1 a2 b1 b2 len H J0 J1. fits_simd H. eapply alike_leaves; [apply C18_clip2_vec_simd_lemma; tauto|apply C18_clip2_vec_simd_lemma; tauto|]. lanes. gains. apply tp_of, fs_vmax; [apply fs_neg|apply fs_vmin]; assumption.
Qed.

Lemma C89_times_vec_lemma : 
  forall (t : fmt) (n : nans t) (m : mem (F t)) (out k : Z) (a1 a2 b1 : arg (F t)) (len : Z), call_fits m out len [a1; a2; b1] ->
    scales (farith n) m k a1 b1 len -> products_fit (farith n) m a1 a2 len -> products_fit (farith n) m b1 a2 len -> 
    alike (times_power k) m (times_vec (farith n) (fops_scalar n) m out a1 a2 len) (times_vec (farith n) (fops_scalar n) m out b1 a2 len) out len.
Proof.
  intros t n m out k a1 a2 b1 len H J0 J1 J2. fits H. eapply alike_leaves; [apply C18_times_vec_lemma; tauto|apply C18_times_vec_lemma; tauto|]. lanes. gains. apply (tp_mul n GEN); assumption.
Qed.

Lemma C89_times_vec_simd_lemma : 
  forall (c : cfg) (B : backend) (n : nans (fmt_of B)) (m : mem (F (fmt_of B))) (out k : Z) (a1 a2 b1 : arg (F (fmt_of B))) (len : Z), simd_call_fits B m out len [a1; a2; b1] ->
    scales (farith n) m k a1 b1 len -> products_fit (farith n) m a1 a2 len -> products_fit (farith n) m b1 a2 len -> 
    alike (times_power k) m (times_vec_simd (farith n) (fops c B n) B m out a1 a2 len) (times_vec_simd (farith n) (fops c B n) B m out b1 a2 len) out len.
Proof.
  intros c B n m out k a1 a2 b1 len H J0 J1 J2. fits_simd H. eapply alike_leaves; [apply C18_times_vec_simd_lemma; tauto|apply C18_times_vec_simd_lemma; tauto|]. lanes. gains. apply tp_mul; assumption.
Qed.

Lemma C89_mix_vec_lemma : 
  forall (t : fmt) (n : nans t) (m : mem (F t)) (out k : Z) (a1 a2 a3 a4 b1 b3 : arg (F t)) (len : Z), call_fits m out len [a1; a2; a3; a4; b1; b3] ->
    scales (farith n) m k a1 b1 len -> scales (farith n) m k a3 b3 len -> products_fit (farith n) m a1 a2 len -> products_fit (farith n) m b1 a2 len -> products_fit (farith n) m a3 a4 len -> products_fit (farith n) m b3 a4 len -> 
    alike (times_power k) m (mix_vec (farith n) (fops_scalar n) m out a1 a2 a3 a4 len) (mix_vec (farith n) (fops_scalar n) m out b1 a2 b3 a4 len) out len.
Proof.
  intros t n m out k a1 a2 a3 a4 b1 b3 len H J0 J1 J2 J3 J4 J5. fits H. eapply alike_leaves; [apply C18_mix_vec_lemma; tauto|apply C18_mix_vec_lemma; tauto|]. lanes. gains. apply tp_add; apply (tp_mul n GEN); assumption.
Qed.

Lemma C89_mix_vec_simd_lemma : 
  forall (c : cfg) (B : backend) (n : nans (fmt_of B)) (m : mem (F (fmt_of B))) (out k : Z) (a1 a2 a3 a4 b1 b3 : arg (F (fmt_of B))) (len : Z), simd_call_fits B m out len [a1; a2; a3; a4; b1; b3] ->
    scales (farith n) m k a1 b1 len -> scales (farith n) m k a3 b3 len -> products_fit (farith n) m a1 a2 len -> products_fit (farith n) m b1 a2 len -> products_fit (farith n) m a3 a4 len -> products_fit (farith n) m b3 a4 len -> 
    alike (times_power k) m (mix_vec_simd (farith n) (fops c B n) B m out a1 a2 a3 a4 len) (mix_vec_simd (farith n) (fops c B n) B m out b1 a2 b3 a4 len) out len.
Proof.
  intros c B n m out k a1 a2 a3 a4 b1 b3 len H J0 J1 J2 J3 J4 J5. fits_simd H. eapply alike_leaves; [apply C18_mix_vec_simd_lemma; tauto|apply C18_mix_vec_simd_lemma; tauto|]. lanes. gains. apply tp_add; apply tp_mul; assumption.
Qed.

Lemma C89_muladd_vec_lemma : 
  forall (t : fmt) (n : nans t) (m : mem (F t)) (out k : Z) (a1 a2 a3 b1 b3 : arg (F t)) (len : Z), call_fits m out len [a1; a2; a3; b1; b3] ->
    scales (farith n) m k a1 b1 len -> scales (farith n) m k a3 b3 len -> products_fit (farith n) m a1 a2 len -> products_fit (farith n) m b1 a2 len -> 
    alike (times_power k) m (muladd_vec (farith n) (fops_scalar n) m out a1 a2 a3 len) (muladd_vec (farith n) (fops_scalar n) m out b1 a2 b3 len) out len.
Proof.
  intros t n m out k a1 a2 a3 b1 b3 len H J0 J1 J2 J3. fits H. eapply alike_leaves; [apply C18_muladd_vec_lemma; tauto|apply C18_muladd_vec_lemma; tauto|]. lanes. gains. apply tp_add; [apply (tp_mul n GEN); assumption|apply tp_of; assumption].
Qed.

Lemma C89_muladd_vec_simd_lemma : 
  forall (c : cfg) (B : backend) (n : nans (fmt_of B)) (m : mem (F (fmt_of B))) (out k : Z) (a1 a2 a3 b1 b3 : arg (F (fmt_of B))) (len : Z), simd_call_fits B m out len [a1; a2; a3; b1; b3] ->
    scales (farith n) m k a1 b1 len -> scales (farith n) m k a3 b3 len -> products_fit (farith n) m a1 a2 len -> products_fit (farith n) m b1 a2 len -> muladds_fit (farith n) m a1 a2 a3 len -> muladds_fit (farith n) m b1 a2 b3 len -> 
    alike (times_power k) m (muladd_vec_simd (farith n) (fops c B n) B m out a1 a2 a3 len) (muladd_vec_simd (farith n) (fops c B n) B m out b1 a2 b3 len) out len.
Proof.
  intros c B n m out k a1 a2 a3 b1 b3 len H J0 J1 J2 J3 J4 J5. fits_simd H. eapply alike_leaves; [apply C18_muladd_vec_simd_lemma; tauto|apply C18_muladd_vec_simd_lemma; tauto|]. lanes. gains. apply tp_madd; assumption.
Qed.

Lemma C89_ampmod_vec_lemma : 
  forall (t : fmt) (n : nans t) (m : mem (F t)) (out k : Z) (a1 a2 a3 b1 : arg (F t)) (len : Z), call_fits m out len [a1; a2; a3; b1] ->
    scales (farith n) m k a1 b1 len -> 
    alike (times_power_normal k) m (ampmod_vec (farith n) (fops_scalar n) m out a1 a2 a3 len) (ampmod_vec (farith n) (fops_scalar n) m out b1 a2 a3 len) out len.
Proof.
  intros t n m out k a1 a2 a3 b1 len H J0. fits H. eapply alike_leaves; [apply C18_ampmod_vec_lemma; tauto|apply C18_ampmod_vec_lemma; tauto|]. lanes. gains. apply (tp_mul_normal n GEN); assumption.
Qed.

Lemma C89_ampmod_vec_simd_lemma : 
  forall (c : cfg) (B : backend) (n : nans (fmt_of B)) (m : mem (F (fmt_of B))) (out k : Z) (a1 a2 a3 b1 : arg (F (fmt_of B))) (len : Z), simd_call_fits B m out len [a1; a2; a3; b1] ->
    scales (farith n) m k a1 b1 len -> 
    alike (times_power_normal k) m (ampmod_vec_simd (farith n) (fops c B n) B m out a1 a2 a3 len) (ampmod_vec_simd (farith n) (fops c B n) B m out b1 a2 a3 len) out len.
Proof.
  intros c B n m out k a1 a2 a3 b1 len H J0. fits_simd H. eapply alike_leaves; [apply C18_ampmod_vec_simd_lemma; tauto|apply C18_ampmod_vec_simd_lemma; tauto|]. lanes. gains. apply tp_mul_normal; assumption.
Qed.

Lemma C89_over_vec_lemma : 
  forall (t : fmt) (n : nans t) (m : mem (F t)) (out k : Z) (a1 a2 b1 : arg (F t)) (len : Z), call_fits m out len [a1; a2; b1] ->
    scales (farith n) m k a1 b1 len -> quotients_fit (farith n) m a1 a2 len -> quotients_fit (farith n) m b1 a2 len -> 
    alike (times_power k) m (over_vec (farith n) (fops_scalar n) m out a1 a2 len) (over_vec (farith n) (fops_scalar n) m out b1 a2 len) out len.
Proof.
  intros t n m out k a1 a2 b1 len H J0 J1 J2. fits H. eapply alike_leaves; [apply C18_over_vec_lemma; tauto|apply C18_over_vec_lemma; tauto|]. lanes. gains. apply tp_div; assumption.
Qed.

Lemma C89_over_vec_simd_lemma : 
  forall (c : cfg) (B : backend) (n : nans (fmt_of B)) (m : mem (F (fmt_of B))) (out k : Z) (a1 a2 b1 : arg (F (fmt_of B))) (len : Z), divides B = true -> simd_call_fits B m out len [a1; a2; b1] ->
    scales (farith n) m k a1 b1 len -> quotients_fit (farith n) m a1 a2 len -> quotients_fit (farith n) m b1 a2 len -> 
    alike (times_power k) m (over_vec_simd (farith n) (fops c B n) B m out a1 a2 len) (over_vec_simd (farith n) (fops c B n) B m out b1 a2 len) out len.
Proof.
  intros c B n m out k a1 a2 b1 len HB H J0 J1 J2. fits_simd H. eapply alike_leaves; [apply C18_over_vec_simd_lemma; tauto|apply C18_over_vec_simd_lemma; tauto|]. lanes. gains. apply tp_div; assumption.
Qed.

Lemma C89_over_divisor_vec_lemma : 
  forall (t : fmt) (n : nans t) (m : mem (F t)) (out k : Z) (a1 a2 b2 : arg (F t)) (len : Z), call_fits m out len [a1; a2; b2] ->
    scales (farith n) m k a2 b2 len -> quotients_fit (farith n) m a1 a2 len -> quotients_fit (farith n) m a1 b2 len -> 
    alike (times_power (- k)) m (over_vec (farith n) (fops_scalar n) m out a1 a2 len) (over_vec (farith n) (fops_scalar n) m out a1 b2 len) out len.
Proof.
  intros t n m out k a1 a2 b2 len H J0 J1 J2. fits H. eapply alike_leaves; [apply C18_over_vec_lemma; tauto|apply C18_over_vec_lemma; tauto|]. lanes. gains. apply tp_div_r; assumption.
Qed.

Lemma C89_over_divisor_vec_simd_lemma : 
  forall (c : cfg) (B : backend) (n : nans (fmt_of B)) (m : mem (F (fmt_of B))) (out k : Z) (a1 a2 b2 : arg (F (fmt_of B))) (len : Z), divides B = true -> simd_call_fits B m out len [a1; a2; b2] ->
    scales (farith n) m k a2 b2 len -> quotients_fit (farith n) m a1 a2 len -> quotients_fit (farith n) m a1 b2 len -> 
    alike (times_power (- k)) m (over_vec_simd (farith n) (fops c B n) B m out a1 a2 len) (over_vec_simd (farith n) (fops c B n) B m out a1 b2 len) out len.
Proof.
  intros c B n m out k a1 a2 b2 len HB H J0 J1 J2. fits_simd H. eapply alike_leaves; [apply C18_over_vec_simd_lemma; tauto|apply C18_over_vec_simd_lemma; tauto|]. lanes. gains. apply tp_div_r; assumption.
Qed.

Lemma C89_abs_vec_lemma : 
  forall (B : backend) (n : nans (fmt_of B)) (m : mem (F (fmt_of B))) (out k p q len : Z), call_fits m out len [APtr p; APtr q] ->
    scales (farith n) m (k) (APtr p) (APtr q) len -> 
    alike (times_power (k)) m (abs_vec B m out p len) (abs_vec B m out q len) out len.
Proof.
  intros B n m out k p q len H J0. fits H. eapply alike_leaves; [apply (unary_leaves (farith n)); tauto|apply (unary_leaves (farith n)); tauto|].
  intros i u v Hi U V. cbv beta in U, V. destruct (m (p + i)) as [x|] eqn:E1; [|clear - U; discriminate U]. destruct (m (q + i)) as [y|] eqn:E2; [|discriminate V].
  cbn [lift1] in U, V. injection U as <-. injection V as <-. change (sample (farith n) m (APtr p) i = Some x) in E1. change (sample (farith n) m (APtr q) i = Some y) in E2.
  gains. apply tp_of, fs_abs; assumption.
Qed.

Lemma C89_abs_vec_simd_lemma : 
  forall (c : cfg) (B : backend) (n : nans (fmt_of B)) (m : mem (F (fmt_of B))) (out k p q len : Z), simd_call_fits B m out len [APtr p; APtr q] ->
    scales (farith n) m (k) (APtr p) (APtr q) len -> 
    alike (times_power (k)) m (abs_vec_simd c B n m out p len) (abs_vec_simd c B n m out q len) out len.
Proof.
  intros c B n m out k p q len H J0. fits_simd H. eapply alike_leaves; [apply unary_simd_leaves; tauto|apply unary_simd_leaves; tauto|].
  intros i u v Hi U V. cbv beta in U, V. destruct (m (p + i)) as [x|] eqn:E1; [|clear - U; discriminate U]. destruct (m (q + i)) as [y|] eqn:E2; [|discriminate V].
  cbn [lift1] in U, V. injection U as <-. injection V as <-. change (sample (farith n) m (APtr p) i = Some x) in E1. change (sample (farith n) m (APtr q) i = Some y) in E2.
  gains. rewrite !vabs_fabs; apply tp_of, fs_abs; assumption.
Qed.

Lemma C89_square_vec_lemma : 
  forall (B : backend) (n : nans (fmt_of B)) (m : mem (F (fmt_of B))) (out k p q len : Z), call_fits m out len [APtr p; APtr q] ->
    scales (farith n) m (k) (APtr p) (APtr q) len -> products_fit (farith n) m (APtr p) (APtr p) len -> products_fit (farith n) m (APtr q) (APtr q) len -> 
    alike (times_power (2 * k)) m (square_vec B n m out p len) (square_vec B n m out q len) out len.
Proof.
  intros B n m out k p q len H J0 J1 J2. fits H. eapply alike_leaves; [apply (unary_leaves (farith n)); tauto|apply (unary_leaves (farith n)); tauto|].
  intros i u v Hi U V. cbv beta in U, V. destruct (m (p + i)) as [x|] eqn:E1; [|clear - U; discriminate U]. destruct (m (q + i)) as [y|] eqn:E2; [|discriminate V].
  cbn [lift1] in U, V. injection U as <-. injection V as <-. change (sample (farith n) m (APtr p) i = Some x) in E1. change (sample (farith n) m (APtr q) i = Some y) in E2.
  gains. apply (tp_square n GEN); assumption.
Qed.

Lemma C89_square_vec_simd_lemma : 
  forall (B : backend) (n : nans (fmt_of B)) (m : mem (F (fmt_of B))) (out k p q len : Z), simd_call_fits B m out len [APtr p; APtr q] ->
    scales (farith n) m (k) (APtr p) (APtr q) len -> products_fit (farith n) m (APtr p) (APtr p) len -> products_fit (farith n) m (APtr q) (APtr q) len -> 
    alike (times_power (2 * k)) m (square_vec_simd B n m out p len) (square_vec_simd B n m out q len) out len.
Proof.
  intros B n m out k p q len H J0 J1 J2. fits_simd H. eapply alike_leaves; [apply unary_simd_leaves; tauto|apply unary_simd_leaves; tauto|].
  intros i u v Hi U V. cbv beta in U, V. destruct (m (p + i)) as [x|] eqn:E1; [|clear - U; discriminate U]. destruct (m (q + i)) as [y|] eqn:E2; [|discriminate V].
  cbn [lift1] in U, V. injection U as <-. injection V as <-. change (sample (farith n) m (APtr p) i = Some x) in E1. change (sample (farith n) m (APtr q) i = Some y) in E2.
  gains. apply tp_square; assumption.
Qed.

Lemma C89_signed_sqrt_vec_lemma : 
  forall (B : backend) (n : nans (fmt_of B)) (m : mem (F (fmt_of B))) (out k p q len : Z), call_fits m out len [APtr p; APtr q] ->
    scales (farith n) m (2 * k) (APtr p) (APtr q) len -> 
    alike (times_power (k)) m (signed_sqrt_vec B n m out p len) (signed_sqrt_vec B n m out q len) out len.
Proof.
  intros B n m out k p q len H J0. fits H. eapply alike_leaves; [apply (unary_leaves (farith n)); tauto|apply (unary_leaves (farith n)); tauto|].
  intros i u v Hi U V. cbv beta in U, V. destruct (m (p + i)) as [x|] eqn:E1; [|clear - U; discriminate U]. destruct (m (q + i)) as [y|] eqn:E2; [|discriminate V].
  cbn [lift1] in U, V. injection U as <-. injection V as <-. change (sample (farith n) m (APtr p) i = Some x) in E1. change (sample (farith n) m (APtr q) i = Some y) in E2.
  gains. apply tp_ssqrt; assumption.
Qed.

Lemma C89_signed_sqrt_vec_simd_lemma : 
  forall (c : cfg) (B : backend) (n : nans (fmt_of B)) (m : mem (F (fmt_of B))) (out k p q len : Z), isa_of B <> NEON -> simd_call_fits B m out len [APtr p; APtr q] ->
    scales (farith n) m (2 * k) (APtr p) (APtr q) len -> 
    alike (times_power (k)) m (signed_sqrt_vec_simd c B n m out p len) (signed_sqrt_vec_simd c B n m out q len) out len.
Proof.
  intros c B n m out k p q len HB H J0. fits_simd H. eapply alike_leaves; [apply unary_simd_leaves; tauto|apply unary_simd_leaves; tauto|].
  intros i u v Hi U V. cbv beta in U, V. destruct (m (p + i)) as [x|] eqn:E1; [|clear - U; discriminate U]. destruct (m (q + i)) as [y|] eqn:E2; [|discriminate V].
  cbn [lift1] in U, V. injection U as <-. injection V as <-. change (sample (farith n) m (APtr p) i = Some x) in E1. change (sample (farith n) m (APtr q) i = Some y) in E2.
  gains. rewrite !vsigned_sqrt_eq by (exact HB || (apply fin_not_nan; match goal with H : fs _ _ _ |- _ => apply H end)); apply tp_ssqrt; assumption.
Qed.

Lemma C89_times_underflow_refuted_lemma : 
  forall (t : fmt) (n : nans t), exists (m : mem (F t)) (out k : Z) (a1 a2 b1 : arg (F t)) (len : Z), call_fits m out len [a1; a2; b1] /\
    scales (farith n) m k a1 b1 len /\
    ~ alike (times_power k) m (times_vec (farith n) (fops_scalar n) m out a1 a2 len) (times_vec (farith n) (fops_scalar n) m out b1 a2 len) out len.
Proof.
  intros t n. set (e := SpecFloat.emin (prec t) (emax t)). set (x := f_lit t 1 e). set (y := f_lit t 2 e). set (h := f_lit t 1 (-1)).
  exists (block 0 32 (fun _ => f_ofZ t 0)), 0, 1, (AScal x), (AScal h), (AScal y), 32.
  assert (H : call_fits (block 0 32 (fun _ => f_ofZ t 0)) 0 32 [AScal x; AScal h; AScal y]) by polar_tac.
  assert (L1 : isfin x = true /\ val x = (IZR 1 * bpow radix2 e)%R) by (destruct (f_lit_exact (t := t) 1 e) as (A & C & _); [destruct t; vm_compute; discriminate|reflexivity || lia|destruct t; reflexivity|auto]).
  assert (L2 : isfin y = true /\ val y = (IZR 2 * bpow radix2 e)%R) by (destruct (f_lit_exact (t := t) 2 e) as (A & C & _); [destruct t; vm_compute; discriminate|reflexivity || lia|destruct t; reflexivity|auto]).
  split; [exact H|]. split.
  { intros i u v _ U V. cbn [sample] in U, V. assert (u = x) as -> by congruence. assert (v = y) as -> by congruence.
    split; [apply L1|]. split; [apply L2|]. destruct L1 as [_ ->], L2 as [_ ->]. change (bpow radix2 1) with 2%R. ring. }
  fits H. intros (m1 & m2 & E1 & E2 & W & _).
  destruct (C18_times_vec_lemma _ (farith n) (fops_scalar n) (block 0 32 (fun _ => f_ofZ t 0)) 0 (AScal x) (AScal h) 32) as (k1 & D1 & M1 & _); [tauto..|].
  destruct (C18_times_vec_lemma _ (farith n) (fops_scalar n) (block 0 32 (fun _ => f_ofZ t 0)) 0 (AScal y) (AScal h) 32) as (k2 & D2 & M2 & _); [tauto..|].
  rewrite E1 in D1. injection D1 as <-. rewrite E2 in D2. injection D2 as <-.
  destruct (W 0) as (u & v & U & V & S); [lia|]. destruct (M1 0) as [M1' _]; [lia|]. destruct (M2 0) as [M2' _]; [lia|]. rewrite U in M1'. rewrite V in M2'.
  cbn [sample lift2] in M1', M2'. cbn [o_mul fops_scalar] in M1', M2'. assert (u = fmul n x h) as -> by congruence. assert (v = fmul n y h) as -> by congruence.
  assert (Q1 : fmul n x h = f_ofZ t 0) by (clear; subst x h e; destruct t; vm_compute; reflexivity).
  assert (Q2 : fmul n y h = x) by (clear; apply bits_inj; subst x y h e; destruct t; vm_compute; reflexivity).
  rewrite Q1, Q2 in S. assert (Z0 : isfin (f_ofZ t 0) = true /\ val (f_ofZ t 0) = 0%R) by (clear; destruct t; split; reflexivity).
  specialize (S (proj1 Z0) (proj1 L1)). destruct L1 as [_ L1], Z0 as [_ Z0]. rewrite L1, Z0 in S. pose proof (bpow_gt_0 radix2 e). lra.
Qed.
