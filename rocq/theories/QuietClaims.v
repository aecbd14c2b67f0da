(** Proofs of the statements of Prop_Quiet.v. *)
From Coq Require Import ZArith Reals List Lia Bool Lra.
From Flocq Require Import Core IEEE754.Binary IEEE754.Bits.
From Verif Require Import
  Base Mem Backend Args Drivers Functors Lanes Float LaneOps FloatOps VecMath FloatFuns Libm Estimate Spec SpecLane SpecMath SpecLib SpecAgree SpecAlike SpecNeutral SpecSwap SpecParts SpecQuiet
  FloatFacts LaneFacts FloatRound ScalarMath VecFacts MemClaims EstimateClaims NeutralFacts SwapFacts ChainFacts QuietFacts.
Import ListNotations.
Local Open Scope Z_scope.

Lemma C94_abs_vec_lemma : 
  forall (B : backend) (n : nans (fmt_of B)) (m : mem (F (fmt_of B))) (out p len : Z), 
    call_fits m out len [APtr p] -> silent (farith n) m (APtr p) len ->
    leaves_silence m (abs_vec B m out p len) out len.
Proof.
  intros B n m out p len H S. fits H. eapply fills_unary; [apply (unary_leaves (farith n)); fitc|exact S|].
  intros x. apply s_q_abs.
Qed.

Lemma C94_abs_vec_simd_lemma : 
  forall (c : cfg) (B : backend) (n : nans (fmt_of B)) (m : mem (F (fmt_of B))) (out p len : Z), 
    simd_call_fits B m out len [APtr p] -> silent (farith n) m (APtr p) len ->
    leaves_silence m (abs_vec_simd c B n m out p len) out len.
Proof.
  intros c B n m out p len H S. fits_simd H. eapply fills_unary; [apply unary_simd_leaves; fitc|exact S|].
  intros x. apply q_abs.
Qed.

Lemma C94_sgn_vec_lemma : 
  forall (B : backend) (n : nans (fmt_of B)) (m : mem (F (fmt_of B))) (out p len : Z), 
    call_fits m out len [APtr p] -> silent (farith n) m (APtr p) len ->
    leaves_silence m (sgn_vec B m out p len) out len.
Proof.
  intros B n m out p len H S. fits H. eapply fills_unary; [apply (unary_leaves (farith n)); fitc|exact S|].
  intros x. apply s_q_sign.
Qed.

Lemma C94_sgn_vec_simd_lemma : 
  forall (c : cfg) (B : backend) (n : nans (fmt_of B)) (m : mem (F (fmt_of B))) (out p len : Z), 
    simd_call_fits B m out len [APtr p] -> silent (farith n) m (APtr p) len ->
    leaves_silence m (sgn_vec_simd c B n m out p len) out len.
Proof.
  intros c B n m out p len H S. fits_simd H. eapply fills_unary; [apply unary_simd_leaves; fitc|exact S|].
  intros x. apply q_sign.
Qed.

Lemma C94_square_vec_lemma : 
  forall (B : backend) (n : nans (fmt_of B)) (m : mem (F (fmt_of B))) (out p len : Z), 
    call_fits m out len [APtr p] -> silent (farith n) m (APtr p) len ->
    leaves_silence m (square_vec B n m out p len) out len.
Proof.
  intros B n m out p len H S. fits H. eapply fills_unary; [apply (unary_leaves (farith n)); fitc|exact S|].
  intros x. apply s_q_square.
Qed.

Lemma C94_square_vec_simd_lemma : 
  forall (c : cfg) (B : backend) (n : nans (fmt_of B)) (m : mem (F (fmt_of B))) (out p len : Z), 
    simd_call_fits B m out len [APtr p] -> silent (farith n) m (APtr p) len ->
    leaves_silence m (square_vec_simd B n m out p len) out len.
Proof.
  intros c B n m out p len H S. fits_simd H. eapply fills_unary; [apply unary_simd_leaves; fitc|exact S|].
  intros x. apply q_square.
Qed.

Lemma C94_cube_vec_lemma : 
  forall (B : backend) (n : nans (fmt_of B)) (m : mem (F (fmt_of B))) (out p len : Z), 
    call_fits m out len [APtr p] -> silent (farith n) m (APtr p) len ->
    leaves_silence m (cube_vec B n m out p len) out len.
Proof.
  intros B n m out p len H S. fits H. eapply fills_unary; [apply (unary_leaves (farith n)); fitc|exact S|].
  intros x. apply s_q_cube.
Qed.

Lemma C94_cube_vec_simd_lemma : 
  forall (c : cfg) (B : backend) (n : nans (fmt_of B)) (m : mem (F (fmt_of B))) (out p len : Z), 
    simd_call_fits B m out len [APtr p] -> silent (farith n) m (APtr p) len ->
    leaves_silence m (cube_vec_simd B n m out p len) out len.
Proof.
  intros c B n m out p len H S. fits_simd H. eapply fills_unary; [apply unary_simd_leaves; fitc|exact S|].
  intros x. apply q_cube.
Qed.

Lemma C94_round_vec_lemma : 
  forall (B : backend) (n : nans (fmt_of B)) (m : mem (F (fmt_of B))) (out p len : Z), 
    call_fits m out len [APtr p] -> silent (farith n) m (APtr p) len ->
    leaves_silence m (round_vec B n m out p len) out len.
Proof.
  intros B n m out p len H S. fits H. eapply fills_unary; [apply (unary_leaves (farith n)); fitc|exact S|].
  intros x. apply s_q_round.
Qed.

Lemma C94_round_vec_simd_lemma : 
  forall (c : cfg) (B : backend) (n : nans (fmt_of B)) (m : mem (F (fmt_of B))) (out p len : Z), 
    simd_call_fits B m out len [APtr p] -> silent (farith n) m (APtr p) len ->
    leaves_silence m (round_vec_simd c B n m out p len) out len.
Proof.
  intros c B n m out p len H S. fits_simd H. eapply fills_unary; [apply unary_simd_leaves; fitc|exact S|].
  intros x. apply q_round.
Qed.

Lemma C94_floor_vec_lemma : 
  forall (B : backend) (n : nans (fmt_of B)) (m : mem (F (fmt_of B))) (out p len : Z), 
    call_fits m out len [APtr p] -> silent (farith n) m (APtr p) len ->
    leaves_silence m (floor_vec B n m out p len) out len.
Proof.
  intros B n m out p len H S. fits H. eapply fills_unary; [apply (unary_leaves (farith n)); fitc|exact S|].
  intros x. apply s_q_floor.
Qed.

Lemma C94_floor_vec_simd_lemma : 
  forall (c : cfg) (B : backend) (n : nans (fmt_of B)) (m : mem (F (fmt_of B))) (out p len : Z), 
    simd_call_fits B m out len [APtr p] -> silent (farith n) m (APtr p) len ->
    leaves_silence m (floor_vec_simd c B n m out p len) out len.
Proof.
  intros c B n m out p len H S. fits_simd H. eapply fills_unary; [apply unary_simd_leaves; fitc|exact S|].
  intros x. apply q_floor.
Qed.

Lemma C94_ceil_vec_lemma : 
  forall (B : backend) (n : nans (fmt_of B)) (m : mem (F (fmt_of B))) (out p len : Z), 
    call_fits m out len [APtr p] -> silent (farith n) m (APtr p) len ->
    leaves_silence m (ceil_vec B n m out p len) out len.
Proof.
  intros B n m out p len H S. fits H. eapply fills_unary; [apply (unary_leaves (farith n)); fitc|exact S|].
  intros x. apply s_q_ceil.
Qed.

Lemma C94_ceil_vec_simd_lemma : 
  forall (c : cfg) (B : backend) (n : nans (fmt_of B)) (m : mem (F (fmt_of B))) (out p len : Z), 
    simd_call_fits B m out len [APtr p] -> silent (farith n) m (APtr p) len ->
    leaves_silence m (ceil_vec_simd c B n m out p len) out len.
Proof.
  intros c B n m out p len H S. fits_simd H. eapply fills_unary; [apply unary_simd_leaves; fitc|exact S|].
  intros x. apply q_ceil.
Qed.

Lemma C94_frac_vec_lemma : 
  forall (B : backend) (n : nans (fmt_of B)) (m : mem (F (fmt_of B))) (out p len : Z), 
    call_fits m out len [APtr p] -> silent (farith n) m (APtr p) len ->
    leaves_silence m (frac_vec B n m out p len) out len.
Proof.
  intros B n m out p len H S. fits H. eapply fills_unary; [apply (unary_leaves (farith n)); fitc|exact S|].
  intros x. apply s_q_frac.
Qed.

Lemma C94_frac_vec_simd_lemma : 
  forall (c : cfg) (B : backend) (n : nans (fmt_of B)) (m : mem (F (fmt_of B))) (out p len : Z), 
    simd_call_fits B m out len [APtr p] -> silent (farith n) m (APtr p) len ->
    leaves_silence m (frac_vec_simd c B n m out p len) out len.
Proof.
  intros c B n m out p len H S. fits_simd H. eapply fills_unary; [apply unary_simd_leaves; fitc|exact S|].
  intros x. apply q_frac.
Qed.

Lemma C94_undenormalize_vec_lemma : 
  forall (B : backend) (n : nans (fmt_of B)) (m : mem (F (fmt_of B))) (out p len : Z), 
    call_fits m out len [APtr p] -> silent (farith n) m (APtr p) len ->
    leaves_silence m (undenormalize_vec B m out p len) out len.
Proof.
  intros B n m out p len H S. fits H. eapply fills_unary; [apply (unary_leaves (farith n)); fitc|exact S|].
  intros x. apply s_q_undenormalize.
Qed.

Lemma C94_undenormalize_vec_simd_lemma : 
  forall (c : cfg) (B : backend) (n : nans (fmt_of B)) (m : mem (F (fmt_of B))) (out p len : Z), isa_of B <> NEON -> isa_of B <> ALTIVEC -> 
    simd_call_fits B m out len [APtr p] -> silent (farith n) m (APtr p) len ->
    leaves_silence m (undenormalize_vec_simd c B n m out p len) out len.
Proof.
  intros c B n m out p len ? ? H S. fits_simd H. eapply fills_unary; [apply unary_simd_leaves; fitc|exact S|].
  intros x. apply q_undenormalize.
Qed.

Lemma C94_softclip_vec_lemma : 
  forall (B : backend) (n : nans (fmt_of B)) (m : mem (F (fmt_of B))) (out p len : Z), 
    call_fits m out len [APtr p] -> silent (farith n) m (APtr p) len ->
    leaves_silence m (softclip_vec B n m out p len) out len.
Proof.
  intros B n m out p len H S. fits H. eapply fills_unary; [apply (unary_leaves (farith n)); fitc|exact S|].
  intros x. apply s_q_softclip.
Qed.

Lemma C94_softclip_vec_simd_lemma : 
  forall (c : cfg) (B : backend) (n : nans (fmt_of B)) (m : mem (F (fmt_of B))) (out p len : Z), 
    simd_call_fits B m out len [APtr p] -> silent (farith n) m (APtr p) len ->
    leaves_silence m (softclip_vec_simd c B n m out p len) out len.
Proof.
  intros c B n m out p len H S. fits_simd H. eapply fills_unary; [apply unary_simd_leaves; fitc|exact S|].
  intros x. apply q_softclip.
Qed.

Lemma C94_signed_sqrt_vec_lemma : 
  forall (B : backend) (n : nans (fmt_of B)) (m : mem (F (fmt_of B))) (out p len : Z), 
    call_fits m out len [APtr p] -> silent (farith n) m (APtr p) len ->
    leaves_silence m (signed_sqrt_vec B n m out p len) out len.
Proof.
  intros B n m out p len H S. fits H. eapply fills_unary; [apply (unary_leaves (farith n)); fitc|exact S|].
  intros x. apply s_q_signed_sqrt.
Qed.

Lemma C94_signed_sqrt_vec_simd_lemma : 
  forall (c : cfg) (B : backend) (n : nans (fmt_of B)) (m : mem (F (fmt_of B))) (out p len : Z), isa_of B <> NEON -> 
    simd_call_fits B m out len [APtr p] -> silent (farith n) m (APtr p) len ->
    leaves_silence m (signed_sqrt_vec_simd c B n m out p len) out len.
Proof.
  intros c B n m out p len ? H S. fits_simd H. eapply fills_unary; [apply unary_simd_leaves; fitc|exact S|].
  intros x. apply q_signed_sqrt.
Qed.

Lemma C94_math_vec_lemma : 
  forall (B : backend) (w : world (fmt_of B)) (e : R) (f : ufun) (m : mem (F (fmt_of B))) (out p len : Z),
    library e (w_lib w) -> zero_at_zero f = true ->
    call_fits m out len [APtr p] -> silent (farith (w_nan w)) m (APtr p) len ->
    leaves_silence m (math_vec B w f m out p len) out len.
Proof.
  intros B w e f m out p len HL Hf H S. fits H. eapply fills_unary; [apply (unary_leaves (farith (w_nan w))); fitc|exact S|].
  intros x. apply (s_zero e); assumption.
Qed.

Lemma C94_math_vec_simd_lemma : 
  forall (c : cfg) (B : backend) (w : world (fmt_of B)) (k : nans F64) (e : R) (f : ufun) (m : mem (F (fmt_of B))) (out p len : Z),
    library e (w_lib w) -> zero_at_zero f = true ->
    simd_call_fits B m out len [APtr p] -> silent (farith (w_nan w)) m (APtr p) len ->
    leaves_silence m (math_vec_simd c B w k f m out p len) out len.
Proof.
  intros c B w k e f m out p len HL Hf H S. fits_simd H. eapply fills_unary; [apply unary_simd_leaves; fitc|exact S|].
  intros x. apply (v_zero (e := e)); assumption.
Qed.

Lemma C94_math_vec_simd_ones_lemma : 
  forall (c : cfg) (B : backend) (w : world (fmt_of B)) (k : nans F64) (f : ufun) (m : mem (F (fmt_of B))) (out p len : Z),
    math_backend c B -> one_at_zero f = true ->
    simd_call_fits B m out len [APtr p] -> silent (farith (w_nan w)) m (APtr p) len ->
    leaves_ones m (math_vec_simd c B w k f m out p len) out len.
Proof.
  intros c B w k f m out p len HB Hf H S. fits_simd H. eapply fills_unary; [apply unary_simd_leaves; fitc|exact S|].
  intros x Hx. assert (E : bits (v_ufun c B w k f x) = bits (f_ofZ (fmt_of B) 1)).
  { destruct HB as [-> | [-> HB]]; cbn [v_ufun]; [|rewrite HB]; (apply x_one; auto). }
  apply bits_inj in E. rewrite E. destruct (one_fin (t := fmt_of B)) as (O1 & O2 & _). split; assumption.
Qed.

Lemma C94_plus_vec_lemma : 
  forall (t : fmt) (n : nans t) (m : mem (F t)) (out : Z) (a1 a2 : arg (F t)) (len : Z),
    call_fits m out len [a1; a2] -> silent (farith n) m a1 len -> silent (farith n) m a2 len ->
    leaves_silence m (plus_vec (farith n) (fops_scalar n) m out a1 a2 len) out len.
Proof.
  intros t n m out a1 a2 len H S0 S1. fits H.
  eapply fills_leaves; [apply C18_plus_vec_lemma; fitc|]. quiet. apply q_add; assumption.
Qed.

Lemma C94_plus_vec_simd_lemma : 
  forall (c : cfg) (B : backend) (n : nans (fmt_of B)) (m : mem (F (fmt_of B))) (out : Z) (a1 a2 : arg (F (fmt_of B))) (len : Z),
    simd_call_fits B m out len [a1; a2] -> silent (farith n) m a1 len -> silent (farith n) m a2 len ->
    leaves_silence m (plus_vec_simd (farith n) (fops c B n) B m out a1 a2 len) out len.
Proof.
  intros c B n m out a1 a2 len H S0 S1. fits_simd H.
  eapply fills_leaves; [apply C18_plus_vec_simd_lemma; fitc|]. quiet. apply q_add; assumption.
Qed.

Lemma C94_minus_vec_lemma : 
  forall (t : fmt) (n : nans t) (m : mem (F t)) (out : Z) (a1 a2 : arg (F t)) (len : Z),
    call_fits m out len [a1; a2] -> silent (farith n) m a1 len -> silent (farith n) m a2 len ->
    leaves_silence m (minus_vec (farith n) (fops_scalar n) m out a1 a2 len) out len.
Proof.
  intros t n m out a1 a2 len H S0 S1. fits H.
  eapply fills_leaves; [apply C18_minus_vec_lemma; fitc|]. quiet. apply q_sub; assumption.
Qed.

Lemma C94_minus_vec_simd_lemma : 
  forall (c : cfg) (B : backend) (n : nans (fmt_of B)) (m : mem (F (fmt_of B))) (out : Z) (a1 a2 : arg (F (fmt_of B))) (len : Z),
    simd_call_fits B m out len [a1; a2] -> silent (farith n) m a1 len -> silent (farith n) m a2 len ->
    leaves_silence m (minus_vec_simd (farith n) (fops c B n) B m out a1 a2 len) out len.
Proof.
  intros c B n m out a1 a2 len H S0 S1. fits_simd H.
  eapply fills_leaves; [apply C18_minus_vec_simd_lemma; fitc|]. quiet. apply q_sub; assumption.
Qed.

Lemma C94_sum3_vec_lemma : 
  forall (t : fmt) (n : nans t) (m : mem (F t)) (out : Z) (a1 a2 a3 : arg (F t)) (len : Z),
    call_fits m out len [a1; a2; a3] -> silent (farith n) m a1 len -> silent (farith n) m a2 len -> silent (farith n) m a3 len ->
    leaves_silence m (sum_vec3 (farith n) (fops_scalar n) m out a1 a2 a3 len) out len.
Proof.
  intros t n m out a1 a2 a3 len H S0 S1 S2. fits H.
  eapply fills_leaves; [apply C18_sum_vec3_lemma; fitc|]. quiet. repeat first [assumption|apply q_add].
Qed.

Lemma C94_sum3_vec_simd_lemma : 
  forall (c : cfg) (B : backend) (n : nans (fmt_of B)) (m : mem (F (fmt_of B))) (out : Z) (a1 a2 a3 : arg (F (fmt_of B))) (len : Z),
    simd_call_fits B m out len [a1; a2; a3] -> silent (farith n) m a1 len -> silent (farith n) m a2 len -> silent (farith n) m a3 len ->
    leaves_silence m (sum_vec3_simd (farith n) (fops c B n) B m out a1 a2 a3 len) out len.
Proof.
  intros c B n m out a1 a2 a3 len H S0 S1 S2. fits_simd H.
  eapply fills_leaves; [apply C18_sum_vec3_simd_lemma; fitc|]. quiet. repeat first [assumption|apply q_add].
Qed.

Lemma C94_sum4_vec_lemma : 
  forall (t : fmt) (n : nans t) (m : mem (F t)) (out : Z) (a1 a2 a3 a4 : arg (F t)) (len : Z),
    call_fits m out len [a1; a2; a3; a4] -> silent (farith n) m a1 len -> silent (farith n) m a2 len -> silent (farith n) m a3 len -> silent (farith n) m a4 len ->
    leaves_silence m (sum_vec4 (farith n) (fops_scalar n) m out a1 a2 a3 a4 len) out len.
Proof.
  intros t n m out a1 a2 a3 a4 len H S0 S1 S2 S3. fits H.
  eapply fills_leaves; [apply C18_sum_vec4_lemma; fitc|]. quiet. repeat first [assumption|apply q_add].
Qed.

Lemma C94_sum4_vec_simd_lemma : 
  forall (c : cfg) (B : backend) (n : nans (fmt_of B)) (m : mem (F (fmt_of B))) (out : Z) (a1 a2 a3 a4 : arg (F (fmt_of B))) (len : Z),
    simd_call_fits B m out len [a1; a2; a3; a4] -> silent (farith n) m a1 len -> silent (farith n) m a2 len -> silent (farith n) m a3 len -> silent (farith n) m a4 len ->
    leaves_silence m (sum_vec4_simd (farith n) (fops c B n) B m out a1 a2 a3 a4 len) out len.
Proof.
  intros c B n m out a1 a2 a3 a4 len H S0 S1 S2 S3. fits_simd H.
  eapply fills_leaves; [apply C18_sum_vec4_simd_lemma; fitc|]. quiet. repeat first [assumption|apply q_add].
Qed.

Lemma C94_times_vec_lemma : 
  forall (t : fmt) (n : nans t) (m : mem (F t)) (out : Z) (a1 a2 : arg (F t)) (len : Z),
    call_fits m out len [a1; a2] -> silent (farith n) m a1 len -> samples (farith n) finite m a2 len ->
    leaves_silence m (times_vec (farith n) (fops_scalar n) m out a1 a2 len) out len.
Proof.
  intros t n m out a1 a2 len H S0 S1. fits H.
  eapply fills_leaves; [apply C18_times_vec_lemma; fitc|]. quiet. apply q_fmul; assumption.
Qed.

Lemma C94_times_vec_simd_lemma : 
  forall (c : cfg) (B : backend) (n : nans (fmt_of B)) (m : mem (F (fmt_of B))) (out : Z) (a1 a2 : arg (F (fmt_of B))) (len : Z),
    simd_call_fits B m out len [a1; a2] -> silent (farith n) m a1 len -> samples (farith n) finite m a2 len ->
    leaves_silence m (times_vec_simd (farith n) (fops c B n) B m out a1 a2 len) out len.
Proof.
  intros c B n m out a1 a2 len H S0 S1. fits_simd H.
  eapply fills_leaves; [apply C18_times_vec_simd_lemma; fitc|]. quiet. apply q_vmul; assumption.
Qed.

Lemma C94_muladd_vec_lemma : 
  forall (t : fmt) (n : nans t) (m : mem (F t)) (out : Z) (a1 a2 a3 : arg (F t)) (len : Z),
    call_fits m out len [a1; a2; a3] -> silent (farith n) m a1 len -> samples (farith n) finite m a2 len -> silent (farith n) m a3 len ->
    leaves_silence m (muladd_vec (farith n) (fops_scalar n) m out a1 a2 a3 len) out len.
Proof.
  intros t n m out a1 a2 a3 len H S0 S1 S2. fits H.
  eapply fills_leaves; [apply C18_muladd_vec_lemma; fitc|]. quiet. apply q_add; [apply q_fmul; assumption|assumption].
Qed.

Lemma C94_muladd_vec_simd_lemma : 
  forall (c : cfg) (B : backend) (n : nans (fmt_of B)) (m : mem (F (fmt_of B))) (out : Z) (a1 a2 a3 : arg (F (fmt_of B))) (len : Z),
    simd_call_fits B m out len [a1; a2; a3] -> silent (farith n) m a1 len -> samples (farith n) finite m a2 len -> silent (farith n) m a3 len ->
    leaves_silence m (muladd_vec_simd (farith n) (fops c B n) B m out a1 a2 a3 len) out len.
Proof.
  intros c B n m out a1 a2 a3 len H S0 S1 S2. fits_simd H.
  eapply fills_leaves; [apply C18_muladd_vec_simd_lemma; fitc|]. quiet. apply q_madd; assumption.
Qed.

Lemma C94_mix_vec_lemma : 
  forall (t : fmt) (n : nans t) (m : mem (F t)) (out : Z) (a1 a2 a3 a4 : arg (F t)) (len : Z),
    call_fits m out len [a1; a2; a3; a4] -> silent (farith n) m a1 len -> samples (farith n) finite m a2 len -> silent (farith n) m a3 len -> samples (farith n) finite m a4 len ->
    leaves_silence m (mix_vec (farith n) (fops_scalar n) m out a1 a2 a3 a4 len) out len.
Proof.
  intros t n m out a1 a2 a3 a4 len H S0 S1 S2 S3. fits H.
  eapply fills_leaves; [apply C18_mix_vec_lemma; fitc|]. quiet. apply q_add; apply q_fmul; assumption.
Qed.

Lemma C94_mix_vec_simd_lemma : 
  forall (c : cfg) (B : backend) (n : nans (fmt_of B)) (m : mem (F (fmt_of B))) (out : Z) (a1 a2 a3 a4 : arg (F (fmt_of B))) (len : Z),
    simd_call_fits B m out len [a1; a2; a3; a4] -> silent (farith n) m a1 len -> samples (farith n) finite m a2 len -> silent (farith n) m a3 len -> samples (farith n) finite m a4 len ->
    leaves_silence m (mix_vec_simd (farith n) (fops c B n) B m out a1 a2 a3 a4 len) out len.
Proof.
  intros c B n m out a1 a2 a3 a4 len H S0 S1 S2 S3. fits_simd H.
  eapply fills_leaves; [apply C18_mix_vec_simd_lemma; fitc|]. quiet. apply q_add; apply q_vmul; assumption.
Qed.

Lemma C94_effects_lemma : 
  forall (B : backend) (w : world (fmt_of B)) (e : R) (effects : list (effect (fmt_of B))) (m : mem (F (fmt_of B))) (buf len : Z),
    library e (w_lib w) -> Forall harmless effects ->
    call_fits m buf len [APtr buf] -> silent (farith (w_nan w)) m (APtr buf) len ->
    leaves_silence m (in_turn (map (apply_effect B w buf len) effects) m) buf len.
Proof.
  intros B w e effects m buf len HL HE H S.
  assert (Am : forall i, 0 <= i < len -> m (buf + i) <> None).
  { intros i Hi. destruct H as (_ & H & _). destruct (H i Hi) as [y ->]. discriminate. }
  apply (chain_quiet (farith (w_nan w)) harmless _ (fun m => call_fits m buf len [APtr buf])); try assumption.
  - intros e' m0 P F S0. apply (effect_quiet e); assumption.
  - intros m0 m1 F A1. destruct F as (F1 & F3 & F4). assert (A2 : accessible m1 buf len) by (intros i Hi; specialize (A1 i Hi); destruct (m1 (buf + i)) as [y|]; [eauto|congruence]).
    inversion F4 as [|? ? F5 F6]; subst. destruct F5 as [G1 G2]. split; [exact F1|]. split; [exact A2|]. constructor; [|constructor]. split; [exact A2|exact G2].
Qed.

Lemma C94_effects_simd_lemma : 
  forall (c : cfg) (B : backend) (w : world (fmt_of B)) (k : nans F64) (e : R) (effects : list (effect (fmt_of B))) (m : mem (F (fmt_of B))) (buf len : Z),
    library e (w_lib w) -> Forall (harmless_simd B) effects ->
    simd_call_fits B m buf len [APtr buf] -> silent (farith (w_nan w)) m (APtr buf) len ->
    leaves_silence m (in_turn (map (apply_effect_simd c B w k buf len) effects) m) buf len.
Proof.
  intros c B w k e effects m buf len HL HE H S.
  assert (Am : forall i, 0 <= i < len -> m (buf + i) <> None).
  { intros i Hi. destruct H as (_ & _ & H & _). destruct (H i Hi) as [y ->]. discriminate. }
  apply (chain_quiet (farith (w_nan w)) (harmless_simd B) _ (fun m => simd_call_fits B m buf len [APtr buf])); try assumption.
  - intros e' m0 P F S0. apply (effect_quiet_simd e); assumption.
  - intros m0 m1 F A1. destruct F as (F1 & F2 & F3 & F4). assert (A2 : accessible m1 buf len) by (intros i Hi; specialize (A1 i Hi); destruct (m1 (buf + i)) as [y|]; [eauto|congruence]).
    inversion F4 as [|? ? F5 F6]; subst. destruct F5 as [(G1 & G2 & G3) G4]. split; [exact F1|]. split; [exact F2|]. split; [exact A2|]. constructor; [|constructor]. split; [|exact G4]. split; [exact A2|]. split; assumption.
Qed.

Lemma C94_over_vec_nans_lemma : 
  forall (t : fmt) (n : nans t) (m : mem (F t)) (out : Z) (a1 a2 : arg (F t)) (len : Z),
    call_fits m out len [a1; a2] -> silent (farith n) m a1 len -> silent (farith n) m a2 len ->
    leaves_nans m (over_vec (farith n) (fops_scalar n) m out a1 a2 len) out len.
Proof.
  intros t n m out a1 a2 len H S1 S2. fits H. eapply fills_leaves; [apply C18_over_vec_lemma; fitc|]. quiet.
  apply a_zero_cases in K. apply a_zero_cases in K0. destruct K as [s1 ->], K0 as [s2 ->]. apply zero_over_zero.
Qed.

Lemma C94_times_vec_nans_lemma : 
  forall (t : fmt) (n : nans t) (m : mem (F t)) (out : Z) (a1 : arg (F t)) (sign : bool) (len : Z),
    call_fits m out len [a1] -> silent (farith n) m a1 len ->
    leaves_nans m (times_vec (farith n) (fops_scalar n) m out a1 (AScal (infinite t sign)) len) out len.
Proof.
  intros t n m out a1 sign len H S1. fits H. eapply fills_leaves; [apply C18_times_vec_lemma; fitc|]. quiet.
  cbn [sample] in *. apply a_zero_cases in K. destruct K as [s1 ->]. match goal with E : Some _ = Some ?y |- _ => assert (y = infinite t sign) as -> by congruence end. apply zero_times_inf.
Qed.

Lemma C94_neon_signed_sqrt_vec_simd_nans_lemma : 
  forall (c : cfg) (n : nans F32) (m : mem (F F32)) (out p len : Z),
    simd_call_fits NEON32 m out len [APtr p] -> silent (farith n) m (APtr p) len ->
    leaves_nans m (neon_signed_sqrt_vec_simd n c m out p len) out len.
Proof.
  intros c n m out p len H S. assert (U : unary_fit NEON32 m out p len) by (fits_simd H; split; [assumption|]; split; [assumption|]; split; [assumption|]; apply H).
  destruct H as (_ & _ & _ & H). apply Forall_inv in H. destruct H as [[Ap _] _].
  destruct (C67_signed_sqrt_vec_simd_lemma n c m out p len U) as (m' & E & W & K). exists m'. split; [exact E|]. split; [|exact K].
  intros i Hi. destruct (Ap i Hi) as [x Ex]. destruct (W i x Hi Ex) as (y & Y1 & _ & Y2). exists y. split; [exact Y1|]. apply Y2. left.
  exact (S i x Hi Ex).
Qed.
