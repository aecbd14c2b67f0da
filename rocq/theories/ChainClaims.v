(** Proofs of the statements of Prop_Chain.v. *)
From Coq Require Import ZArith Reals List Lia Bool Lra.
From Flocq Require Import Core IEEE754.Binary IEEE754.Bits.
From Verif Require Import
  Base Mem Backend Args Drivers Functors Lanes Float LaneOps FloatOps VecMath FloatFuns Spec SpecLane SpecAgree SpecAlike SpecSwap SpecChain
  FloatFacts LaneFacts FloatRound VecFacts VecMore VecMore2 KeepFacts MemClaims AgreeFacts AlikeFacts ExData ExFloat ExMath SwapFacts ChainFacts.
Import ListNotations.
Local Open Scope Z_scope.

Lemma C90_muladd_vec_lemma : 
  forall (t : fmt) (n : nans t) (m : mem (F t)) (out tmp : Z) (a1 a2 a3 : arg (F t)) (len : Z), call_fits m out len [a1; a2; a3] -> call_fits m tmp len [a1; a2] -> 
    arg_fit m out len (APtr tmp) -> clear_of tmp len a3 -> 
    same_in_steps same_bits (muladd_vec (farith n) (fops_scalar n) m out a1 a2 a3 len)
      (times_vec (farith n) (fops_scalar n) m tmp a1 a2 len) (fun m2 => plus_vec (farith n) (fops_scalar n) m2 out (APtr tmp) a3 len) out len.
Proof.
  intros t n m out tmp a1 a2 a3 len H1 H2 H3 J0. fits H1. fits H2.
  eapply steps_of_leaves; [apply C18_muladd_vec_lemma; fitc|apply C18_times_vec_lemma; fitc|]. intros m2 L. eexists. split; [apply C18_plus_vec_lemma; refit L|].
  steps L. reflexivity.
Qed.

Lemma C90_muladd_vec_simd_lemma : 
  forall (c : cfg) (B : backend) (n : nans (fmt_of B)) (m : mem (F (fmt_of B))) (out tmp : Z) (a1 a2 a3 : arg (F (fmt_of B))) (len : Z), fuses c B = false -> simd_call_fits B m out len [a1; a2; a3] -> simd_call_fits B m tmp len [a1; a2] -> 
    simd_fit B m out len (APtr tmp) -> clear_of tmp len a3 -> 
    same_in_steps same_bits (muladd_vec_simd (farith n) (fops c B n) B m out a1 a2 a3 len)
      (times_vec_simd (farith n) (fops c B n) B m tmp a1 a2 len) (fun m2 => plus_vec_simd (farith n) (fops c B n) B m2 out (APtr tmp) a3 len) out len.
Proof.
  intros c B n m out tmp a1 a2 a3 len HB H1 H2 H3 J0. fits_simd H1. fits_simd H2.
  eapply steps_of_leaves; [apply C18_muladd_vec_simd_lemma; fitc|apply C18_times_vec_simd_lemma; fitc|]. intros m2 L. eexists. split; [apply C18_plus_vec_simd_lemma; refit L|].
  steps L. rewrite (madd_unfused n c B), (unfused_vmul n c B) by exact HB; reflexivity.
Qed.

Lemma C90_mix_vec_lemma : 
  forall (t : fmt) (n : nans t) (m : mem (F t)) (out tmp : Z) (a1 a2 a3 a4 : arg (F t)) (len : Z), call_fits m out len [a1; a2; a3; a4] -> call_fits m tmp len [a1; a2] -> 
    arg_fit m out len (APtr tmp) -> clear_of tmp len a3 -> clear_of tmp len a4 -> 
    same_in_steps same_or_nan (mix_vec (farith n) (fops_scalar n) m out a1 a2 a3 a4 len)
      (times_vec (farith n) (fops_scalar n) m tmp a1 a2 len) (fun m2 => muladd_vec (farith n) (fops_scalar n) m2 out a3 a4 (APtr tmp) len) out len.
Proof.
  intros t n m out tmp a1 a2 a3 a4 len H1 H2 H3 J0 J1. fits H1. fits H2.
  eapply steps_of_leaves; [apply C18_mix_vec_lemma; fitc|apply C18_times_vec_lemma; fitc|]. intros m2 L. eexists. split; [apply C18_muladd_vec_lemma; refit L|].
  steps L. apply fadd_comm.
Qed.

Lemma C90_mix_vec_simd_lemma : 
  forall (c : cfg) (B : backend) (n : nans (fmt_of B)) (m : mem (F (fmt_of B))) (out tmp : Z) (a1 a2 a3 a4 : arg (F (fmt_of B))) (len : Z), fuses c B = false -> simd_call_fits B m out len [a1; a2; a3; a4] -> simd_call_fits B m tmp len [a1; a2] -> 
    simd_fit B m out len (APtr tmp) -> clear_of tmp len a3 -> clear_of tmp len a4 -> 
    same_in_steps same_or_nan (mix_vec_simd (farith n) (fops c B n) B m out a1 a2 a3 a4 len)
      (times_vec_simd (farith n) (fops c B n) B m tmp a1 a2 len) (fun m2 => muladd_vec_simd (farith n) (fops c B n) B m2 out a3 a4 (APtr tmp) len) out len.
Proof.
  intros c B n m out tmp a1 a2 a3 a4 len HB H1 H2 H3 J0 J1. fits_simd H1. fits_simd H2.
  eapply steps_of_leaves; [apply C18_mix_vec_simd_lemma; fitc|apply C18_times_vec_simd_lemma; fitc|]. intros m2 L. eexists. split; [apply C18_muladd_vec_simd_lemma; refit L|].
  steps L. rewrite (madd_unfused n c B), !(unfused_vmul n c B) by exact HB; apply fadd_comm.
Qed.

Lemma C90_ampmod_vec_lemma : 
  forall (t : fmt) (n : nans t) (m : mem (F t)) (out tmp : Z) (a1 a2 a3 : arg (F t)) (len : Z), call_fits m out len [a1; a2; a3] -> call_fits m tmp len [a2; a3] -> 
    arg_fit m out len (APtr tmp) -> clear_of tmp len a1 -> 
    same_in_steps same_or_nan (ampmod_vec (farith n) (fops_scalar n) m out a1 a2 a3 len)
      (muladd_vec (farith n) (fops_scalar n) m tmp a2 a3 (AScal (f_ofZ t 1)) len) (fun m2 => times_vec (farith n) (fops_scalar n) m2 out a1 (APtr tmp) len) out len.
Proof.
  intros t n m out tmp a1 a2 a3 len H1 H2 H3 J0. fits H1. fits H2.
  eapply steps_of_leaves; [apply C18_ampmod_vec_lemma; fitc|apply C18_muladd_vec_lemma; fitc|]. intros m2 L. eexists. split; [apply C18_times_vec_lemma; refit L|].
  steps L. apply same_fmul, fadd_comm.
Qed.

Lemma C90_ampmod_vec_simd_lemma : 
  forall (c : cfg) (B : backend) (n : nans (fmt_of B)) (m : mem (F (fmt_of B))) (out tmp : Z) (a1 a2 a3 : arg (F (fmt_of B))) (len : Z), fuses c B = false -> simd_call_fits B m out len [a1; a2; a3] -> simd_call_fits B m tmp len [a2; a3] -> 
    simd_fit B m out len (APtr tmp) -> clear_of tmp len a1 -> 
    same_in_steps same_or_nan (ampmod_vec_simd (farith n) (fops c B n) B m out a1 a2 a3 len)
      (muladd_vec_simd (farith n) (fops c B n) B m tmp a2 a3 (AScal (f_ofZ (fmt_of B) 1)) len) (fun m2 => times_vec_simd (farith n) (fops c B n) B m2 out a1 (APtr tmp) len) out len.
Proof.
  intros c B n m out tmp a1 a2 a3 len HB H1 H2 H3 J0. fits_simd H1. fits_simd H2.
  eapply steps_of_leaves; [apply C18_ampmod_vec_simd_lemma; fitc|apply C18_muladd_vec_simd_lemma; fitc|]. intros m2 L. eexists. split; [apply C18_times_vec_simd_lemma; refit L|].
  steps L. rewrite (madd_unfused n c B), !(unfused_vmul n c B) by exact HB; apply same_fmul, fadd_comm.
Qed.

Lemma C90_sum3_vec_lemma : 
  forall (t : fmt) (n : nans t) (m : mem (F t)) (out tmp : Z) (a1 a2 a3 : arg (F t)) (len : Z), call_fits m out len [a1; a2; a3] -> call_fits m tmp len [a1; a2] -> 
    arg_fit m out len (APtr tmp) -> clear_of tmp len a3 -> 
    same_in_steps same_bits (sum_vec3 (farith n) (fops_scalar n) m out a1 a2 a3 len)
      (plus_vec (farith n) (fops_scalar n) m tmp a1 a2 len) (fun m2 => plus_vec (farith n) (fops_scalar n) m2 out (APtr tmp) a3 len) out len.
Proof.
  intros t n m out tmp a1 a2 a3 len H1 H2 H3 J0. fits H1. fits H2.
  eapply steps_of_leaves; [apply C18_sum_vec3_lemma; fitc|apply C18_plus_vec_lemma; fitc|]. intros m2 L. eexists. split; [apply C18_plus_vec_lemma; refit L|].
  steps L. reflexivity.
Qed.

Lemma C90_sum3_vec_simd_lemma : 
  forall (c : cfg) (B : backend) (n : nans (fmt_of B)) (m : mem (F (fmt_of B))) (out tmp : Z) (a1 a2 a3 : arg (F (fmt_of B))) (len : Z), simd_call_fits B m out len [a1; a2; a3] -> simd_call_fits B m tmp len [a1; a2] -> 
    simd_fit B m out len (APtr tmp) -> clear_of tmp len a3 -> 
    same_in_steps same_bits (sum_vec3_simd (farith n) (fops c B n) B m out a1 a2 a3 len)
      (plus_vec_simd (farith n) (fops c B n) B m tmp a1 a2 len) (fun m2 => plus_vec_simd (farith n) (fops c B n) B m2 out (APtr tmp) a3 len) out len.
Proof.
  intros c B n m out tmp a1 a2 a3 len H1 H2 H3 J0. fits_simd H1. fits_simd H2.
  eapply steps_of_leaves; [apply C18_sum_vec3_simd_lemma; fitc|apply C18_plus_vec_simd_lemma; fitc|]. intros m2 L. eexists. split; [apply C18_plus_vec_simd_lemma; refit L|].
  steps L. reflexivity.
Qed.

Lemma C90_sum4_vec_lemma : 
  forall (t : fmt) (n : nans t) (m : mem (F t)) (out tmp : Z) (a1 a2 a3 a4 : arg (F t)) (len : Z), call_fits m out len [a1; a2; a3; a4] -> call_fits m tmp len [a3; a4] -> 
    arg_fit m out len (APtr tmp) -> clear_of tmp len a1 -> clear_of tmp len a2 -> 
    same_in_steps same_bits (sum_vec4 (farith n) (fops_scalar n) m out a1 a2 a3 a4 len)
      (plus_vec (farith n) (fops_scalar n) m tmp a3 a4 len) (fun m2 => sum_vec3 (farith n) (fops_scalar n) m2 out a1 a2 (APtr tmp) len) out len.
Proof.
  intros t n m out tmp a1 a2 a3 a4 len H1 H2 H3 J0 J1. fits H1. fits H2.
  eapply steps_of_leaves; [apply C18_sum_vec4_lemma; fitc|apply C18_plus_vec_lemma; fitc|]. intros m2 L. eexists. split; [apply C18_sum_vec3_lemma; refit L|].
  steps L. reflexivity.
Qed.

Lemma C90_sum4_vec_simd_lemma : 
  forall (c : cfg) (B : backend) (n : nans (fmt_of B)) (m : mem (F (fmt_of B))) (out tmp : Z) (a1 a2 a3 a4 : arg (F (fmt_of B))) (len : Z), simd_call_fits B m out len [a1; a2; a3; a4] -> simd_call_fits B m tmp len [a3; a4] -> 
    simd_fit B m out len (APtr tmp) -> clear_of tmp len a1 -> clear_of tmp len a2 -> 
    same_in_steps same_bits (sum_vec4_simd (farith n) (fops c B n) B m out a1 a2 a3 a4 len)
      (plus_vec_simd (farith n) (fops c B n) B m tmp a3 a4 len) (fun m2 => sum_vec3_simd (farith n) (fops c B n) B m2 out a1 a2 (APtr tmp) len) out len.
Proof.
  intros c B n m out tmp a1 a2 a3 a4 len H1 H2 H3 J0 J1. fits_simd H1. fits_simd H2.
  eapply steps_of_leaves; [apply C18_sum_vec4_simd_lemma; fitc|apply C18_plus_vec_simd_lemma; fitc|]. intros m2 L. eexists. split; [apply C18_sum_vec3_simd_lemma; refit L|].
  steps L. reflexivity.
Qed.

Lemma C90_clip_vec_lemma : 
  forall (t : fmt) (n : nans t) (m : mem (F t)) (out tmp : Z) (a1 a2 a3 : arg (F t)) (len : Z), call_fits m out len [a1; a2; a3] -> call_fits m tmp len [a1; a3] -> 
    arg_fit m out len (APtr tmp) -> clear_of tmp len a2 -> 
    same_in_steps same_bits (clip_vec (farith n) (fops_scalar n) m out a1 a2 a3 len)
      (min_vec (farith n) (fops_scalar n) m tmp a1 a3 len) (fun m2 => max_vec (farith n) (fops_scalar n) m2 out (APtr tmp) a2 len) out len.
Proof.
  intros t n m out tmp a1 a2 a3 len H1 H2 H3 J0. fits H1. fits H2.
  eapply steps_of_leaves; [apply C18_clip_vec_lemma; fitc|apply C18_min_vec_lemma; fitc|]. intros m2 L. eexists. split; [apply C18_max_vec_lemma; refit L|].
  steps L. reflexivity.
Qed.

Lemma C90_clip_vec_simd_lemma : 
  forall (c : cfg) (B : backend) (n : nans (fmt_of B)) (m : mem (F (fmt_of B))) (out tmp : Z) (a1 a2 a3 : arg (F (fmt_of B))) (len : Z), simd_call_fits B m out len [a1; a2; a3] -> simd_call_fits B m tmp len [a1; a3] -> 
    simd_fit B m out len (APtr tmp) -> clear_of tmp len a2 -> 
    same_in_steps same_bits (clip_vec_simd (farith n) (fops c B n) B m out a1 a2 a3 len)
      (min_vec_simd (farith n) (fops c B n) B m tmp a1 a3 len) (fun m2 => max_vec_simd (farith n) (fops c B n) B m2 out (APtr tmp) a2 len) out len.
Proof.
  intros c B n m out tmp a1 a2 a3 len H1 H2 H3 J0. fits_simd H1. fits_simd H2.
  eapply steps_of_leaves; [apply C18_clip_vec_simd_lemma; fitc|apply C18_min_vec_simd_lemma; fitc|]. intros m2 L. eexists. split; [apply C18_max_vec_simd_lemma; refit L|].
  steps L. reflexivity.
Qed.

Lemma C90_minus_vec_lemma : 
  forall (t : fmt) (n : nans t) (m : mem (F t)) (out tmp : Z) (a1 a2 : arg (F t)) (len : Z), call_fits m out len [a1; a2] -> call_fits m tmp len [a2] -> 
    arg_fit m out len (APtr tmp) -> clear_of tmp len a1 -> 
    same_in_steps same_or_nan (minus_vec (farith n) (fops_scalar n) m out a1 a2 len)
      (times_vec (farith n) (fops_scalar n) m tmp a2 (AScal (f_ofZ t (-1))) len) (fun m2 => plus_vec (farith n) (fops_scalar n) m2 out a1 (APtr tmp) len) out len.
Proof.
  intros t n m out tmp a1 a2 len H1 H2 H3 J0. fits H1. fits H2.
  eapply steps_of_leaves; [apply C18_minus_vec_lemma; fitc|apply C18_times_vec_lemma; fitc|]. intros m2 L. eexists. split; [apply C18_plus_vec_lemma; refit L|].
  steps L. apply sub_steps.
Qed.

Lemma C90_minus_vec_simd_lemma : 
  forall (c : cfg) (B : backend) (n : nans (fmt_of B)) (m : mem (F (fmt_of B))) (out tmp : Z) (a1 a2 : arg (F (fmt_of B))) (len : Z), isa_of B <> ALTIVEC -> simd_call_fits B m out len [a1; a2] -> simd_call_fits B m tmp len [a2] -> 
    simd_fit B m out len (APtr tmp) -> clear_of tmp len a1 -> 
    same_in_steps same_or_nan (minus_vec_simd (farith n) (fops c B n) B m out a1 a2 len)
      (times_vec_simd (farith n) (fops c B n) B m tmp a2 (AScal (f_ofZ (fmt_of B) (-1))) len) (fun m2 => plus_vec_simd (farith n) (fops c B n) B m2 out a1 (APtr tmp) len) out len.
Proof.
  intros c B n m out tmp a1 a2 len HB H1 H2 H3 J0. fits_simd H1. fits_simd H2.
  eapply steps_of_leaves; [apply C18_minus_vec_simd_lemma; fitc|apply C18_times_vec_simd_lemma; fitc|]. intros m2 L. eexists. split; [apply C18_plus_vec_simd_lemma; refit L|].
  steps L. rewrite vmul_x86 by exact HB; apply sub_steps.
Qed.

Lemma C90_cube_vec_lemma : 
  forall (B : backend) (n : nans (fmt_of B)) (m : mem (F (fmt_of B))) (out tmp p : Z) (len : Z), call_fits m out len [APtr p] -> call_fits m tmp len [APtr p] -> 
    arg_fit m out len (APtr tmp) -> clear_of (A := F (fmt_of B)) tmp len (APtr p) -> 
    same_in_steps same_or_nan (cube_vec B n m out p len)
      (square_vec B n m tmp p len) (fun m2 => times_vec (farith n) (fops_scalar n) m2 out (APtr tmp) (APtr p) len) out len.
Proof.
  intros B n m out tmp p  len H1 H2 H3 J0. fits H1. fits H2.
  eapply steps_of_leaves; [apply (unary_leaves (farith n)); fitc|apply (unary_leaves (farith n)); fitc|]. intros m2 L. eexists. split; [apply C18_times_vec_lemma; refit L|].
  steps L. apply same_refl.
Qed.

Lemma C90_cube_vec_simd_lemma : 
  forall (c : cfg) (B : backend) (n : nans (fmt_of B)) (m : mem (F (fmt_of B))) (out tmp p : Z) (len : Z), simd_call_fits B m out len [APtr p] -> simd_call_fits B m tmp len [APtr p] -> 
    simd_fit B m out len (APtr tmp) -> clear_of (A := F (fmt_of B)) tmp len (APtr p) -> 
    same_in_steps same_or_nan (cube_vec_simd B n m out p len)
      (square_vec_simd B n m tmp p len) (fun m2 => times_vec_simd (farith n) (fops c B n) B m2 out (APtr tmp) (APtr p) len) out len.
Proof.
  intros c B n m out tmp p  len H1 H2 H3 J0. fits_simd H1. fits_simd H2.
  eapply steps_of_leaves; [apply unary_simd_leaves; fitc|apply unary_simd_leaves; fitc|]. intros m2 L. eexists. split; [apply C18_times_vec_simd_lemma; refit L|].
  steps L. apply cube_steps.
Qed.

Lemma C90_frac_vec_lemma : 
  forall (B : backend) (n : nans (fmt_of B)) (m : mem (F (fmt_of B))) (out tmp p : Z) (len : Z), call_fits m out len [APtr p] -> call_fits m tmp len [APtr p] -> 
    arg_fit m out len (APtr tmp) -> clear_of (A := F (fmt_of B)) tmp len (APtr p) -> 
    same_in_steps same_bits (frac_vec B n m out p len)
      (floor_vec B n m tmp p len) (fun m2 => minus_vec (farith n) (fops_scalar n) m2 out (APtr p) (APtr tmp) len) out len.
Proof.
  intros B n m out tmp p  len H1 H2 H3 J0. fits H1. fits H2.
  eapply steps_of_leaves; [apply (unary_leaves (farith n)); fitc|apply (unary_leaves (farith n)); fitc|]. intros m2 L. eexists. split; [apply C18_minus_vec_lemma; refit L|].
  steps L. reflexivity.
Qed.

Lemma C90_frac_vec_simd_lemma : 
  forall (c : cfg) (B : backend) (n : nans (fmt_of B)) (m : mem (F (fmt_of B))) (out tmp p : Z) (len : Z), simd_call_fits B m out len [APtr p] -> simd_call_fits B m tmp len [APtr p] -> 
    simd_fit B m out len (APtr tmp) -> clear_of (A := F (fmt_of B)) tmp len (APtr p) -> 
    same_in_steps same_bits (frac_vec_simd c B n m out p len)
      (floor_vec_simd c B n m tmp p len) (fun m2 => minus_vec_simd (farith n) (fops c B n) B m2 out (APtr p) (APtr tmp) len) out len.
Proof.
  intros c B n m out tmp p  len H1 H2 H3 J0. fits_simd H1. fits_simd H2.
  eapply steps_of_leaves; [apply unary_simd_leaves; fitc|apply unary_simd_leaves; fitc|]. intros m2 L. eexists. split; [apply C18_minus_vec_simd_lemma; refit L|].
  steps L. reflexivity.
Qed.

Lemma C90_abs_vec_lemma : 
  forall (B : backend) (n : nans (fmt_of B)) (m : mem (F (fmt_of B))) (out tmp p : Z) (len : Z), call_fits m out len [APtr p] -> call_fits m tmp len [APtr p] -> 
    arg_fit m out len (APtr tmp) -> clear_of (A := F (fmt_of B)) tmp len (APtr p) -> samples (farith n) number m (APtr p) len -> 
    same_in_steps equal_numbers (abs_vec B m out p len)
      (minus_vec (farith n) (fops_scalar n) m tmp (AScal (f_ofZ (fmt_of B) 0)) (APtr p) len) (fun m2 => max_vec (farith n) (fops_scalar n) m2 out (APtr p) (APtr tmp) len) out len.
Proof.
  intros B n m out tmp p  len H1 H2 H3 J0 J1. fits H1. fits H2.
  eapply steps_of_leaves; [apply (unary_leaves (farith n)); fitc|apply C18_minus_vec_lemma; fitc|]. intros m2 L. eexists. split; [apply C18_max_vec_lemma; refit L|].
  steps L. apply abs_steps_scalar; assumption.
Qed.

Lemma C90_abs_vec_simd_lemma : 
  forall (c : cfg) (B : backend) (n : nans (fmt_of B)) (m : mem (F (fmt_of B))) (out tmp p : Z) (len : Z), simd_call_fits B m out len [APtr p] -> simd_call_fits B m tmp len [APtr p] -> 
    simd_fit B m out len (APtr tmp) -> clear_of (A := F (fmt_of B)) tmp len (APtr p) -> samples (farith n) number m (APtr p) len -> 
    same_in_steps equal_numbers (abs_vec_simd c B n m out p len)
      (minus_vec_simd (farith n) (fops c B n) B m tmp (AScal (f_ofZ (fmt_of B) 0)) (APtr p) len) (fun m2 => max_vec_simd (farith n) (fops c B n) B m2 out (APtr p) (APtr tmp) len) out len.
Proof.
  intros c B n m out tmp p  len H1 H2 H3 J0 J1. fits_simd H1. fits_simd H2.
  eapply steps_of_leaves; [apply unary_simd_leaves; fitc|apply C18_minus_vec_simd_lemma; fitc|]. intros m2 L. eexists. split; [apply C18_max_vec_simd_lemma; refit L|].
  steps L. rewrite vabs_fabs; apply abs_steps; assumption.
Qed.

Lemma C90_square_vec_lemma : 
  forall (B : backend) (n : nans (fmt_of B)) (m : mem (F (fmt_of B))) (out p len : Z), call_fits m out len [APtr p] ->
    alike same_bits m (square_vec B n m out p len) (times_vec (farith n) (fops_scalar n) m out (APtr p) (APtr p) len) out len.
Proof.
  intros B n m out p len H. fits H. eapply alike_leaves; [apply (unary_leaves (farith n)); fitc|apply C18_times_vec_lemma; fitc|].
  intros i u v Hi U V. cbv beta in U, V. cbn [sample] in V. destruct (m (p + i)) as [x|]; [|discriminate U]. cbn [lift1 lift2] in U, V.
  injection U as <-. injection V as <-. reflexivity.
Qed.

Lemma C90_clip2_vec_lemma : 
  forall (t : fmt) (n : nans t) (m : mem (F t)) (out : Z) (a1 a2 b2 : arg (F t)) (len : Z), call_fits m out len [a1; a2; b2] ->
    inverts (farith n) m a2 b2 len -> samples (farith n) number m a1 len -> samples (farith n) number m a2 len ->
    alike equal_numbers m (clip2_vec (farith n) (fops_scalar n) m out a1 a2 len) (clip_vec (farith n) (fops_scalar n) m out a1 b2 a2 len) out len.
Proof.
  intros t n m out a1 a2 b2 len H J1 J2 J3. fits H. eapply alike_leaves; [apply C18_clip2_vec_lemma; tauto|apply C18_clip_vec_lemma; tauto|].
  lanes. apply clip2_clip_scalar; assumption.
Qed.

Lemma C90_square_vec_simd_lemma : 
  forall (c : cfg) (B : backend) (n : nans (fmt_of B)) (m : mem (F (fmt_of B))) (out p len : Z), simd_call_fits B m out len [APtr p] ->
    alike same_bits m (square_vec_simd B n m out p len) (times_vec_simd (farith n) (fops c B n) B m out (APtr p) (APtr p) len) out len.
Proof.
  intros c B n m out p len H. fits_simd H. eapply alike_leaves; [apply unary_simd_leaves; fitc|apply C18_times_vec_simd_lemma; fitc|].
  intros i u v Hi U V. cbv beta in U, V. cbn [sample] in V. destruct (m (p + i)) as [x|]; [|discriminate U]. cbn [lift1 lift2] in U, V.
  injection U as <-. injection V as <-. reflexivity.
Qed.

Lemma C90_clip2_vec_simd_lemma : 
  forall (c : cfg) (B : backend) (n : nans (fmt_of B)) (m : mem (F (fmt_of B))) (out : Z) (a1 a2 b2 : arg (F (fmt_of B))) (len : Z), simd_call_fits B m out len [a1; a2; b2] ->
    inverts (farith n) m a2 b2 len -> samples (farith n) number m a1 len -> samples (farith n) number m a2 len ->
    alike equal_numbers m (clip2_vec_simd (farith n) (fops c B n) B m out a1 a2 len) (clip_vec_simd (farith n) (fops c B n) B m out a1 b2 a2 len) out len.
Proof.
  intros c B n m out a1 a2 b2 len H J1 J2 J3. fits_simd H. eapply alike_leaves; [apply C18_clip2_vec_simd_lemma; tauto|apply C18_clip_vec_simd_lemma; tauto|].
  lanes. apply clip2_clip; assumption.
Qed.

Lemma C90_muladd_fused_refuted_lemma : 
  forall (c : cfg) (n : nans F32), has_fma c = true -> exists (m : mem (F F32)) (out tmp : Z) (a1 a2 a3 : arg (F F32)) (len : Z),
    simd_call_fits AVX32 m out len [a1; a2; a3] /\ simd_call_fits AVX32 m tmp len [a1; a2] /\ simd_fit AVX32 m out len (APtr tmp) /\
    clear_of tmp len a3 /\
    ~ same_in_steps same_or_nan (muladd_vec_simd (farith n) (fops c AVX32 n) AVX32 m out a1 a2 a3 len)
      (times_vec_simd (farith n) (fops c AVX32 n) AVX32 m tmp a1 a2 len) (fun m2 => plus_vec_simd (farith n) (fops c AVX32 n) AVX32 m2 out (APtr tmp) a3 len) out len.
Proof.
  intros c n Hc. set (x := f_lit F32 4097 (-12)). set (z := f_lit F32 (-8194) (-13)).
  exists polar, 0, 16, (AScal x), (AScal x), (AScal z), 16.
  assert (H1 : simd_call_fits AVX32 polar 0 16 [AScal x; AScal x; AScal z]) by chain_tac.
  assert (H2 : simd_call_fits AVX32 polar 16 16 [AScal x; AScal x]) by chain_tac.
  assert (H3 : simd_fit AVX32 polar 0 16 (APtr 16)) by chain_tac.
  split; [exact H1|]. split; [exact H2|]. split; [exact H3|]. split; [exact Logic.I|].
  fits_simd H1. fits_simd H2. intros (m1 & m2 & m3 & E1 & E2 & E3 & W).
  destruct (C18_muladd_vec_simd_lemma _ (farith n) (fops c AVX32 n) AVX32 polar 0 (AScal x) (AScal x) (AScal z) 16) as (k1 & D1 & M1 & _); [tauto..|].
  destruct (C18_times_vec_simd_lemma _ (farith n) (fops c AVX32 n) AVX32 polar 16 (AScal x) (AScal x) 16) as (k2 & D2 & M2 & N2); [tauto..|].
  pose proof (eq_trans (eq_sym E1) D1) as Q1. injection Q1 as <-. pose proof (eq_trans (eq_sym E2) D2) as Q2. injection Q2 as <-.
  pose proof (conj N2 M2) as L. change (left_by polar m2 16 16 (fun i => lift2 (o_mul (fops c AVX32 n)) (sample (farith n) polar (AScal x) i) (sample (farith n) polar (AScal x) i))) in L.
  destruct (C18_plus_vec_simd_lemma _ (farith n) (fops c AVX32 n) AVX32 m2 0 (APtr 16) (AScal z) 16) as (k3 & D3 & M3 & _); [refit L..|].
  pose proof (eq_trans (eq_sym E3) D3) as Q3. injection Q3 as <-.
  destruct (W 0) as (u & v & U & V & S); [lia|]. destruct (M1 0) as [M1' _]; [lia|]. destruct (M3 0) as [M3' _]; [lia|].
  rewrite (left_tmp _ _ _ _ _ _ _ L) in M3' by lia. cbn [sample lift2 lift3] in M1', M3'.
  assert (Z1 : Some u = Some (madd c AVX n x x z)) by exact (eq_trans (eq_sym U) M1').
  assert (Z2 : Some v = Some (fadd n (fmul n x x) z)) by exact (eq_trans (eq_sym V) M3').
  assert (u = madd c AVX n x x z) as -> by congruence. assert (v = fadd n (fmul n x x) z) as -> by congruence.
  unfold madd in S. rewrite Hc in S. clear - S. subst x z. destruct S as [S|[S _]]; vm_compute in S; discriminate S.
Qed.
