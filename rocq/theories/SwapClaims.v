(** Proofs of the statements of Prop_Swap.v. *)
From Coq Require Import ZArith Reals List Lia Bool Lra.
From Flocq Require Import Core IEEE754.Binary IEEE754.Bits.
From Verif Require Import
  Base Mem Backend Args Drivers Functors Lanes Float LaneOps FloatOps VecMath FloatFuns Spec SpecLane SpecAgree SpecAlike SpecSwap
  FloatFacts VecFacts MemClaims AgreeFacts AlikeFacts ExData ExFloat ExMath SwapFacts.
Import ListNotations.
Local Open Scope Z_scope.

Lemma C88_plus_swap_vec_lemma : 
  forall (t : fmt) (n : nans t) (m : mem (F t)) (out : Z) (a1 a2 : arg (F t)) (len : Z), call_fits m out len [a1; a2] ->
    alike same_or_nan m (plus_vec (farith n) (fops_scalar n) m out a1 a2 len) (plus_vec (farith n) (fops_scalar n) m out a2 a1 len) out len.
Proof.
  intros t n m out a1 a2 len H. fits H. eapply alike_leaves; [apply C18_plus_vec_lemma; tauto|apply C18_plus_vec_lemma; tauto|]. lanes. apply fadd_comm.
Qed.

Lemma C88_plus_swap_vec_simd_lemma : 
  forall (c : cfg) (B : backend) (n : nans (fmt_of B)) (m : mem (F (fmt_of B))) (out : Z) (a1 a2 : arg (F (fmt_of B))) (len : Z), simd_call_fits B m out len [a1; a2] ->
    alike same_or_nan m (plus_vec_simd (farith n) (fops c B n) B m out a1 a2 len) (plus_vec_simd (farith n) (fops c B n) B m out a2 a1 len) out len.
Proof.
  intros c B n m out a1 a2 len H. fits_simd H. eapply alike_leaves; [apply C18_plus_vec_simd_lemma; tauto|apply C18_plus_vec_simd_lemma; tauto|]. lanes. apply fadd_comm.
Qed.

Lemma C88_sum2_swap_vec_lemma : 
  forall (t : fmt) (n : nans t) (m : mem (F t)) (out : Z) (a1 a2 : arg (F t)) (len : Z), call_fits m out len [a1; a2] ->
    alike same_or_nan m (sum_vec2 (farith n) (fops_scalar n) m out a1 a2 len) (sum_vec2 (farith n) (fops_scalar n) m out a2 a1 len) out len.
Proof.
  intros t n m out a1 a2 len H. fits H. eapply alike_leaves; [apply C18_sum_vec2_lemma; tauto|apply C18_sum_vec2_lemma; tauto|]. lanes. apply fadd_comm.
Qed.

Lemma C88_sum2_swap_vec_simd_lemma : 
  forall (c : cfg) (B : backend) (n : nans (fmt_of B)) (m : mem (F (fmt_of B))) (out : Z) (a1 a2 : arg (F (fmt_of B))) (len : Z), simd_call_fits B m out len [a1; a2] ->
    alike same_or_nan m (sum_vec2_simd (farith n) (fops c B n) B m out a1 a2 len) (sum_vec2_simd (farith n) (fops c B n) B m out a2 a1 len) out len.
Proof.
  intros c B n m out a1 a2 len H. fits_simd H. eapply alike_leaves; [apply C18_sum_vec2_simd_lemma; tauto|apply C18_sum_vec2_simd_lemma; tauto|]. lanes. apply fadd_comm.
Qed.

Lemma C88_times_swap_vec_lemma : 
  forall (t : fmt) (n : nans t) (m : mem (F t)) (out : Z) (a1 a2 : arg (F t)) (len : Z), call_fits m out len [a1; a2] ->
    alike same_or_nan m (times_vec (farith n) (fops_scalar n) m out a1 a2 len) (times_vec (farith n) (fops_scalar n) m out a2 a1 len) out len.
Proof.
  intros t n m out a1 a2 len H. fits H. eapply alike_leaves; [apply C18_times_vec_lemma; tauto|apply C18_times_vec_lemma; tauto|]. lanes. apply fmul_comm.
Qed.

Lemma C88_times_swap_vec_simd_lemma : 
  forall (c : cfg) (B : backend) (n : nans (fmt_of B)) (m : mem (F (fmt_of B))) (out : Z) (a1 a2 : arg (F (fmt_of B))) (len : Z), simd_call_fits B m out len [a1; a2] ->
    alike same_or_nan m (times_vec_simd (farith n) (fops c B n) B m out a1 a2 len) (times_vec_simd (farith n) (fops c B n) B m out a2 a1 len) out len.
Proof.
  intros c B n m out a1 a2 len H. fits_simd H. eapply alike_leaves; [apply C18_times_vec_simd_lemma; tauto|apply C18_times_vec_simd_lemma; tauto|]. lanes. apply vmul_comm.
Qed.

Lemma C88_mix_swap_vec_lemma : 
  forall (t : fmt) (n : nans t) (m : mem (F t)) (out : Z) (a1 a2 a3 a4 : arg (F t)) (len : Z), call_fits m out len [a1; a2; a3; a4] ->
    alike same_or_nan m (mix_vec (farith n) (fops_scalar n) m out a1 a2 a3 a4 len) (mix_vec (farith n) (fops_scalar n) m out a3 a4 a1 a2 len) out len.
Proof.
  intros t n m out a1 a2 a3 a4 len H. fits H. eapply alike_leaves; [apply C18_mix_vec_lemma; tauto|apply C18_mix_vec_lemma; tauto|]. lanes. apply fadd_comm.
Qed.

Lemma C88_mix_swap_vec_simd_lemma : 
  forall (c : cfg) (B : backend) (n : nans (fmt_of B)) (m : mem (F (fmt_of B))) (out : Z) (a1 a2 a3 a4 : arg (F (fmt_of B))) (len : Z), simd_call_fits B m out len [a1; a2; a3; a4] ->
    alike same_or_nan m (mix_vec_simd (farith n) (fops c B n) B m out a1 a2 a3 a4 len) (mix_vec_simd (farith n) (fops c B n) B m out a3 a4 a1 a2 len) out len.
Proof.
  intros c B n m out a1 a2 a3 a4 len H. fits_simd H. eapply alike_leaves; [apply C18_mix_vec_simd_lemma; tauto|apply C18_mix_vec_simd_lemma; tauto|]. lanes. apply fadd_comm.
Qed.

Lemma C88_mix_gains_vec_lemma : 
  forall (t : fmt) (n : nans t) (m : mem (F t)) (out : Z) (a1 a2 a3 a4 : arg (F t)) (len : Z), call_fits m out len [a1; a2; a3; a4] ->
    alike same_or_nan m (mix_vec (farith n) (fops_scalar n) m out a1 a2 a3 a4 len) (mix_vec (farith n) (fops_scalar n) m out a2 a1 a4 a3 len) out len.
Proof.
  intros t n m out a1 a2 a3 a4 len H. fits H. eapply alike_leaves; [apply C18_mix_vec_lemma; tauto|apply C18_mix_vec_lemma; tauto|]. lanes. apply same_add; apply fmul_comm.
Qed.

Lemma C88_mix_gains_vec_simd_lemma : 
  forall (c : cfg) (B : backend) (n : nans (fmt_of B)) (m : mem (F (fmt_of B))) (out : Z) (a1 a2 a3 a4 : arg (F (fmt_of B))) (len : Z), simd_call_fits B m out len [a1; a2; a3; a4] ->
    alike same_or_nan m (mix_vec_simd (farith n) (fops c B n) B m out a1 a2 a3 a4 len) (mix_vec_simd (farith n) (fops c B n) B m out a2 a1 a4 a3 len) out len.
Proof.
  intros c B n m out a1 a2 a3 a4 len H. fits_simd H. eapply alike_leaves; [apply C18_mix_vec_simd_lemma; tauto|apply C18_mix_vec_simd_lemma; tauto|]. lanes. apply same_add; apply vmul_comm.
Qed.

Lemma C88_sum3_swap_vec_lemma : 
  forall (t : fmt) (n : nans t) (m : mem (F t)) (out : Z) (a1 a2 a3 : arg (F t)) (len : Z), call_fits m out len [a1; a2; a3] ->
    alike same_or_nan m (sum_vec3 (farith n) (fops_scalar n) m out a1 a2 a3 len) (sum_vec3 (farith n) (fops_scalar n) m out a2 a1 a3 len) out len.
Proof.
  intros t n m out a1 a2 a3 len H. fits H. eapply alike_leaves; [apply C18_sum_vec3_lemma; tauto|apply C18_sum_vec3_lemma; tauto|]. lanes. apply same_add; [apply fadd_comm|apply same_refl].
Qed.

Lemma C88_sum3_swap_vec_simd_lemma : 
  forall (c : cfg) (B : backend) (n : nans (fmt_of B)) (m : mem (F (fmt_of B))) (out : Z) (a1 a2 a3 : arg (F (fmt_of B))) (len : Z), simd_call_fits B m out len [a1; a2; a3] ->
    alike same_or_nan m (sum_vec3_simd (farith n) (fops c B n) B m out a1 a2 a3 len) (sum_vec3_simd (farith n) (fops c B n) B m out a2 a1 a3 len) out len.
Proof.
  intros c B n m out a1 a2 a3 len H. fits_simd H. eapply alike_leaves; [apply C18_sum_vec3_simd_lemma; tauto|apply C18_sum_vec3_simd_lemma; tauto|]. lanes. apply same_add; [apply fadd_comm|apply same_refl].
Qed.

Lemma C88_sum4_swap_vec_lemma : 
  forall (t : fmt) (n : nans t) (m : mem (F t)) (out : Z) (a1 a2 a3 a4 : arg (F t)) (len : Z), call_fits m out len [a1; a2; a3; a4] ->
    alike same_or_nan m (sum_vec4 (farith n) (fops_scalar n) m out a1 a2 a3 a4 len) (sum_vec4 (farith n) (fops_scalar n) m out a4 a3 a2 a1 len) out len.
Proof.
  intros t n m out a1 a2 a3 a4 len H. fits H. eapply alike_leaves; [apply C18_sum_vec4_lemma; tauto|apply C18_sum_vec4_lemma; tauto|]. lanes. eapply same_trans; [apply fadd_comm|]; apply same_add; apply fadd_comm.
Qed.

Lemma C88_sum4_swap_vec_simd_lemma : 
  forall (c : cfg) (B : backend) (n : nans (fmt_of B)) (m : mem (F (fmt_of B))) (out : Z) (a1 a2 a3 a4 : arg (F (fmt_of B))) (len : Z), simd_call_fits B m out len [a1; a2; a3; a4] ->
    alike same_or_nan m (sum_vec4_simd (farith n) (fops c B n) B m out a1 a2 a3 a4 len) (sum_vec4_simd (farith n) (fops c B n) B m out a4 a3 a2 a1 len) out len.
Proof.
  intros c B n m out a1 a2 a3 a4 len H. fits_simd H. eapply alike_leaves; [apply C18_sum_vec4_simd_lemma; tauto|apply C18_sum_vec4_simd_lemma; tauto|]. lanes. eapply same_trans; [apply fadd_comm|]; apply same_add; apply fadd_comm.
Qed.

Lemma C88_muladd_swap_vec_lemma : 
  forall (t : fmt) (n : nans t) (m : mem (F t)) (out : Z) (a1 a2 a3 : arg (F t)) (len : Z), call_fits m out len [a1; a2; a3] ->
    alike same_or_nan m (muladd_vec (farith n) (fops_scalar n) m out a1 a2 a3 len) (muladd_vec (farith n) (fops_scalar n) m out a2 a1 a3 len) out len.
Proof.
  intros t n m out a1 a2 a3 len H. fits H. eapply alike_leaves; [apply C18_muladd_vec_lemma; tauto|apply C18_muladd_vec_lemma; tauto|]. lanes. apply same_add; [apply fmul_comm|apply same_refl].
Qed.

Lemma C88_muladd_swap_vec_simd_lemma : 
  forall (c : cfg) (B : backend) (n : nans (fmt_of B)) (m : mem (F (fmt_of B))) (out : Z) (a1 a2 a3 : arg (F (fmt_of B))) (len : Z), simd_call_fits B m out len [a1; a2; a3] ->
    alike same_or_nan m (muladd_vec_simd (farith n) (fops c B n) B m out a1 a2 a3 len) (muladd_vec_simd (farith n) (fops c B n) B m out a2 a1 a3 len) out len.
Proof.
  intros c B n m out a1 a2 a3 len H. fits_simd H. eapply alike_leaves; [apply C18_muladd_vec_simd_lemma; tauto|apply C18_muladd_vec_simd_lemma; tauto|]. lanes. apply madd_comm.
Qed.

Lemma C88_ampmod_swap_vec_lemma : 
  forall (t : fmt) (n : nans t) (m : mem (F t)) (out : Z) (a1 a2 a3 : arg (F t)) (len : Z), call_fits m out len [a1; a2; a3] ->
    alike same_or_nan m (ampmod_vec (farith n) (fops_scalar n) m out a1 a2 a3 len) (ampmod_vec (farith n) (fops_scalar n) m out a1 a3 a2 len) out len.
Proof.
  intros t n m out a1 a2 a3 len H. fits H. eapply alike_leaves; [apply C18_ampmod_vec_lemma; tauto|apply C18_ampmod_vec_lemma; tauto|]. lanes. apply same_fmul, same_add; [apply same_refl|apply fmul_comm].
Qed.

Lemma C88_ampmod_swap_vec_simd_lemma : 
  forall (c : cfg) (B : backend) (n : nans (fmt_of B)) (m : mem (F (fmt_of B))) (out : Z) (a1 a2 a3 : arg (F (fmt_of B))) (len : Z), simd_call_fits B m out len [a1; a2; a3] ->
    alike same_or_nan m (ampmod_vec_simd (farith n) (fops c B n) B m out a1 a2 a3 len) (ampmod_vec_simd (farith n) (fops c B n) B m out a1 a3 a2 len) out len.
Proof.
  intros c B n m out a1 a2 a3 len H. fits_simd H. eapply alike_leaves; [apply C18_ampmod_vec_simd_lemma; tauto|apply C18_ampmod_vec_simd_lemma; tauto|]. lanes. apply same_vmul, same_add; [apply same_refl|apply vmul_comm].
Qed.

Lemma C88_sum3_order_refuted_lemma : 
  forall (t : fmt) (n : nans t), exists (m : mem (F t)) (out : Z) (a1 a2 a3 : arg (F t)) (len : Z), call_fits m out len [a1; a2; a3] /\
    ~ alike same_or_nan m (sum_vec3 (farith n) (fops_scalar n) m out a1 a2 a3 len) (sum_vec3 (farith n) (fops_scalar n) m out a3 a2 a1 len) out len.
Proof.
  intros t n. exists (block 0 32 (fun _ => f_ofZ t 0)), 0, (AScal (f_lit t 1 60)), (AScal (f_lit t (-1) 60)), (AScal (f_ofZ t 1)), 32.
  assert (H : call_fits (block 0 32 (fun _ => f_ofZ t 0)) 0 32 [AScal (f_lit t 1 60); AScal (f_lit t (-1) 60); AScal (f_ofZ t 1)]) by polar_tac.
  split; [exact H|]. fits H. intros (m1 & m2 & E1 & E2 & W & _).
  destruct (C18_sum_vec3_lemma _ (farith n) (fops_scalar n) (block 0 32 (fun _ => f_ofZ t 0)) 0 (AScal (f_lit t 1 60)) (AScal (f_lit t (-1) 60)) (AScal (f_ofZ t 1)) 32) as (k1 & D1 & L1 & _); [tauto..|].
  destruct (C18_sum_vec3_lemma _ (farith n) (fops_scalar n) (block 0 32 (fun _ => f_ofZ t 0)) 0 (AScal (f_ofZ t 1)) (AScal (f_lit t (-1) 60)) (AScal (f_lit t 1 60)) 32) as (k2 & D2 & L2 & _); [tauto..|].
  rewrite E1 in D1. injection D1 as <-. rewrite E2 in D2. injection D2 as <-.
  destruct (W 0) as (u & v & U & V & S); [lia|]. destruct (L1 0) as [L1' _]; [lia|]. destruct (L2 0) as [L2' _]; [lia|]. rewrite U in L1'. rewrite V in L2'.
  cbn [sample lift3] in L1', L2'. injection L1' as ->. injection L2' as ->. clear - S.
  destruct t; destruct S as [S|[S _]]; vm_compute in S; discriminate S.
Qed.

Lemma C88_min_swap_vec_lemma : 
  forall (t : fmt) (n : nans t) (m : mem (F t)) (out : Z) (a1 a2 : arg (F t)) (len : Z), call_fits m out len [a1; a2] ->
    samples (farith n) number m a1 len -> samples (farith n) number m a2 len -> alike equal_numbers m (min_vec (farith n) (fops_scalar n) m out a1 a2 len) (min_vec (farith n) (fops_scalar n) m out a2 a1 len) out len.
Proof.
  intros t n m out a1 a2 len H J0 J1. fits H. eapply alike_leaves; [apply C18_min_vec_lemma; tauto|apply C18_min_vec_lemma; tauto|]. lanes. apply smin_swap; assumption.
Qed.

Lemma C88_min_swap_vec_simd_lemma : 
  forall (c : cfg) (B : backend) (n : nans (fmt_of B)) (m : mem (F (fmt_of B))) (out : Z) (a1 a2 : arg (F (fmt_of B))) (len : Z), simd_call_fits B m out len [a1; a2] ->
    samples (farith n) number m a1 len -> samples (farith n) number m a2 len -> alike equal_numbers m (min_vec_simd (farith n) (fops c B n) B m out a1 a2 len) (min_vec_simd (farith n) (fops c B n) B m out a2 a1 len) out len.
Proof.
  intros c B n m out a1 a2 len H J0 J1. fits_simd H. eapply alike_leaves; [apply C18_min_vec_simd_lemma; tauto|apply C18_min_vec_simd_lemma; tauto|]. lanes. apply vmin_swap; assumption.
Qed.

Lemma C88_max_swap_vec_lemma : 
  forall (t : fmt) (n : nans t) (m : mem (F t)) (out : Z) (a1 a2 : arg (F t)) (len : Z), call_fits m out len [a1; a2] ->
    samples (farith n) number m a1 len -> samples (farith n) number m a2 len -> alike equal_numbers m (max_vec (farith n) (fops_scalar n) m out a1 a2 len) (max_vec (farith n) (fops_scalar n) m out a2 a1 len) out len.
Proof.
  intros t n m out a1 a2 len H J0 J1. fits H. eapply alike_leaves; [apply C18_max_vec_lemma; tauto|apply C18_max_vec_lemma; tauto|]. lanes. apply smax_swap; assumption.
Qed.

Lemma C88_max_swap_vec_simd_lemma : 
  forall (c : cfg) (B : backend) (n : nans (fmt_of B)) (m : mem (F (fmt_of B))) (out : Z) (a1 a2 : arg (F (fmt_of B))) (len : Z), simd_call_fits B m out len [a1; a2] ->
    samples (farith n) number m a1 len -> samples (farith n) number m a2 len -> alike equal_numbers m (max_vec_simd (farith n) (fops c B n) B m out a1 a2 len) (max_vec_simd (farith n) (fops c B n) B m out a2 a1 len) out len.
Proof.
  intros c B n m out a1 a2 len H J0 J1. fits_simd H. eapply alike_leaves; [apply C18_max_vec_simd_lemma; tauto|apply C18_max_vec_simd_lemma; tauto|]. lanes. apply vmax_swap; assumption.
Qed.

Lemma C88_min_zero_refuted_lemma : 
  forall (t : fmt) (n : nans t), exists (m : mem (F t)) (out : Z) (x y : F t) (len : Z), call_fits m out len [AScal x; AScal y] /\
    ~ alike same_or_nan m (min_vec (farith n) (fops_scalar n) m out (AScal x) (AScal y) len) (min_vec (farith n) (fops_scalar n) m out (AScal y) (AScal x) len) out len.
Proof.
  intros t n. exists (block 0 32 (fun _ => f_ofZ t 0)), 0, (f_ofZ t 0), (fneg (f_ofZ t 0)), 32.
  assert (H : call_fits (block 0 32 (fun _ => f_ofZ t 0)) 0 32 [AScal (f_ofZ t 0); AScal (fneg (f_ofZ t 0))]) by polar_tac.
  split; [exact H|]. fits H. intros (m1 & m2 & E1 & E2 & W & _).
  destruct (C18_min_vec_lemma _ (farith n) (fops_scalar n) (block 0 32 (fun _ => f_ofZ t 0)) 0 (AScal (f_ofZ t 0)) (AScal (fneg (f_ofZ t 0))) 32) as (k1 & D1 & L1 & _); [tauto..|].
  destruct (C18_min_vec_lemma _ (farith n) (fops_scalar n) (block 0 32 (fun _ => f_ofZ t 0)) 0 (AScal (fneg (f_ofZ t 0))) (AScal (f_ofZ t 0)) 32) as (k2 & D2 & L2 & _); [tauto..|].
  rewrite E1 in D1. injection D1 as <-. rewrite E2 in D2. injection D2 as <-.
  destruct (W 0) as (u & v & U & V & S); [lia|]. destruct (L1 0) as [L1' _]; [lia|]. destruct (L2 0) as [L2' _]; [lia|]. rewrite U in L1'. rewrite V in L2'.
  cbn [sample lift2] in L1', L2'. injection L1' as ->. injection L2' as ->. clear - S.
  destruct t; destruct S as [S|[S _]]; vm_compute in S; discriminate S.
Qed.

Lemma C88_min_nan_refuted_lemma : 
  forall (t : fmt) (n : nans t), exists (m : mem (F t)) (out : Z) (x y : F t) (len : Z), call_fits m out len [AScal x; AScal y] /\
    ~ alike (fun x y => same_or_nan x y \/ equal_numbers x y) m (min_vec (farith n) (fops_scalar n) m out (AScal x) (AScal y) len) (min_vec (farith n) (fops_scalar n) m out (AScal y) (AScal x) len) out len.
Proof.
  intros t n. exists (block 0 32 (fun _ => f_ofZ t 0)), 0, (f_ofZ t 1), (qnan t), 32.
  assert (H : call_fits (block 0 32 (fun _ => f_ofZ t 0)) 0 32 [AScal (f_ofZ t 1); AScal (qnan t)]) by polar_tac.
  split; [exact H|]. fits H. intros (m1 & m2 & E1 & E2 & W & _).
  destruct (C18_min_vec_lemma _ (farith n) (fops_scalar n) (block 0 32 (fun _ => f_ofZ t 0)) 0 (AScal (f_ofZ t 1)) (AScal (qnan t)) 32) as (k1 & D1 & L1 & _); [tauto..|].
  destruct (C18_min_vec_lemma _ (farith n) (fops_scalar n) (block 0 32 (fun _ => f_ofZ t 0)) 0 (AScal (qnan t)) (AScal (f_ofZ t 1)) 32) as (k2 & D2 & L2 & _); [tauto..|].
  rewrite E1 in D1. injection D1 as <-. rewrite E2 in D2. injection D2 as <-.
  destruct (W 0) as (u & v & U & V & S); [lia|]. destruct (L1 0) as [L1' _]; [lia|]. destruct (L2 0) as [L2' _]; [lia|]. rewrite U in L1'. rewrite V in L2'.
  cbn [sample lift2] in L1', L2'. injection L1' as ->. injection L2' as ->. clear - S.
  destruct t; destruct S as [[S|[S _]]|S]; vm_compute in S; discriminate S.
Qed.

Lemma C88_compare_mirror_vec_lemma : 
  forall (t : fmt) (n : nans t) (r : rel) (m : mem (F t)) (out : Z) (a1 a2 : arg (F t)) (len : Z), call_fits m out len [a1; a2] ->
    alike same_or_nan m (compare_vec n r m out a1 a2 len) (compare_vec n (mirrored r) m out a2 a1 len) out len.
Proof.
  intros t n r m out a1 a2 len H. fits H. unfold compare_vec.
  eapply alike_leaves; [apply binary_leaves; tauto|apply binary_leaves; tauto|].
  lanes. rewrite !o_rel_scalar, srel_mirror. apply same_refl.
Qed.

Lemma C88_compare_mirror_vec_simd_lemma : 
  forall (c : cfg) (B : backend) (n : nans (fmt_of B)) (r : rel) (m : mem (F (fmt_of B))) (out : Z) (a1 a2 : arg (F (fmt_of B))) (len : Z), simd_call_fits B m out len [a1; a2] ->
    (samples (farith n) number m a1 len /\ samples (farith n) number m a2 len) \/ is_avx B = false -> alike same_or_nan m (compare_vec_simd c B n r m out a1 a2 len) (compare_vec_simd c B n (mirrored r) m out a2 a1 len) out len.
Proof.
  intros c B n r m out a1 a2 len H J. fits_simd H. unfold compare_vec_simd. rewrite !o_rel_vec.
  eapply alike_leaves; [apply binary_simd_leaves; tauto|apply binary_simd_leaves; tauto|].
  destruct J as [[J1 J2]|J]; lanes; rewrite !oprel_val, vrel_mirror; try apply same_refl; [left; split; assumption|right; destruct B; discriminate].
Qed.

Lemma C88_compare_negated_vec_lemma : 
  forall (t : fmt) (n : nans t) (r : rel) (m : mem (F t)) (out : Z) (a1 a2 : arg (F t)) (len : Z), call_fits m out len [a1; a2] ->
    (samples (farith n) number m a1 len /\ samples (farith n) number m a2 len) \/ r = EQ \/ r = NE -> alike contrary m (compare_vec n r m out a1 a2 len) (compare_vec n (negated r) m out a1 a2 len) out len.
Proof.
  intros t n r m out a1 a2 len H J. fits H. unfold compare_vec.
  eapply alike_leaves; [apply binary_leaves; tauto|apply binary_leaves; tauto|].
  destruct J as [[J1 J2]|J]; lanes; rewrite !o_rel_scalar; apply of_bool_contrary; [apply srel_negated; assumption|apply srel_equal; exact J].
Qed.

Lemma C88_compare_negated_vec_simd_lemma : 
  forall (c : cfg) (B : backend) (n : nans (fmt_of B)) (r : rel) (m : mem (F (fmt_of B))) (out : Z) (a1 a2 : arg (F (fmt_of B))) (len : Z), simd_call_fits B m out len [a1; a2] ->
    (samples (farith n) number m a1 len /\ samples (farith n) number m a2 len) \/ r = EQ \/ r = NE \/ is_avx B = true -> alike contrary m (compare_vec_simd c B n r m out a1 a2 len) (compare_vec_simd c B n (negated r) m out a1 a2 len) out len.
Proof.
  intros c B n r m out a1 a2 len H J. fits_simd H. unfold compare_vec_simd. rewrite !o_rel_vec.
  eapply alike_leaves; [apply binary_simd_leaves; tauto|apply binary_simd_leaves; tauto|].
  destruct J as [[J1 J2]|J]; lanes; rewrite !oprel_val; apply (of_bool_contrary (t := fmt_of B)); apply vrel_negated; [left; split; assumption|right].
  destruct J as [J|[J|J]]; auto. right. right. destruct B; try discriminate J; reflexivity.
Qed.

Lemma C88_compare_mirror_avx_refuted_lemma : 
  forall (c : cfg) (n : nans F32), exists (m : mem (F F32)) (out : Z) (a1 a2 : arg (F F32)) (len : Z), simd_call_fits AVX32 m out len [a1; a2] /\
    ~ alike same_or_nan m (compare_vec_simd c AVX32 n GT m out a1 a2 len) (compare_vec_simd c AVX32 n LT m out a2 a1 len) out len.
Proof.
  intros c n. exists polar, 0, (AScal (f_ofZ F32 1)), (AScal (qnan F32)), 32.
  assert (H : simd_call_fits AVX32 polar 0 32 [AScal (f_ofZ F32 1); AScal (qnan F32)]) by polar_tac.
  split; [exact H|]. fits_simd H. unfold compare_vec_simd. rewrite !o_rel_vec. intros (m1 & m2 & E1 & E2 & W & _).
  destruct (binary_simd_leaves (farith n) AVX32 (oprel c (isa_of AVX32) GT) polar 0 (AScal (f_ofZ F32 1)) (AScal (qnan F32)) 32) as (k1 & D1 & L1 & _); [tauto..|].
  destruct (binary_simd_leaves (farith n) AVX32 (oprel c (isa_of AVX32) LT) polar 0 (AScal (qnan F32)) (AScal (f_ofZ F32 1)) 32) as (k2 & D2 & L2 & _); [tauto..|].
  pose proof (eq_trans (eq_sym E1) D1) as Q1. injection Q1 as <-. pose proof (eq_trans (eq_sym E2) D2) as Q2. injection Q2 as <-.
  destruct (W 0) as (u & v & U & V & S); [lia|]. destruct (L1 0) as [L1' _]; [lia|]. destruct (L2 0) as [L2' _]; [lia|]. pose proof (eq_trans (eq_sym U) L1') as R1. pose proof (eq_trans (eq_sym V) L2') as R2.
  pose proof (oprel_val (t := F32) c AVX GT (f_ofZ F32 1) (qnan F32)) as V1. pose proof (oprel_val (t := F32) c AVX LT (qnan F32) (f_ofZ F32 1)) as V2.
  assert (K1 : Some u = Some (f_ofZ F32 1)) by (etransitivity; [exact R1|]; exact (f_equal Some (eq_trans V1 eq_refl))).
  assert (K2 : Some v = Some (f_ofZ F32 0)) by (etransitivity; [exact R2|]; exact (f_equal Some (eq_trans V2 eq_refl))).
  assert (u = f_ofZ F32 1) as -> by congruence. assert (v = f_ofZ F32 0) as -> by congruence. clear - S.
  destruct S as [S|[S _]]; vm_compute in S; discriminate S.
Qed.

Lemma C88_minus_swap_vec_lemma : 
  forall (t : fmt) (n : nans t) (m : mem (F t)) (out : Z) (a1 a2 : arg (F t)) (len : Z), call_fits m out len [a1; a2] ->
    alike opposite m (minus_vec (farith n) (fops_scalar n) m out a1 a2 len) (minus_vec (farith n) (fops_scalar n) m out a2 a1 len) out len.
Proof.
  intros t n m out a1 a2 len H. fits H. eapply alike_leaves; [apply C18_minus_vec_lemma; tauto|apply C18_minus_vec_lemma; tauto|]. lanes. apply opposite_sub_swap.
Qed.

Lemma C88_minus_swap_vec_simd_lemma : 
  forall (c : cfg) (B : backend) (n : nans (fmt_of B)) (m : mem (F (fmt_of B))) (out : Z) (a1 a2 : arg (F (fmt_of B))) (len : Z), simd_call_fits B m out len [a1; a2] ->
    alike opposite m (minus_vec_simd (farith n) (fops c B n) B m out a1 a2 len) (minus_vec_simd (farith n) (fops c B n) B m out a2 a1 len) out len.
Proof.
  intros c B n m out a1 a2 len H. fits_simd H. eapply alike_leaves; [apply C18_minus_vec_simd_lemma; tauto|apply C18_minus_vec_simd_lemma; tauto|]. lanes. apply opposite_sub_swap.
Qed.

Lemma C88_plus_invert_vec_lemma : 
  forall (t : fmt) (n : nans t) (m : mem (F t)) (out : Z) (a1 a2 b1 b2 : arg (F t)) (len : Z), call_fits m out len [a1; a2; b1; b2] ->
    inverts (farith n) m a1 b1 len -> inverts (farith n) m a2 b2 len -> alike opposite m (plus_vec (farith n) (fops_scalar n) m out a1 a2 len) (plus_vec (farith n) (fops_scalar n) m out b1 b2 len) out len.
Proof.
  intros t n m out a1 a2 b1 b2 len H J0 J1. fits H. eapply alike_leaves; [apply C18_plus_vec_lemma; tauto|apply C18_plus_vec_lemma; tauto|]. lanes. apply opposite_add; apply opposite_neg.
Qed.

Lemma C88_plus_invert_vec_simd_lemma : 
  forall (c : cfg) (B : backend) (n : nans (fmt_of B)) (m : mem (F (fmt_of B))) (out : Z) (a1 a2 b1 b2 : arg (F (fmt_of B))) (len : Z), simd_call_fits B m out len [a1; a2; b1; b2] ->
    inverts (farith n) m a1 b1 len -> inverts (farith n) m a2 b2 len -> alike opposite m (plus_vec_simd (farith n) (fops c B n) B m out a1 a2 len) (plus_vec_simd (farith n) (fops c B n) B m out b1 b2 len) out len.
Proof.
  intros c B n m out a1 a2 b1 b2 len H J0 J1. fits_simd H. eapply alike_leaves; [apply C18_plus_vec_simd_lemma; tauto|apply C18_plus_vec_simd_lemma; tauto|]. lanes. apply opposite_add; apply opposite_neg.
Qed.

Lemma C88_minus_invert_vec_lemma : 
  forall (t : fmt) (n : nans t) (m : mem (F t)) (out : Z) (a1 a2 b1 b2 : arg (F t)) (len : Z), call_fits m out len [a1; a2; b1; b2] ->
    inverts (farith n) m a1 b1 len -> inverts (farith n) m a2 b2 len -> alike opposite m (minus_vec (farith n) (fops_scalar n) m out a1 a2 len) (minus_vec (farith n) (fops_scalar n) m out b1 b2 len) out len.
Proof.
  intros t n m out a1 a2 b1 b2 len H J0 J1. fits H. eapply alike_leaves; [apply C18_minus_vec_lemma; tauto|apply C18_minus_vec_lemma; tauto|]. lanes. apply opposite_sub; apply opposite_neg.
Qed.

Lemma C88_minus_invert_vec_simd_lemma : 
  forall (c : cfg) (B : backend) (n : nans (fmt_of B)) (m : mem (F (fmt_of B))) (out : Z) (a1 a2 b1 b2 : arg (F (fmt_of B))) (len : Z), simd_call_fits B m out len [a1; a2; b1; b2] ->
    inverts (farith n) m a1 b1 len -> inverts (farith n) m a2 b2 len -> alike opposite m (minus_vec_simd (farith n) (fops c B n) B m out a1 a2 len) (minus_vec_simd (farith n) (fops c B n) B m out b1 b2 len) out len.
Proof.
  intros c B n m out a1 a2 b1 b2 len H J0 J1. fits_simd H. eapply alike_leaves; [apply C18_minus_vec_simd_lemma; tauto|apply C18_minus_vec_simd_lemma; tauto|]. lanes. apply opposite_sub; apply opposite_neg.
Qed.

Lemma C88_sum3_invert_vec_lemma : 
  forall (t : fmt) (n : nans t) (m : mem (F t)) (out : Z) (a1 a2 a3 b1 b2 b3 : arg (F t)) (len : Z), call_fits m out len [a1; a2; a3; b1; b2; b3] ->
    inverts (farith n) m a1 b1 len -> inverts (farith n) m a2 b2 len -> inverts (farith n) m a3 b3 len -> alike opposite m (sum_vec3 (farith n) (fops_scalar n) m out a1 a2 a3 len) (sum_vec3 (farith n) (fops_scalar n) m out b1 b2 b3 len) out len.
Proof.
  intros t n m out a1 a2 a3 b1 b2 b3 len H J0 J1 J2. fits H. eapply alike_leaves; [apply C18_sum_vec3_lemma; tauto|apply C18_sum_vec3_lemma; tauto|]. lanes. repeat apply opposite_add; apply opposite_neg.
Qed.

Lemma C88_sum3_invert_vec_simd_lemma : 
  forall (c : cfg) (B : backend) (n : nans (fmt_of B)) (m : mem (F (fmt_of B))) (out : Z) (a1 a2 a3 b1 b2 b3 : arg (F (fmt_of B))) (len : Z), simd_call_fits B m out len [a1; a2; a3; b1; b2; b3] ->
    inverts (farith n) m a1 b1 len -> inverts (farith n) m a2 b2 len -> inverts (farith n) m a3 b3 len -> alike opposite m (sum_vec3_simd (farith n) (fops c B n) B m out a1 a2 a3 len) (sum_vec3_simd (farith n) (fops c B n) B m out b1 b2 b3 len) out len.
Proof.
  intros c B n m out a1 a2 a3 b1 b2 b3 len H J0 J1 J2. fits_simd H. eapply alike_leaves; [apply C18_sum_vec3_simd_lemma; tauto|apply C18_sum_vec3_simd_lemma; tauto|]. lanes. repeat apply opposite_add; apply opposite_neg.
Qed.

Lemma C88_sum4_invert_vec_lemma : 
  forall (t : fmt) (n : nans t) (m : mem (F t)) (out : Z) (a1 a2 a3 a4 b1 b2 b3 b4 : arg (F t)) (len : Z), call_fits m out len [a1; a2; a3; a4; b1; b2; b3; b4] ->
    inverts (farith n) m a1 b1 len -> inverts (farith n) m a2 b2 len -> inverts (farith n) m a3 b3 len -> inverts (farith n) m a4 b4 len -> alike opposite m (sum_vec4 (farith n) (fops_scalar n) m out a1 a2 a3 a4 len) (sum_vec4 (farith n) (fops_scalar n) m out b1 b2 b3 b4 len) out len.
Proof.
  intros t n m out a1 a2 a3 a4 b1 b2 b3 b4 len H J0 J1 J2 J3. fits H. eapply alike_leaves; [apply C18_sum_vec4_lemma; tauto|apply C18_sum_vec4_lemma; tauto|]. lanes. repeat apply opposite_add; apply opposite_neg.
Qed.

Lemma C88_sum4_invert_vec_simd_lemma : 
  forall (c : cfg) (B : backend) (n : nans (fmt_of B)) (m : mem (F (fmt_of B))) (out : Z) (a1 a2 a3 a4 b1 b2 b3 b4 : arg (F (fmt_of B))) (len : Z), simd_call_fits B m out len [a1; a2; a3; a4; b1; b2; b3; b4] ->
    inverts (farith n) m a1 b1 len -> inverts (farith n) m a2 b2 len -> inverts (farith n) m a3 b3 len -> inverts (farith n) m a4 b4 len -> alike opposite m (sum_vec4_simd (farith n) (fops c B n) B m out a1 a2 a3 a4 len) (sum_vec4_simd (farith n) (fops c B n) B m out b1 b2 b3 b4 len) out len.
Proof.
  intros c B n m out a1 a2 a3 a4 b1 b2 b3 b4 len H J0 J1 J2 J3. fits_simd H. eapply alike_leaves; [apply C18_sum_vec4_simd_lemma; tauto|apply C18_sum_vec4_simd_lemma; tauto|]. lanes. repeat apply opposite_add; apply opposite_neg.
Qed.

Lemma C88_times_invert_vec_lemma : 
  forall (t : fmt) (n : nans t) (m : mem (F t)) (out : Z) (a1 a2 b1 : arg (F t)) (len : Z), call_fits m out len [a1; a2; b1] ->
    inverts (farith n) m a1 b1 len -> alike opposite m (times_vec (farith n) (fops_scalar n) m out a1 a2 len) (times_vec (farith n) (fops_scalar n) m out b1 a2 len) out len.
Proof.
  intros t n m out a1 a2 b1 len H J0. fits H. eapply alike_leaves; [apply C18_times_vec_lemma; tauto|apply C18_times_vec_lemma; tauto|]. lanes. apply opposite_mul.
Qed.

Lemma C88_times_invert_vec_simd_lemma : 
  forall (c : cfg) (B : backend) (n : nans (fmt_of B)) (m : mem (F (fmt_of B))) (out : Z) (a1 a2 b1 : arg (F (fmt_of B))) (len : Z), simd_call_fits B m out len [a1; a2; b1] ->
    inverts (farith n) m a1 b1 len -> alike opposite m (times_vec_simd (farith n) (fops c B n) B m out a1 a2 len) (times_vec_simd (farith n) (fops c B n) B m out b1 a2 len) out len.
Proof.
  intros c B n m out a1 a2 b1 len H J0. fits_simd H. eapply alike_leaves; [apply C18_times_vec_simd_lemma; tauto|apply C18_times_vec_simd_lemma; tauto|]. lanes. apply opposite_vmul.
Qed.

Lemma C88_times_invert_right_vec_lemma : 
  forall (t : fmt) (n : nans t) (m : mem (F t)) (out : Z) (a1 a2 b2 : arg (F t)) (len : Z), call_fits m out len [a1; a2; b2] ->
    inverts (farith n) m a2 b2 len -> alike opposite m (times_vec (farith n) (fops_scalar n) m out a1 a2 len) (times_vec (farith n) (fops_scalar n) m out a1 b2 len) out len.
Proof.
  intros t n m out a1 a2 b2 len H J0. fits H. eapply alike_leaves; [apply C18_times_vec_lemma; tauto|apply C18_times_vec_lemma; tauto|]. lanes. apply opposite_mul_r.
Qed.

Lemma C88_times_invert_right_vec_simd_lemma : 
  forall (c : cfg) (B : backend) (n : nans (fmt_of B)) (m : mem (F (fmt_of B))) (out : Z) (a1 a2 b2 : arg (F (fmt_of B))) (len : Z), simd_call_fits B m out len [a1; a2; b2] ->
    inverts (farith n) m a2 b2 len -> alike opposite m (times_vec_simd (farith n) (fops c B n) B m out a1 a2 len) (times_vec_simd (farith n) (fops c B n) B m out a1 b2 len) out len.
Proof.
  intros c B n m out a1 a2 b2 len H J0. fits_simd H. eapply alike_leaves; [apply C18_times_vec_simd_lemma; tauto|apply C18_times_vec_simd_lemma; tauto|]. lanes. apply opposite_vmul_r.
Qed.

Lemma C88_over_invert_vec_lemma : 
  forall (t : fmt) (n : nans t) (m : mem (F t)) (out : Z) (a1 a2 b1 : arg (F t)) (len : Z), call_fits m out len [a1; a2; b1] ->
    inverts (farith n) m a1 b1 len -> alike opposite m (over_vec (farith n) (fops_scalar n) m out a1 a2 len) (over_vec (farith n) (fops_scalar n) m out b1 a2 len) out len.
Proof.
  intros t n m out a1 a2 b1 len H J0. fits H. eapply alike_leaves; [apply C18_over_vec_lemma; tauto|apply C18_over_vec_lemma; tauto|]. lanes. apply opposite_div.
Qed.

Lemma C88_over_invert_vec_simd_lemma : 
  forall (c : cfg) (B : backend) (n : nans (fmt_of B)) (m : mem (F (fmt_of B))) (out : Z) (a1 a2 b1 : arg (F (fmt_of B))) (len : Z), divides B = true -> simd_call_fits B m out len [a1; a2; b1] ->
    inverts (farith n) m a1 b1 len -> alike opposite m (over_vec_simd (farith n) (fops c B n) B m out a1 a2 len) (over_vec_simd (farith n) (fops c B n) B m out b1 a2 len) out len.
Proof.
  intros c B n m out a1 a2 b1 len HB H J0. fits_simd H. eapply alike_leaves; [apply C18_over_vec_simd_lemma; tauto|apply C18_over_vec_simd_lemma; tauto|]. lanes. apply opposite_div.
Qed.

Lemma C88_over_invert_right_vec_lemma : 
  forall (t : fmt) (n : nans t) (m : mem (F t)) (out : Z) (a1 a2 b2 : arg (F t)) (len : Z), call_fits m out len [a1; a2; b2] ->
    inverts (farith n) m a2 b2 len -> alike opposite m (over_vec (farith n) (fops_scalar n) m out a1 a2 len) (over_vec (farith n) (fops_scalar n) m out a1 b2 len) out len.
Proof.
  intros t n m out a1 a2 b2 len H J0. fits H. eapply alike_leaves; [apply C18_over_vec_lemma; tauto|apply C18_over_vec_lemma; tauto|]. lanes. apply opposite_div.
Qed.

Lemma C88_over_invert_right_vec_simd_lemma : 
  forall (c : cfg) (B : backend) (n : nans (fmt_of B)) (m : mem (F (fmt_of B))) (out : Z) (a1 a2 b2 : arg (F (fmt_of B))) (len : Z), divides B = true -> simd_call_fits B m out len [a1; a2; b2] ->
    inverts (farith n) m a2 b2 len -> alike opposite m (over_vec_simd (farith n) (fops c B n) B m out a1 a2 len) (over_vec_simd (farith n) (fops c B n) B m out a1 b2 len) out len.
Proof.
  intros c B n m out a1 a2 b2 len HB H J0. fits_simd H. eapply alike_leaves; [apply C18_over_vec_simd_lemma; tauto|apply C18_over_vec_simd_lemma; tauto|]. lanes. apply opposite_div.
Qed.

Lemma C88_mix_invert_vec_lemma : 
  forall (t : fmt) (n : nans t) (m : mem (F t)) (out : Z) (a1 a2 a3 a4 b1 b3 : arg (F t)) (len : Z), call_fits m out len [a1; a2; a3; a4; b1; b3] ->
    inverts (farith n) m a1 b1 len -> inverts (farith n) m a3 b3 len -> alike opposite m (mix_vec (farith n) (fops_scalar n) m out a1 a2 a3 a4 len) (mix_vec (farith n) (fops_scalar n) m out b1 a2 b3 a4 len) out len.
Proof.
  intros t n m out a1 a2 a3 a4 b1 b3 len H J0 J1. fits H. eapply alike_leaves; [apply C18_mix_vec_lemma; tauto|apply C18_mix_vec_lemma; tauto|]. lanes. apply opposite_add; apply opposite_mul.
Qed.

Lemma C88_mix_invert_vec_simd_lemma : 
  forall (c : cfg) (B : backend) (n : nans (fmt_of B)) (m : mem (F (fmt_of B))) (out : Z) (a1 a2 a3 a4 b1 b3 : arg (F (fmt_of B))) (len : Z), simd_call_fits B m out len [a1; a2; a3; a4; b1; b3] ->
    inverts (farith n) m a1 b1 len -> inverts (farith n) m a3 b3 len -> alike opposite m (mix_vec_simd (farith n) (fops c B n) B m out a1 a2 a3 a4 len) (mix_vec_simd (farith n) (fops c B n) B m out b1 a2 b3 a4 len) out len.
Proof.
  intros c B n m out a1 a2 a3 a4 b1 b3 len H J0 J1. fits_simd H. eapply alike_leaves; [apply C18_mix_vec_simd_lemma; tauto|apply C18_mix_vec_simd_lemma; tauto|]. lanes. apply opposite_add; apply opposite_vmul.
Qed.

Lemma C88_mix_invert_gains_vec_lemma : 
  forall (t : fmt) (n : nans t) (m : mem (F t)) (out : Z) (a1 a2 a3 a4 b2 b4 : arg (F t)) (len : Z), call_fits m out len [a1; a2; a3; a4; b2; b4] ->
    inverts (farith n) m a2 b2 len -> inverts (farith n) m a4 b4 len -> alike opposite m (mix_vec (farith n) (fops_scalar n) m out a1 a2 a3 a4 len) (mix_vec (farith n) (fops_scalar n) m out a1 b2 a3 b4 len) out len.
Proof.
  intros t n m out a1 a2 a3 a4 b2 b4 len H J0 J1. fits H. eapply alike_leaves; [apply C18_mix_vec_lemma; tauto|apply C18_mix_vec_lemma; tauto|]. lanes. apply opposite_add; apply opposite_mul_r.
Qed.

Lemma C88_mix_invert_gains_vec_simd_lemma : 
  forall (c : cfg) (B : backend) (n : nans (fmt_of B)) (m : mem (F (fmt_of B))) (out : Z) (a1 a2 a3 a4 b2 b4 : arg (F (fmt_of B))) (len : Z), simd_call_fits B m out len [a1; a2; a3; a4; b2; b4] ->
    inverts (farith n) m a2 b2 len -> inverts (farith n) m a4 b4 len -> alike opposite m (mix_vec_simd (farith n) (fops c B n) B m out a1 a2 a3 a4 len) (mix_vec_simd (farith n) (fops c B n) B m out a1 b2 a3 b4 len) out len.
Proof.
  intros c B n m out a1 a2 a3 a4 b2 b4 len H J0 J1. fits_simd H. eapply alike_leaves; [apply C18_mix_vec_simd_lemma; tauto|apply C18_mix_vec_simd_lemma; tauto|]. lanes. apply opposite_add; apply opposite_vmul_r.
Qed.

Lemma C88_muladd_invert_vec_lemma : 
  forall (t : fmt) (n : nans t) (m : mem (F t)) (out : Z) (a1 a2 a3 b1 b3 : arg (F t)) (len : Z), call_fits m out len [a1; a2; a3; b1; b3] ->
    inverts (farith n) m a1 b1 len -> inverts (farith n) m a3 b3 len -> alike opposite m (muladd_vec (farith n) (fops_scalar n) m out a1 a2 a3 len) (muladd_vec (farith n) (fops_scalar n) m out b1 a2 b3 len) out len.
Proof.
  intros t n m out a1 a2 a3 b1 b3 len H J0 J1. fits H. eapply alike_leaves; [apply C18_muladd_vec_lemma; tauto|apply C18_muladd_vec_lemma; tauto|]. lanes. apply opposite_add; [apply opposite_mul|apply opposite_neg].
Qed.

Lemma C88_muladd_invert_vec_simd_lemma : 
  forall (c : cfg) (B : backend) (n : nans (fmt_of B)) (m : mem (F (fmt_of B))) (out : Z) (a1 a2 a3 b1 b3 : arg (F (fmt_of B))) (len : Z), simd_call_fits B m out len [a1; a2; a3; b1; b3] ->
    inverts (farith n) m a1 b1 len -> inverts (farith n) m a3 b3 len -> alike opposite m (muladd_vec_simd (farith n) (fops c B n) B m out a1 a2 a3 len) (muladd_vec_simd (farith n) (fops c B n) B m out b1 a2 b3 len) out len.
Proof.
  intros c B n m out a1 a2 a3 b1 b3 len H J0 J1. fits_simd H. eapply alike_leaves; [apply C18_muladd_vec_simd_lemma; tauto|apply C18_muladd_vec_simd_lemma; tauto|]. lanes. apply opposite_madd.
Qed.

Lemma C88_ampmod_invert_vec_lemma : 
  forall (t : fmt) (n : nans t) (m : mem (F t)) (out : Z) (a1 a2 a3 b1 : arg (F t)) (len : Z), call_fits m out len [a1; a2; a3; b1] ->
    inverts (farith n) m a1 b1 len -> alike opposite m (ampmod_vec (farith n) (fops_scalar n) m out a1 a2 a3 len) (ampmod_vec (farith n) (fops_scalar n) m out b1 a2 a3 len) out len.
Proof.
  intros t n m out a1 a2 a3 b1 len H J0. fits H. eapply alike_leaves; [apply C18_ampmod_vec_lemma; tauto|apply C18_ampmod_vec_lemma; tauto|]. lanes. apply opposite_mul.
Qed.

Lemma C88_ampmod_invert_vec_simd_lemma : 
  forall (c : cfg) (B : backend) (n : nans (fmt_of B)) (m : mem (F (fmt_of B))) (out : Z) (a1 a2 a3 b1 : arg (F (fmt_of B))) (len : Z), simd_call_fits B m out len [a1; a2; a3; b1] ->
    inverts (farith n) m a1 b1 len -> alike opposite m (ampmod_vec_simd (farith n) (fops c B n) B m out a1 a2 a3 len) (ampmod_vec_simd (farith n) (fops c B n) B m out b1 a2 a3 len) out len.
Proof.
  intros c B n m out a1 a2 a3 b1 len H J0. fits_simd H. eapply alike_leaves; [apply C18_ampmod_vec_simd_lemma; tauto|apply C18_ampmod_vec_simd_lemma; tauto|]. lanes. apply opposite_vmul.
Qed.

Lemma C88_min_max_vec_lemma : 
  forall (t : fmt) (n : nans t) (m : mem (F t)) (out : Z) (a1 a2 b1 b2 : arg (F t)) (len : Z), call_fits m out len [a1; a2; b1; b2] ->
    inverts (farith n) m a1 b1 len -> inverts (farith n) m a2 b2 len -> samples (farith n) number m a1 len -> samples (farith n) number m a2 len -> alike opposite m (min_vec (farith n) (fops_scalar n) m out a1 a2 len) (max_vec (farith n) (fops_scalar n) m out b1 b2 len) out len.
Proof.
  intros t n m out a1 a2 b1 b2 len H J0 J1 J2 J3. fits H. eapply alike_leaves; [apply C18_min_vec_lemma; tauto|apply C18_max_vec_lemma; tauto|]. lanes. apply smin_smax; assumption.
Qed.

Lemma C88_min_max_vec_simd_lemma : 
  forall (c : cfg) (B : backend) (n : nans (fmt_of B)) (m : mem (F (fmt_of B))) (out : Z) (a1 a2 b1 b2 : arg (F (fmt_of B))) (len : Z), simd_call_fits B m out len [a1; a2; b1; b2] ->
    inverts (farith n) m a1 b1 len -> inverts (farith n) m a2 b2 len -> samples (farith n) number m a1 len -> samples (farith n) number m a2 len -> alike opposite m (min_vec_simd (farith n) (fops c B n) B m out a1 a2 len) (max_vec_simd (farith n) (fops c B n) B m out b1 b2 len) out len.
Proof.
  intros c B n m out a1 a2 b1 b2 len H J0 J1 J2 J3. fits_simd H. eapply alike_leaves; [apply C18_min_vec_simd_lemma; tauto|apply C18_max_vec_simd_lemma; tauto|]. lanes. apply vmin_vmax; assumption.
Qed.

Lemma C88_clip2_invert_vec_lemma : 
  forall (t : fmt) (n : nans t) (m : mem (F t)) (out : Z) (a1 a2 b1 : arg (F t)) (len : Z), call_fits m out len [a1; a2; b1] ->
    inverts (farith n) m a1 b1 len -> samples (farith n) number m a1 len -> samples (farith n) (fun k => fle (f_ofZ t 0) k = true) m a2 len -> alike opposite m (clip2_vec (farith n) (fops_scalar n) m out a1 a2 len) (clip2_vec (farith n) (fops_scalar n) m out b1 a2 len) out len.
Proof.
  intros t n m out a1 a2 b1 len H J0 J1 J2. fits H. eapply alike_leaves; [apply C18_clip2_vec_lemma; tauto|apply C18_clip2_vec_lemma; tauto|]. lanes. apply sclip2_opposite; assumption.
Qed.

Lemma C88_clip2_invert_vec_simd_lemma : 
  forall (c : cfg) (B : backend) (n : nans (fmt_of B)) (m : mem (F (fmt_of B))) (out : Z) (a1 a2 b1 : arg (F (fmt_of B))) (len : Z), simd_call_fits B m out len [a1; a2; b1] ->
    inverts (farith n) m a1 b1 len -> samples (farith n) number m a1 len -> samples (farith n) (fun k => fle (f_ofZ (fmt_of B) 0) k = true) m a2 len -> alike opposite m (clip2_vec_simd (farith n) (fops c B n) B m out a1 a2 len) (clip2_vec_simd (farith n) (fops c B n) B m out b1 a2 len) out len.
Proof.
  intros c B n m out a1 a2 b1 len H J0 J1 J2. fits_simd H. eapply alike_leaves; [apply C18_clip2_vec_simd_lemma; tauto|apply C18_clip2_vec_simd_lemma; tauto|]. lanes. apply vclip2_opposite; assumption.
Qed.

Lemma C88_clip_invert_vec_lemma : 
  forall (t : fmt) (n : nans t) (m : mem (F t)) (out : Z) (a1 a2 a3 b1 b2 b3 : arg (F t)) (len : Z), call_fits m out len [a1; a2; a3; b1; b2; b3] ->
    inverts (farith n) m a1 b1 len -> inverts (farith n) m a2 b2 len -> inverts (farith n) m a3 b3 len -> samples (farith n) number m a1 len -> below (farith n) m a2 a3 len -> alike opposite m (clip_vec (farith n) (fops_scalar n) m out a1 a2 a3 len) (clip_vec (farith n) (fops_scalar n) m out b1 b3 b2 len) out len.
Proof.
  intros t n m out a1 a2 a3 b1 b2 b3 len H J0 J1 J2 J3 J4. fits H. eapply alike_leaves; [apply C18_clip_vec_lemma; tauto|apply C18_clip_vec_lemma; tauto|]. lanes. apply sclip_opposite; assumption.
Qed.

Lemma C88_clip_invert_vec_simd_lemma : 
  forall (c : cfg) (B : backend) (n : nans (fmt_of B)) (m : mem (F (fmt_of B))) (out : Z) (a1 a2 a3 b1 b2 b3 : arg (F (fmt_of B))) (len : Z), simd_call_fits B m out len [a1; a2; a3; b1; b2; b3] ->
    inverts (farith n) m a1 b1 len -> inverts (farith n) m a2 b2 len -> inverts (farith n) m a3 b3 len -> samples (farith n) number m a1 len -> below (farith n) m a2 a3 len -> alike opposite m (clip_vec_simd (farith n) (fops c B n) B m out a1 a2 a3 len) (clip_vec_simd (farith n) (fops c B n) B m out b1 b3 b2 len) out len.
Proof.
  intros c B n m out a1 a2 a3 b1 b2 b3 len H J0 J1 J2 J3 J4. fits_simd H. eapply alike_leaves; [apply C18_clip_vec_simd_lemma; tauto|apply C18_clip_vec_simd_lemma; tauto|]. lanes. apply vclip_opposite; assumption.
Qed.
