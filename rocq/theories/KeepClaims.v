(** Proofs of the statements of Prop_Keep.v. *)
From Coq Require Import ZArith Reals List Lia Bool Lra.
From Flocq Require Import Core IEEE754.Binary IEEE754.Bits.
From Verif Require Import
  Base Mem Backend Args Drivers Functors Lanes Float LaneOps FloatOps ScalarMath VecMath FloatFuns MemFuns Spec SpecLane SpecRound SpecTrunc SpecKeep
  MemFunFacts DriverFacts DriverClaims DriverClaims2 MemClaims FloatFacts FloatRound VecFacts VecMore VecMore2 RoundFacts RoundMore LaneFacts KeepFacts ExData ExFloat ExMath.
Import ListNotations.
Local Open Scope Z_scope.

Lemma C82_floor_vec_lemma : 
  forall (B : backend) (n : nans (fmt_of B)) (m : mem (F (fmt_of B))) (out inp len : Z), scalar_fit m out inp len -> order_kept m (floor_vec B n m out inp len) out inp len.
Proof.
  intros B n m out inp len (H1 & H2 & H3). eapply order_of_leaves; [|apply (unary_leaves (farith n)); assumption]. exact (nearby_mono n BinarySingleNaN.mode_DN).
Qed.

Lemma C82_floor_vec_simd_lemma : 
  forall (c : cfg) (B : backend) (n : nans (fmt_of B)) (m : mem (F (fmt_of B))) (out inp len : Z), buffers_fit B m out inp len -> order_kept m (floor_vec_simd c B n m out inp len) out inp len.
Proof.
  intros c B n m out inp len (H1 & H2 & H3 & H4). eapply order_of_leaves; [|apply unary_simd_leaves; assumption]. apply vfloor_mono.
Qed.

Lemma C82_ceil_vec_lemma : 
  forall (B : backend) (n : nans (fmt_of B)) (m : mem (F (fmt_of B))) (out inp len : Z), scalar_fit m out inp len -> order_kept m (ceil_vec B n m out inp len) out inp len.
Proof.
  intros B n m out inp len (H1 & H2 & H3). eapply order_of_leaves; [|apply (unary_leaves (farith n)); assumption]. exact (nearby_mono n BinarySingleNaN.mode_UP).
Qed.

Lemma C82_ceil_vec_simd_lemma : 
  forall (c : cfg) (B : backend) (n : nans (fmt_of B)) (m : mem (F (fmt_of B))) (out inp len : Z), buffers_fit B m out inp len -> order_kept m (ceil_vec_simd c B n m out inp len) out inp len.
Proof.
  intros c B n m out inp len (H1 & H2 & H3 & H4). eapply order_of_leaves; [|apply unary_simd_leaves; assumption]. apply vceil_mono.
Qed.

Lemma C82_round_vec_lemma : 
  forall (B : backend) (n : nans (fmt_of B)) (m : mem (F (fmt_of B))) (out inp len : Z), scalar_fit m out inp len -> order_kept m (round_vec B n m out inp len) out inp len.
Proof.
  intros B n m out inp len (H1 & H2 & H3). eapply order_of_leaves; [|apply (unary_leaves (farith n)); assumption]. exact (nearby_mono n BinarySingleNaN.mode_NA).
Qed.

Lemma C82_round_vec_simd_lemma : 
  forall (c : cfg) (B : backend) (n : nans (fmt_of B)) (m : mem (F (fmt_of B))) (out inp len : Z), buffers_fit B m out inp len -> order_kept m (round_vec_simd c B n m out inp len) out inp len.
Proof.
  intros c B n m out inp len (H1 & H2 & H3 & H4). eapply order_of_leaves; [|apply unary_simd_leaves; assumption]. apply vround_mono.
Qed.

Lemma C82_sgn_vec_lemma : 
  forall (B : backend) (n : nans (fmt_of B)) (m : mem (F (fmt_of B))) (out inp len : Z), scalar_fit m out inp len -> order_kept m (sgn_vec B m out inp len) out inp len.
Proof.
  intros B n m out inp len (H1 & H2 & H3). eapply order_of_leaves; [|apply (unary_leaves (farith n)); assumption]. apply s_sign_mono.
Qed.

Lemma C82_sgn_vec_simd_lemma : 
  forall (c : cfg) (B : backend) (n : nans (fmt_of B)) (m : mem (F (fmt_of B))) (out inp len : Z), buffers_fit B m out inp len -> order_kept m (sgn_vec_simd c B n m out inp len) out inp len.
Proof.
  intros c B n m out inp len (H1 & H2 & H3 & H4). eapply order_of_leaves; [|apply unary_simd_leaves; assumption]. apply vsign_mono.
Qed.

Lemma C82_undenormalize_vec_lemma : 
  forall (B : backend) (n : nans (fmt_of B)) (m : mem (F (fmt_of B))) (out inp len : Z), scalar_fit m out inp len -> order_kept m (undenormalize_vec B m out inp len) out inp len.
Proof.
  intros B n m out inp len (H1 & H2 & H3). eapply order_of_leaves; [|apply (unary_leaves (farith n)); assumption]. apply und_mono.
Qed.

Lemma C82_undenormalize_vec_simd_lemma : 
  forall (c : cfg) (B : backend) (n : nans (fmt_of B)) (m : mem (F (fmt_of B))) (out inp len : Z), isa_of B <> NEON -> buffers_fit B m out inp len -> order_kept m (undenormalize_vec_simd c B n m out inp len) out inp len.
Proof.
  intros c B n m out inp len HB (H1 & H2 & H3 & H4). eapply order_of_leaves; [|apply unary_simd_leaves; assumption]. intros x y. rewrite !vundenormalize_eq by exact HB. apply und_mono.
Qed.

Lemma C82_cube_vec_lemma : 
  forall (B : backend) (n : nans (fmt_of B)) (m : mem (F (fmt_of B))) (out inp len : Z), scalar_fit m out inp len -> order_kept m (cube_vec B n m out inp len) out inp len.
Proof.
  intros B n m out inp len (H1 & H2 & H3). eapply order_of_leaves; [|apply (unary_leaves (farith n)); assumption]. apply s_cube_mono.
Qed.

Lemma C82_cube_vec_simd_lemma : 
  forall (c : cfg) (B : backend) (n : nans (fmt_of B)) (m : mem (F (fmt_of B))) (out inp len : Z), buffers_fit B m out inp len -> order_kept m (cube_vec_simd B n m out inp len) out inp len.
Proof.
  intros c B n m out inp len (H1 & H2 & H3 & H4). eapply order_of_leaves; [|apply unary_simd_leaves; assumption]. apply vcube_mono.
Qed.

Lemma C82_signed_sqrt_vec_lemma : 
  forall (B : backend) (n : nans (fmt_of B)) (m : mem (F (fmt_of B))) (out inp len : Z), scalar_fit m out inp len -> order_kept m (signed_sqrt_vec B n m out inp len) out inp len.
Proof.
  intros B n m out inp len (H1 & H2 & H3). eapply order_of_leaves; [|apply (unary_leaves (farith n)); assumption]. apply ssqrt_mono.
Qed.

Lemma C82_signed_sqrt_vec_simd_lemma : 
  forall (c : cfg) (B : backend) (n : nans (fmt_of B)) (m : mem (F (fmt_of B))) (out inp len : Z), isa_of B <> NEON -> buffers_fit B m out inp len -> order_kept m (signed_sqrt_vec_simd c B n m out inp len) out inp len.
Proof.
  intros c B n m out inp len HB (H1 & H2 & H3 & H4). eapply order_of_leaves; [|apply unary_simd_leaves; assumption]. intros x y Nx Ny. rewrite !vsigned_sqrt_eq by assumption. apply ssqrt_mono; assumption.
Qed.

Lemma C82_square_vec_lemma : 
  forall (B : backend) (n : nans (fmt_of B)) (m : mem (F (fmt_of B))) (out inp len : Z), scalar_fit m out inp len -> each not_negative m inp len -> order_kept m (square_vec B n m out inp len) out inp len.
Proof.
  intros B n m out inp len (H1 & H2 & H3) HP. eapply order_of_leaves_pos; [|exact HP|apply (unary_leaves (farith n)); assumption]. exact (square_order n SSE).
Qed.

Lemma C82_square_vec_simd_lemma : 
  forall (c : cfg) (B : backend) (n : nans (fmt_of B)) (m : mem (F (fmt_of B))) (out inp len : Z), buffers_fit B m out inp len -> each not_negative m inp len -> order_kept m (square_vec_simd B n m out inp len) out inp len.
Proof.
  intros c B n m out inp len (H1 & H2 & H3 & H4) HP. eapply order_of_leaves_pos; [|exact HP|apply unary_simd_leaves; assumption]. exact (square_order n (isa_of B)).
Qed.

Lemma C82_plus_vec_lemma : 
  forall (B : backend) (n : nans (fmt_of B)) (m : mem (F (fmt_of B))) (out inp len : Z) (k : F (fmt_of B)), isfin k = true ->
    scalar_fit m out inp len -> order_kept m (plus_vec (farith n) (fops_scalar n) m out (APtr inp) (AScal k) len) out inp len.
Proof.
  intros B n m out inp len k P0 (H1 & H2 & H3). apply (order_of_leaves (fun x => fadd n x k)); [apply add_mono; exact P0|].
  eapply leaves_ext; [|apply C18_plus_vec_lemma; [exact H1|exact H2|exact H3|split; exact I..]]. intros i Hi. cbn [sample]. destruct (m (inp + i)); reflexivity.
Qed.

Lemma C82_plus_vec_simd_lemma : 
  forall (c : cfg) (B : backend) (n : nans (fmt_of B)) (m : mem (F (fmt_of B))) (out inp len : Z) (k : F (fmt_of B)), isfin k = true ->
    buffers_fit B m out inp len -> order_kept m (plus_vec_simd (farith n) (fops c B n) B m out (APtr inp) (AScal k) len) out inp len.
Proof.
  intros c B n m out inp len k P0 (H1 & H2 & H3 & H4). apply (order_of_leaves (fun x => fadd n x k)); [apply add_mono; exact P0|].
  eapply leaves_ext; [|apply C18_plus_vec_simd_lemma; [exact H1|exact H2|exact H3|exact H4|exact I|..]; repeat split; exact I]. intros i Hi. cbn [sample]. destruct (m (inp + i)); reflexivity.
Qed.

Lemma C82_minus_vec_lemma : 
  forall (B : backend) (n : nans (fmt_of B)) (m : mem (F (fmt_of B))) (out inp len : Z) (k : F (fmt_of B)), isfin k = true ->
    scalar_fit m out inp len -> order_kept m (minus_vec (farith n) (fops_scalar n) m out (APtr inp) (AScal k) len) out inp len.
Proof.
  intros B n m out inp len k P0 (H1 & H2 & H3). apply (order_of_leaves (fun x => fsub n x k)); [apply sub_mono; exact P0|].
  eapply leaves_ext; [|apply C18_minus_vec_lemma; [exact H1|exact H2|exact H3|split; exact I..]]. intros i Hi. cbn [sample]. destruct (m (inp + i)); reflexivity.
Qed.

Lemma C82_minus_vec_simd_lemma : 
  forall (c : cfg) (B : backend) (n : nans (fmt_of B)) (m : mem (F (fmt_of B))) (out inp len : Z) (k : F (fmt_of B)), isfin k = true ->
    buffers_fit B m out inp len -> order_kept m (minus_vec_simd (farith n) (fops c B n) B m out (APtr inp) (AScal k) len) out inp len.
Proof.
  intros c B n m out inp len k P0 (H1 & H2 & H3 & H4). apply (order_of_leaves (fun x => fsub n x k)); [apply sub_mono; exact P0|].
  eapply leaves_ext; [|apply C18_minus_vec_simd_lemma; [exact H1|exact H2|exact H3|exact H4|exact I|..]; repeat split; exact I]. intros i Hi. cbn [sample]. destruct (m (inp + i)); reflexivity.
Qed.

Lemma C82_times_vec_lemma : 
  forall (B : backend) (n : nans (fmt_of B)) (m : mem (F (fmt_of B))) (out inp len : Z) (k : F (fmt_of B)), isfin k = true -> (0 < val k)%R ->
    scalar_fit m out inp len -> order_kept m (times_vec (farith n) (fops_scalar n) m out (APtr inp) (AScal k) len) out inp len.
Proof.
  intros B n m out inp len k P0 P1 (H1 & H2 & H3). apply (order_of_leaves (fun x => fmul n x k)); [apply mul_mono; assumption|].
  eapply leaves_ext; [|apply C18_times_vec_lemma; [exact H1|exact H2|exact H3|split; exact I..]]. intros i Hi. cbn [sample]. destruct (m (inp + i)); reflexivity.
Qed.

Lemma C82_times_vec_simd_lemma : 
  forall (c : cfg) (B : backend) (n : nans (fmt_of B)) (m : mem (F (fmt_of B))) (out inp len : Z) (k : F (fmt_of B)), isfin k = true -> (0 < val k)%R ->
    buffers_fit B m out inp len -> order_kept m (times_vec_simd (farith n) (fops c B n) B m out (APtr inp) (AScal k) len) out inp len.
Proof.
  intros c B n m out inp len k P0 P1 (H1 & H2 & H3 & H4). apply (order_of_leaves (fun x => VecMath.vmul (isa_of B) n x k)); [apply vmul_mono; assumption|].
  eapply leaves_ext; [|apply C18_times_vec_simd_lemma; [exact H1|exact H2|exact H3|exact H4|exact I|..]; repeat split; exact I]. intros i Hi. cbn [sample]. destruct (m (inp + i)); reflexivity.
Qed.

Lemma C82_over_vec_lemma : 
  forall (B : backend) (n : nans (fmt_of B)) (m : mem (F (fmt_of B))) (out inp len : Z) (k : F (fmt_of B)), isfin k = true -> (0 < val k)%R ->
    scalar_fit m out inp len -> order_kept m (over_vec (farith n) (fops_scalar n) m out (APtr inp) (AScal k) len) out inp len.
Proof.
  intros B n m out inp len k P0 P1 (H1 & H2 & H3). apply (order_of_leaves (fun x => fdiv n x k)); [apply div_mono; assumption|].
  eapply leaves_ext; [|apply C18_over_vec_lemma; [exact H1|exact H2|exact H3|split; exact I..]]. intros i Hi. cbn [sample]. destruct (m (inp + i)); reflexivity.
Qed.

Lemma C82_over_vec_simd_lemma : 
  forall (c : cfg) (B : backend) (n : nans (fmt_of B)) (m : mem (F (fmt_of B))) (out inp len : Z) (k : F (fmt_of B)), B <> NEON32 -> B <> ALTIVEC32 -> isfin k = true -> (0 < val k)%R ->
    buffers_fit B m out inp len -> order_kept m (over_vec_simd (farith n) (fops c B n) B m out (APtr inp) (AScal k) len) out inp len.
Proof.
  intros c B n m out inp len k P0 P1 P2 P3 (H1 & H2 & H3 & H4). apply (order_of_leaves (fun x => fdiv n x k)); [apply div_mono; assumption|].
  eapply leaves_ext; [|apply C18_over_vec_simd_lemma; [exact H1|exact H2|exact H3|exact H4|exact I|..]; repeat split; exact I]. intros i Hi. cbn [sample]. destruct (m (inp + i)); reflexivity.
Qed.

Lemma C82_muladd_vec_lemma : 
  forall (B : backend) (n : nans (fmt_of B)) (m : mem (F (fmt_of B))) (out inp len : Z) (k l : F (fmt_of B)), isfin k = true -> (0 < val k)%R -> isfin l = true ->
    scalar_fit m out inp len -> order_kept m (muladd_vec (farith n) (fops_scalar n) m out (APtr inp) (AScal k) (AScal l) len) out inp len.
Proof.
  intros B n m out inp len k l P0 P1 P2 (H1 & H2 & H3). apply (order_of_leaves (fun x => fadd n (fmul n x k) l)); [apply muladd_mono; assumption|].
  eapply leaves_ext; [|apply C18_muladd_vec_lemma; [exact H1|exact H2|exact H3|split; exact I..]]. intros i Hi. cbn [sample]. destruct (m (inp + i)); reflexivity.
Qed.

Lemma C82_muladd_vec_simd_lemma : 
  forall (c : cfg) (B : backend) (n : nans (fmt_of B)) (m : mem (F (fmt_of B))) (out inp len : Z) (k l : F (fmt_of B)), isfin k = true -> (0 < val k)%R -> isfin l = true ->
    buffers_fit B m out inp len -> order_kept m (muladd_vec_simd (farith n) (fops c B n) B m out (APtr inp) (AScal k) (AScal l) len) out inp len.
Proof.
  intros c B n m out inp len k l P0 P1 P2 (H1 & H2 & H3 & H4). apply (order_of_leaves (fun x => madd c (isa_of B) n x k l)); [apply madd_mono; assumption|].
  eapply leaves_ext; [|apply C18_muladd_vec_simd_lemma; [exact H1|exact H2|exact H3|exact H4|exact I|..]; repeat split; exact I]. intros i Hi. cbn [sample]. destruct (m (inp + i)); reflexivity.
Qed.

Lemma C82_min_vec_lemma : 
  forall (B : backend) (n : nans (fmt_of B)) (m : mem (F (fmt_of B))) (out inp len : Z) (k : F (fmt_of B)), isnan k = false ->
    scalar_fit m out inp len -> order_kept m (min_vec (farith n) (fops_scalar n) m out (APtr inp) (AScal k) len) out inp len.
Proof.
  intros B n m out inp len k P0 (H1 & H2 & H3). apply (order_of_leaves (fun x => smin x k)); [apply smin_mono; assumption|].
  eapply leaves_ext; [|apply C18_min_vec_lemma; [exact H1|exact H2|exact H3|split; exact I..]]. intros i Hi. cbn [sample]. destruct (m (inp + i)); reflexivity.
Qed.

Lemma C82_min_vec_simd_lemma : 
  forall (c : cfg) (B : backend) (n : nans (fmt_of B)) (m : mem (F (fmt_of B))) (out inp len : Z) (k : F (fmt_of B)), isnan k = false ->
    buffers_fit B m out inp len -> order_kept m (min_vec_simd (farith n) (fops c B n) B m out (APtr inp) (AScal k) len) out inp len.
Proof.
  intros c B n m out inp len k P0 (H1 & H2 & H3 & H4). apply (order_of_leaves (fun x => vmin (isa_of B) n x k)); [apply vmin_mono; assumption|].
  eapply leaves_ext; [|apply C18_min_vec_simd_lemma; [exact H1|exact H2|exact H3|exact H4|exact I|..]; repeat split; exact I]. intros i Hi. cbn [sample]. destruct (m (inp + i)); reflexivity.
Qed.

Lemma C82_max_vec_lemma : 
  forall (B : backend) (n : nans (fmt_of B)) (m : mem (F (fmt_of B))) (out inp len : Z) (k : F (fmt_of B)), isnan k = false ->
    scalar_fit m out inp len -> order_kept m (max_vec (farith n) (fops_scalar n) m out (APtr inp) (AScal k) len) out inp len.
Proof.
  intros B n m out inp len k P0 (H1 & H2 & H3). apply (order_of_leaves (fun x => smax x k)); [apply smax_mono; assumption|].
  eapply leaves_ext; [|apply C18_max_vec_lemma; [exact H1|exact H2|exact H3|split; exact I..]]. intros i Hi. cbn [sample]. destruct (m (inp + i)); reflexivity.
Qed.

Lemma C82_max_vec_simd_lemma : 
  forall (c : cfg) (B : backend) (n : nans (fmt_of B)) (m : mem (F (fmt_of B))) (out inp len : Z) (k : F (fmt_of B)), isnan k = false ->
    buffers_fit B m out inp len -> order_kept m (max_vec_simd (farith n) (fops c B n) B m out (APtr inp) (AScal k) len) out inp len.
Proof.
  intros c B n m out inp len k P0 (H1 & H2 & H3 & H4). apply (order_of_leaves (fun x => vmax (isa_of B) n x k)); [apply vmax_mono; assumption|].
  eapply leaves_ext; [|apply C18_max_vec_simd_lemma; [exact H1|exact H2|exact H3|exact H4|exact I|..]; repeat split; exact I]. intros i Hi. cbn [sample]. destruct (m (inp + i)); reflexivity.
Qed.

Lemma C82_clip_vec_lemma : 
  forall (B : backend) (n : nans (fmt_of B)) (m : mem (F (fmt_of B))) (out inp len : Z) (k l : F (fmt_of B)), isnan k = false -> isnan l = false ->
    scalar_fit m out inp len -> order_kept m (clip_vec (farith n) (fops_scalar n) m out (APtr inp) (AScal k) (AScal l) len) out inp len.
Proof.
  intros B n m out inp len k l P0 P1 (H1 & H2 & H3). apply (order_of_leaves (fun x => smax (smin x l) k)); [eapply limit_mono; apply sclip_rep; assumption|].
  eapply leaves_ext; [|apply C18_clip_vec_lemma; [exact H1|exact H2|exact H3|split; exact I..]]. intros i Hi. cbn [sample]. destruct (m (inp + i)); reflexivity.
Qed.

Lemma C82_clip_vec_simd_lemma : 
  forall (c : cfg) (B : backend) (n : nans (fmt_of B)) (m : mem (F (fmt_of B))) (out inp len : Z) (k l : F (fmt_of B)), isnan k = false -> isnan l = false ->
    buffers_fit B m out inp len -> order_kept m (clip_vec_simd (farith n) (fops c B n) B m out (APtr inp) (AScal k) (AScal l) len) out inp len.
Proof.
  intros c B n m out inp len k l P0 P1 (H1 & H2 & H3 & H4). apply (order_of_leaves (fun x => vmax (isa_of B) n (vmin (isa_of B) n x l) k)); [eapply limit_mono; apply vclip_rep; assumption|].
  eapply leaves_ext; [|apply C18_clip_vec_simd_lemma; [exact H1|exact H2|exact H3|exact H4|exact I|..]; repeat split; exact I]. intros i Hi. cbn [sample]. destruct (m (inp + i)); reflexivity.
Qed.

Lemma C82_clip2_vec_lemma : 
  forall (B : backend) (n : nans (fmt_of B)) (m : mem (F (fmt_of B))) (out inp len : Z) (k : F (fmt_of B)), isnan k = false ->
    scalar_fit m out inp len -> order_kept m (clip2_vec (farith n) (fops_scalar n) m out (APtr inp) (AScal k) len) out inp len.
Proof.
  intros B n m out inp len k P0 (H1 & H2 & H3). apply (order_of_leaves (fun x => smax (fsub n (f_ofZ (fmt_of B) 0) k) (smin x k))); [eapply limit_mono; apply sclip2_rep; [apply zero_sub_num|]; assumption|].
  eapply leaves_ext; [|apply C18_clip2_vec_lemma; [exact H1|exact H2|exact H3|split; exact I..]]. intros i Hi. cbn [sample]. destruct (m (inp + i)); reflexivity.
Qed.

Lemma C82_clip2_vec_simd_lemma : 
  forall (c : cfg) (B : backend) (n : nans (fmt_of B)) (m : mem (F (fmt_of B))) (out inp len : Z) (k : F (fmt_of B)), isnan k = false ->
    buffers_fit B m out inp len -> order_kept m (clip2_vec_simd (farith n) (fops c B n) B m out (APtr inp) (AScal k) len) out inp len.
Proof.
  intros c B n m out inp len k P0 (H1 & H2 & H3 & H4). apply (order_of_leaves (fun x => vmax (isa_of B) n (fsub n (f_ofZ (fmt_of B) 0) k) (vmin (isa_of B) n x k))); [eapply limit_mono; apply vclip2_rep; [apply zero_sub_num|]; assumption|].
  eapply leaves_ext; [|apply C18_clip2_vec_simd_lemma; [exact H1|exact H2|exact H3|exact H4|exact I|..]; repeat split; exact I]. intros i Hi. cbn [sample]. destruct (m (inp + i)); reflexivity.
Qed.

Lemma C82_floor_round_ceil_vec_lemma : 
  forall (B : backend) (n : nans (fmt_of B)) (m : mem (F (fmt_of B))) (out inp len : Z), scalar_fit m out inp len ->
    in_order m (floor_vec B n m out inp len) (round_vec B n m out inp len) (ceil_vec B n m out inp len) out inp len.
Proof.
  intros B n m out inp len (H1 & H2 & H3). eapply in_order_of_leaves; [|apply (unary_leaves (farith n)); assumption..].
  intros x N. exact (nearby_order n BinarySingleNaN.mode_NA x N (or_intror eq_refl)).
Qed.

Lemma C82_floor_round_ceil_vec_simd_lemma : 
  forall (c : cfg) (B : backend) (n : nans (fmt_of B)) (m : mem (F (fmt_of B))) (out inp len : Z), B <> ALTIVEC32 -> buffers_fit B m out inp len ->
    in_order m (floor_vec_simd c B n m out inp len) (round_vec_simd c B n m out inp len) (ceil_vec_simd c B n m out inp len) out inp len.
Proof.
  intros c B n m out inp len HB (H1 & H2 & H3 & H4). eapply in_order_of_leaves; [|apply unary_simd_leaves; assumption..].
  intros x N. exact (v_order c B n x HB N).
Qed.

Lemma C82_floor_round_altivec_refuted_lemma : 
  forall (c : cfg) (n : nans F32), exists (m : mem (F F32)) (out inp len : Z), buffers_fit ALTIVEC32 m out inp len /\
    ~ in_order m (floor_vec_simd c ALTIVEC32 n m out inp len) (round_vec_simd c ALTIVEC32 n m out inp len) (ceil_vec_simd c ALTIVEC32 n m out inp len) out inp len.
Proof.
  intros c n. set (m := block 0 80 (fun _ => f_ofZ F32 8388609)). exists m, 32, 40, 32.
  assert (FT : buffers_fit ALTIVEC32 m 32 40 32) by (unfold buffers_fit, m; fitm). split; [exact FT|].
  intros (m1 & m2 & m3 & E1 & E2 & E3 & W). pose proof FT as (H1 & H2 & H3 & H4).
  assert (X : m (40 + 0) = Some (f_ofZ F32 8388609)) by (unfold m; rewrite block_in by lia; reflexivity).
  destruct (W 0 _ ltac:(lia) X eq_refl) as (u & v & w & U & V & _ & L & _).
  destruct (unary_simd_leaves (farith n) ALTIVEC32 (vfloor c ALTIVEC n) m 32 40 32 H1 H2 H3 H4) as (k1 & D1 & L1 & _).
  destruct (unary_simd_leaves (farith n) ALTIVEC32 (vround c ALTIVEC n) m 32 40 32 H1 H2 H3 H4) as (k2 & D2 & L2 & _).
  assert (Q1 : Ok k1 = Ok m1) by (rewrite <- D1; exact E1). assert (k1 = m1) as -> by congruence.
  assert (Q2 : Ok k2 = Ok m2) by (rewrite <- D2; exact E2). assert (k2 = m2) as -> by congruence.
  specialize (L1 0 ltac:(lia)). specialize (L2 0 ltac:(lia)). rewrite X in L1, L2. cbn [lift1] in L1, L2.
  assert (u = vfloor c ALTIVEC n (f_ofZ F32 8388609)) as -> by (destruct L1; congruence). assert (v = vround c ALTIVEC n (f_ofZ F32 8388609)) as -> by (destruct L2; congruence).
  assert (Y1 : bits (vfloor c ALTIVEC n (f_ofZ F32 8388609)) = bits (f_ofZ F32 8388609)) by (unfold vfloor; vm_compute; reflexivity).
  assert (Y2 : bits (vround c ALTIVEC n (f_ofZ F32 8388609)) = bits (f_ofZ F32 8388608)).
  { unfold vround. rewrite vec_round_float_abs. vm_compute. reflexivity. }
  apply bits_inj in Y1, Y2. rewrite Y1, Y2 in L. vm_compute in L. discriminate L.
Qed.

Lemma C83_floor_vec_lemma : 
  forall (B : backend) (n : nans (fmt_of B)) (m : mem (F (fmt_of B))) (out inp len : Z), scalar_fit m out inp len -> each number m inp len -> 
    once_is_enough (floor_vec B n) m out inp len.
Proof.
  intros B n m out inp len FT HP. eapply (once_of_leaves (fun m inp => scalar_fit m out inp len)); [| |exact FT|].
  - intros m0 inp0 (H1 & H2 & H3). apply (unary_leaves (farith n)); assumption.
  - intros m' H. eapply again_scalar; eassumption.
  - intros i x Hi X. specialize (HP i x Hi X). exact (nearby_once n BinarySingleNaN.mode_DN x HP).
Qed.

Lemma C83_floor_vec_simd_lemma : 
  forall (c : cfg) (B : backend) (n : nans (fmt_of B)) (m : mem (F (fmt_of B))) (out inp len : Z), buffers_fit B m out inp len -> each (roundable (magic_floor c B)) m inp len -> 
    once_is_enough (floor_vec_simd c B n) m out inp len.
Proof.
  intros c B n m out inp len FT HP. eapply (once_of_leaves (fun m inp => buffers_fit B m out inp len)); [| |exact FT|].
  - intros m0 inp0 (H1 & H2 & H3 & H4). apply unary_simd_leaves; assumption.
  - intros m' H. eapply again_simd; eassumption.
  - intros i x Hi X. specialize (HP i x Hi X). apply vfloor_once. exact HP.
Qed.

Lemma C83_ceil_vec_lemma : 
  forall (B : backend) (n : nans (fmt_of B)) (m : mem (F (fmt_of B))) (out inp len : Z), scalar_fit m out inp len -> each number m inp len -> 
    once_is_enough (ceil_vec B n) m out inp len.
Proof.
  intros B n m out inp len FT HP. eapply (once_of_leaves (fun m inp => scalar_fit m out inp len)); [| |exact FT|].
  - intros m0 inp0 (H1 & H2 & H3). apply (unary_leaves (farith n)); assumption.
  - intros m' H. eapply again_scalar; eassumption.
  - intros i x Hi X. specialize (HP i x Hi X). exact (nearby_once n BinarySingleNaN.mode_UP x HP).
Qed.

Lemma C83_ceil_vec_simd_lemma : 
  forall (c : cfg) (B : backend) (n : nans (fmt_of B)) (m : mem (F (fmt_of B))) (out inp len : Z), buffers_fit B m out inp len -> each (roundable (magic_floor c B)) m inp len -> 
    once_is_enough (ceil_vec_simd c B n) m out inp len.
Proof.
  intros c B n m out inp len FT HP. eapply (once_of_leaves (fun m inp => buffers_fit B m out inp len)); [| |exact FT|].
  - intros m0 inp0 (H1 & H2 & H3 & H4). apply unary_simd_leaves; assumption.
  - intros m' H. eapply again_simd; eassumption.
  - intros i x Hi X. specialize (HP i x Hi X). apply vceil_once. exact HP.
Qed.

Lemma C83_round_vec_lemma : 
  forall (B : backend) (n : nans (fmt_of B)) (m : mem (F (fmt_of B))) (out inp len : Z), scalar_fit m out inp len -> each number m inp len -> 
    once_is_enough (round_vec B n) m out inp len.
Proof.
  intros B n m out inp len FT HP. eapply (once_of_leaves (fun m inp => scalar_fit m out inp len)); [| |exact FT|].
  - intros m0 inp0 (H1 & H2 & H3). apply (unary_leaves (farith n)); assumption.
  - intros m' H. eapply again_scalar; eassumption.
  - intros i x Hi X. specialize (HP i x Hi X). exact (nearby_once n BinarySingleNaN.mode_NA x HP).
Qed.

Lemma C83_round_vec_simd_lemma : 
  forall (c : cfg) (B : backend) (n : nans (fmt_of B)) (m : mem (F (fmt_of B))) (out inp len : Z), buffers_fit B m out inp len -> each (roundable (magic_round c B)) m inp len -> 
    once_is_enough (round_vec_simd c B n) m out inp len.
Proof.
  intros c B n m out inp len FT HP. eapply (once_of_leaves (fun m inp => buffers_fit B m out inp len)); [| |exact FT|].
  - intros m0 inp0 (H1 & H2 & H3 & H4). apply unary_simd_leaves; assumption.
  - intros m' H. eapply again_simd; eassumption.
  - intros i x Hi X. specialize (HP i x Hi X). apply vround_once. exact HP.
Qed.

Lemma C83_sgn_vec_lemma : 
  forall (B : backend) (n : nans (fmt_of B)) (m : mem (F (fmt_of B))) (out inp len : Z), scalar_fit m out inp len -> each number m inp len -> 
    once_is_enough (sgn_vec B) m out inp len.
Proof.
  intros B n m out inp len FT HP. eapply (once_of_leaves (fun m inp => scalar_fit m out inp len)); [| |exact FT|].
  - intros m0 inp0 (H1 & H2 & H3). apply (unary_leaves (farith n)); assumption.
  - intros m' H. eapply again_scalar; eassumption.
  - intros i x Hi X. specialize (HP i x Hi X). apply s_sign_once. exact HP.
Qed.

Lemma C83_sgn_vec_simd_lemma : 
  forall (c : cfg) (B : backend) (n : nans (fmt_of B)) (m : mem (F (fmt_of B))) (out inp len : Z), buffers_fit B m out inp len -> each number m inp len -> 
    once_is_enough (sgn_vec_simd c B n) m out inp len.
Proof.
  intros c B n m out inp len FT HP. eapply (once_of_leaves (fun m inp => buffers_fit B m out inp len)); [| |exact FT|].
  - intros m0 inp0 (H1 & H2 & H3 & H4). apply unary_simd_leaves; assumption.
  - intros m' H. eapply again_simd; eassumption.
  - intros i x Hi X. specialize (HP i x Hi X). apply vsign_once. exact HP.
Qed.

Lemma C83_abs_vec_lemma : 
  forall (B : backend) (n : nans (fmt_of B)) (m : mem (F (fmt_of B))) (out inp len : Z), scalar_fit m out inp len -> 
    once_is_enough (abs_vec B) m out inp len.
Proof.
  intros B n m out inp len FT . eapply (once_of_leaves (fun m inp => scalar_fit m out inp len)); [| |exact FT|].
  - intros m0 inp0 (H1 & H2 & H3). apply (unary_leaves (farith n)); assumption.
  - intros m' H. eapply again_scalar; eassumption.
  - intros i x Hi X. destruct x; reflexivity.
Qed.

Lemma C83_abs_vec_simd_lemma : 
  forall (c : cfg) (B : backend) (n : nans (fmt_of B)) (m : mem (F (fmt_of B))) (out inp len : Z), buffers_fit B m out inp len -> 
    once_is_enough (abs_vec_simd c B n) m out inp len.
Proof.
  intros c B n m out inp len FT . eapply (once_of_leaves (fun m inp => buffers_fit B m out inp len)); [| |exact FT|].
  - intros m0 inp0 (H1 & H2 & H3 & H4). apply unary_simd_leaves; assumption.
  - intros m' H. eapply again_simd; eassumption.
  - intros i x Hi X. cbv beta. rewrite !vabs_fabs. destruct x; reflexivity.
Qed.

Lemma C83_undenormalize_vec_lemma : 
  forall (B : backend) (n : nans (fmt_of B)) (m : mem (F (fmt_of B))) (out inp len : Z), scalar_fit m out inp len -> 
    once_is_enough (undenormalize_vec B) m out inp len.
Proof.
  intros B n m out inp len FT . eapply (once_of_leaves (fun m inp => scalar_fit m out inp len)); [| |exact FT|].
  - intros m0 inp0 (H1 & H2 & H3). apply (unary_leaves (farith n)); assumption.
  - intros m' H. eapply again_scalar; eassumption.
  - intros i x Hi X. apply und_once.
Qed.

Lemma C83_undenormalize_vec_simd_lemma : 
  forall (c : cfg) (B : backend) (n : nans (fmt_of B)) (m : mem (F (fmt_of B))) (out inp len : Z), isa_of B <> NEON -> buffers_fit B m out inp len -> 
    once_is_enough (undenormalize_vec_simd c B n) m out inp len.
Proof.
  intros c B n m out inp len HB FT . eapply (once_of_leaves (fun m inp => buffers_fit B m out inp len)); [| |exact FT|].
  - intros m0 inp0 (H1 & H2 & H3 & H4). apply unary_simd_leaves; assumption.
  - intros m' H. eapply again_simd; eassumption.
  - intros i x Hi X. cbv beta. rewrite !vundenormalize_eq by exact HB. apply und_once.
Qed.

Lemma C83_frac_vec_lemma : 
  forall (B : backend) (n : nans (fmt_of B)) (m : mem (F (fmt_of B))) (out inp len : Z), scalar_fit m out inp len -> each not_slightly_negative m inp len -> 
    once_is_enough (frac_vec B n) m out inp len.
Proof.
  intros B n m out inp len FT HP. eapply (once_of_leaves (fun m inp => scalar_fit m out inp len)); [| |exact FT|].
  - intros m0 inp0 (H1 & H2 & H3). apply (unary_leaves (farith n)); assumption.
  - intros m' H. eapply again_scalar; eassumption.
  - intros i x Hi X. specialize (HP i x Hi X). apply s_frac_once. exact HP.
Qed.

Lemma C83_frac_vec_simd_lemma : 
  forall (c : cfg) (B : backend) (n : nans (fmt_of B)) (m : mem (F (fmt_of B))) (out inp len : Z), buffers_fit B m out inp len -> each (fun x => not_slightly_negative x /\ (magic_floor c B -> within_2_23 x)) m inp len -> 
    once_is_enough (frac_vec_simd c B n) m out inp len.
Proof.
  intros c B n m out inp len FT HP. eapply (once_of_leaves (fun m inp => buffers_fit B m out inp len)); [| |exact FT|].
  - intros m0 inp0 (H1 & H2 & H3 & H4). apply unary_simd_leaves; assumption.
  - intros m' H. eapply again_simd; eassumption.
  - intros i x Hi X. specialize (HP i x Hi X). apply vfrac_once; apply HP.
Qed.

Lemma C83_frac_refuted_lemma : 
  forall n : nans F32, exists (m : mem (F F32)) (out inp len : Z), scalar_fit m out inp len /\
    ~ once_is_enough_numbers (frac_vec GEN32 n) m out inp len.
Proof.
  intros n. set (m := block 0 80 (fun _ => f_lit F32 (-1) (-60))). exists m, 32, 40, 32.
  assert (FT : scalar_fit m 32 40 32) by (unfold scalar_fit, m; (split; [lia|split; [fitm|split; [fitm|cbn; lia]]])). split; [exact FT|].
  intros (m1 & E1 & mA & mB & EA & EB & W & _). pose proof FT as (H1 & H2 & H3). rewrite E1 in EA. assert (mA = m1) as -> by congruence.
  assert (X : m (40 + 0) = Some (f_lit F32 (-1) (-60))) by (unfold m; rewrite block_in by lia; reflexivity).
  destruct (unary_leaves (farith n) (s_frac n) m 32 40 32 H1 H2 H3) as (k1 & D1 & L1 & _).
  assert (Q1 : Ok k1 = Ok m1) by (rewrite <- D1; exact E1). assert (k1 = m1) as -> by congruence.
  assert (AC : accessible m1 32 32). { intros i Hi. destruct (L1 i Hi) as [R1 R2]. rewrite R1. destruct (lift1 _ _) as [v|]; [eauto|]. exfalso. apply R2. reflexivity. }
  destruct (again_scalar m m1 32 40 32 FT AC) as (G1 & G2 & G3).
  destruct (unary_leaves (farith n) (s_frac n) m1 32 32 32 G1 G2 G3) as (k2 & D2 & L2 & _).
  assert (Q2 : Ok k2 = Ok mB) by (rewrite <- D2; exact EB). assert (k2 = mB) as -> by congruence.
  specialize (L1 0 ltac:(lia)). specialize (L2 0 ltac:(lia)). destruct L1 as [L1 _], L2 as [L2 _]. rewrite X in L1. cbn [lift1] in L1.
  assert (Y1 : s_frac n (f_lit F32 (-1) (-60)) = f_ofZ F32 1) by (apply bits_inj; vm_compute; reflexivity). rewrite Y1 in L1. rewrite L1 in L2. cbn [lift1] in L2.
  assert (Y2 : s_frac n (f_ofZ F32 1) = f_ofZ F32 0) by (apply bits_inj; vm_compute; reflexivity). rewrite Y2 in L2.
  destruct (W 0 ltac:(lia)) as (x & y & Ex & Ey & Q). assert (x = f_ofZ F32 1) as -> by congruence. assert (y = f_ofZ F32 0) as -> by congruence.
  vm_compute in Q. discriminate Q.
Qed.

Lemma C83_min_vec_lemma : 
  forall (B : backend) (n : nans (fmt_of B)) (m : mem (F (fmt_of B))) (out inp len : Z) (k : F (fmt_of B)), isnan k = false ->
    scalar_fit m out inp len -> each number m inp len ->
    once_is_enough_numbers (fun m out inp len => min_vec (farith n) (fops_scalar n) m out (APtr inp) (AScal k) len) m out inp len.
Proof.
  intros B n m out inp len k P0 FT HP. apply (once_numbers_of_leaves (fun m inp => scalar_fit m out inp len) _ (fun x => smin x k)); [| |exact FT|].
  - intros m0 inp0 (H1 & H2 & H3). eapply leaves_ext; [|apply C18_min_vec_lemma; [exact H1|exact H2|exact H3|split; exact I..]]. intros i Hi. cbn [sample]. destruct (m0 (inp0 + i)); reflexivity.
  - intros m' H. eapply again_scalar; eassumption.
  - intros i x Hi X. specialize (HP i x Hi X). cbv beta. apply smin_twice; assumption.
Qed.

Lemma C83_min_vec_simd_lemma : 
  forall (c : cfg) (B : backend) (n : nans (fmt_of B)) (m : mem (F (fmt_of B))) (out inp len : Z) (k : F (fmt_of B)), isnan k = false ->
    buffers_fit B m out inp len -> each number m inp len ->
    once_is_enough_numbers (fun m out inp len => min_vec_simd (farith n) (fops c B n) B m out (APtr inp) (AScal k) len) m out inp len.
Proof.
  intros c B n m out inp len k P0 FT HP. apply (once_numbers_of_leaves (fun m inp => buffers_fit B m out inp len) _ (fun x => vmin (isa_of B) n x k)); [| |exact FT|].
  - intros m0 inp0 (H1 & H2 & H3 & H4). eapply leaves_ext; [|apply C18_min_vec_simd_lemma; [exact H1|exact H2|exact H3|exact H4|exact I|..]; repeat split; exact I]. intros i Hi. cbn [sample]. destruct (m0 (inp0 + i)); reflexivity.
  - intros m' H. eapply again_simd; eassumption.
  - intros i x Hi X. specialize (HP i x Hi X). cbv beta. apply vmin_twice; assumption.
Qed.

Lemma C83_max_vec_lemma : 
  forall (B : backend) (n : nans (fmt_of B)) (m : mem (F (fmt_of B))) (out inp len : Z) (k : F (fmt_of B)), isnan k = false ->
    scalar_fit m out inp len -> each number m inp len ->
    once_is_enough_numbers (fun m out inp len => max_vec (farith n) (fops_scalar n) m out (APtr inp) (AScal k) len) m out inp len.
Proof.
  intros B n m out inp len k P0 FT HP. apply (once_numbers_of_leaves (fun m inp => scalar_fit m out inp len) _ (fun x => smax x k)); [| |exact FT|].
  - intros m0 inp0 (H1 & H2 & H3). eapply leaves_ext; [|apply C18_max_vec_lemma; [exact H1|exact H2|exact H3|split; exact I..]]. intros i Hi. cbn [sample]. destruct (m0 (inp0 + i)); reflexivity.
  - intros m' H. eapply again_scalar; eassumption.
  - intros i x Hi X. specialize (HP i x Hi X). cbv beta. apply smax_twice; assumption.
Qed.

Lemma C83_max_vec_simd_lemma : 
  forall (c : cfg) (B : backend) (n : nans (fmt_of B)) (m : mem (F (fmt_of B))) (out inp len : Z) (k : F (fmt_of B)), isnan k = false ->
    buffers_fit B m out inp len -> each number m inp len ->
    once_is_enough_numbers (fun m out inp len => max_vec_simd (farith n) (fops c B n) B m out (APtr inp) (AScal k) len) m out inp len.
Proof.
  intros c B n m out inp len k P0 FT HP. apply (once_numbers_of_leaves (fun m inp => buffers_fit B m out inp len) _ (fun x => vmax (isa_of B) n x k)); [| |exact FT|].
  - intros m0 inp0 (H1 & H2 & H3 & H4). eapply leaves_ext; [|apply C18_max_vec_simd_lemma; [exact H1|exact H2|exact H3|exact H4|exact I|..]; repeat split; exact I]. intros i Hi. cbn [sample]. destruct (m0 (inp0 + i)); reflexivity.
  - intros m' H. eapply again_simd; eassumption.
  - intros i x Hi X. specialize (HP i x Hi X). cbv beta. apply vmax_twice; assumption.
Qed.

Lemma C83_clip_vec_lemma : 
  forall (B : backend) (n : nans (fmt_of B)) (m : mem (F (fmt_of B))) (out inp len : Z) (k l : F (fmt_of B)), isnan k = false -> isnan l = false ->
    scalar_fit m out inp len -> each number m inp len ->
    once_is_enough_numbers (fun m out inp len => clip_vec (farith n) (fops_scalar n) m out (APtr inp) (AScal k) (AScal l) len) m out inp len.
Proof.
  intros B n m out inp len k l P0 P1 FT HP. apply (once_numbers_of_leaves (fun m inp => scalar_fit m out inp len) _ (fun x => smax (smin x l) k)); [| |exact FT|].
  - intros m0 inp0 (H1 & H2 & H3). eapply leaves_ext; [|apply C18_clip_vec_lemma; [exact H1|exact H2|exact H3|split; exact I..]]. intros i Hi. cbn [sample]. destruct (m0 (inp0 + i)); reflexivity.
  - intros m' H. eapply again_scalar; eassumption.
  - intros i x Hi X. specialize (HP i x Hi X). cbv beta. eapply (limit_twice (fun x => smax (smin x l) k)); [apply sclip_rep; assumption|exact HP].
Qed.

Lemma C83_clip_vec_simd_lemma : 
  forall (c : cfg) (B : backend) (n : nans (fmt_of B)) (m : mem (F (fmt_of B))) (out inp len : Z) (k l : F (fmt_of B)), isnan k = false -> isnan l = false ->
    buffers_fit B m out inp len -> each number m inp len ->
    once_is_enough_numbers (fun m out inp len => clip_vec_simd (farith n) (fops c B n) B m out (APtr inp) (AScal k) (AScal l) len) m out inp len.
Proof.
  intros c B n m out inp len k l P0 P1 FT HP. apply (once_numbers_of_leaves (fun m inp => buffers_fit B m out inp len) _ (fun x => vmax (isa_of B) n (vmin (isa_of B) n x l) k)); [| |exact FT|].
  - intros m0 inp0 (H1 & H2 & H3 & H4). eapply leaves_ext; [|apply C18_clip_vec_simd_lemma; [exact H1|exact H2|exact H3|exact H4|exact I|..]; repeat split; exact I]. intros i Hi. cbn [sample]. destruct (m0 (inp0 + i)); reflexivity.
  - intros m' H. eapply again_simd; eassumption.
  - intros i x Hi X. specialize (HP i x Hi X). cbv beta. eapply (limit_twice (fun x => vmax (isa_of B) n (vmin (isa_of B) n x l) k)); [apply vclip_rep; assumption|exact HP].
Qed.

Lemma C83_clip2_vec_lemma : 
  forall (B : backend) (n : nans (fmt_of B)) (m : mem (F (fmt_of B))) (out inp len : Z) (k : F (fmt_of B)), isnan k = false ->
    scalar_fit m out inp len -> each number m inp len ->
    once_is_enough_numbers (fun m out inp len => clip2_vec (farith n) (fops_scalar n) m out (APtr inp) (AScal k) len) m out inp len.
Proof.
  intros B n m out inp len k P0 FT HP. apply (once_numbers_of_leaves (fun m inp => scalar_fit m out inp len) _ (fun x => smax (fsub n (f_ofZ (fmt_of B) 0) k) (smin x k))); [| |exact FT|].
  - intros m0 inp0 (H1 & H2 & H3). eapply leaves_ext; [|apply C18_clip2_vec_lemma; [exact H1|exact H2|exact H3|split; exact I..]]. intros i Hi. cbn [sample]. destruct (m0 (inp0 + i)); reflexivity.
  - intros m' H. eapply again_scalar; eassumption.
  - intros i x Hi X. specialize (HP i x Hi X). cbv beta. eapply (limit_twice (fun x => smax (fsub n (f_ofZ (fmt_of B) 0) k) (smin x k))); [apply sclip2_rep; [apply zero_sub_num|]; assumption|exact HP].
Qed.

Lemma C83_clip2_vec_simd_lemma : 
  forall (c : cfg) (B : backend) (n : nans (fmt_of B)) (m : mem (F (fmt_of B))) (out inp len : Z) (k : F (fmt_of B)), isnan k = false ->
    buffers_fit B m out inp len -> each number m inp len ->
    once_is_enough_numbers (fun m out inp len => clip2_vec_simd (farith n) (fops c B n) B m out (APtr inp) (AScal k) len) m out inp len.
Proof.
  intros c B n m out inp len k P0 FT HP. apply (once_numbers_of_leaves (fun m inp => buffers_fit B m out inp len) _ (fun x => vmax (isa_of B) n (fsub n (f_ofZ (fmt_of B) 0) k) (vmin (isa_of B) n x k))); [| |exact FT|].
  - intros m0 inp0 (H1 & H2 & H3 & H4). eapply leaves_ext; [|apply C18_clip2_vec_simd_lemma; [exact H1|exact H2|exact H3|exact H4|exact I|..]; repeat split; exact I]. intros i Hi. cbn [sample]. destruct (m0 (inp0 + i)); reflexivity.
  - intros m' H. eapply again_simd; eassumption.
  - intros i x Hi X. specialize (HP i x Hi X). cbv beta. eapply (limit_twice (fun x => vmax (isa_of B) n (fsub n (f_ofZ (fmt_of B) 0) k) (vmin (isa_of B) n x k))); [apply vclip2_rep; [apply zero_sub_num|]; assumption|exact HP].
Qed.

Lemma C83_softclip_refuted_lemma : 
  forall n : nans F32, exists (m : mem (F F32)) (out inp len : Z), scalar_fit m out inp len /\
    ~ once_is_enough_numbers (softclip_vec GEN32 n) m out inp len.
Proof.
  intros n. set (m := block 0 80 (fun _ => f_ofZ F32 1)). exists m, 32, 40, 32.
  assert (FT : scalar_fit m 32 40 32) by (unfold scalar_fit, m; (split; [lia|split; [fitm|split; [fitm|cbn; lia]]])). split; [exact FT|].
  intros (m1 & E1 & mA & mB & EA & EB & W & _). pose proof FT as (H1 & H2 & H3). rewrite E1 in EA. assert (mA = m1) as -> by congruence.
  assert (X : m (40 + 0) = Some (f_ofZ F32 1)) by (unfold m; rewrite block_in by lia; reflexivity).
  destruct (unary_leaves (farith n) (s_softclip n) m 32 40 32 H1 H2 H3) as (k1 & D1 & L1 & _).
  assert (Q1 : Ok k1 = Ok m1) by (rewrite <- D1; exact E1). assert (k1 = m1) as -> by congruence.
  assert (AC : accessible m1 32 32). { intros i Hi. destruct (L1 i Hi) as [R1 R2]. rewrite R1. destruct (lift1 _ _) as [v|]; [eauto|]. exfalso. apply R2. reflexivity. }
  destruct (again_scalar m m1 32 40 32 FT AC) as (G1 & G2 & G3).
  destruct (unary_leaves (farith n) (s_softclip n) m1 32 32 32 G1 G2 G3) as (k2 & D2 & L2 & _).
  assert (Q2 : Ok k2 = Ok mB) by (rewrite <- D2; exact EB). assert (k2 = mB) as -> by congruence.
  specialize (L1 0 ltac:(lia)). specialize (L2 0 ltac:(lia)). destruct L1 as [L1 _], L2 as [L2 _]. rewrite X in L1. cbn [lift1] in L1.
  assert (Y1 : s_softclip n (f_ofZ F32 1) = f_lit F32 3 (-2)) by (apply bits_inj; vm_compute; reflexivity). rewrite Y1 in L1. rewrite L1 in L2. cbn [lift1] in L2.
  assert (Y2 : s_softclip n (f_lit F32 3 (-2)) = f_lit F32 11184811 (-24)) by (apply bits_inj; vm_compute; reflexivity). rewrite Y2 in L2.
  destruct (W 0 ltac:(lia)) as (x & y & Ex & Ey & Q). assert (x = f_lit F32 3 (-2)) as -> by congruence. assert (y = f_lit F32 11184811 (-24)) as -> by congruence.
  vm_compute in Q. discriminate Q.
Qed.
