(** Proofs of the statements of Prop_Neutral.v. *)
From Coq Require Import ZArith Reals List Lia Bool Lra.
From Flocq Require Import Core IEEE754.Binary IEEE754.Bits.
From Verif Require Import
  Base Mem Backend Args Drivers Functors Lanes Float LaneOps FloatOps ScalarMath VecMath FloatFuns MemFuns Spec SpecLane SpecTrunc SpecNeutral
  MemFunFacts DriverFacts FaultFacts DriverClaims DriverClaims2 MemClaims FloatFacts VecFacts TruncFacts NeutralFacts ExData ExFloat ExMath.
Import ListNotations.
Local Open Scope Z_scope.

Lemma C81_times_one_vec_lemma : 
  forall (t : fmt) (n : nans t) (m : mem (F t)) (out inp len : Z), 0 < len < 2 ^ 32 -> accessible m out len -> arg_fit m out len (APtr inp) ->
    yields kept m (times_vec (farith n) (fops_scalar n) m out (APtr inp) (AScal (one t)) len) out inp len.
Proof.
  intros t n m out inp len H1 H2 H3. eapply yields_of_leaves; [apply C18_times_vec_lemma; [exact H1|exact H2|exact H3|split; exact I..]|].
  intros i x Hi X. cbn [sample]. rewrite X. cbn [lift2]. eexists. split; [reflexivity|]. apply mul_kept.
Qed.

Lemma C81_times_one_vec_simd_lemma : 
  forall (c : cfg) (B : backend) (n : nans (fmt_of B)) (m : mem (F (fmt_of B))) (out inp len : Z), B <> ALTIVEC32 -> buffers_fit B m out inp len ->
    yields kept m (times_vec_simd (farith n) (fops c B n) B m out (APtr inp) (AScal (one (fmt_of B))) len) out inp len.
Proof.
  intros c B n m out inp len HA (H1 & H2 & H3 & H4). eapply yields_of_leaves; [apply C18_times_vec_simd_lemma; [exact H1|exact H2|exact H3|exact H4|exact I|..]; repeat split; exact I|].
  intros i x Hi X. cbn [sample]. rewrite X. cbn [lift2]. eexists. split; [reflexivity|]. assert (HI : isa_of B <> ALTIVEC) by (destruct B; cbn; congruence). apply vmul_kept. exact HI.
Qed.

Lemma C81_times_one_altivec_lemma : 
  forall (c : cfg) (n : nans F32) (m : mem (F F32)) (out inp len : Z), buffers_fit ALTIVEC32 m out inp len ->
    yields kept_unsigned_zero m (times_vec_simd (farith n) (fops c ALTIVEC32 n) ALTIVEC32 m out (APtr inp) (AScal (one F32)) len) out inp len.
Proof.
  intros c n m out inp len (H1 & H2 & H3 & H4). eapply yields_of_leaves; [apply C18_times_vec_simd_lemma; [exact H1|exact H2|exact H3|exact H4|exact I|..]; repeat split; exact I|].
  intros i x Hi X. cbn [sample]. rewrite X. cbn [lift2]. eexists. split; [reflexivity|]. exact (vmul_altivec n x).
Qed.

Lemma C81_times_one_altivec_refuted_lemma : 
  forall (c : cfg) (n : nans F32), exists (m : mem (F F32)) (out inp len : Z), buffers_fit ALTIVEC32 m out inp len /\
    ~ yields kept m (times_vec_simd (farith n) (fops c ALTIVEC32 n) ALTIVEC32 m out (APtr inp) (AScal (one F32)) len) out inp len.
Proof.
  intros c n. set (m := block 0 80 (fun _ => fneg (zero F32))). exists m, 32, 40, 32.
  assert (FT : buffers_fit ALTIVEC32 m 32 40 32) by (unfold buffers_fit, m; fitm). split; [exact FT|].
  intros (m' & E & W & _). destruct (C81_times_one_altivec_lemma c n m 32 40 32 FT) as (m2 & E2 & W2 & _). assert (m2 = m') as -> by congruence.
  assert (X : m (40 + 0) = Some (fneg (zero F32))) by (unfold m; rewrite block_in by lia; reflexivity).
  destruct (W 0 _ ltac:(lia) X) as (y & Y & K & _). destruct (W2 0 _ ltac:(lia) X) as (y2 & Y2 & _ & K2 & _).
  assert (y2 = y) as -> by congruence. specialize (K eq_refl). rewrite K2 in K by (split; reflexivity). vm_compute in K. discriminate.
Qed.

Lemma C81_plus_minus_zero_vec_lemma : 
  forall (t : fmt) (n : nans t) (m : mem (F t)) (out inp len : Z), 0 < len < 2 ^ 32 -> accessible m out len -> arg_fit m out len (APtr inp) ->
    yields kept m (plus_vec (farith n) (fops_scalar n) m out (APtr inp) (AScal (fneg (zero t))) len) out inp len.
Proof.
  intros t n m out inp len H1 H2 H3. eapply yields_of_leaves; [apply C18_plus_vec_lemma; [exact H1|exact H2|exact H3|split; exact I..]|].
  intros i x Hi X. cbn [sample]. rewrite X. cbn [lift2]. eexists. split; [reflexivity|]. apply add_minus_zero_kept.
Qed.

Lemma C81_plus_minus_zero_vec_simd_lemma : 
  forall (c : cfg) (B : backend) (n : nans (fmt_of B)) (m : mem (F (fmt_of B))) (out inp len : Z), buffers_fit B m out inp len ->
    yields kept m (plus_vec_simd (farith n) (fops c B n) B m out (APtr inp) (AScal (fneg (zero (fmt_of B)))) len) out inp len.
Proof.
  intros c B n m out inp len (H1 & H2 & H3 & H4). eapply yields_of_leaves; [apply C18_plus_vec_simd_lemma; [exact H1|exact H2|exact H3|exact H4|exact I|..]; repeat split; exact I|].
  intros i x Hi X. cbn [sample]. rewrite X. cbn [lift2]. eexists. split; [reflexivity|]. apply add_minus_zero_kept.
Qed.

Lemma C81_plus_zero_vec_lemma : 
  forall (t : fmt) (n : nans t) (m : mem (F t)) (out inp len : Z), 0 < len < 2 ^ 32 -> accessible m out len -> arg_fit m out len (APtr inp) ->
    yields kept_unsigned_zero m (plus_vec (farith n) (fops_scalar n) m out (APtr inp) (AScal (zero t)) len) out inp len.
Proof.
  intros t n m out inp len H1 H2 H3. eapply yields_of_leaves; [apply C18_plus_vec_lemma; [exact H1|exact H2|exact H3|split; exact I..]|].
  intros i x Hi X. cbn [sample]. rewrite X. cbn [lift2]. eexists. split; [reflexivity|]. apply add_kept.
Qed.

Lemma C81_plus_zero_vec_simd_lemma : 
  forall (c : cfg) (B : backend) (n : nans (fmt_of B)) (m : mem (F (fmt_of B))) (out inp len : Z), buffers_fit B m out inp len ->
    yields kept_unsigned_zero m (plus_vec_simd (farith n) (fops c B n) B m out (APtr inp) (AScal (zero (fmt_of B))) len) out inp len.
Proof.
  intros c B n m out inp len (H1 & H2 & H3 & H4). eapply yields_of_leaves; [apply C18_plus_vec_simd_lemma; [exact H1|exact H2|exact H3|exact H4|exact I|..]; repeat split; exact I|].
  intros i x Hi X. cbn [sample]. rewrite X. cbn [lift2]. eexists. split; [reflexivity|]. apply add_kept.
Qed.

Lemma C81_minus_zero_vec_lemma : 
  forall (t : fmt) (n : nans t) (m : mem (F t)) (out inp len : Z), 0 < len < 2 ^ 32 -> accessible m out len -> arg_fit m out len (APtr inp) ->
    yields kept m (minus_vec (farith n) (fops_scalar n) m out (APtr inp) (AScal (zero t)) len) out inp len.
Proof.
  intros t n m out inp len H1 H2 H3. eapply yields_of_leaves; [apply C18_minus_vec_lemma; [exact H1|exact H2|exact H3|split; exact I..]|].
  intros i x Hi X. cbn [sample]. rewrite X. cbn [lift2]. eexists. split; [reflexivity|]. apply sub_kept.
Qed.

Lemma C81_minus_zero_vec_simd_lemma : 
  forall (c : cfg) (B : backend) (n : nans (fmt_of B)) (m : mem (F (fmt_of B))) (out inp len : Z), buffers_fit B m out inp len ->
    yields kept m (minus_vec_simd (farith n) (fops c B n) B m out (APtr inp) (AScal (zero (fmt_of B))) len) out inp len.
Proof.
  intros c B n m out inp len (H1 & H2 & H3 & H4). eapply yields_of_leaves; [apply C18_minus_vec_simd_lemma; [exact H1|exact H2|exact H3|exact H4|exact I|..]; repeat split; exact I|].
  intros i x Hi X. cbn [sample]. rewrite X. cbn [lift2]. eexists. split; [reflexivity|]. apply sub_kept.
Qed.

Lemma C81_over_one_vec_lemma : 
  forall (t : fmt) (n : nans t) (m : mem (F t)) (out inp len : Z), 0 < len < 2 ^ 32 -> accessible m out len -> arg_fit m out len (APtr inp) ->
    yields kept m (over_vec (farith n) (fops_scalar n) m out (APtr inp) (AScal (one t)) len) out inp len.
Proof.
  intros t n m out inp len H1 H2 H3. eapply yields_of_leaves; [apply C18_over_vec_lemma; [exact H1|exact H2|exact H3|split; exact I..]|].
  intros i x Hi X. cbn [sample]. rewrite X. cbn [lift2]. eexists. split; [reflexivity|]. apply div_kept.
Qed.

Lemma C81_over_one_vec_simd_lemma : 
  forall (c : cfg) (B : backend) (n : nans (fmt_of B)) (m : mem (F (fmt_of B))) (out inp len : Z), B <> NEON32 -> B <> ALTIVEC32 -> buffers_fit B m out inp len ->
    yields kept m (over_vec_simd (farith n) (fops c B n) B m out (APtr inp) (AScal (one (fmt_of B))) len) out inp len.
Proof.
  intros c B n m out inp len HA1 HA2 (H1 & H2 & H3 & H4). eapply yields_of_leaves; [apply C18_over_vec_simd_lemma; [exact H1|exact H2|exact H3|exact H4|exact I|..]; repeat split; exact I|].
  intros i x Hi X. cbn [sample]. rewrite X. cbn [lift2]. eexists. split; [reflexivity|]. apply div_kept.
Qed.

Lemma C81_muladd_one_zero_vec_lemma : 
  forall (t : fmt) (n : nans t) (m : mem (F t)) (out inp len : Z), 0 < len < 2 ^ 32 -> accessible m out len -> arg_fit m out len (APtr inp) ->
    yields kept_unsigned_zero m (muladd_vec (farith n) (fops_scalar n) m out (APtr inp) (AScal (one t)) (AScal (zero t)) len) out inp len.
Proof.
  intros t n m out inp len H1 H2 H3. eapply yields_of_leaves; [apply C18_muladd_vec_lemma; [exact H1|exact H2|exact H3|split; exact I..]|].
  intros i x Hi X. cbn [sample]. rewrite X. cbn [lift3]. eexists. split; [reflexivity|]. apply muladd_kept.
Qed.

Lemma C81_muladd_one_zero_vec_simd_lemma : 
  forall (c : cfg) (B : backend) (n : nans (fmt_of B)) (m : mem (F (fmt_of B))) (out inp len : Z), buffers_fit B m out inp len ->
    yields kept_unsigned_zero m (muladd_vec_simd (farith n) (fops c B n) B m out (APtr inp) (AScal (one (fmt_of B))) (AScal (zero (fmt_of B))) len) out inp len.
Proof.
  intros c B n m out inp len (H1 & H2 & H3 & H4). eapply yields_of_leaves; [apply C18_muladd_vec_simd_lemma; [exact H1|exact H2|exact H3|exact H4|exact I|..]; repeat split; exact I|].
  intros i x Hi X. cbn [sample]. rewrite X. cbn [lift3]. eexists. split; [reflexivity|]. apply madd_kept.
Qed.

Lemma C81_min_infinity_vec_lemma : 
  forall (t : fmt) (n : nans t) (m : mem (F t)) (out inp len : Z), 0 < len < 2 ^ 32 -> accessible m out len -> arg_fit m out len (APtr inp) ->
    yields number_kept m (min_vec (farith n) (fops_scalar n) m out (APtr inp) (AScal (infinite t false)) len) out inp len.
Proof.
  intros t n m out inp len H1 H2 H3. eapply yields_of_leaves; [apply C18_min_vec_lemma; [exact H1|exact H2|exact H3|split; exact I..]|].
  intros i x Hi X. cbn [sample]. rewrite X. cbn [lift2]. eexists. split; [reflexivity|]. intros H. rewrite <- (smin_inf n x H) at 2. reflexivity.
Qed.

Lemma C81_min_infinity_vec_simd_lemma : 
  forall (c : cfg) (B : backend) (n : nans (fmt_of B)) (m : mem (F (fmt_of B))) (out inp len : Z), buffers_fit B m out inp len ->
    yields number_kept m (min_vec_simd (farith n) (fops c B n) B m out (APtr inp) (AScal (infinite (fmt_of B) false)) len) out inp len.
Proof.
  intros c B n m out inp len (H1 & H2 & H3 & H4). eapply yields_of_leaves; [apply C18_min_vec_simd_lemma; [exact H1|exact H2|exact H3|exact H4|exact I|..]; repeat split; exact I|].
  intros i x Hi X. cbn [sample]. rewrite X. cbn [lift2]. eexists. split; [reflexivity|]. intros H. rewrite <- (vmin_inf n (isa_of B) x H) at 2. reflexivity.
Qed.

Lemma C81_max_minus_infinity_vec_lemma : 
  forall (t : fmt) (n : nans t) (m : mem (F t)) (out inp len : Z), 0 < len < 2 ^ 32 -> accessible m out len -> arg_fit m out len (APtr inp) ->
    yields number_kept m (max_vec (farith n) (fops_scalar n) m out (APtr inp) (AScal (infinite t true)) len) out inp len.
Proof.
  intros t n m out inp len H1 H2 H3. eapply yields_of_leaves; [apply C18_max_vec_lemma; [exact H1|exact H2|exact H3|split; exact I..]|].
  intros i x Hi X. cbn [sample]. rewrite X. cbn [lift2]. eexists. split; [reflexivity|]. intros H. rewrite <- (smax_ninf n x H) at 2. reflexivity.
Qed.

Lemma C81_max_minus_infinity_vec_simd_lemma : 
  forall (c : cfg) (B : backend) (n : nans (fmt_of B)) (m : mem (F (fmt_of B))) (out inp len : Z), buffers_fit B m out inp len ->
    yields number_kept m (max_vec_simd (farith n) (fops c B n) B m out (APtr inp) (AScal (infinite (fmt_of B) true)) len) out inp len.
Proof.
  intros c B n m out inp len (H1 & H2 & H3 & H4). eapply yields_of_leaves; [apply C18_max_vec_simd_lemma; [exact H1|exact H2|exact H3|exact H4|exact I|..]; repeat split; exact I|].
  intros i x Hi X. cbn [sample]. rewrite X. cbn [lift2]. eexists. split; [reflexivity|]. intros H. rewrite <- (vmax_ninf n (isa_of B) x H) at 2. reflexivity.
Qed.

Lemma C81_clip_infinity_vec_lemma : 
  forall (t : fmt) (n : nans t) (m : mem (F t)) (out inp len : Z), 0 < len < 2 ^ 32 -> accessible m out len -> arg_fit m out len (APtr inp) ->
    yields number_kept m (clip_vec (farith n) (fops_scalar n) m out (APtr inp) (AScal (infinite t true)) (AScal (infinite t false)) len) out inp len.
Proof.
  intros t n m out inp len H1 H2 H3. eapply yields_of_leaves; [apply C18_clip_vec_lemma; [exact H1|exact H2|exact H3|split; exact I..]|].
  intros i x Hi X. cbn [sample]. rewrite X. cbn [lift3]. eexists. split; [reflexivity|]. intros H. cbn [o_max o_min fops_scalar]. rewrite (smin_inf n x H), (smax_ninf n x H). reflexivity.
Qed.

Lemma C81_clip_infinity_vec_simd_lemma : 
  forall (c : cfg) (B : backend) (n : nans (fmt_of B)) (m : mem (F (fmt_of B))) (out inp len : Z), buffers_fit B m out inp len ->
    yields number_kept m (clip_vec_simd (farith n) (fops c B n) B m out (APtr inp) (AScal (infinite (fmt_of B) true)) (AScal (infinite (fmt_of B) false)) len) out inp len.
Proof.
  intros c B n m out inp len (H1 & H2 & H3 & H4). eapply yields_of_leaves; [apply C18_clip_vec_simd_lemma; [exact H1|exact H2|exact H3|exact H4|exact I|..]; repeat split; exact I|].
  intros i x Hi X. cbn [sample]. rewrite X. cbn [lift3]. eexists. split; [reflexivity|]. intros H. cbn [o_max o_min fops]. rewrite (vmin_inf n (isa_of B) x H), (vmax_ninf n (isa_of B) x H). reflexivity.
Qed.

Lemma C81_ampmod_zero_vec_lemma : 
  forall (t : fmt) (n : nans t) (m : mem (F t)) (out inp inp2 len : Z), 0 < len < 2 ^ 32 -> accessible m out len -> arg_fit m out len (APtr inp) -> arg_fit m out len (APtr inp2) -> each (fun x => isfin x = true) m inp2 len ->
    yields kept m (ampmod_vec (farith n) (fops_scalar n) m out (APtr inp) (APtr inp2) (AScal (zero t)) len) out inp len.
Proof.
  intros t n m out inp inp2 len H1 H2 H3 H4 HE. eapply yields_of_leaves; [apply C18_ampmod_vec_lemma; [exact H1|exact H2|..]; first [exact H3|exact H4|split; exact I]|].
  intros i x Hi X. destruct (proj1 H4 i Hi) as [y Y]. pose proof (HE i y Hi Y) as FY. cbn [sample]. rewrite X, Y. cbn [lift3]. eexists. split; [reflexivity|]. cbn [o_add o_mul o_one fops fops_scalar]. change (f_ofZ t 1) with (one t). rewrite ampmod_arg_scalar by exact FY. apply mul_kept.
Qed.

Lemma C81_ampmod_zero_vec_simd_lemma : 
  forall (c : cfg) (B : backend) (n : nans (fmt_of B)) (m : mem (F (fmt_of B))) (out inp inp2 len : Z), B <> ALTIVEC32 -> buffers_fit B m out inp len -> simd_fit B m out len (APtr inp2) -> each (fun x => isfin x = true) m inp2 len ->
    yields kept m (ampmod_vec_simd (farith n) (fops c B n) B m out (APtr inp) (APtr inp2) (AScal (zero (fmt_of B))) len) out inp len.
Proof.
  intros c B n m out inp inp2 len HA (H1 & H2 & H3 & H4) H5 HE. eapply yields_of_leaves; [apply C18_ampmod_vec_simd_lemma; [exact H1|exact H2|exact H3|..]; first [exact H4|exact H5|exact I|repeat split; exact I]|].
  intros i x Hi X. destruct (proj1 H5 i Hi) as [y Y]. pose proof (HE i y Hi Y) as FY. cbn [sample]. rewrite X, Y. cbn [lift3]. eexists. split; [reflexivity|]. cbn [o_add o_mul o_one fops fops_scalar]. change (f_ofZ (fmt_of B) 1) with (one (fmt_of B)). assert (HI : isa_of B <> ALTIVEC) by (destruct B; cbn; congruence). rewrite ampmod_arg by exact FY. apply vmul_kept. exact HI.
Qed.

Lemma C81_ampmod_zero_infinity_refuted_lemma : 
  forall (c : cfg) (B : backend) (n : nans (fmt_of B)), exists (m : mem (F (fmt_of B))) (out inp inp2 len : Z),
    buffers_fit B m out inp len /\ simd_fit B m out len (APtr inp2) /\ each (fun x => isfin x = true) m inp len /\
    yields (fun x y => isnan y = true) m (ampmod_vec (farith n) (fops_scalar n) m out (APtr inp) (APtr inp2) (AScal (zero (fmt_of B))) len) out inp len /\
    yields (fun x y => isnan y = true) m (ampmod_vec_simd (farith n) (fops c B n) B m out (APtr inp) (APtr inp2) (AScal (zero (fmt_of B))) len) out inp len.
Proof.
  intros c B n. set (m := block 0 128 (fun a => if a <? 96 then one (fmt_of B) else infinite (fmt_of B) false)). exists m, 32, 64, 96, 32.
  assert (FT : buffers_fit B m 32 64 32) by (unfold buffers_fit, m; destruct B; fitm).
  assert (FT2 : simd_fit B m 32 32 (APtr 96)) by (unfold m; destruct B; fitm).
  split; [exact FT|]. split; [exact FT2|]. split.
  { intros i x Hi E. unfold m in E. rewrite block_in in E by lia. rewrite (proj2 (Z.ltb_lt _ _)) in E by lia. assert (x = one (fmt_of B)) as -> by congruence. apply one_fin. }
  assert (Y : forall i, 0 <= i < 32 -> m (96 + i) = Some (infinite (fmt_of B) false)).
  { intros i Hi. unfold m. rewrite block_in by lia. rewrite (proj2 (Z.ltb_ge _ _)) by lia. reflexivity. }
  destruct (fit_scalar B m 32 64 32 FT) as (S1 & S2 & S3). destruct FT as (H1 & H2 & H3 & H4). split.
  - eapply yields_of_leaves; [apply C18_ampmod_vec_lemma; [exact S1|exact S2|exact S3|destruct FT2 as (? & ? & ?); split; assumption|split; exact I]|].
    intros i x Hi X. cbn [sample]. rewrite X, (Y i Hi). cbn [lift3]. eexists. split; [reflexivity|]. cbn [o_mul o_add o_one fops_scalar].
    apply nan_fmul. right. apply nan_fadd. right. apply mul_inf_zero.
  - eapply yields_of_leaves; [apply C18_ampmod_vec_simd_lemma; [exact H1|exact H2|exact H3|exact H4|exact I|exact FT2|exact I|repeat split; exact I|exact I]|].
    intros i x Hi X. cbn [sample]. rewrite X, (Y i Hi). cbn [lift3]. eexists. split; [reflexivity|]. cbn [o_mul o_add o_one fops].
    apply nan_vmul. right. apply nan_fadd. right. apply vmul_inf_zero.
Qed.

Lemma C81_mix_one_zero_vec_lemma : 
  forall (t : fmt) (n : nans t) (m : mem (F t)) (out inp inp2 len : Z), 0 < len < 2 ^ 32 -> accessible m out len -> arg_fit m out len (APtr inp) -> arg_fit m out len (APtr inp2) -> each (fun x => isfin x = true) m inp2 len ->
    yields kept_some_zero m (mix_vec (farith n) (fops_scalar n) m out (APtr inp) (AScal (one t)) (APtr inp2) (AScal (zero t)) len) out inp len.
Proof.
  intros t n m out inp inp2 len H1 H2 H3 H4 HE. eapply yields_of_leaves; [apply C18_mix_vec_lemma; [exact H1|exact H2|..]; first [exact H3|exact H4|split; exact I]|].
  intros i x Hi X. destruct (proj1 H4 i Hi) as [y Y]. pose proof (HE i y Hi Y) as FY. cbn [sample]. rewrite X, Y. cbn [lift4]. eexists. split; [reflexivity|]. cbn [o_add o_mul o_one fops fops_scalar]. apply mix_kept_scalar. exact FY.
Qed.

Lemma C81_mix_one_zero_vec_simd_lemma : 
  forall (c : cfg) (B : backend) (n : nans (fmt_of B)) (m : mem (F (fmt_of B))) (out inp inp2 len : Z), buffers_fit B m out inp len -> simd_fit B m out len (APtr inp2) -> each (fun x => isfin x = true) m inp2 len ->
    yields kept_some_zero m (mix_vec_simd (farith n) (fops c B n) B m out (APtr inp) (AScal (one (fmt_of B))) (APtr inp2) (AScal (zero (fmt_of B))) len) out inp len.
Proof.
  intros c B n m out inp inp2 len (H1 & H2 & H3 & H4) H5 HE. eapply yields_of_leaves; [apply C18_mix_vec_simd_lemma; [exact H1|exact H2|exact H3|..]; first [exact H4|exact H5|exact I|repeat split; exact I]|].
  intros i x Hi X. destruct (proj1 H5 i Hi) as [y Y]. pose proof (HE i y Hi Y) as FY. cbn [sample]. rewrite X, Y. cbn [lift4]. eexists. split; [reflexivity|]. cbn [o_add o_mul o_one fops fops_scalar]. apply mix_kept. exact FY.
Qed.

Lemma C81_mix_one_zero_infinity_refuted_lemma : 
  forall (c : cfg) (B : backend) (n : nans (fmt_of B)), exists (m : mem (F (fmt_of B))) (out inp inp2 len : Z),
    buffers_fit B m out inp len /\ simd_fit B m out len (APtr inp2) /\ each (fun x => isfin x = true) m inp len /\
    yields (fun x y => isnan y = true) m (mix_vec (farith n) (fops_scalar n) m out (APtr inp) (AScal (one (fmt_of B))) (APtr inp2) (AScal (zero (fmt_of B))) len) out inp len /\
    yields (fun x y => isnan y = true) m (mix_vec_simd (farith n) (fops c B n) B m out (APtr inp) (AScal (one (fmt_of B))) (APtr inp2) (AScal (zero (fmt_of B))) len) out inp len.
Proof.
  intros c B n. set (m := block 0 128 (fun a => if a <? 96 then one (fmt_of B) else infinite (fmt_of B) false)). exists m, 32, 64, 96, 32.
  assert (FT : buffers_fit B m 32 64 32) by (unfold buffers_fit, m; destruct B; fitm).
  assert (FT2 : simd_fit B m 32 32 (APtr 96)) by (unfold m; destruct B; fitm).
  split; [exact FT|]. split; [exact FT2|]. split.
  { intros i x Hi E. unfold m in E. rewrite block_in in E by lia. rewrite (proj2 (Z.ltb_lt _ _)) in E by lia. assert (x = one (fmt_of B)) as -> by congruence. apply one_fin. }
  assert (Y : forall i, 0 <= i < 32 -> m (96 + i) = Some (infinite (fmt_of B) false)).
  { intros i Hi. unfold m. rewrite block_in by lia. rewrite (proj2 (Z.ltb_ge _ _)) by lia. reflexivity. }
  destruct (fit_scalar B m 32 64 32 FT) as (S1 & S2 & S3). destruct FT as (H1 & H2 & H3 & H4). split.
  - eapply yields_of_leaves; [apply C18_mix_vec_lemma; [exact S1|exact S2|exact S3|split; exact I|destruct FT2 as (? & ? & ?); split; assumption|split; exact I]|].
    intros i x Hi X. cbn [sample]. rewrite X, (Y i Hi). cbn [lift4]. eexists. split; [reflexivity|]. cbn [o_mul o_add fops_scalar].
    apply nan_fadd. right. apply mul_inf_zero.
  - eapply yields_of_leaves; [apply C18_mix_vec_simd_lemma; [exact H1|exact H2|exact H3|exact H4|exact I|repeat split; exact I|exact I|exact FT2|exact I|repeat split; exact I|exact I]|].
    intros i x Hi X. cbn [sample]. rewrite X, (Y i Hi). cbn [lift4]. eexists. split; [reflexivity|]. cbn [o_mul o_add fops].
    apply nan_fadd. right. apply vmul_inf_zero.
Qed.

Lemma C81_flat_ramp_binary_lemma : 
  forall (B : backend) (n : nans (fmt_of B)) (vf : list (F (fmt_of B)) -> list (F (fmt_of B)) -> list (F (fmt_of B))) (f : F (fmt_of B) -> F (fmt_of B) -> F (fmt_of B))
         (m : mem (F (fmt_of B))) (out : Z) (a1 a2 b1 b2 : arg (F (fmt_of B))) (len : Z),
    lanewise2 B vf f -> legal_simd_length B len -> aligned B out -> accessible m out len ->
    same_meaning a1 b1 -> same_meaning a2 b2 -> simd_fit B m out len b1 -> simd_fit B m out len b2 ->
    same_effect (binary_vec (farith n) f m out b1 b2 len) (binary_vec (farith n) f m out a1 a2 len) /\
    same_effect (binary_vec_simd (farith n) B vf m out b1 b2 len) (binary_vec_simd (farith n) B vf m out a1 a2 len) /\
    same_effect (binary_vec_simd_ct (farith n) B (Z.to_nat (len / Z.of_nat (vsize B))) vf m out b1 b2) (binary_vec_simd_ct (farith n) B (Z.to_nat (len / Z.of_nat (vsize B))) vf m out a1 a2).
Proof.
  intros B n vf f m out a1 a2 b1 b2 len Hf Hn Hal Ho M1 M2 H1 H2.
  destruct (meaning_fit B n m out len a1 b1 M1 H1) as [P1 Q1]. assert (R1 : arg_fit m out len b1) by (destruct H1 as (? & ? & ?); split; assumption). pose proof (meaning_arg B m out len a1 b1 M1 R1) as S1.
  destruct (meaning_fit B n m out len a2 b2 M2 H2) as [P2 Q2]. assert (R2 : arg_fit m out len b2) by (destruct H2 as (? & ? & ?); split; assumption). pose proof (meaning_arg B m out len a2 b2 M2 R2) as S2.
  assert (HL : 0 < len < 2 ^ 32) by apply Hn. destruct (legal_bounds B len Hn) as [Hb Hr]. destruct (vecs_of_legal B len Hn) as [Hk Hkn].
  pose proof (fun a1 a2 => binary_simd_ok (farith n) B vf f m out a1 a2 len Hf Hb Hal) as G. rewrite Hr in G.
  pose proof (fun a1 a2 => binary_ct_ok (farith n) B vf f m out a1 a2 _ Hf Hk Hal) as G2. rewrite Hkn in G2.
  split; [|split].
  - apply (leaves_same m _ _ out len (fun i => lift2 f (sample (farith n) m a1 i) (sample (farith n) m a2 i))); [eapply leaves_ext; [|apply C01_foo_vec_maps_binary_lemma; assumption]; intros i Hi; cbv beta; rewrite (meaning_sample B n m a1 b1 i M1); rewrite (meaning_sample B n m a2 b2 i M2); reflexivity|apply C01_foo_vec_maps_binary_lemma; assumption].
  - apply (leaves_same m _ _ out len (fun i => lift2 f (sample (farith n) m a1 i) (sample (farith n) m a2 i))); [eapply leaves_ext; [|apply G; assumption]; intros i Hi; cbv beta; rewrite (meaning_sample B n m a1 b1 i M1); rewrite (meaning_sample B n m a2 b2 i M2); reflexivity|apply G; assumption].
  - apply (leaves_same m _ _ out len (fun i => lift2 f (sample (farith n) m a1 i) (sample (farith n) m a2 i))); [eapply leaves_ext; [|apply G2; assumption]; intros i Hi; cbv beta; rewrite (meaning_sample B n m a1 b1 i M1); rewrite (meaning_sample B n m a2 b2 i M2); reflexivity|apply G2; assumption].
Qed.

Lemma C81_flat_ramp_ternary_lemma : 
  forall (B : backend) (n : nans (fmt_of B)) (vf : list (F (fmt_of B)) -> list (F (fmt_of B)) -> list (F (fmt_of B)) -> list (F (fmt_of B))) (f : F (fmt_of B) -> F (fmt_of B) -> F (fmt_of B) -> F (fmt_of B))
         (m : mem (F (fmt_of B))) (out : Z) (a1 a2 a3 b1 b2 b3 : arg (F (fmt_of B))) (len : Z),
    lanewise3 B vf f -> legal_simd_length B len -> aligned B out -> accessible m out len ->
    same_meaning a1 b1 -> same_meaning a2 b2 -> same_meaning a3 b3 -> simd_fit B m out len b1 -> simd_fit B m out len b2 -> simd_fit B m out len b3 ->
    same_effect (ternary_vec (farith n) f m out b1 b2 b3 len) (ternary_vec (farith n) f m out a1 a2 a3 len) /\
    same_effect (ternary_vec_simd (farith n) B vf m out b1 b2 b3 len) (ternary_vec_simd (farith n) B vf m out a1 a2 a3 len) /\
    same_effect (ternary_vec_simd_ct (farith n) B (Z.to_nat (len / Z.of_nat (vsize B))) vf m out b1 b2 b3) (ternary_vec_simd_ct (farith n) B (Z.to_nat (len / Z.of_nat (vsize B))) vf m out a1 a2 a3).
Proof.
  intros B n vf f m out a1 a2 a3 b1 b2 b3 len Hf Hn Hal Ho M1 M2 M3 H1 H2 H3.
  destruct (meaning_fit B n m out len a1 b1 M1 H1) as [P1 Q1]. assert (R1 : arg_fit m out len b1) by (destruct H1 as (? & ? & ?); split; assumption). pose proof (meaning_arg B m out len a1 b1 M1 R1) as S1.
  destruct (meaning_fit B n m out len a2 b2 M2 H2) as [P2 Q2]. assert (R2 : arg_fit m out len b2) by (destruct H2 as (? & ? & ?); split; assumption). pose proof (meaning_arg B m out len a2 b2 M2 R2) as S2.
  destruct (meaning_fit B n m out len a3 b3 M3 H3) as [P3 Q3]. assert (R3 : arg_fit m out len b3) by (destruct H3 as (? & ? & ?); split; assumption). pose proof (meaning_arg B m out len a3 b3 M3 R3) as S3.
  assert (HL : 0 < len < 2 ^ 32) by apply Hn. destruct (legal_bounds B len Hn) as [Hb Hr]. destruct (vecs_of_legal B len Hn) as [Hk Hkn].
  pose proof (fun a1 a2 a3 => ternary_simd_ok (farith n) B vf f m out a1 a2 a3 len Hf Hb Hal) as G. rewrite Hr in G.
  pose proof (fun a1 a2 a3 => ternary_ct_ok (farith n) B vf f m out a1 a2 a3 _ Hf Hk Hal) as G2. rewrite Hkn in G2.
  split; [|split].
  - apply (leaves_same m _ _ out len (fun i => lift3 f (sample (farith n) m a1 i) (sample (farith n) m a2 i) (sample (farith n) m a3 i))); [eapply leaves_ext; [|apply C01_foo_vec_maps_ternary_lemma; assumption]; intros i Hi; cbv beta; rewrite (meaning_sample B n m a1 b1 i M1); rewrite (meaning_sample B n m a2 b2 i M2); rewrite (meaning_sample B n m a3 b3 i M3); reflexivity|apply C01_foo_vec_maps_ternary_lemma; assumption].
  - apply (leaves_same m _ _ out len (fun i => lift3 f (sample (farith n) m a1 i) (sample (farith n) m a2 i) (sample (farith n) m a3 i))); [eapply leaves_ext; [|apply G; assumption]; intros i Hi; cbv beta; rewrite (meaning_sample B n m a1 b1 i M1); rewrite (meaning_sample B n m a2 b2 i M2); rewrite (meaning_sample B n m a3 b3 i M3); reflexivity|apply G; assumption].
  - apply (leaves_same m _ _ out len (fun i => lift3 f (sample (farith n) m a1 i) (sample (farith n) m a2 i) (sample (farith n) m a3 i))); [eapply leaves_ext; [|apply G2; assumption]; intros i Hi; cbv beta; rewrite (meaning_sample B n m a1 b1 i M1); rewrite (meaning_sample B n m a2 b2 i M2); rewrite (meaning_sample B n m a3 b3 i M3); reflexivity|apply G2; assumption].
Qed.

Lemma C81_flat_ramp_quaternary_lemma : 
  forall (B : backend) (n : nans (fmt_of B)) (vf : list (F (fmt_of B)) -> list (F (fmt_of B)) -> list (F (fmt_of B)) -> list (F (fmt_of B)) -> list (F (fmt_of B))) (f : F (fmt_of B) -> F (fmt_of B) -> F (fmt_of B) -> F (fmt_of B) -> F (fmt_of B))
         (m : mem (F (fmt_of B))) (out : Z) (a1 a2 a3 a4 b1 b2 b3 b4 : arg (F (fmt_of B))) (len : Z),
    lanewise4 B vf f -> legal_simd_length B len -> aligned B out -> accessible m out len ->
    same_meaning a1 b1 -> same_meaning a2 b2 -> same_meaning a3 b3 -> same_meaning a4 b4 -> simd_fit B m out len b1 -> simd_fit B m out len b2 -> simd_fit B m out len b3 -> simd_fit B m out len b4 ->
    same_effect (quaternary_vec (farith n) f m out b1 b2 b3 b4 len) (quaternary_vec (farith n) f m out a1 a2 a3 a4 len) /\
    same_effect (quaternary_vec_simd (farith n) B vf m out b1 b2 b3 b4 len) (quaternary_vec_simd (farith n) B vf m out a1 a2 a3 a4 len) /\
    same_effect (quaternary_vec_simd_ct (farith n) B (Z.to_nat (len / Z.of_nat (vsize B))) vf m out b1 b2 b3 b4) (quaternary_vec_simd_ct (farith n) B (Z.to_nat (len / Z.of_nat (vsize B))) vf m out a1 a2 a3 a4).
Proof.
  intros B n vf f m out a1 a2 a3 a4 b1 b2 b3 b4 len Hf Hn Hal Ho M1 M2 M3 M4 H1 H2 H3 H4.
  destruct (meaning_fit B n m out len a1 b1 M1 H1) as [P1 Q1]. assert (R1 : arg_fit m out len b1) by (destruct H1 as (? & ? & ?); split; assumption). pose proof (meaning_arg B m out len a1 b1 M1 R1) as S1.
  destruct (meaning_fit B n m out len a2 b2 M2 H2) as [P2 Q2]. assert (R2 : arg_fit m out len b2) by (destruct H2 as (? & ? & ?); split; assumption). pose proof (meaning_arg B m out len a2 b2 M2 R2) as S2.
  destruct (meaning_fit B n m out len a3 b3 M3 H3) as [P3 Q3]. assert (R3 : arg_fit m out len b3) by (destruct H3 as (? & ? & ?); split; assumption). pose proof (meaning_arg B m out len a3 b3 M3 R3) as S3.
  destruct (meaning_fit B n m out len a4 b4 M4 H4) as [P4 Q4]. assert (R4 : arg_fit m out len b4) by (destruct H4 as (? & ? & ?); split; assumption). pose proof (meaning_arg B m out len a4 b4 M4 R4) as S4.
  assert (HL : 0 < len < 2 ^ 32) by apply Hn. destruct (legal_bounds B len Hn) as [Hb Hr]. destruct (vecs_of_legal B len Hn) as [Hk Hkn].
  pose proof (fun a1 a2 a3 a4 => quaternary_simd_ok (farith n) B vf f m out a1 a2 a3 a4 len Hf Hb Hal) as G. rewrite Hr in G.
  pose proof (fun a1 a2 a3 a4 => quaternary_ct_ok (farith n) B vf f m out a1 a2 a3 a4 _ Hf Hk Hal) as G2. rewrite Hkn in G2.
  split; [|split].
  - apply (leaves_same m _ _ out len (fun i => lift4 f (sample (farith n) m a1 i) (sample (farith n) m a2 i) (sample (farith n) m a3 i) (sample (farith n) m a4 i))); [eapply leaves_ext; [|apply C01_foo_vec_maps_quaternary_lemma; assumption]; intros i Hi; cbv beta; rewrite (meaning_sample B n m a1 b1 i M1); rewrite (meaning_sample B n m a2 b2 i M2); rewrite (meaning_sample B n m a3 b3 i M3); rewrite (meaning_sample B n m a4 b4 i M4); reflexivity|apply C01_foo_vec_maps_quaternary_lemma; assumption].
  - apply (leaves_same m _ _ out len (fun i => lift4 f (sample (farith n) m a1 i) (sample (farith n) m a2 i) (sample (farith n) m a3 i) (sample (farith n) m a4 i))); [eapply leaves_ext; [|apply G; assumption]; intros i Hi; cbv beta; rewrite (meaning_sample B n m a1 b1 i M1); rewrite (meaning_sample B n m a2 b2 i M2); rewrite (meaning_sample B n m a3 b3 i M3); rewrite (meaning_sample B n m a4 b4 i M4); reflexivity|apply G; assumption].
  - apply (leaves_same m _ _ out len (fun i => lift4 f (sample (farith n) m a1 i) (sample (farith n) m a2 i) (sample (farith n) m a3 i) (sample (farith n) m a4 i))); [eapply leaves_ext; [|apply G2; assumption]; intros i Hi; cbv beta; rewrite (meaning_sample B n m a1 b1 i M1); rewrite (meaning_sample B n m a2 b2 i M2); rewrite (meaning_sample B n m a3 b3 i M3); rewrite (meaning_sample B n m a4 b4 i M4); reflexivity|apply G2; assumption].
Qed.

Lemma C81_flat_ramp_minus_zero_refuted_lemma : 
  forall n : nans F32, exists (m : mem (F F32)) (out inp len : Z) (x s : F F32),
    buffers_fit AVX32 m out inp len /\ isfin x = true /\ a_zero_of s /\
    ~ same_effect (plus_vec (farith n) (fops_scalar n) m out (APtr inp) (AScal x) len) (plus_vec (farith n) (fops_scalar n) m out (APtr inp) (ARamp x s) len).
Proof.
  intros n. set (m := block 0 80 (fun _ => fneg (zero F32))). exists m, 32, 40, 32, (fneg (zero F32)), (zero F32).
  assert (FT : buffers_fit AVX32 m 32 40 32) by (unfold buffers_fit, m; fitm). split; [exact FT|]. split; [reflexivity|]. split; [split; reflexivity|].
  destruct (fit_scalar AVX32 m 32 40 32 FT) as (H1 & H2 & H3).
  intros (m1 & m2 & E1 & E2 & Q).
  destruct (C18_plus_vec_lemma _ (farith n) (fops_scalar n) m 32 (APtr 40) (AScal (fneg (zero F32))) 32 H1 H2 H3) as (m1' & F1 & W1 & _); [split; exact I|].
  destruct (C18_plus_vec_lemma _ (farith n) (fops_scalar n) m 32 (APtr 40) (ARamp (fneg (zero F32)) (zero F32)) 32 H1 H2 H3) as (m2' & F2 & W2 & _); [split; exact I|].
  assert (m1' = m1) as -> by congruence. assert (m2' = m2) as -> by congruence.
  destruct (W1 1 ltac:(lia)) as [X1 _]. destruct (W2 1 ltac:(lia)) as [X2 _]. rewrite Q, X2 in X1.
  cbn [sample] in X1. assert (Y : m (40 + 1) = Some (fneg (zero F32))) by (unfold m; rewrite block_in by lia; reflexivity). rewrite Y in X1. vm_compute in X1. discriminate.
Qed.

Lemma C81_set_slope_zero_lemma : 
  forall (B : backend) (n : nans (fmt_of B)) (m : mem (F (fmt_of B))) (dest : Z) (x s : F (fmt_of B)) (len : Z),
    steady x -> a_zero_of s -> legal_simd_length B len -> aligned B dest -> accessible m dest len ->
    same_effect (setvec m dest x len) (set_slope_vec (farith n) m dest x s len) /\
    same_effect (setvec_simd B m dest x len) (set_slope_vec_simd (farith n) B m dest x s len).
Proof.
  intros B n m dest x s len H1 H2 H3 H4 H5. assert (HL : 0 < len < 2 ^ 32) by apply H3. split.
  - eapply leaves_same; [apply C12_setvec_lemma; assumption|]. eapply leaves_ext; [|apply set_slope_vec_ok; assumption].
    intros i Hi. cbn [sample]. change (a_add (farith n)) with (fadd n). rewrite iter_steady by assumption. reflexivity.
  - eapply leaves_same; [apply C12_setvec_simd_lemma; assumption|apply flat_slope_simd; assumption].
Qed.

Lemma C81_set_exp_one_lemma : 
  forall (B : backend) (n : nans (fmt_of B)) (m : mem (F (fmt_of B))) (dest : Z) (x : F (fmt_of B)) (len : Z),
    isnan x = false -> legal_simd_length B len -> aligned B dest -> accessible m dest len ->
    same_effect (setvec m dest x len) (set_exp_vec (farith n) m dest x (one (fmt_of B)) len) /\
    same_effect (setvec_simd B m dest x len) (set_exp_vec_simd (farith n) B m dest x (one (fmt_of B)) len).
Proof.
  intros B n m dest x len H1 H3 H4 H5. assert (HL : 0 < len < 2 ^ 32) by apply H3. split.
  - eapply leaves_same; [apply C12_setvec_lemma; assumption|]. eapply leaves_ext; [|apply set_exp_vec_ok; assumption].
    intros i Hi. cbv beta. f_equal. change (a_mul (farith n)) with (fmul n). induction (Z.to_nat i) as [|k IH]; [reflexivity|]. change (fmul n (Nat.iter k (fun y => fmul n y (one (fmt_of B))) x) (one (fmt_of B)) = x). rewrite IH. apply fmul_one. exact H1.
  - eapply leaves_same; [apply C12_setvec_simd_lemma; assumption|apply flat_exp_simd; assumption].
Qed.
