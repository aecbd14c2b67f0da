(** Neutral parameters leave the samples alone (C81). *)
From Coq Require Import ZArith Reals List Lia Bool Lra.
From Flocq Require Import Core IEEE754.Binary IEEE754.Bits.
From Verif Require Import
  Base Mem Backend Args Drivers Functors Lanes Float LaneOps FloatOps ScalarMath VecMath FloatFuns MemFuns Spec SpecLane SpecTrunc SpecNeutral
  FloatFacts NeutralFacts ExData ExFloat ExMath NeutralClaims.
Import ListNotations.
Local Open Scope Z_scope.

(** * C81: neutral parameters *)

(** Multiplied by 1 every sample stays as it is, bit for bit, *)
Theorem C81_times_one_vec : 
  forall (t : fmt) (n : nans t) (m : mem (F t)) (out inp len : Z), 0 < len < 2 ^ 32 -> accessible m out len -> arg_fit m out len (APtr inp) ->
    yields kept m (times_vec (farith n) (fops_scalar n) m out (APtr inp) (AScal (one t)) len) out inp len.
Proof. exact C81_times_one_vec_lemma. Qed.

Example C81_times_one_vec_ex :
  let m := block 0 80 (fun a => f_lit F32 (1 - 2 * a) (-1)) in 0 < 32 < 2 ^ 32 /\ accessible m 32 32 /\ arg_fit m 32 32 (APtr 40) /\ m 40 = Some (f_lit F32 (-79) (-1)).
Proof. cbv zeta. split; [lia|]. split; [fitm|]. split; [split; [fitm|cbn; lia]|]. reflexivity. Qed.

Theorem C81_times_one_vec_simd : 
  forall (c : cfg) (B : backend) (n : nans (fmt_of B)) (m : mem (F (fmt_of B))) (out inp len : Z), B <> ALTIVEC32 -> buffers_fit B m out inp len ->
    yields kept m (times_vec_simd (farith n) (fops c B n) B m out (APtr inp) (AScal (one (fmt_of B))) len) out inp len.
Proof. exact C81_times_one_vec_simd_lemma. Qed.

Example C81_times_one_vec_simd_ex :
  let m := block 0 80 (fun a => f_lit F32 (1 - 2 * a) (-1)) in AVX32 <> ALTIVEC32 /\ buffers_fit AVX32 m 32 40 32 /\ m 40 = Some (f_lit F32 (-79) (-1)).
Proof. cbv zeta. split; [try split; discriminate|]. split; [unfold buffers_fit; fitm|]. reflexivity. Qed.

(** except on Altivec, where -0 becomes 0: *)
Theorem C81_times_one_altivec : 
  forall (c : cfg) (n : nans F32) (m : mem (F F32)) (out inp len : Z), buffers_fit ALTIVEC32 m out inp len ->
    yields kept_unsigned_zero m (times_vec_simd (farith n) (fops c ALTIVEC32 n) ALTIVEC32 m out (APtr inp) (AScal (one F32)) len) out inp len.
Proof. exact C81_times_one_altivec_lemma. Qed.

Example C81_times_one_altivec_ex :
  let m := block 0 80 (fun a => f_lit F32 (1 - 2 * a) (-1)) in buffers_fit ALTIVEC32 m 32 40 32 /\ m 40 = Some (f_lit F32 (-79) (-1)).
Proof. cbv zeta. split; [unfold buffers_fit; fitm|]. reflexivity. Qed.

Theorem C81_times_one_altivec_refuted : 
  forall (c : cfg) (n : nans F32), exists (m : mem (F F32)) (out inp len : Z), buffers_fit ALTIVEC32 m out inp len /\
    ~ yields kept m (times_vec_simd (farith n) (fops c ALTIVEC32 n) ALTIVEC32 m out (APtr inp) (AScal (one F32)) len) out inp len.
Proof. exact C81_times_one_altivec_refuted_lemma. Qed.

Example C81_times_one_altivec_refuted_ex :
  bits (fneg (zero F32)) = 2147483648 /\ a_zero_of (fneg (zero F32)).
Proof. split; [vm_compute; reflexivity|split; reflexivity]. Qed.

(** Adding -0 changes nothing; *)
Theorem C81_plus_minus_zero_vec : 
  forall (t : fmt) (n : nans t) (m : mem (F t)) (out inp len : Z), 0 < len < 2 ^ 32 -> accessible m out len -> arg_fit m out len (APtr inp) ->
    yields kept m (plus_vec (farith n) (fops_scalar n) m out (APtr inp) (AScal (fneg (zero t))) len) out inp len.
Proof. exact C81_plus_minus_zero_vec_lemma. Qed.

Example C81_plus_minus_zero_vec_ex :
  let m := block 0 80 (fun a => f_lit F32 (1 - 2 * a) (-1)) in 0 < 32 < 2 ^ 32 /\ accessible m 32 32 /\ arg_fit m 32 32 (APtr 40) /\ m 40 = Some (f_lit F32 (-79) (-1)).
Proof. cbv zeta. split; [lia|]. split; [fitm|]. split; [split; [fitm|cbn; lia]|]. reflexivity. Qed.

Theorem C81_plus_minus_zero_vec_simd : 
  forall (c : cfg) (B : backend) (n : nans (fmt_of B)) (m : mem (F (fmt_of B))) (out inp len : Z), buffers_fit B m out inp len ->
    yields kept m (plus_vec_simd (farith n) (fops c B n) B m out (APtr inp) (AScal (fneg (zero (fmt_of B)))) len) out inp len.
Proof. exact C81_plus_minus_zero_vec_simd_lemma. Qed.

Example C81_plus_minus_zero_vec_simd_ex :
  let m := block 0 80 (fun a => f_lit F32 (1 - 2 * a) (-1)) in buffers_fit AVX32 m 32 40 32 /\ m 40 = Some (f_lit F32 (-79) (-1)).
Proof. cbv zeta. split; [unfold buffers_fit; fitm|]. reflexivity. Qed.

(** adding 0 changes nothing but -0, which becomes 0; *)
Theorem C81_plus_zero_vec : 
  forall (t : fmt) (n : nans t) (m : mem (F t)) (out inp len : Z), 0 < len < 2 ^ 32 -> accessible m out len -> arg_fit m out len (APtr inp) ->
    yields kept_unsigned_zero m (plus_vec (farith n) (fops_scalar n) m out (APtr inp) (AScal (zero t)) len) out inp len.
Proof. exact C81_plus_zero_vec_lemma. Qed.

Example C81_plus_zero_vec_ex :
  let m := block 0 80 (fun a => f_lit F32 (1 - 2 * a) (-1)) in 0 < 32 < 2 ^ 32 /\ accessible m 32 32 /\ arg_fit m 32 32 (APtr 40) /\ m 40 = Some (f_lit F32 (-79) (-1)).
Proof. cbv zeta. split; [lia|]. split; [fitm|]. split; [split; [fitm|cbn; lia]|]. reflexivity. Qed.

Theorem C81_plus_zero_vec_simd : 
  forall (c : cfg) (B : backend) (n : nans (fmt_of B)) (m : mem (F (fmt_of B))) (out inp len : Z), buffers_fit B m out inp len ->
    yields kept_unsigned_zero m (plus_vec_simd (farith n) (fops c B n) B m out (APtr inp) (AScal (zero (fmt_of B))) len) out inp len.
Proof. exact C81_plus_zero_vec_simd_lemma. Qed.

Example C81_plus_zero_vec_simd_ex :
  let m := block 0 80 (fun a => f_lit F32 (1 - 2 * a) (-1)) in buffers_fit AVX32 m 32 40 32 /\ m 40 = Some (f_lit F32 (-79) (-1)).
Proof. cbv zeta. split; [unfold buffers_fit; fitm|]. reflexivity. Qed.

(** subtracting 0 changes nothing. *)
Theorem C81_minus_zero_vec : 
  forall (t : fmt) (n : nans t) (m : mem (F t)) (out inp len : Z), 0 < len < 2 ^ 32 -> accessible m out len -> arg_fit m out len (APtr inp) ->
    yields kept m (minus_vec (farith n) (fops_scalar n) m out (APtr inp) (AScal (zero t)) len) out inp len.
Proof. exact C81_minus_zero_vec_lemma. Qed.

Example C81_minus_zero_vec_ex :
  let m := block 0 80 (fun a => f_lit F32 (1 - 2 * a) (-1)) in 0 < 32 < 2 ^ 32 /\ accessible m 32 32 /\ arg_fit m 32 32 (APtr 40) /\ m 40 = Some (f_lit F32 (-79) (-1)).
Proof. cbv zeta. split; [lia|]. split; [fitm|]. split; [split; [fitm|cbn; lia]|]. reflexivity. Qed.

Theorem C81_minus_zero_vec_simd : 
  forall (c : cfg) (B : backend) (n : nans (fmt_of B)) (m : mem (F (fmt_of B))) (out inp len : Z), buffers_fit B m out inp len ->
    yields kept m (minus_vec_simd (farith n) (fops c B n) B m out (APtr inp) (AScal (zero (fmt_of B))) len) out inp len.
Proof. exact C81_minus_zero_vec_simd_lemma. Qed.

Example C81_minus_zero_vec_simd_ex :
  let m := block 0 80 (fun a => f_lit F32 (1 - 2 * a) (-1)) in buffers_fit AVX32 m 32 40 32 /\ m 40 = Some (f_lit F32 (-79) (-1)).
Proof. cbv zeta. split; [unfold buffers_fit; fitm|]. reflexivity. Qed.

(** Neither does dividing by 1, where there is a division instruction (NEON and
    Altivec multiply with an estimated reciprocal). *)
Theorem C81_over_one_vec : 
  forall (t : fmt) (n : nans t) (m : mem (F t)) (out inp len : Z), 0 < len < 2 ^ 32 -> accessible m out len -> arg_fit m out len (APtr inp) ->
    yields kept m (over_vec (farith n) (fops_scalar n) m out (APtr inp) (AScal (one t)) len) out inp len.
Proof. exact C81_over_one_vec_lemma. Qed.

Example C81_over_one_vec_ex :
  let m := block 0 80 (fun a => f_lit F32 (1 - 2 * a) (-1)) in 0 < 32 < 2 ^ 32 /\ accessible m 32 32 /\ arg_fit m 32 32 (APtr 40) /\ m 40 = Some (f_lit F32 (-79) (-1)).
Proof. cbv zeta. split; [lia|]. split; [fitm|]. split; [split; [fitm|cbn; lia]|]. reflexivity. Qed.

Theorem C81_over_one_vec_simd : 
  forall (c : cfg) (B : backend) (n : nans (fmt_of B)) (m : mem (F (fmt_of B))) (out inp len : Z), B <> NEON32 -> B <> ALTIVEC32 -> buffers_fit B m out inp len ->
    yields kept m (over_vec_simd (farith n) (fops c B n) B m out (APtr inp) (AScal (one (fmt_of B))) len) out inp len.
Proof. exact C81_over_one_vec_simd_lemma. Qed.

Example C81_over_one_vec_simd_ex :
  let m := block 0 80 (fun a => f_lit F32 (1 - 2 * a) (-1)) in (AVX32 <> NEON32 /\ AVX32 <> ALTIVEC32) /\ buffers_fit AVX32 m 32 40 32 /\ m 40 = Some (f_lit F32 (-79) (-1)).
Proof. cbv zeta. split; [try split; discriminate|]. split; [unfold buffers_fit; fitm|]. reflexivity. Qed.

(** muladd by 1 and 0 changes nothing but -0, fused or not. *)
Theorem C81_muladd_one_zero_vec : 
  forall (t : fmt) (n : nans t) (m : mem (F t)) (out inp len : Z), 0 < len < 2 ^ 32 -> accessible m out len -> arg_fit m out len (APtr inp) ->
    yields kept_unsigned_zero m (muladd_vec (farith n) (fops_scalar n) m out (APtr inp) (AScal (one t)) (AScal (zero t)) len) out inp len.
Proof. exact C81_muladd_one_zero_vec_lemma. Qed.

Example C81_muladd_one_zero_vec_ex :
  let m := block 0 80 (fun a => f_lit F32 (1 - 2 * a) (-1)) in 0 < 32 < 2 ^ 32 /\ accessible m 32 32 /\ arg_fit m 32 32 (APtr 40) /\ m 40 = Some (f_lit F32 (-79) (-1)).
Proof. cbv zeta. split; [lia|]. split; [fitm|]. split; [split; [fitm|cbn; lia]|]. reflexivity. Qed.

Theorem C81_muladd_one_zero_vec_simd : 
  forall (c : cfg) (B : backend) (n : nans (fmt_of B)) (m : mem (F (fmt_of B))) (out inp len : Z), buffers_fit B m out inp len ->
    yields kept_unsigned_zero m (muladd_vec_simd (farith n) (fops c B n) B m out (APtr inp) (AScal (one (fmt_of B))) (AScal (zero (fmt_of B))) len) out inp len.
Proof. exact C81_muladd_one_zero_vec_simd_lemma. Qed.

Example C81_muladd_one_zero_vec_simd_ex :
  let m := block 0 80 (fun a => f_lit F32 (1 - 2 * a) (-1)) in buffers_fit AVX32 m 32 40 32 /\ m 40 = Some (f_lit F32 (-79) (-1)).
Proof. cbv zeta. split; [unfold buffers_fit; fitm|]. reflexivity. Qed.

(** Limits at infinity keep every number. *)
Theorem C81_min_infinity_vec : 
  forall (t : fmt) (n : nans t) (m : mem (F t)) (out inp len : Z), 0 < len < 2 ^ 32 -> accessible m out len -> arg_fit m out len (APtr inp) ->
    yields number_kept m (min_vec (farith n) (fops_scalar n) m out (APtr inp) (AScal (infinite t false)) len) out inp len.
Proof. exact C81_min_infinity_vec_lemma. Qed.

Example C81_min_infinity_vec_ex :
  let m := block 0 80 (fun a => f_lit F32 (1 - 2 * a) (-1)) in 0 < 32 < 2 ^ 32 /\ accessible m 32 32 /\ arg_fit m 32 32 (APtr 40) /\ m 40 = Some (f_lit F32 (-79) (-1)).
Proof. cbv zeta. split; [lia|]. split; [fitm|]. split; [split; [fitm|cbn; lia]|]. reflexivity. Qed.

Theorem C81_min_infinity_vec_simd : 
  forall (c : cfg) (B : backend) (n : nans (fmt_of B)) (m : mem (F (fmt_of B))) (out inp len : Z), buffers_fit B m out inp len ->
    yields number_kept m (min_vec_simd (farith n) (fops c B n) B m out (APtr inp) (AScal (infinite (fmt_of B) false)) len) out inp len.
Proof. exact C81_min_infinity_vec_simd_lemma. Qed.

Example C81_min_infinity_vec_simd_ex :
  let m := block 0 80 (fun a => f_lit F32 (1 - 2 * a) (-1)) in buffers_fit AVX32 m 32 40 32 /\ m 40 = Some (f_lit F32 (-79) (-1)).
Proof. cbv zeta. split; [unfold buffers_fit; fitm|]. reflexivity. Qed.

Theorem C81_max_minus_infinity_vec : 
  forall (t : fmt) (n : nans t) (m : mem (F t)) (out inp len : Z), 0 < len < 2 ^ 32 -> accessible m out len -> arg_fit m out len (APtr inp) ->
    yields number_kept m (max_vec (farith n) (fops_scalar n) m out (APtr inp) (AScal (infinite t true)) len) out inp len.
Proof. exact C81_max_minus_infinity_vec_lemma. Qed.

Example C81_max_minus_infinity_vec_ex :
  let m := block 0 80 (fun a => f_lit F32 (1 - 2 * a) (-1)) in 0 < 32 < 2 ^ 32 /\ accessible m 32 32 /\ arg_fit m 32 32 (APtr 40) /\ m 40 = Some (f_lit F32 (-79) (-1)).
Proof. cbv zeta. split; [lia|]. split; [fitm|]. split; [split; [fitm|cbn; lia]|]. reflexivity. Qed.

Theorem C81_max_minus_infinity_vec_simd : 
  forall (c : cfg) (B : backend) (n : nans (fmt_of B)) (m : mem (F (fmt_of B))) (out inp len : Z), buffers_fit B m out inp len ->
    yields number_kept m (max_vec_simd (farith n) (fops c B n) B m out (APtr inp) (AScal (infinite (fmt_of B) true)) len) out inp len.
Proof. exact C81_max_minus_infinity_vec_simd_lemma. Qed.

Example C81_max_minus_infinity_vec_simd_ex :
  let m := block 0 80 (fun a => f_lit F32 (1 - 2 * a) (-1)) in buffers_fit AVX32 m 32 40 32 /\ m 40 = Some (f_lit F32 (-79) (-1)).
Proof. cbv zeta. split; [unfold buffers_fit; fitm|]. reflexivity. Qed.

Theorem C81_clip_infinity_vec : 
  forall (t : fmt) (n : nans t) (m : mem (F t)) (out inp len : Z), 0 < len < 2 ^ 32 -> accessible m out len -> arg_fit m out len (APtr inp) ->
    yields number_kept m (clip_vec (farith n) (fops_scalar n) m out (APtr inp) (AScal (infinite t true)) (AScal (infinite t false)) len) out inp len.
Proof. exact C81_clip_infinity_vec_lemma. Qed.

Example C81_clip_infinity_vec_ex :
  let m := block 0 80 (fun a => f_lit F32 (1 - 2 * a) (-1)) in 0 < 32 < 2 ^ 32 /\ accessible m 32 32 /\ arg_fit m 32 32 (APtr 40) /\ m 40 = Some (f_lit F32 (-79) (-1)).
Proof. cbv zeta. split; [lia|]. split; [fitm|]. split; [split; [fitm|cbn; lia]|]. reflexivity. Qed.

Theorem C81_clip_infinity_vec_simd : 
  forall (c : cfg) (B : backend) (n : nans (fmt_of B)) (m : mem (F (fmt_of B))) (out inp len : Z), buffers_fit B m out inp len ->
    yields number_kept m (clip_vec_simd (farith n) (fops c B n) B m out (APtr inp) (AScal (infinite (fmt_of B) true)) (AScal (infinite (fmt_of B) false)) len) out inp len.
Proof. exact C81_clip_infinity_vec_simd_lemma. Qed.

Example C81_clip_infinity_vec_simd_ex :
  let m := block 0 80 (fun a => f_lit F32 (1 - 2 * a) (-1)) in buffers_fit AVX32 m 32 40 32 /\ m 40 = Some (f_lit F32 (-79) (-1)).
Proof. cbv zeta. split; [unfold buffers_fit; fitm|]. reflexivity. Qed.

(** Amplitude modulation by the amount 0 changes nothing as long as the modulator is
    finite; *)
Theorem C81_ampmod_zero_vec : 
  forall (t : fmt) (n : nans t) (m : mem (F t)) (out inp inp2 len : Z), 0 < len < 2 ^ 32 -> accessible m out len -> arg_fit m out len (APtr inp) -> arg_fit m out len (APtr inp2) -> each (fun x => isfin x = true) m inp2 len ->
    yields kept m (ampmod_vec (farith n) (fops_scalar n) m out (APtr inp) (APtr inp2) (AScal (zero t)) len) out inp len.
Proof. exact C81_ampmod_zero_vec_lemma. Qed.

Example C81_ampmod_zero_vec_ex :
  let m := block 0 80 (fun a => f_lit F32 (1 - 2 * a) (-1)) in 0 < 32 < 2 ^ 32 /\ accessible m 32 32 /\ arg_fit m 32 32 (APtr 40) /\ arg_fit m 32 32 (APtr 32) /\ each (fun x => isfin x = true) m 32 32.
Proof. cbv zeta. split; [lia|]. split; [fitm|]. split; [split; [fitm|cbn; lia]|]. split; [split; [fitm|cbn; lia]|]. intros i x Hi E; rewrite block_in in E by lia; assert (x = f_lit F32 (1 - 2 * (32 + i)) (-1)) as -> by congruence; destruct (lit32 (1 - 2 * (32 + i)) (-1)) as [A _]; [lia|lia|exact A]. Qed.

Theorem C81_ampmod_zero_vec_simd : 
  forall (c : cfg) (B : backend) (n : nans (fmt_of B)) (m : mem (F (fmt_of B))) (out inp inp2 len : Z), B <> ALTIVEC32 -> buffers_fit B m out inp len -> simd_fit B m out len (APtr inp2) -> each (fun x => isfin x = true) m inp2 len ->
    yields kept m (ampmod_vec_simd (farith n) (fops c B n) B m out (APtr inp) (APtr inp2) (AScal (zero (fmt_of B))) len) out inp len.
Proof. exact C81_ampmod_zero_vec_simd_lemma. Qed.

Example C81_ampmod_zero_vec_simd_ex :
  let m := block 0 80 (fun a => f_lit F32 (1 - 2 * a) (-1)) in AVX32 <> ALTIVEC32 /\ buffers_fit AVX32 m 32 40 32 /\ simd_fit AVX32 m 32 32 (APtr 32) /\ each (fun x => isfin x = true) m 32 32.
Proof. cbv zeta. split; [discriminate|]. split; [unfold buffers_fit; fitm|]. split; [fitm|]. intros i x Hi E; rewrite block_in in E by lia; assert (x = f_lit F32 (1 - 2 * (32 + i)) (-1)) as -> by congruence; destruct (lit32 (1 - 2 * (32 + i)) (-1)) as [A _]; [lia|lia|exact A]. Qed.

(** an infinite modulator makes every sample a NaN. *)
Theorem C81_ampmod_zero_infinity_refuted : 
  forall (c : cfg) (B : backend) (n : nans (fmt_of B)), exists (m : mem (F (fmt_of B))) (out inp inp2 len : Z),
    buffers_fit B m out inp len /\ simd_fit B m out len (APtr inp2) /\ each (fun x => isfin x = true) m inp len /\
    yields (fun x y => isnan y = true) m (ampmod_vec (farith n) (fops_scalar n) m out (APtr inp) (APtr inp2) (AScal (zero (fmt_of B))) len) out inp len /\
    yields (fun x y => isnan y = true) m (ampmod_vec_simd (farith n) (fops c B n) B m out (APtr inp) (APtr inp2) (AScal (zero (fmt_of B))) len) out inp len.
Proof. exact C81_ampmod_zero_infinity_refuted_lemma. Qed.

Example C81_ampmod_zero_infinity_refuted_ex :
  isfin (infinite F32 false) = false /\ val (zero F32) = 0%R.
Proof. split; reflexivity. Qed.

(** A mix with the factors 1 and 0 is the first signal, signs of zeros aside, as long
    as the second one is finite. *)
Theorem C81_mix_one_zero_vec : 
  forall (t : fmt) (n : nans t) (m : mem (F t)) (out inp inp2 len : Z), 0 < len < 2 ^ 32 -> accessible m out len -> arg_fit m out len (APtr inp) -> arg_fit m out len (APtr inp2) -> each (fun x => isfin x = true) m inp2 len ->
    yields kept_some_zero m (mix_vec (farith n) (fops_scalar n) m out (APtr inp) (AScal (one t)) (APtr inp2) (AScal (zero t)) len) out inp len.
Proof. exact C81_mix_one_zero_vec_lemma. Qed.

Example C81_mix_one_zero_vec_ex :
  let m := block 0 80 (fun a => f_lit F32 (1 - 2 * a) (-1)) in 0 < 32 < 2 ^ 32 /\ accessible m 32 32 /\ arg_fit m 32 32 (APtr 40) /\ arg_fit m 32 32 (APtr 32) /\ each (fun x => isfin x = true) m 32 32.
Proof. cbv zeta. split; [lia|]. split; [fitm|]. split; [split; [fitm|cbn; lia]|]. split; [split; [fitm|cbn; lia]|]. intros i x Hi E; rewrite block_in in E by lia; assert (x = f_lit F32 (1 - 2 * (32 + i)) (-1)) as -> by congruence; destruct (lit32 (1 - 2 * (32 + i)) (-1)) as [A _]; [lia|lia|exact A]. Qed.

Theorem C81_mix_one_zero_vec_simd : 
  forall (c : cfg) (B : backend) (n : nans (fmt_of B)) (m : mem (F (fmt_of B))) (out inp inp2 len : Z), buffers_fit B m out inp len -> simd_fit B m out len (APtr inp2) -> each (fun x => isfin x = true) m inp2 len ->
    yields kept_some_zero m (mix_vec_simd (farith n) (fops c B n) B m out (APtr inp) (AScal (one (fmt_of B))) (APtr inp2) (AScal (zero (fmt_of B))) len) out inp len.
Proof. exact C81_mix_one_zero_vec_simd_lemma. Qed.

Example C81_mix_one_zero_vec_simd_ex :
  let m := block 0 80 (fun a => f_lit F32 (1 - 2 * a) (-1)) in buffers_fit AVX32 m 32 40 32 /\ simd_fit AVX32 m 32 32 (APtr 32) /\ each (fun x => isfin x = true) m 32 32.
Proof. cbv zeta. split; [unfold buffers_fit; fitm|]. split; [fitm|]. intros i x Hi E; rewrite block_in in E by lia; assert (x = f_lit F32 (1 - 2 * (32 + i)) (-1)) as -> by congruence; destruct (lit32 (1 - 2 * (32 + i)) (-1)) as [A _]; [lia|lia|exact A]. Qed.

Theorem C81_mix_one_zero_infinity_refuted : 
  forall (c : cfg) (B : backend) (n : nans (fmt_of B)), exists (m : mem (F (fmt_of B))) (out inp inp2 len : Z),
    buffers_fit B m out inp len /\ simd_fit B m out len (APtr inp2) /\ each (fun x => isfin x = true) m inp len /\
    yields (fun x y => isnan y = true) m (mix_vec (farith n) (fops_scalar n) m out (APtr inp) (AScal (one (fmt_of B))) (APtr inp2) (AScal (zero (fmt_of B))) len) out inp len /\
    yields (fun x y => isnan y = true) m (mix_vec_simd (farith n) (fops c B n) B m out (APtr inp) (AScal (one (fmt_of B))) (APtr inp2) (AScal (zero (fmt_of B))) len) out inp len.
Proof. exact C81_mix_one_zero_infinity_refuted_lemma. Qed.

Example C81_mix_one_zero_infinity_refuted_ex :
  isfin (infinite F32 false) = false /\ val (zero F32) = 0%R.
Proof. split; reflexivity. Qed.

(** A ramp with the slope 0 (or -0) means the same as the constant, in all forms of
    all functions, if the constant is a number other than -0; *)
Theorem C81_flat_ramp_binary : 
  forall (B : backend) (n : nans (fmt_of B)) (vf : list (F (fmt_of B)) -> list (F (fmt_of B)) -> list (F (fmt_of B))) (f : F (fmt_of B) -> F (fmt_of B) -> F (fmt_of B))
         (m : mem (F (fmt_of B))) (out : Z) (a1 a2 b1 b2 : arg (F (fmt_of B))) (len : Z),
    lanewise2 B vf f -> legal_simd_length B len -> aligned B out -> accessible m out len ->
    same_meaning a1 b1 -> same_meaning a2 b2 -> simd_fit B m out len b1 -> simd_fit B m out len b2 ->
    same_effect (binary_vec (farith n) f m out b1 b2 len) (binary_vec (farith n) f m out a1 a2 len) /\
    same_effect (binary_vec_simd (farith n) B vf m out b1 b2 len) (binary_vec_simd (farith n) B vf m out a1 a2 len) /\
    same_effect (binary_vec_simd_ct (farith n) B (Z.to_nat (len / Z.of_nat (vsize B))) vf m out b1 b2) (binary_vec_simd_ct (farith n) B (Z.to_nat (len / Z.of_nat (vsize B))) vf m out a1 a2).
Proof. exact C81_flat_ramp_binary_lemma. Qed.

Example C81_flat_ramp_binary_ex :
  let m := block 0 80 (fun a => f_lit F32 (1 - 2 * a) (-1)) in legal_simd_length AVX32 32 /\ accessible m 32 32 /\ simd_fit AVX32 m 32 32 (APtr 40) /\ same_meaning (APtr 40) (APtr 40 : arg (F F32)) /\ same_meaning (ARamp (one F32) (zero F32)) (AScal (one F32)).
Proof. cbv zeta. split; [fitm|]. split; [fitm|]. split; [fitm|]. repeat split; try reflexivity. all: intros [_ H]; exfalso; revert H; rewrite (proj1 (proj2 one_fin)); lra. Qed.

Theorem C81_flat_ramp_ternary : 
  forall (B : backend) (n : nans (fmt_of B)) (vf : list (F (fmt_of B)) -> list (F (fmt_of B)) -> list (F (fmt_of B)) -> list (F (fmt_of B))) (f : F (fmt_of B) -> F (fmt_of B) -> F (fmt_of B) -> F (fmt_of B))
         (m : mem (F (fmt_of B))) (out : Z) (a1 a2 a3 b1 b2 b3 : arg (F (fmt_of B))) (len : Z),
    lanewise3 B vf f -> legal_simd_length B len -> aligned B out -> accessible m out len ->
    same_meaning a1 b1 -> same_meaning a2 b2 -> same_meaning a3 b3 -> simd_fit B m out len b1 -> simd_fit B m out len b2 -> simd_fit B m out len b3 ->
    same_effect (ternary_vec (farith n) f m out b1 b2 b3 len) (ternary_vec (farith n) f m out a1 a2 a3 len) /\
    same_effect (ternary_vec_simd (farith n) B vf m out b1 b2 b3 len) (ternary_vec_simd (farith n) B vf m out a1 a2 a3 len) /\
    same_effect (ternary_vec_simd_ct (farith n) B (Z.to_nat (len / Z.of_nat (vsize B))) vf m out b1 b2 b3) (ternary_vec_simd_ct (farith n) B (Z.to_nat (len / Z.of_nat (vsize B))) vf m out a1 a2 a3).
Proof. exact C81_flat_ramp_ternary_lemma. Qed.

Example C81_flat_ramp_ternary_ex :
  let m := block 0 80 (fun a => f_lit F32 (1 - 2 * a) (-1)) in legal_simd_length AVX32 32 /\ accessible m 32 32 /\ simd_fit AVX32 m 32 32 (APtr 40) /\ same_meaning (APtr 40) (APtr 40 : arg (F F32)) /\ same_meaning (ARamp (one F32) (zero F32)) (AScal (one F32)) /\ same_meaning (ARamp (one F32) (zero F32)) (AScal (one F32)).
Proof. cbv zeta. split; [fitm|]. split; [fitm|]. split; [fitm|]. repeat split; try reflexivity. all: intros [_ H]; exfalso; revert H; rewrite (proj1 (proj2 one_fin)); lra. Qed.

Theorem C81_flat_ramp_quaternary : 
  forall (B : backend) (n : nans (fmt_of B)) (vf : list (F (fmt_of B)) -> list (F (fmt_of B)) -> list (F (fmt_of B)) -> list (F (fmt_of B)) -> list (F (fmt_of B))) (f : F (fmt_of B) -> F (fmt_of B) -> F (fmt_of B) -> F (fmt_of B) -> F (fmt_of B))
         (m : mem (F (fmt_of B))) (out : Z) (a1 a2 a3 a4 b1 b2 b3 b4 : arg (F (fmt_of B))) (len : Z),
    lanewise4 B vf f -> legal_simd_length B len -> aligned B out -> accessible m out len ->
    same_meaning a1 b1 -> same_meaning a2 b2 -> same_meaning a3 b3 -> same_meaning a4 b4 -> simd_fit B m out len b1 -> simd_fit B m out len b2 -> simd_fit B m out len b3 -> simd_fit B m out len b4 ->
    same_effect (quaternary_vec (farith n) f m out b1 b2 b3 b4 len) (quaternary_vec (farith n) f m out a1 a2 a3 a4 len) /\
    same_effect (quaternary_vec_simd (farith n) B vf m out b1 b2 b3 b4 len) (quaternary_vec_simd (farith n) B vf m out a1 a2 a3 a4 len) /\
    same_effect (quaternary_vec_simd_ct (farith n) B (Z.to_nat (len / Z.of_nat (vsize B))) vf m out b1 b2 b3 b4) (quaternary_vec_simd_ct (farith n) B (Z.to_nat (len / Z.of_nat (vsize B))) vf m out a1 a2 a3 a4).
Proof. exact C81_flat_ramp_quaternary_lemma. Qed.

Example C81_flat_ramp_quaternary_ex :
  let m := block 0 80 (fun a => f_lit F32 (1 - 2 * a) (-1)) in legal_simd_length AVX32 32 /\ accessible m 32 32 /\ simd_fit AVX32 m 32 32 (APtr 40) /\ same_meaning (APtr 40) (APtr 40 : arg (F F32)) /\ same_meaning (ARamp (one F32) (zero F32)) (AScal (one F32)) /\ same_meaning (ARamp (one F32) (zero F32)) (AScal (one F32)) /\ same_meaning (ARamp (one F32) (zero F32)) (AScal (one F32)).
Proof. cbv zeta. split; [fitm|]. split; [fitm|]. split; [fitm|]. repeat split; try reflexivity. all: intros [_ H]; exfalso; revert H; rewrite (proj1 (proj2 one_fin)); lra. Qed.

(** a ramp that starts at -0 goes on with 0. *)
Theorem C81_flat_ramp_minus_zero_refuted : 
  forall n : nans F32, exists (m : mem (F F32)) (out inp len : Z) (x s : F F32),
    buffers_fit AVX32 m out inp len /\ isfin x = true /\ a_zero_of s /\
    ~ same_effect (plus_vec (farith n) (fops_scalar n) m out (APtr inp) (AScal x) len) (plus_vec (farith n) (fops_scalar n) m out (APtr inp) (ARamp x s) len).
Proof. exact C81_flat_ramp_minus_zero_refuted_lemma. Qed.

Example C81_flat_ramp_minus_zero_refuted_ex :
  isfin (fneg (zero F32)) = true /\ a_zero_of (zero F32).
Proof. split; [reflexivity|split; reflexivity]. Qed.

(** set_slope_vec with the slope 0 and *)
Theorem C81_set_slope_zero : 
  forall (B : backend) (n : nans (fmt_of B)) (m : mem (F (fmt_of B))) (dest : Z) (x s : F (fmt_of B)) (len : Z),
    steady x -> a_zero_of s -> legal_simd_length B len -> aligned B dest -> accessible m dest len ->
    same_effect (setvec m dest x len) (set_slope_vec (farith n) m dest x s len) /\
    same_effect (setvec_simd B m dest x len) (set_slope_vec_simd (farith n) B m dest x s len).
Proof. exact C81_set_slope_zero_lemma. Qed.

Example C81_set_slope_zero_ex :
  let m := block 0 80 (fun a => f_lit F32 (1 - 2 * a) (-1)) in steady (one F32) /\ a_zero_of (zero F32) /\ legal_simd_length AVX32 32 /\ aligned AVX32 32 /\ accessible m 32 32.
Proof. cbv zeta. split; [split; [reflexivity|intros [_ H]; exfalso; revert H; rewrite (proj1 (proj2 one_fin)); lra]|]. split; [split; reflexivity|]. fitm. Qed.

(** set_exp_vec with the curve 1 are setvec. *)
Theorem C81_set_exp_one : 
  forall (B : backend) (n : nans (fmt_of B)) (m : mem (F (fmt_of B))) (dest : Z) (x : F (fmt_of B)) (len : Z),
    isnan x = false -> legal_simd_length B len -> aligned B dest -> accessible m dest len ->
    same_effect (setvec m dest x len) (set_exp_vec (farith n) m dest x (one (fmt_of B)) len) /\
    same_effect (setvec_simd B m dest x len) (set_exp_vec_simd (farith n) B m dest x (one (fmt_of B)) len).
Proof. exact C81_set_exp_one_lemma. Qed.

Example C81_set_exp_one_ex :
  let m := block 0 80 (fun a => f_lit F32 (1 - 2 * a) (-1)) in isnan (infinite F32 true) = false /\ legal_simd_length AVX32 32 /\ aligned AVX32 32 /\ accessible m 32 32.
Proof. cbv zeta. split; [reflexivity|]. fitm. Qed.

(** All theorems of this file together, for one run of Print Assumptions. *)
Definition all_Neutral := (
  C81_times_one_vec,
  C81_times_one_vec_simd,
  C81_times_one_altivec,
  C81_times_one_altivec_refuted,
  C81_plus_minus_zero_vec,
  C81_plus_minus_zero_vec_simd,
  C81_plus_zero_vec,
  C81_plus_zero_vec_simd,
  C81_minus_zero_vec,
  C81_minus_zero_vec_simd,
  C81_over_one_vec,
  C81_over_one_vec_simd,
  C81_muladd_one_zero_vec,
  C81_muladd_one_zero_vec_simd,
  C81_min_infinity_vec,
  C81_min_infinity_vec_simd,
  C81_max_minus_infinity_vec,
  C81_max_minus_infinity_vec_simd,
  C81_clip_infinity_vec,
  C81_clip_infinity_vec_simd,
  C81_ampmod_zero_vec,
  C81_ampmod_zero_vec_simd,
  C81_ampmod_zero_infinity_refuted,
  C81_mix_one_zero_vec,
  C81_mix_one_zero_vec_simd,
  C81_mix_one_zero_infinity_refuted,
  C81_flat_ramp_binary,
  C81_flat_ramp_ternary,
  C81_flat_ramp_quaternary,
  C81_flat_ramp_minus_zero_refuted,
  C81_set_slope_zero,
  C81_set_exp_one).
Print Assumptions all_Neutral.
