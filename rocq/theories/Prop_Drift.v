(** Accumulated rounding errors (C69-C72). *)
From Coq Require Import ZArith Reals List Lia Bool Lra.
From Flocq Require Import Core IEEE754.Binary IEEE754.Bits.
From Verif Require Import
  Base Mem Loop Backend Args Drivers Lanes Float LaneOps Reduce FloatOps MemFuns ScalarMath VecMath Spec SpecReduce SpecLane SpecDrift
  FloatFacts FloatRound RampErr ExData ExFloat ExDrift DriftClaims.
Import ListNotations.
Local Open Scope Z_scope.

(** * C69: sums of floats *)

(** The sum is that of the real numbers up to (1+u)^(len-1) - 1 times the sum of the
    absolute values, where u is 2^-24 or 2^-53; no overflow, no NaN; *)
Theorem C69_horizontal_sum_vec : 
  forall (t : fmt) (n : nans t) (m : mem (F t)) p len l, filled m p len l -> all_finite l -> sum_fits l ->
    exists r, horizontal_sum_vec (fred_scalar n) m p len = Ok r /\ near_sum l r.
Proof. exact C69_horizontal_sum_vec_lemma. Qed.
Print Assumptions C69_horizontal_sum_vec.

Example C69_horizontal_sum_vec_ex :
  let k := fun a => (a * 7) mod 23 - 11 in let v := fun a => f_ofZ F32 (k a) in let m := block 0 100 v in
  filled m 8 24 (cells v 8 24) /\ all_finite (cells v 8 24) /\ sum_fits (cells v 8 24).
Proof.
  cbv zeta. assert (I : integers (cells (fun a => f_ofZ F32 ((a * 7) mod 23 - 11)) 8 24) (cells (fun a => (a * 7) mod 23 - 11) 8 24)).
  { change (fun a => f_ofZ F32 ((a * 7) mod 23 - 11)) with (fun a => f_ofZ F32 ((fun a => (a * 7) mod 23 - 11) a)). rewrite (cells_map (f_ofZ F32)). fitf_leaf. }
  repeat match goal with |- _ /\ _ => split end;
  lazymatch goal with
  | |- all_finite _ => exact (proj1 (ints_sums _ _ I))
  | |- sum_fits _ => apply (sum_fits_ints _ _ I); vm_compute; discriminate
  | |- squares_fit _ _ => refine (squares_fit_ints (f_ofZ F32 5) 5 _ _ _ _ I _ _); [apply (f_ofZ_val 5); vm_compute; discriminate|vm_compute; discriminate|vm_compute; discriminate|split; vm_compute; discriminate]
  | |- _ <> _ => discriminate
  | |- _ => fitf_leaf
  end.
Qed.

(** the SIMD form meets the same bound; *)
Theorem C69_horizontal_sum_vec_simd : 
  forall (c : cfg) (B : backend) (n : nans (fmt_of B)) (m : mem (F (fmt_of B))) p len l, aligned B p -> whole_vectors B len -> filled m p len l -> all_finite l -> sum_fits l ->
    exists r, horizontal_sum_vec_simd (fred c B n) c B m p len = Ok r /\ near_sum l r.
Proof. exact C69_horizontal_sum_vec_simd_lemma. Qed.
Print Assumptions C69_horizontal_sum_vec_simd.

Example C69_horizontal_sum_vec_simd_ex :
  let k := fun a => (a * 7) mod 23 - 11 in let v := fun a => f_ofZ F32 (k a) in let m := block 0 100 v in
  aligned AVX32 8 /\ whole_vectors AVX32 24 /\ filled m 8 24 (cells v 8 24) /\ all_finite (cells v 8 24) /\ sum_fits (cells v 8 24).
Proof.
  cbv zeta. assert (I : integers (cells (fun a => f_ofZ F32 ((a * 7) mod 23 - 11)) 8 24) (cells (fun a => (a * 7) mod 23 - 11) 8 24)).
  { change (fun a => f_ofZ F32 ((a * 7) mod 23 - 11)) with (fun a => f_ofZ F32 ((fun a => (a * 7) mod 23 - 11) a)). rewrite (cells_map (f_ofZ F32)). fitf_leaf. }
  repeat match goal with |- _ /\ _ => split end;
  lazymatch goal with
  | |- all_finite _ => exact (proj1 (ints_sums _ _ I))
  | |- sum_fits _ => apply (sum_fits_ints _ _ I); vm_compute; discriminate
  | |- squares_fit _ _ => refine (squares_fit_ints (f_ofZ F32 5) 5 _ _ _ _ I _ _); [apply (f_ofZ_val 5); vm_compute; discriminate|vm_compute; discriminate|vm_compute; discriminate|split; vm_compute; discriminate]
  | |- _ <> _ => discriminate
  | |- _ => fitf_leaf
  end.
Qed.

(** so do the sums of horizontal_maxsum_vec *)
Theorem C69_horizontal_maxsum_vec : 
  forall (t : fmt) (n : nans t) (m : mem (F t)) p len l, filled m p len l -> all_finite l -> sum_fits l ->
    exists rmax r, horizontal_maxsum_vec (fred_scalar n) m p len = Ok (rmax, r) /\ near_sum l r.
Proof. exact C69_horizontal_maxsum_vec_lemma. Qed.
Print Assumptions C69_horizontal_maxsum_vec.

Example C69_horizontal_maxsum_vec_ex :
  let k := fun a => (a * 7) mod 23 - 11 in let v := fun a => f_ofZ F32 (k a) in let m := block 0 100 v in
  filled m 8 24 (cells v 8 24) /\ all_finite (cells v 8 24) /\ sum_fits (cells v 8 24).
Proof.
  cbv zeta. assert (I : integers (cells (fun a => f_ofZ F32 ((a * 7) mod 23 - 11)) 8 24) (cells (fun a => (a * 7) mod 23 - 11) 8 24)).
  { change (fun a => f_ofZ F32 ((a * 7) mod 23 - 11)) with (fun a => f_ofZ F32 ((fun a => (a * 7) mod 23 - 11) a)). rewrite (cells_map (f_ofZ F32)). fitf_leaf. }
  repeat match goal with |- _ /\ _ => split end;
  lazymatch goal with
  | |- all_finite _ => exact (proj1 (ints_sums _ _ I))
  | |- sum_fits _ => apply (sum_fits_ints _ _ I); vm_compute; discriminate
  | |- squares_fit _ _ => refine (squares_fit_ints (f_ofZ F32 5) 5 _ _ _ _ I _ _); [apply (f_ofZ_val 5); vm_compute; discriminate|vm_compute; discriminate|vm_compute; discriminate|split; vm_compute; discriminate]
  | |- _ <> _ => discriminate
  | |- _ => fitf_leaf
  end.
Qed.

(** and its SIMD form, *)
Theorem C69_horizontal_maxsum_vec_simd : 
  forall (c : cfg) (B : backend) (n : nans (fmt_of B)) (m : mem (F (fmt_of B))) p len l, aligned B p -> whole_vectors B len -> filled m p len l -> all_finite l -> sum_fits l ->
    exists rmax r, horizontal_maxsum_vec_simd (fred c B n) c B m p len = Ok (rmax, r) /\ near_sum l r.
Proof. exact C69_horizontal_maxsum_vec_simd_lemma. Qed.
Print Assumptions C69_horizontal_maxsum_vec_simd.

Example C69_horizontal_maxsum_vec_simd_ex :
  let k := fun a => (a * 7) mod 23 - 11 in let v := fun a => f_ofZ F32 (k a) in let m := block 0 100 v in
  aligned AVX32 8 /\ whole_vectors AVX32 24 /\ filled m 8 24 (cells v 8 24) /\ all_finite (cells v 8 24) /\ sum_fits (cells v 8 24).
Proof.
  cbv zeta. assert (I : integers (cells (fun a => f_ofZ F32 ((a * 7) mod 23 - 11)) 8 24) (cells (fun a => (a * 7) mod 23 - 11) 8 24)).
  { change (fun a => f_ofZ F32 ((a * 7) mod 23 - 11)) with (fun a => f_ofZ F32 ((fun a => (a * 7) mod 23 - 11) a)). rewrite (cells_map (f_ofZ F32)). fitf_leaf. }
  repeat match goal with |- _ /\ _ => split end;
  lazymatch goal with
  | |- all_finite _ => exact (proj1 (ints_sums _ _ I))
  | |- sum_fits _ => apply (sum_fits_ints _ _ I); vm_compute; discriminate
  | |- squares_fit _ _ => refine (squares_fit_ints (f_ofZ F32 5) 5 _ _ _ _ I _ _); [apply (f_ofZ_val 5); vm_compute; discriminate|vm_compute; discriminate|vm_compute; discriminate|split; vm_compute; discriminate]
  | |- _ <> _ => discriminate
  | |- _ => fitf_leaf
  end.
Qed.

(** and horizontal_sum of one vector. *)
Theorem C69_horizontal_sum : 
  forall (c : cfg) (B : backend) (n : nans (fmt_of B)) (v : list (F (fmt_of B))),
    Z.of_nat (length v) = lanes B -> all_finite v -> sum_fits v ->
    exists r, horizontal_sum c B (f_ofZ (fmt_of B) 0) (fadd n) v = Ok r /\ near_sum v r.
Proof. exact C69_horizontal_sum_lemma. Qed.
Print Assumptions C69_horizontal_sum.

Example C69_horizontal_sum_ex :
  let k := fun a => (a * 7) mod 23 - 11 in let v := fun a => f_ofZ F32 (k a) in let m := block 0 100 v in
  Z.of_nat (length (cells v 8 8)) = lanes AVX32 /\ all_finite (cells v 8 8) /\ sum_fits (cells v 8 8).
Proof.
  cbv zeta. assert (I : integers (cells (fun a => f_ofZ F32 ((a * 7) mod 23 - 11)) 8 8) (cells (fun a => (a * 7) mod 23 - 11) 8 8)).
  { change (fun a => f_ofZ F32 ((a * 7) mod 23 - 11)) with (fun a => f_ofZ F32 ((fun a => (a * 7) mod 23 - 11) a)). rewrite (cells_map (f_ofZ F32)). fitf_leaf. }
  repeat match goal with |- _ /\ _ => split end;
  lazymatch goal with
  | |- all_finite _ => exact (proj1 (ints_sums _ _ I))
  | |- sum_fits _ => apply (sum_fits_ints _ _ I); vm_compute; discriminate
  | |- squares_fit _ _ => refine (squares_fit_ints (f_ofZ F32 5) 5 _ _ _ _ I _ _); [apply (f_ofZ_val 5); vm_compute; discriminate|vm_compute; discriminate|vm_compute; discriminate|split; vm_compute; discriminate]
  | |- _ <> _ => discriminate
  | |- _ => fitf_leaf
  end.
Qed.

(** The accumulated sum of squares of peak_rms_vec is that of the real numbers up to
    (1+u)^(len+1) - 1 relative to it, plus an underflow of half the smallest
    positive number per square; *)
Theorem C69_peak_rms_vec : 
  forall (t : fmt) (n : nans t) (m : mem (F t)) p len l pk sq old start, filled m p len l -> all_finite l ->
    m pk = Some old -> m sq = Some start -> isfin start = true -> squares_fit start l ->
    exists m' r, peak_rms_vec (fred_scalar n) m p pk sq len = Ok m' /\ m' sq = Some r /\ near_squares start l r.
Proof. exact C69_peak_rms_vec_lemma. Qed.
Print Assumptions C69_peak_rms_vec.

Example C69_peak_rms_vec_ex :
  let k := fun a => (a * 7) mod 23 - 11 in let v := fun a => f_ofZ F32 (k a) in let m := block 0 100 (fun a => if a =? 90 then f_ofZ F32 5 else v a) in
  filled m 8 32 (cells v 8 32) /\ all_finite (cells v 8 32) /\ m 91 = Some (v 91) /\ m 90 = Some (f_ofZ F32 5) /\ isfin (f_ofZ F32 5) = true /\
  squares_fit (f_ofZ F32 5) (cells v 8 32).
Proof.
  cbv zeta. assert (I : integers (cells (fun a => f_ofZ F32 ((a * 7) mod 23 - 11)) 8 32) (cells (fun a => (a * 7) mod 23 - 11) 8 32)).
  { change (fun a => f_ofZ F32 ((a * 7) mod 23 - 11)) with (fun a => f_ofZ F32 ((fun a => (a * 7) mod 23 - 11) a)). rewrite (cells_map (f_ofZ F32)). fitf_leaf. }
  repeat match goal with |- _ /\ _ => split end;
  lazymatch goal with
  | |- all_finite _ => exact (proj1 (ints_sums _ _ I))
  | |- sum_fits _ => apply (sum_fits_ints _ _ I); vm_compute; discriminate
  | |- squares_fit _ _ => refine (squares_fit_ints (f_ofZ F32 5) 5 _ _ _ _ I _ _); [apply (f_ofZ_val 5); vm_compute; discriminate|vm_compute; discriminate|vm_compute; discriminate|split; vm_compute; discriminate]
  | |- filled _ _ _ _ => refine (filled_block 0 100 (fun a => if a =? 90 then f_ofZ F32 5 else f_ofZ F32 ((a * 7) mod 23 - 11)) 8 32 _ _ _); [split; reflexivity|lia|cbn; lia]
  | |- _ <> _ => discriminate
  | |- _ => fitf_leaf
  end.
Qed.

(** the SIMD form meets the same bound. *)
Theorem C69_peak_rms_vec_simd : 
  forall (c : cfg) (B : backend) (n : nans (fmt_of B)) (m : mem (F (fmt_of B))) p len l junk pk sq old start, aligned B p -> whole_quads B len -> upper_lanes_zero B (f_ofZ (fmt_of B) 0) junk -> filled m p len l -> all_finite l ->
    m pk = Some old -> m sq = Some start -> pk <> sq -> isfin start = true -> squares_fit start l ->
    exists m' r, peak_rms_vec_simd (fred c B n) c B junk m p pk sq len = Ok m' /\ m' sq = Some r /\ near_squares start l r.
Proof. exact C69_peak_rms_vec_simd_lemma. Qed.
Print Assumptions C69_peak_rms_vec_simd.

Example C69_peak_rms_vec_simd_ex :
  let k := fun a => (a * 7) mod 23 - 11 in let v := fun a => f_ofZ F32 (k a) in let m := block 0 100 (fun a => if a =? 90 then f_ofZ F32 5 else v a) in
  aligned AVX32 8 /\ whole_quads AVX32 32 /\ upper_lanes_zero AVX32 (f_ofZ F32 0) (fun _ => f_ofZ F32 0) /\
  filled m 8 32 (cells v 8 32) /\ all_finite (cells v 8 32) /\ m 91 = Some (v 91) /\ m 90 = Some (f_ofZ F32 5) /\ 91 <> 90 /\ isfin (f_ofZ F32 5) = true /\
  squares_fit (f_ofZ F32 5) (cells v 8 32).
Proof.
  cbv zeta. assert (I : integers (cells (fun a => f_ofZ F32 ((a * 7) mod 23 - 11)) 8 32) (cells (fun a => (a * 7) mod 23 - 11) 8 32)).
  { change (fun a => f_ofZ F32 ((a * 7) mod 23 - 11)) with (fun a => f_ofZ F32 ((fun a => (a * 7) mod 23 - 11) a)). rewrite (cells_map (f_ofZ F32)). fitf_leaf. }
  repeat match goal with |- _ /\ _ => split end;
  lazymatch goal with
  | |- all_finite _ => exact (proj1 (ints_sums _ _ I))
  | |- sum_fits _ => apply (sum_fits_ints _ _ I); vm_compute; discriminate
  | |- squares_fit _ _ => refine (squares_fit_ints (f_ofZ F32 5) 5 _ _ _ _ I _ _); [apply (f_ofZ_val 5); vm_compute; discriminate|vm_compute; discriminate|vm_compute; discriminate|split; vm_compute; discriminate]
  | |- filled _ _ _ _ => refine (filled_block 0 100 (fun a => if a =? 90 then f_ofZ F32 5 else f_ofZ F32 ((a * 7) mod 23 - 11)) 8 32 _ _ _); [split; reflexivity|lia|cbn; lia]
  | |- _ <> _ => discriminate
  | |- _ => fitf_leaf
  end.
Qed.

(** The factor (1+u)^k - 1 is at most 2ku, for k up to 2^23 (float) or 2^52 (double). *)
Theorem C69_growth_is_small : 
  forall (t : fmt) (k : nat), (INR k * unit_roundoff t <= / 2)%R -> (growth t k - 1 <= 2 * (INR k * unit_roundoff t))%R.
Proof. exact C69_growth_is_small_lemma. Qed.
Print Assumptions C69_growth_is_small.

Example C69_growth_is_small_ex :
  (INR 1000 * unit_roundoff F32 <= / 2)%R.
Proof. rewrite INR_IZR_INZ. change (Z.of_nat 1000) with 1000. cbn. lra. Qed.

(** Scalar and SIMD sums need not agree: 2^24 + 1 + ... + 1 (seven ones) is 2^24 in
    order and 2^24 + 6 with four partial sums. *)
Theorem C69_same_sum_refuted : 
  exists m : mem (F F32), let l := f_ofZ F32 (2 ^ 24) :: repeat (f_ofZ F32 1) 7 in
    filled m 0 8 l /\ aligned SSE32 0 /\ whole_vectors SSE32 8 /\
    exists r1 r2, horizontal_sum_vec (fred_scalar (n0 F32)) m 0 8 = Ok r1 /\
      horizontal_sum_vec_simd (fred all_ext SSE32 (n0 F32)) all_ext SSE32 m 0 8 = Ok r2 /\
      bits r1 = bits (f_ofZ F32 (2 ^ 24)) /\ bits r2 = bits (f_ofZ F32 (2 ^ 24 + 6)).
Proof. exact C69_same_sum_refuted_lemma. Qed.
Print Assumptions C69_same_sum_refuted.

(** * C70: rounding of ramps *)

(** Scalar calls: the value a ramp takes at sample i is base + i*slope up to
    (1+u)^i - 1, relative to |base| + i*|slope|. *)
Theorem C70_binary_vec : 
  forall (t : fmt) (n : nans t) (f : F t -> F t -> F t) (m : mem (F t)) (out : Z) (a1 a2 : arg (F t)) (len : Z),
    0 < len < 2 ^ 32 -> accessible m out len ->
    arg_fit m out len a1 -> tame_arg 0 0 len a1 ->
    arg_fit m out len a2 -> tame_arg 0 0 len a2 ->
    exists r1 r2 : Z -> option (F t),
      (forall i, 0 <= i < len -> near_line 0 0 m a1 i (r1 i) /\ near_line 0 0 m a2 i (r2 i)) /\
      leaves m (binary_vec (farith n) f m out a1 a2 len) out len (fun i => lift2 f (r1 i) (r2 i)).
Proof. exact C70_binary_vec_lemma. Qed.
Print Assumptions C70_binary_vec.

Example C70_binary_vec_ex :
  let m := block 0 80 (fun a => f_ofZ F64 (a * a)) in
  0 < 32 < 2 ^ 32 /\ accessible m 32 32 /\
  arg_fit m 32 32 (APtr 40) /\ tame_arg (t := F64) 0 0 32 (APtr 40) /\
  arg_fit m 32 32 ramp03 /\ tame_arg (t := F64) 0 0 32 ramp03.
Proof.
  cbv zeta; unfold arg_fit, simd_fit; repeat match goal with |- _ /\ _ => split end;
  lazymatch goal with
  | |- legal_simd_length _ _ => split; [split; reflexivity|apply Z.mod_divide; [discriminate|reflexivity]]
  | |- tame_arg _ _ _ ramp03 => apply ramp03_ok; split; try lra; try apply rel_pos; try apply tiny_pos; cbn; lra
  | |- tame_arg _ _ _ _ => exact I
  | |- slope_in_range _ ramp03 => apply ramp03_range; reflexivity
  | |- slope_in_range _ _ => exact I
  | |- _ => fit_leaf
  end.
Qed.

Theorem C70_ternary_vec : 
  forall (t : fmt) (n : nans t) (f : F t -> F t -> F t -> F t) (m : mem (F t)) (out : Z) (a1 a2 a3 : arg (F t)) (len : Z),
    0 < len < 2 ^ 32 -> accessible m out len ->
    arg_fit m out len a1 -> tame_arg 0 0 len a1 ->
    arg_fit m out len a2 -> tame_arg 0 0 len a2 ->
    arg_fit m out len a3 -> tame_arg 0 0 len a3 ->
    exists r1 r2 r3 : Z -> option (F t),
      (forall i, 0 <= i < len -> near_line 0 0 m a1 i (r1 i) /\ near_line 0 0 m a2 i (r2 i) /\ near_line 0 0 m a3 i (r3 i)) /\
      leaves m (ternary_vec (farith n) f m out a1 a2 a3 len) out len (fun i => lift3 f (r1 i) (r2 i) (r3 i)).
Proof. exact C70_ternary_vec_lemma. Qed.
Print Assumptions C70_ternary_vec.

Example C70_ternary_vec_ex :
  let m := block 0 80 (fun a => f_ofZ F64 (a * a)) in
  0 < 32 < 2 ^ 32 /\ accessible m 32 32 /\
  arg_fit m 32 32 (APtr 40) /\ tame_arg (t := F64) 0 0 32 (APtr 40) /\
  arg_fit m 32 32 ramp03 /\ tame_arg (t := F64) 0 0 32 ramp03 /\
  arg_fit m 32 32 ramp03 /\ tame_arg (t := F64) 0 0 32 ramp03.
Proof.
  cbv zeta; unfold arg_fit, simd_fit; repeat match goal with |- _ /\ _ => split end;
  lazymatch goal with
  | |- legal_simd_length _ _ => split; [split; reflexivity|apply Z.mod_divide; [discriminate|reflexivity]]
  | |- tame_arg _ _ _ ramp03 => apply ramp03_ok; split; try lra; try apply rel_pos; try apply tiny_pos; cbn; lra
  | |- tame_arg _ _ _ _ => exact I
  | |- slope_in_range _ ramp03 => apply ramp03_range; reflexivity
  | |- slope_in_range _ _ => exact I
  | |- _ => fit_leaf
  end.
Qed.

Theorem C70_quaternary_vec : 
  forall (t : fmt) (n : nans t) (f : F t -> F t -> F t -> F t -> F t) (m : mem (F t)) (out : Z) (a1 a2 a3 a4 : arg (F t)) (len : Z),
    0 < len < 2 ^ 32 -> accessible m out len ->
    arg_fit m out len a1 -> tame_arg 0 0 len a1 ->
    arg_fit m out len a2 -> tame_arg 0 0 len a2 ->
    arg_fit m out len a3 -> tame_arg 0 0 len a3 ->
    arg_fit m out len a4 -> tame_arg 0 0 len a4 ->
    exists r1 r2 r3 r4 : Z -> option (F t),
      (forall i, 0 <= i < len -> near_line 0 0 m a1 i (r1 i) /\ near_line 0 0 m a2 i (r2 i) /\ near_line 0 0 m a3 i (r3 i) /\ near_line 0 0 m a4 i (r4 i)) /\
      leaves m (quaternary_vec (farith n) f m out a1 a2 a3 a4 len) out len (fun i => lift4 f (r1 i) (r2 i) (r3 i) (r4 i)).
Proof. exact C70_quaternary_vec_lemma. Qed.
Print Assumptions C70_quaternary_vec.

Example C70_quaternary_vec_ex :
  let m := block 0 80 (fun a => f_ofZ F64 (a * a)) in
  0 < 32 < 2 ^ 32 /\ accessible m 32 32 /\
  arg_fit m 32 32 (APtr 40) /\ tame_arg (t := F64) 0 0 32 (APtr 40) /\
  arg_fit m 32 32 ramp03 /\ tame_arg (t := F64) 0 0 32 ramp03 /\
  arg_fit m 32 32 ramp03 /\ tame_arg (t := F64) 0 0 32 ramp03 /\
  arg_fit m 32 32 (AScal (f_ofZ F64 2)) /\ tame_arg (t := F64) 0 0 32 (AScal (f_ofZ F64 2)).
Proof.
  cbv zeta; unfold arg_fit, simd_fit; repeat match goal with |- _ /\ _ => split end;
  lazymatch goal with
  | |- legal_simd_length _ _ => split; [split; reflexivity|apply Z.mod_divide; [discriminate|reflexivity]]
  | |- tame_arg _ _ _ ramp03 => apply ramp03_ok; split; try lra; try apply rel_pos; try apply tiny_pos; cbn; lra
  | |- tame_arg _ _ _ _ => exact I
  | |- slope_in_range _ ramp03 => apply ramp03_range; reflexivity
  | |- slope_in_range _ _ => exact I
  | |- _ => fit_leaf
  end.
Qed.

(** SIMD calls, with run-time and fixed length: the same for float; for double the
    slope of a vector is kept as a float, which adds 2^-24 of the slope and 2^-150
    per sample. *)
Theorem C70_binary_vec_simd : 
  forall (B : backend) (n : nans (fmt_of B)) (vf : list (F (fmt_of B)) -> list (F (fmt_of B)) -> list (F (fmt_of B))) (f : F (fmt_of B) -> F (fmt_of B) -> F (fmt_of B))
         (m : mem (F (fmt_of B))) (out : Z) (a1 a2 : arg (F (fmt_of B))) (len : Z),
    lanewise2 B vf f -> legal_simd_length B len -> aligned B out -> accessible m out len ->
    simd_fit B m out len a1 -> tame_arg (slope_rel (fmt_of B)) (slope_tiny (fmt_of B)) len a1 -> slope_in_range B a1 ->
    simd_fit B m out len a2 -> tame_arg (slope_rel (fmt_of B)) (slope_tiny (fmt_of B)) len a2 -> slope_in_range B a2 ->
    exists r1 r2 : Z -> option (F (fmt_of B)),
      (forall i, 0 <= i < len ->
        near_line (slope_rel (fmt_of B)) (slope_tiny (fmt_of B)) m a1 i (r1 i) /\
        near_line (slope_rel (fmt_of B)) (slope_tiny (fmt_of B)) m a2 i (r2 i)) /\
      let result := fun i => lift2 f (r1 i) (r2 i) in
      leaves m (binary_vec_simd (farith n) B vf m out a1 a2 len) out len result /\
      leaves m (binary_vec_simd_ct (farith n) B (Z.to_nat (len / Z.of_nat (vsize B))) vf m out a1 a2) out len result.
Proof. exact C70_binary_vec_simd_lemma. Qed.
Print Assumptions C70_binary_vec_simd.

Example C70_binary_vec_simd_ex :
  let m := block 0 80 (fun a => f_ofZ F64 (a * a)) in
  lanewise2 AVX64 (map2 (fmul (n0 F64))) (fmul (n0 F64)) /\
  legal_simd_length AVX64 32 /\ aligned AVX64 32 /\ accessible m 32 32 /\
  simd_fit AVX64 m 32 32 (APtr 40) /\ tame_arg (t := F64) (slope_rel F64) (slope_tiny F64) 32 (APtr 40) /\ slope_in_range (t := F64) AVX64 (APtr 40) /\
  simd_fit AVX64 m 32 32 ramp03 /\ tame_arg (t := F64) (slope_rel F64) (slope_tiny F64) 32 ramp03 /\ slope_in_range (t := F64) AVX64 ramp03.
Proof.
  cbv zeta; unfold arg_fit, simd_fit; repeat match goal with |- _ /\ _ => split end;
  lazymatch goal with
  | |- legal_simd_length _ _ => split; [split; reflexivity|apply Z.mod_divide; [discriminate|reflexivity]]
  | |- tame_arg _ _ _ ramp03 => apply ramp03_ok; split; try lra; try apply rel_pos; try apply tiny_pos; cbn; lra
  | |- tame_arg _ _ _ _ => exact I
  | |- slope_in_range _ ramp03 => apply ramp03_range; reflexivity
  | |- slope_in_range _ _ => exact I
  | |- _ => fit_leaf
  end.
Qed.

Theorem C70_ternary_vec_simd : 
  forall (B : backend) (n : nans (fmt_of B)) (vf : list (F (fmt_of B)) -> list (F (fmt_of B)) -> list (F (fmt_of B)) -> list (F (fmt_of B))) (f : F (fmt_of B) -> F (fmt_of B) -> F (fmt_of B) -> F (fmt_of B))
         (m : mem (F (fmt_of B))) (out : Z) (a1 a2 a3 : arg (F (fmt_of B))) (len : Z),
    lanewise3 B vf f -> legal_simd_length B len -> aligned B out -> accessible m out len ->
    simd_fit B m out len a1 -> tame_arg (slope_rel (fmt_of B)) (slope_tiny (fmt_of B)) len a1 -> slope_in_range B a1 ->
    simd_fit B m out len a2 -> tame_arg (slope_rel (fmt_of B)) (slope_tiny (fmt_of B)) len a2 -> slope_in_range B a2 ->
    simd_fit B m out len a3 -> tame_arg (slope_rel (fmt_of B)) (slope_tiny (fmt_of B)) len a3 -> slope_in_range B a3 ->
    exists r1 r2 r3 : Z -> option (F (fmt_of B)),
      (forall i, 0 <= i < len ->
        near_line (slope_rel (fmt_of B)) (slope_tiny (fmt_of B)) m a1 i (r1 i) /\
        near_line (slope_rel (fmt_of B)) (slope_tiny (fmt_of B)) m a2 i (r2 i) /\
        near_line (slope_rel (fmt_of B)) (slope_tiny (fmt_of B)) m a3 i (r3 i)) /\
      let result := fun i => lift3 f (r1 i) (r2 i) (r3 i) in
      leaves m (ternary_vec_simd (farith n) B vf m out a1 a2 a3 len) out len result /\
      leaves m (ternary_vec_simd_ct (farith n) B (Z.to_nat (len / Z.of_nat (vsize B))) vf m out a1 a2 a3) out len result.
Proof. exact C70_ternary_vec_simd_lemma. Qed.
Print Assumptions C70_ternary_vec_simd.

Example C70_ternary_vec_simd_ex :
  let m := block 0 80 (fun a => f_ofZ F64 (a * a)) in
  lanewise3 AVX64 (map3 (fun x y z => fadd (n0 F64) (fmul (n0 F64) x y) z)) (fun x y z => fadd (n0 F64) (fmul (n0 F64) x y) z) /\
  legal_simd_length AVX64 32 /\ aligned AVX64 32 /\ accessible m 32 32 /\
  simd_fit AVX64 m 32 32 (APtr 40) /\ tame_arg (t := F64) (slope_rel F64) (slope_tiny F64) 32 (APtr 40) /\ slope_in_range (t := F64) AVX64 (APtr 40) /\
  simd_fit AVX64 m 32 32 ramp03 /\ tame_arg (t := F64) (slope_rel F64) (slope_tiny F64) 32 ramp03 /\ slope_in_range (t := F64) AVX64 ramp03 /\
  simd_fit AVX64 m 32 32 ramp03 /\ tame_arg (t := F64) (slope_rel F64) (slope_tiny F64) 32 ramp03 /\ slope_in_range (t := F64) AVX64 ramp03.
Proof.
  cbv zeta; unfold arg_fit, simd_fit; repeat match goal with |- _ /\ _ => split end;
  lazymatch goal with
  | |- legal_simd_length _ _ => split; [split; reflexivity|apply Z.mod_divide; [discriminate|reflexivity]]
  | |- tame_arg _ _ _ ramp03 => apply ramp03_ok; split; try lra; try apply rel_pos; try apply tiny_pos; cbn; lra
  | |- tame_arg _ _ _ _ => exact I
  | |- slope_in_range _ ramp03 => apply ramp03_range; reflexivity
  | |- slope_in_range _ _ => exact I
  | |- _ => fit_leaf
  end.
Qed.

Theorem C70_quaternary_vec_simd : 
  forall (B : backend) (n : nans (fmt_of B)) (vf : list (F (fmt_of B)) -> list (F (fmt_of B)) -> list (F (fmt_of B)) -> list (F (fmt_of B)) -> list (F (fmt_of B))) (f : F (fmt_of B) -> F (fmt_of B) -> F (fmt_of B) -> F (fmt_of B) -> F (fmt_of B))
         (m : mem (F (fmt_of B))) (out : Z) (a1 a2 a3 a4 : arg (F (fmt_of B))) (len : Z),
    lanewise4 B vf f -> legal_simd_length B len -> aligned B out -> accessible m out len ->
    simd_fit B m out len a1 -> tame_arg (slope_rel (fmt_of B)) (slope_tiny (fmt_of B)) len a1 -> slope_in_range B a1 ->
    simd_fit B m out len a2 -> tame_arg (slope_rel (fmt_of B)) (slope_tiny (fmt_of B)) len a2 -> slope_in_range B a2 ->
    simd_fit B m out len a3 -> tame_arg (slope_rel (fmt_of B)) (slope_tiny (fmt_of B)) len a3 -> slope_in_range B a3 ->
    simd_fit B m out len a4 -> tame_arg (slope_rel (fmt_of B)) (slope_tiny (fmt_of B)) len a4 -> slope_in_range B a4 ->
    exists r1 r2 r3 r4 : Z -> option (F (fmt_of B)),
      (forall i, 0 <= i < len ->
        near_line (slope_rel (fmt_of B)) (slope_tiny (fmt_of B)) m a1 i (r1 i) /\
        near_line (slope_rel (fmt_of B)) (slope_tiny (fmt_of B)) m a2 i (r2 i) /\
        near_line (slope_rel (fmt_of B)) (slope_tiny (fmt_of B)) m a3 i (r3 i) /\
        near_line (slope_rel (fmt_of B)) (slope_tiny (fmt_of B)) m a4 i (r4 i)) /\
      let result := fun i => lift4 f (r1 i) (r2 i) (r3 i) (r4 i) in
      leaves m (quaternary_vec_simd (farith n) B vf m out a1 a2 a3 a4 len) out len result /\
      leaves m (quaternary_vec_simd_ct (farith n) B (Z.to_nat (len / Z.of_nat (vsize B))) vf m out a1 a2 a3 a4) out len result.
Proof. exact C70_quaternary_vec_simd_lemma. Qed.
Print Assumptions C70_quaternary_vec_simd.

Example C70_quaternary_vec_simd_ex :
  let m := block 0 80 (fun a => f_ofZ F64 (a * a)) in
  lanewise4 AVX64 (map4 (fun x y z w => fadd (n0 F64) (fmul (n0 F64) x y) (fmul (n0 F64) z w))) (fun x y z w => fadd (n0 F64) (fmul (n0 F64) x y) (fmul (n0 F64) z w)) /\
  legal_simd_length AVX64 32 /\ aligned AVX64 32 /\ accessible m 32 32 /\
  simd_fit AVX64 m 32 32 (APtr 40) /\ tame_arg (t := F64) (slope_rel F64) (slope_tiny F64) 32 (APtr 40) /\ slope_in_range (t := F64) AVX64 (APtr 40) /\
  simd_fit AVX64 m 32 32 ramp03 /\ tame_arg (t := F64) (slope_rel F64) (slope_tiny F64) 32 ramp03 /\ slope_in_range (t := F64) AVX64 ramp03 /\
  simd_fit AVX64 m 32 32 ramp03 /\ tame_arg (t := F64) (slope_rel F64) (slope_tiny F64) 32 ramp03 /\ slope_in_range (t := F64) AVX64 ramp03 /\
  simd_fit AVX64 m 32 32 (AScal (f_ofZ F64 2)) /\ tame_arg (t := F64) (slope_rel F64) (slope_tiny F64) 32 (AScal (f_ofZ F64 2)) /\ slope_in_range (t := F64) AVX64 (AScal (f_ofZ F64 2)).
Proof.
  cbv zeta; unfold arg_fit, simd_fit; repeat match goal with |- _ /\ _ => split end;
  lazymatch goal with
  | |- legal_simd_length _ _ => split; [split; reflexivity|apply Z.mod_divide; [discriminate|reflexivity]]
  | |- tame_arg _ _ _ ramp03 => apply ramp03_ok; split; try lra; try apply rel_pos; try apply tiny_pos; cbn; lra
  | |- tame_arg _ _ _ _ => exact I
  | |- slope_in_range _ ramp03 => apply ramp03_range; reflexivity
  | |- slope_in_range _ _ => exact I
  | |- _ => fit_leaf
  end.
Qed.

(** set_slope_vec *)
Theorem C70_set_slope_vec : 
  forall (B : backend) (n : nans (fmt_of B)) (m : mem (F (fmt_of B))) dest f slope len,
    0 < len < 2 ^ 32 -> accessible m dest len -> tame_arg 0 0 len (ARamp f slope) ->
    exists r, (forall i, 0 <= i < len -> near_line 0 0 m (ARamp f slope) i (r i)) /\
      leaves m (set_slope_vec (farith n) m dest f slope len) dest len r.
Proof. exact C70_set_slope_vec_lemma. Qed.
Print Assumptions C70_set_slope_vec.

Example C70_set_slope_vec_ex :
  let m := block 0 80 (fun a => f_ofZ F64 (a * a)) in
  0 < 32 < 2 ^ 32 /\ accessible m 32 32 /\ tame_arg (t := F64) 0 0 32 ramp03.
Proof.
  cbv zeta; unfold arg_fit, simd_fit; repeat match goal with |- _ /\ _ => split end;
  lazymatch goal with
  | |- legal_simd_length _ _ => split; [split; reflexivity|apply Z.mod_divide; [discriminate|reflexivity]]
  | |- tame_arg _ _ _ ramp03 => apply ramp03_ok; split; try lra; try apply rel_pos; try apply tiny_pos; cbn; lra
  | |- tame_arg _ _ _ _ => exact I
  | |- slope_in_range _ ramp03 => apply ramp03_range; reflexivity
  | |- slope_in_range _ _ => exact I
  | |- _ => fit_leaf
  end.
Qed.

(** and set_slope_vec_simd, which does not narrow the slope, in both types. *)
Theorem C70_set_slope_vec_simd : 
  forall (B : backend) (n : nans (fmt_of B)) (m : mem (F (fmt_of B))) dest f slope len,
    legal_simd_length B len -> aligned B dest -> accessible m dest len -> tame_arg 0 0 len (ARamp f slope) ->
    exists r, (forall i, 0 <= i < len -> near_line 0 0 m (ARamp f slope) i (r i)) /\
      leaves m (set_slope_vec_simd (farith n) B m dest f slope len) dest len r.
Proof. exact C70_set_slope_vec_simd_lemma. Qed.
Print Assumptions C70_set_slope_vec_simd.

Example C70_set_slope_vec_simd_ex :
  let m := block 0 80 (fun a => f_ofZ F64 (a * a)) in
  legal_simd_length AVX64 32 /\ aligned AVX64 32 /\ accessible m 32 32 /\ tame_arg (t := F64) 0 0 32 ramp03.
Proof.
  cbv zeta; unfold arg_fit, simd_fit; repeat match goal with |- _ /\ _ => split end;
  lazymatch goal with
  | |- legal_simd_length _ _ => split; [split; reflexivity|apply Z.mod_divide; [discriminate|reflexivity]]
  | |- tame_arg _ _ _ ramp03 => apply ramp03_ok; split; try lra; try apply rel_pos; try apply tiny_pos; cbn; lra
  | |- tame_arg _ _ _ _ => exact I
  | |- slope_in_range _ ramp03 => apply ramp03_range; reflexivity
  | |- slope_in_range _ _ => exact I
  | |- _ => fit_leaf
  end.
Qed.

(** Scalar and SIMD ramps may differ: ten steps of 0.1 make 1.0000001 in one and 1 in
    the other; *)
Theorem C70_same_ramp_refuted : 
  exists f slope : F F32, let m := block 0 64 (fun _ => f_ofZ F32 1) in
    isfin f = true /\ isfin slope = true /\
    cell_bits' (set_slope_vec (farith (n0 F32)) m 16 f slope 32) 26 = Some 1065353217 /\
    cell_bits' (set_slope_vec_simd (farith (n0 F32)) SSE32 m 16 f slope 32) 26 = Some 1065353216.
Proof. exact C70_same_ramp_refuted_lemma. Qed.
Print Assumptions C70_same_ramp_refuted.

(** a ramp need not move at all: from 2^24 in steps of 1, it stays at 2^24. *)
Theorem C70_growing_ramp_refuted : 
  exists f slope : F F32, let m := block 0 64 (fun _ => f_ofZ F32 1) in
    val f = IZR (2 ^ 24) /\ val slope = 1%R /\ forall i, 0 <= i < 32 ->
    cell_bits' (set_slope_vec (farith (n0 F32)) m 16 f slope 32) (16 + i) = Some (bits f).
Proof. exact C70_growing_ramp_refuted_lemma. Qed.
Print Assumptions C70_growing_ramp_refuted.

(** * C71: rounding of exponential curves *)

(** out[i] is f*curve^i up to a relative error of (1+u)^i - 1, as long as no value
    overflows or falls below the normal range, *)
Theorem C71_set_exp_vec : 
  forall (B : backend) (n : nans (fmt_of B)) (m : mem (F (fmt_of B))) dest f curve len,
    0 < len < 2 ^ 32 -> accessible m dest len -> isfin f = true -> isfin curve = true ->
    (forall k, 0 < k < len -> in_range (fmt_of B) (Z.to_nat k) (val f * val curve ^ Z.to_nat k)) ->
    exists r, (forall i, 0 <= i < len -> exists y, r i = Some y /\ near_product (Z.to_nat i) (val f * val curve ^ Z.to_nat i) y) /\
      leaves m (set_exp_vec (farith n) m dest f curve len) dest len r.
Proof. exact C71_set_exp_vec_lemma. Qed.
Print Assumptions C71_set_exp_vec.

Example C71_set_exp_vec_ex :
  let m := block 0 80 (fun a => f_ofZ F32 (a * a)) in
  0 < 32 < 2 ^ 32 /\ accessible m 32 32 /\ isfin (f_ofZ F32 3) = true /\ isfin c09 = true /\
  (forall k, 0 < k < 32 -> in_range F32 (Z.to_nat k) (val (f_ofZ F32 3) * val c09 ^ Z.to_nat k)).
Proof.
  cbv zeta. assert (V : val (f_ofZ F32 3) = 3%R) by (apply (f_ofZ_val 3); vm_compute; discriminate).
  destruct (c09_curve AVX32 (f_ofZ F32 3) V eq_refl ltac:(cbn; lia)) as (C1 & C2).
  repeat match goal with |- _ /\ _ => split end; first [exact C1 | exact C2 | fitf_leaf | exact (proj1 c09_val)].
Qed.

(** and the SIMD form meets the same bound if curve^lanes, too, is in range. *)
Theorem C71_set_exp_vec_simd : 
  forall (B : backend) (n : nans (fmt_of B)) (m : mem (F (fmt_of B))) dest f curve len,
    legal_simd_length B len -> aligned B dest -> accessible m dest len -> isfin f = true -> isfin curve = true ->
    (forall k, 0 < k < len -> in_range (fmt_of B) (Z.to_nat k) (val f * val curve ^ Z.to_nat k)) ->
    (forall k, 0 < k <= lanes B -> in_range (fmt_of B) (Z.to_nat k - 1) (val curve ^ Z.to_nat k)) ->
    exists r, (forall i, 0 <= i < len -> exists y, r i = Some y /\ near_product (Z.to_nat i) (val f * val curve ^ Z.to_nat i) y) /\
      leaves m (set_exp_vec_simd (farith n) B m dest f curve len) dest len r.
Proof. exact C71_set_exp_vec_simd_lemma. Qed.
Print Assumptions C71_set_exp_vec_simd.

Example C71_set_exp_vec_simd_ex :
  let m := block 0 80 (fun a => f_ofZ F32 (a * a)) in
  legal_simd_length AVX32 32 /\ aligned AVX32 32 /\ accessible m 32 32 /\ isfin (f_ofZ F32 3) = true /\ isfin c09 = true /\
  (forall k, 0 < k < 32 -> in_range F32 (Z.to_nat k) (val (f_ofZ F32 3) * val c09 ^ Z.to_nat k)) /\
  (forall k, 0 < k <= lanes AVX32 -> in_range F32 (Z.to_nat k - 1) (val c09 ^ Z.to_nat k)).
Proof.
  cbv zeta. assert (V : val (f_ofZ F32 3) = 3%R) by (apply (f_ofZ_val 3); vm_compute; discriminate).
  destruct (c09_curve AVX32 (f_ofZ F32 3) V eq_refl ltac:(cbn; lia)) as (C1 & C2).
  repeat match goal with |- _ /\ _ => split end; first [exact C1 | exact C2 | fitf_leaf | exact (proj1 c09_val)].
Qed.

(** They may differ: 0.1^13 by three units in the last place. *)
Theorem C71_same_curve_refuted : 
  exists f curve : F F32, let m := block 0 64 (fun _ => f_ofZ F32 1) in
    isfin f = true /\ isfin curve = true /\
    cell_bits' (set_exp_vec (farith (n0 F32)) m 16 f curve 32) 29 = Some 702623256 /\
    cell_bits' (set_exp_vec_simd (farith (n0 F32)) SSE32 m 16 f curve 32) 29 = Some 702623253.
Proof. exact C71_same_curve_refuted_lemma. Qed.
Print Assumptions C71_same_curve_refuted.

(** The condition on curve^lanes matters: with f = 2^126 and curve = 2^-19, the ninth
    value is 2^-26, but 0 in the SIMD form on AVX. *)
Theorem C71_small_power_refuted : 
  exists f curve : F F32, let m := block 0 64 (fun _ => f_ofZ F32 1) in
    (val f * val curve ^ 8 = bpow radix2 (-26))%R /\
    cell_bits' (set_exp_vec (farith (n0 F32)) m 16 f curve 32) 24 = Some (bits (f_lit F32 1 (-26))) /\
    cell_bits' (set_exp_vec_simd (farith (n0 F32)) AVX32 m 16 f curve 32) 24 = Some (bits (f_ofZ F32 0)).
Proof. exact C71_small_power_refuted_lemma. Qed.
Print Assumptions C71_small_power_refuted.

(** * C72: softclip follows its formula *)

(** softclip is within 2u of x for |x| < 1/2 and of (|x| - 1/4)/x otherwise. *)
Theorem C72_softclip_accurate : 
  forall t (n : nans t) (x : F t), isfin x = true ->
    (Rabs (val (s_softclip n x) - real_softclip (val x)) <= 2 * unit_roundoff t)%R.
Proof. exact C72_softclip_accurate_lemma. Qed.
Print Assumptions C72_softclip_accurate.

Example C72_softclip_accurate_ex :
  isfin (f_lit F32 7 (-2)) = true.
Proof. fitf. Qed.

Theorem C72_softclip_simd_accurate : 
  forall t (n : nans t) (c : cfg) (I : isa) (x : F t), isfin x = true ->
    (Rabs (val (vsoftclip c I n x) - real_softclip (val x)) <= 2 * unit_roundoff t)%R.
Proof. exact C72_softclip_simd_accurate_lemma. Qed.
Print Assumptions C72_softclip_simd_accurate.

Example C72_softclip_simd_accurate_ex :
  isfin (f_lit F32 7 (-2)) = true.
Proof. fitf. Qed.

(** It preserves order up to 2^22 for float and 2^51 for double, *)
Theorem C72_softclip_monotone : 
  forall t (n : nans t) (x y : F t), isfin x = true -> isfin y = true -> (val x <= val y)%R ->
    (Rabs (val x) <= quarter_limit t)%R -> (Rabs (val y) <= quarter_limit t)%R ->
    (val (s_softclip n x) <= val (s_softclip n y))%R.
Proof. exact C72_softclip_monotone_lemma. Qed.
Print Assumptions C72_softclip_monotone.

Example C72_softclip_monotone_ex :
  isfin (f_lit F32 (-7) (-2)) = true /\ isfin (f_lit F32 3 (-1)) = true /\ (val (f_lit F32 (-7) (-2)) <= val (f_lit F32 3 (-1)))%R /\
  (Rabs (val (f_lit F32 (-7) (-2))) <= quarter_limit F32)%R /\ (Rabs (val (f_lit F32 3 (-1))) <= quarter_limit F32)%R.
Proof.
  destruct (f_lit_exact (t := F32) (-7) (-2)) as (A1 & A2 & _); [cbv; discriminate|cbv; discriminate|reflexivity|].
  destruct (f_lit_exact (t := F32) 3 (-1)) as (B1 & B2 & _); [cbv; discriminate|cbv; discriminate|reflexivity|].
  split; [exact A1|]. split; [exact B1|]. rewrite A2, B2. unfold quarter_limit. cbn [bpow]. 
  repeat split; [|apply Rabs_le|apply Rabs_le]; cbn; lra.
Qed.

(** but not beyond: half a step above that limit, it is smaller than at it. *)
Theorem C72_softclip_monotone_refuted : 
  forall t : fmt, exists x y : F t, isfin x = true /\ isfin y = true /\ (val x = quarter_limit t)%R /\ (val y = quarter_limit t + / 2)%R /\
    forall n : nans t, (val (s_softclip n y) < val (s_softclip n x))%R.
Proof. exact C72_softclip_monotone_refuted_lemma. Qed.
Print Assumptions C72_softclip_monotone_refuted.
