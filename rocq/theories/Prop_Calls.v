(** Special functions expressed by the general ones (C92). *)
From Coq Require Import ZArith Reals List Lia Bool Lra.
From Flocq Require Import Core IEEE754.Binary IEEE754.Bits.
From Verif Require Import
  Base Mem Backend Args MemFuns Pan Drivers Functors Lanes Float LaneOps Reduce FloatOps VecMath FloatFuns Spec SpecLane SpecReduce SpecAgree SpecAlike SpecSwap SpecChain SpecParts
  FloatFacts FloatRound ScalarMath ExData ExFloat ExMath SwapFacts ChainFacts PartsFacts CallsFacts CallsClaims.
Import ListNotations.
Local Open Scope Z_scope.

(** * C92: special functions expressed by the general ones *)

(** Adding a buffer in place is plus_vec with the output as first argument; *)
Theorem C92_addvec : 
  forall (t : fmt) (n : nans t) (m : mem (F t)) (out inp len : Z),
    call_fits m out len [APtr out; APtr inp] ->
    Spec.same_effect (addvec (farith n) m out inp len) (plus_vec (farith n) (fops_scalar n) m out (APtr out) (APtr inp) len).
Proof. exact C92_addvec_lemma. Qed.

Example C92_addvec_ex :
  call_fits polar 0 16 [APtr 0; APtr 32].
Proof. parts_tac. Qed.

Theorem C92_addvec_simd : 
  forall (c : cfg) (B : backend) (n : nans (fmt_of B)) (m : mem (F (fmt_of B))) (out inp len : Z),
    simd_call_fits B m out len [APtr out; APtr inp] ->
    Spec.same_effect (addvec_simd (farith n) B m out inp len) (plus_vec_simd (farith n) (fops c B n) B m out (APtr out) (APtr inp) len).
Proof. exact C92_addvec_simd_lemma. Qed.

Example C92_addvec_simd_ex :
  simd_call_fits AVX32 polar 0 16 [APtr 0; APtr 32].
Proof. parts_tac. Qed.

(** and adding a constant likewise. *)
Theorem C92_addvec_scalar : 
  forall (t : fmt) (n : nans t) (m : mem (F t)) (out : Z) (f : F t) (len : Z),
    call_fits m out len [APtr out; AScal f] ->
    Spec.same_effect (addvec_scalar (farith n) m out f len) (plus_vec (farith n) (fops_scalar n) m out (APtr out) (AScal f) len).
Proof. exact C92_addvec_scalar_lemma. Qed.

Example C92_addvec_scalar_ex :
  call_fits polar 0 16 [APtr 0; AScal (f_lit F32 3 0)].
Proof. parts_tac. Qed.

Theorem C92_addvec_scalar_simd : 
  forall (c : cfg) (B : backend) (n : nans (fmt_of B)) (m : mem (F (fmt_of B))) (out : Z) (f : F (fmt_of B)) (len : Z),
    simd_call_fits B m out len [APtr out; AScal f] ->
    Spec.same_effect (addvec_scalar_simd (farith n) B m out f len) (plus_vec_simd (farith n) (fops c B n) B m out (APtr out) (AScal f) len).
Proof. exact C92_addvec_scalar_simd_lemma. Qed.

Example C92_addvec_scalar_simd_ex :
  simd_call_fits AVX32 polar 0 16 [APtr 0; AScal (f_lit F32 3 0)].
Proof. parts_tac. Qed.

(** Panning is two gains, one after the other, if the first output is not the input; *)
Theorem C92_pan2_vec : 
  forall (t : fmt) (n : nans t) (m : mem (F t)) (out0 out1 inp : Z) (f0 f1 : F t) (len : Z),
    call_fits m out0 len [APtr inp] -> call_fits m out1 len [APtr inp] -> disjoint out0 out1 len -> clear_of (A := F t) out0 len (APtr inp) ->
    Spec.same_effect (pan2_vec (farith n) m out0 out1 inp f0 f1 len)
      (in_turn [fun m => times_vec (farith n) (fops_scalar n) m out0 (APtr inp) (AScal f0) len;
                fun m => times_vec (farith n) (fops_scalar n) m out1 (APtr inp) (AScal f1) len] m).
Proof. exact C92_pan2_vec_lemma. Qed.

Example C92_pan2_vec_ex :
  call_fits polar 0 16 [APtr 32] /\ call_fits polar 64 16 [APtr 32] /\ disjoint 0 64 16 /\ clear_of (A := F F32) 0 16 (APtr 32).
Proof. unfold disjoint. parts_tac. Qed.

Theorem C92_pan2_vec_simd : 
  forall (c : cfg) (B : backend) (n : nans (fmt_of B)) (m : mem (F (fmt_of B))) (out0 out1 inp : Z) (f0 f1 : F (fmt_of B)) (len : Z),
    simd_call_fits B m out0 len [APtr inp] -> simd_call_fits B m out1 len [APtr inp] -> disjoint out0 out1 len -> clear_of (A := F (fmt_of B)) out0 len (APtr inp) -> isa_of B <> ALTIVEC ->
    Spec.same_effect (pan2_vec_simd (farith n) B m out0 out1 inp f0 f1 len)
      (in_turn [fun m => times_vec_simd (farith n) (fops c B n) B m out0 (APtr inp) (AScal f0) len;
                fun m => times_vec_simd (farith n) (fops c B n) B m out1 (APtr inp) (AScal f1) len] m).
Proof. exact C92_pan2_vec_simd_lemma. Qed.

Example C92_pan2_vec_simd_ex :
  simd_call_fits AVX32 polar 0 16 [APtr 32] /\ simd_call_fits AVX32 polar 64 16 [APtr 32] /\ disjoint 0 64 16 /\ clear_of (A := F F32) 0 16 (APtr 32) /\ isa_of AVX32 <> ALTIVEC.
Proof. unfold disjoint. parts_tac. Qed.

(** with ramps as well. *)
Theorem C92_pan2_slope_vec : 
  forall (t : fmt) (n : nans t) (m : mem (F t)) (out0 out1 inp : Z) (f0 s0 f1 s1 : F t) (len : Z),
    call_fits m out0 len [APtr inp] -> call_fits m out1 len [APtr inp] -> disjoint out0 out1 len -> clear_of (A := F t) out0 len (APtr inp) ->
    Spec.same_effect (pan2_slope_vec (farith n) m out0 out1 inp f0 s0 f1 s1 len)
      (in_turn [fun m => times_vec (farith n) (fops_scalar n) m out0 (APtr inp) (ARamp f0 s0) len;
                fun m => times_vec (farith n) (fops_scalar n) m out1 (APtr inp) (ARamp f1 s1) len] m).
Proof. exact C92_pan2_slope_vec_lemma. Qed.

Example C92_pan2_slope_vec_ex :
  call_fits polar 0 16 [APtr 32] /\ call_fits polar 64 16 [APtr 32] /\ disjoint 0 64 16 /\ clear_of (A := F F32) 0 16 (APtr 32).
Proof. unfold disjoint. parts_tac. Qed.

(** If the first output is the input the second gain reads what the first has written, whereas pan2_vec does not. *)
Theorem C92_pan2_in_place_refuted : 
  forall (n : nans F32), exists (m : mem (F F32)) (out0 out1 inp : Z) (f0 f1 : F F32) (len : Z),
    call_fits m out0 len [APtr inp] /\ call_fits m out1 len [APtr inp] /\ disjoint out0 out1 len /\
    ~ Spec.same_effect (pan2_vec (farith n) m out0 out1 inp f0 f1 len)
        (in_turn [fun m => times_vec (farith n) (fops_scalar n) m out0 (APtr inp) (AScal f0) len;
                  fun m => times_vec (farith n) (fops_scalar n) m out1 (APtr inp) (AScal f1) len] m).
Proof. exact C92_pan2_in_place_refuted_lemma. Qed.

Example C92_pan2_in_place_refuted_ex :
  forall n : nans F32, let m := block 0 8 (fun _ => f_ofZ F32 2) in call_fits m 0 1 [APtr 0] /\ call_fits m 4 1 [APtr 0] /\ disjoint 0 4 1.
Proof. intros n m. subst m. unfold disjoint. parts_tac. Qed.

(** A ramp as argument is the buffer that set_slope_vec fills with it; *)
Theorem C92_ramp_times_vec : 
  forall (t : fmt) (n : nans t) (m : mem (F t)) (out tmp : Z) (a : arg (F t)) (f s : F t) (len : Z),
    call_fits m out len [a; ARamp f s] -> call_fits m tmp len [] -> arg_fit m out len (APtr tmp) -> clear_of tmp len a ->
    same_in_steps same_bits (times_vec (farith n) (fops_scalar n) m out a (ARamp f s) len) (set_slope_vec (farith n) m tmp f s len) (fun m2 => times_vec (farith n) (fops_scalar n) m2 out a (APtr tmp) len) out len.
Proof. exact C92_ramp_times_vec_lemma. Qed.

Example C92_ramp_times_vec_ex :
  call_fits polar 0 16 [APtr 32; ARamp (f_lit F32 3 0) (f_lit F32 1 (-4))] /\ call_fits polar 16 16 [] /\ arg_fit polar 0 16 (APtr 16) /\ clear_of (A := F F32) 16 16 (APtr 32).
Proof. parts_tac. Qed.

Theorem C92_ramp_plus_vec : 
  forall (t : fmt) (n : nans t) (m : mem (F t)) (out tmp : Z) (a : arg (F t)) (f s : F t) (len : Z),
    call_fits m out len [a; ARamp f s] -> call_fits m tmp len [] -> arg_fit m out len (APtr tmp) -> clear_of tmp len a ->
    same_in_steps same_bits (plus_vec (farith n) (fops_scalar n) m out a (ARamp f s) len) (set_slope_vec (farith n) m tmp f s len) (fun m2 => plus_vec (farith n) (fops_scalar n) m2 out a (APtr tmp) len) out len.
Proof. exact C92_ramp_plus_vec_lemma. Qed.

Example C92_ramp_plus_vec_ex :
  call_fits polar 0 16 [APtr 32; ARamp (f_lit F32 3 0) (f_lit F32 1 (-4))] /\ call_fits polar 16 16 [] /\ arg_fit polar 0 16 (APtr 16) /\ clear_of (A := F F32) 16 16 (APtr 32).
Proof. parts_tac. Qed.

(** a constant argument is the buffer that setvec fills with it. *)
Theorem C92_constant_times_vec : 
  forall (t : fmt) (n : nans t) (m : mem (F t)) (out tmp : Z) (a : arg (F t)) (f : F t) (len : Z),
    call_fits m out len [a; AScal f] -> call_fits m tmp len [] -> arg_fit m out len (APtr tmp) -> clear_of tmp len a ->
    same_in_steps same_bits (times_vec (farith n) (fops_scalar n) m out a (AScal f) len) (setvec m tmp f len) (fun m2 => times_vec (farith n) (fops_scalar n) m2 out a (APtr tmp) len) out len.
Proof. exact C92_constant_times_vec_lemma. Qed.

Example C92_constant_times_vec_ex :
  call_fits polar 0 16 [APtr 32; AScal (f_lit F32 3 0)] /\ call_fits polar 16 16 [] /\ arg_fit polar 0 16 (APtr 16) /\ clear_of (A := F F32) 16 16 (APtr 32).
Proof. parts_tac. Qed.

Theorem C92_constant_times_vec_simd : 
  forall (c : cfg) (B : backend) (n : nans (fmt_of B)) (m : mem (F (fmt_of B))) (out tmp : Z) (a : arg (F (fmt_of B))) (f : F (fmt_of B)) (len : Z),
    simd_call_fits B m out len [a; AScal f] -> simd_call_fits B m tmp len [] -> simd_fit B m out len (APtr tmp) -> clear_of tmp len a ->
    same_in_steps same_bits (times_vec_simd (farith n) (fops c B n) B m out a (AScal f) len) (setvec_simd B m tmp f len) (fun m2 => times_vec_simd (farith n) (fops c B n) B m2 out a (APtr tmp) len) out len.
Proof. exact C92_constant_times_vec_simd_lemma. Qed.

Example C92_constant_times_vec_simd_ex :
  simd_call_fits AVX32 polar 0 16 [APtr 32; AScal (f_lit F32 3 0)] /\ simd_call_fits AVX32 polar 16 16 [] /\ simd_fit AVX32 polar 0 16 (APtr 16) /\ clear_of (A := F F32) 16 16 (APtr 32).
Proof. parts_tac. Qed.

Theorem C92_constant_plus_vec : 
  forall (t : fmt) (n : nans t) (m : mem (F t)) (out tmp : Z) (a : arg (F t)) (f : F t) (len : Z),
    call_fits m out len [a; AScal f] -> call_fits m tmp len [] -> arg_fit m out len (APtr tmp) -> clear_of tmp len a ->
    same_in_steps same_bits (plus_vec (farith n) (fops_scalar n) m out a (AScal f) len) (setvec m tmp f len) (fun m2 => plus_vec (farith n) (fops_scalar n) m2 out a (APtr tmp) len) out len.
Proof. exact C92_constant_plus_vec_lemma. Qed.

Example C92_constant_plus_vec_ex :
  call_fits polar 0 16 [APtr 32; AScal (f_lit F32 3 0)] /\ call_fits polar 16 16 [] /\ arg_fit polar 0 16 (APtr 16) /\ clear_of (A := F F32) 16 16 (APtr 32).
Proof. parts_tac. Qed.

Theorem C92_constant_plus_vec_simd : 
  forall (c : cfg) (B : backend) (n : nans (fmt_of B)) (m : mem (F (fmt_of B))) (out tmp : Z) (a : arg (F (fmt_of B))) (f : F (fmt_of B)) (len : Z),
    simd_call_fits B m out len [a; AScal f] -> simd_call_fits B m tmp len [] -> simd_fit B m out len (APtr tmp) -> clear_of tmp len a ->
    same_in_steps same_bits (plus_vec_simd (farith n) (fops c B n) B m out a (AScal f) len) (setvec_simd B m tmp f len) (fun m2 => plus_vec_simd (farith n) (fops c B n) B m2 out a (APtr tmp) len) out len.
Proof. exact C92_constant_plus_vec_simd_lemma. Qed.

Example C92_constant_plus_vec_simd_ex :
  simd_call_fits AVX32 polar 0 16 [APtr 32; AScal (f_lit F32 3 0)] /\ simd_call_fits AVX32 polar 16 16 [] /\ simd_fit AVX32 polar 0 16 (APtr 16) /\ clear_of (A := F F32) 16 16 (APtr 32).
Proof. parts_tac. Qed.

(** The peak of a signal is the maximum of its absolute values, once these reach FLT_MIN; *)
Theorem C92_peak : 
  forall (B : backend) (n : nans (fmt_of B)) (m : mem (F (fmt_of B))) (p pk tmp len : Z) (l : list (F (fmt_of B))),
    call_fits m tmp len [APtr p] -> filled m p len l -> m pk = Some (f_ofZ (fmt_of B) 0) -> no_nan l -> (exists x, In x l /\ fle (f_min (fmt_of B)) (fabs x) = true) ->
    exists m1 z new m2 r, peak_vec (fred_scalar n) m p pk len = Ok (m1, z) /\ m1 pk = Some new /\
      abs_vec B m tmp p len = Ok m2 /\ horizontal_max_vec (fred_scalar n) m2 tmp len = Ok r /\ equal_numbers new r.
Proof. exact C92_peak_lemma. Qed.

Example C92_peak_ex :
  let v := fun a => if a =? 90 then f_ofZ F32 0 else f_lit F32 ((a * 7) mod 23 - 11) (-3) in
  let m := block 0 100 v in
  call_fits m 48 32 [APtr 8] /\ filled m 8 32 (cells v 8 32) /\ m 90 = Some (f_ofZ F32 0) /\ no_nan (cells v 8 32) /\ (exists x, In x (cells v 8 32) /\ fle (f_min F32) (fabs x) = true).
Proof. intros v m. subst m. calls_ex. Qed.

Theorem C92_peak_simd : 
  forall (c : cfg) (B : backend) (n : nans (fmt_of B)) junk (m : mem (F (fmt_of B))) (p pk tmp len : Z) (l : list (F (fmt_of B))),
    aligned B p -> whole_quads B len -> upper_lanes_zero B (f_ofZ (fmt_of B) 0) junk -> simd_call_fits B m tmp len [APtr p] -> filled m p len l -> m pk = Some (f_ofZ (fmt_of B) 0) -> no_nan l -> (exists x, In x l /\ fle (f_min (fmt_of B)) (fabs x) = true) ->
    exists m1 z new m2 r, peak_vec_simd (fred c B n) c B junk m p pk len = Ok (m1, z) /\ m1 pk = Some new /\
      abs_vec_simd c B n m tmp p len = Ok m2 /\ horizontal_max_vec_simd (fred c B n) B m2 tmp len = Ok r /\ equal_numbers new r.
Proof. exact C92_peak_simd_lemma. Qed.

Example C92_peak_simd_ex :
  let v := fun a => if a =? 90 then f_ofZ F32 0 else f_lit F32 ((a * 7) mod 23 - 11) (-3) in
  let m := block 0 100 v in
  aligned AVX32 8 /\ whole_quads AVX32 32 /\ upper_lanes_zero AVX32 (f_ofZ F32 0) (fun _ => f_ofZ F32 0) /\ simd_call_fits AVX32 m 48 32 [APtr 8] /\ filled m 8 32 (cells v 8 32) /\ m 90 = Some (f_ofZ F32 0) /\ no_nan (cells v 8 32) /\ (exists x, In x (cells v 8 32) /\ fle (f_min F32) (fabs x) = true).
Proof. intros v m. subst m. calls_ex. Qed.

(** and falls short of it for signals that stay below. *)
Theorem C92_peak_below_smallest_normal : 
  forall (B : backend) (n : nans (fmt_of B)) (m : mem (F (fmt_of B))) (p pk tmp len : Z) (l : list (F (fmt_of B))),
    call_fits m tmp len [APtr p] -> filled m p len l -> m pk = Some (f_ofZ (fmt_of B) 0) -> no_nan l -> Forall (fun x => flt (fabs x) (f_min (fmt_of B)) = true) l ->
    exists m1 z new m2 r, peak_vec (fred_scalar n) m p pk len = Ok (m1, z) /\ m1 pk = Some new /\
      abs_vec B m tmp p len = Ok m2 /\ horizontal_max_vec (fred_scalar n) m2 tmp len = Ok r /\ flt new r = true.
Proof. exact C92_peak_below_smallest_normal_lemma. Qed.

Example C92_peak_below_smallest_normal_ex :
  let v := fun a => if a =? 90 then f_ofZ F32 0 else f_lit F32 ((a * 7) mod 23 - 11) (-140) in
  let m := block 0 100 v in
  call_fits m 48 32 [APtr 8] /\ filled m 8 32 (cells v 8 32) /\ m 90 = Some (f_ofZ F32 0) /\ no_nan (cells v 8 32) /\ Forall (fun x => flt (fabs x) (f_min F32) = true) (cells v 8 32).
Proof. intros v m. subst m. calls_ex. Qed.

Theorem C92_peak_below_smallest_normal_simd : 
  forall (c : cfg) (B : backend) (n : nans (fmt_of B)) junk (m : mem (F (fmt_of B))) (p pk tmp len : Z) (l : list (F (fmt_of B))),
    aligned B p -> whole_quads B len -> upper_lanes_zero B (f_ofZ (fmt_of B) 0) junk -> simd_call_fits B m tmp len [APtr p] -> filled m p len l -> m pk = Some (f_ofZ (fmt_of B) 0) -> no_nan l -> Forall (fun x => flt (fabs x) (f_min (fmt_of B)) = true) l ->
    exists m1 z new m2 r, peak_vec_simd (fred c B n) c B junk m p pk len = Ok (m1, z) /\ m1 pk = Some new /\
      abs_vec_simd c B n m tmp p len = Ok m2 /\ horizontal_max_vec_simd (fred c B n) B m2 tmp len = Ok r /\ flt new r = true.
Proof. exact C92_peak_below_smallest_normal_simd_lemma. Qed.

Example C92_peak_below_smallest_normal_simd_ex :
  let v := fun a => if a =? 90 then f_ofZ F32 0 else f_lit F32 ((a * 7) mod 23 - 11) (-140) in
  let m := block 0 100 v in
  aligned AVX32 8 /\ whole_quads AVX32 32 /\ upper_lanes_zero AVX32 (f_ofZ F32 0) (fun _ => f_ofZ F32 0) /\ simd_call_fits AVX32 m 48 32 [APtr 8] /\ filled m 8 32 (cells v 8 32) /\ m 90 = Some (f_ofZ F32 0) /\ no_nan (cells v 8 32) /\ Forall (fun x => flt (fabs x) (f_min F32) = true) (cells v 8 32).
Proof. intros v m. subst m. calls_ex. Qed.

(** The sum of squares is horizontal_sum_vec over square_vec, bit for bit. *)
Theorem C92_rms_sum : 
  forall (B : backend) (n : nans (fmt_of B)) (m : mem (F (fmt_of B))) (p pk sq tmp len : Z) (l : list (F (fmt_of B))) old,
    call_fits m tmp len [APtr p] -> filled m p len l -> m pk = Some old -> m sq = Some (f_ofZ (fmt_of B) 0) -> pk <> sq ->
    exists m1 sum m2, peak_rms_vec (fred_scalar n) m p pk sq len = Ok m1 /\ m1 sq = Some sum /\
      square_vec B n m tmp p len = Ok m2 /\ horizontal_sum_vec (fred_scalar n) m2 tmp len = Ok sum.
Proof. exact C92_rms_sum_lemma. Qed.

Example C92_rms_sum_ex :
  let v := fun a => if a =? 91 then f_ofZ F32 0 else f_lit F32 ((a * 7) mod 23 - 11) (-3) in
  let m := block 0 100 v in
  call_fits m 48 32 [APtr 8] /\ filled m 8 32 (cells v 8 32) /\ m 90 = Some (v 90) /\ m 91 = Some (f_ofZ F32 0) /\ 90 <> 91.
Proof. intros v m. subst m. calls_ex. Qed.

(** All theorems of this file together, for one run of Print Assumptions. *)
Definition all_Calls := (
  C92_addvec,
  C92_addvec_simd,
  C92_addvec_scalar,
  C92_addvec_scalar_simd,
  C92_pan2_vec,
  C92_pan2_vec_simd,
  C92_pan2_slope_vec,
  C92_pan2_in_place_refuted,
  C92_ramp_times_vec,
  C92_ramp_plus_vec,
  C92_constant_times_vec,
  C92_constant_times_vec_simd,
  C92_constant_plus_vec,
  C92_constant_plus_vec_simd,
  C92_peak,
  C92_peak_simd,
  C92_peak_below_smallest_normal,
  C92_peak_below_smallest_normal_simd,
  C92_rms_sum).
Print Assumptions all_Calls.
