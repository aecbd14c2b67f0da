(** One call against two (C90). *)
From Coq Require Import ZArith Reals List Lia Bool Lra.
From Flocq Require Import Core IEEE754.Binary IEEE754.Bits.
From Verif Require Import
  Base Mem Backend Args Drivers Functors Lanes Float LaneOps FloatOps VecMath FloatFuns Spec SpecLane SpecAgree SpecAlike SpecSwap SpecChain
  FloatFacts FloatRound ExData ExFloat ExMath SwapFacts ChainFacts ChainClaims.
Import ListNotations.
Local Open Scope Z_scope.

(** * C90: one call against two *)

(** muladd_vec is times_vec and then plus_vec, where the SIMD form does not fuse the two; *)
Theorem C90_muladd_vec : 
  forall (t : fmt) (n : nans t) (m : mem (F t)) (out tmp : Z) (a1 a2 a3 : arg (F t)) (len : Z), call_fits m out len [a1; a2; a3] -> call_fits m tmp len [a1; a2] -> 
    arg_fit m out len (APtr tmp) -> clear_of tmp len a3 -> 
    same_in_steps same_bits (muladd_vec (farith n) (fops_scalar n) m out a1 a2 a3 len)
      (times_vec (farith n) (fops_scalar n) m tmp a1 a2 len) (fun m2 => plus_vec (farith n) (fops_scalar n) m2 out (APtr tmp) a3 len) out len.
Proof. exact C90_muladd_vec_lemma. Qed.

Example C90_muladd_vec_ex :
  forall (n : nans F32), call_fits polar 0 16 [(APtr 32); (AScal (f_ofZ F32 3)); (APtr 40)] /\ call_fits polar 16 16 [(APtr 32); (AScal (f_ofZ F32 3))] /\ arg_fit polar 0 16 (APtr 16) /\ clear_of (A := F F32) 16 16 (APtr 40).
Proof. intros n. chain_tac. Qed.

Theorem C90_muladd_vec_simd : 
  forall (c : cfg) (B : backend) (n : nans (fmt_of B)) (m : mem (F (fmt_of B))) (out tmp : Z) (a1 a2 a3 : arg (F (fmt_of B))) (len : Z), fuses c B = false -> simd_call_fits B m out len [a1; a2; a3] -> simd_call_fits B m tmp len [a1; a2] -> 
    simd_fit B m out len (APtr tmp) -> clear_of tmp len a3 -> 
    same_in_steps same_bits (muladd_vec_simd (farith n) (fops c B n) B m out a1 a2 a3 len)
      (times_vec_simd (farith n) (fops c B n) B m tmp a1 a2 len) (fun m2 => plus_vec_simd (farith n) (fops c B n) B m2 out (APtr tmp) a3 len) out len.
Proof. exact C90_muladd_vec_simd_lemma. Qed.

Example C90_muladd_vec_simd_ex :
  forall (n : nans F32), fuses no_fma AVX32 = false /\ simd_call_fits AVX32 polar 0 16 [(APtr 32); (AScal (f_ofZ F32 3)); (APtr 40)] /\ simd_call_fits AVX32 polar 16 16 [(APtr 32); (AScal (f_ofZ F32 3))] /\ simd_fit AVX32 polar 0 16 (APtr 16) /\ clear_of (A := F F32) 16 16 (APtr 40).
Proof. intros n. chain_tac. Qed.

(** mix_vec is times_vec and then muladd_vec, *)
Theorem C90_mix_vec : 
  forall (t : fmt) (n : nans t) (m : mem (F t)) (out tmp : Z) (a1 a2 a3 a4 : arg (F t)) (len : Z), call_fits m out len [a1; a2; a3; a4] -> call_fits m tmp len [a1; a2] -> 
    arg_fit m out len (APtr tmp) -> clear_of tmp len a3 -> clear_of tmp len a4 -> 
    same_in_steps same_or_nan (mix_vec (farith n) (fops_scalar n) m out a1 a2 a3 a4 len)
      (times_vec (farith n) (fops_scalar n) m tmp a1 a2 len) (fun m2 => muladd_vec (farith n) (fops_scalar n) m2 out a3 a4 (APtr tmp) len) out len.
Proof. exact C90_mix_vec_lemma. Qed.

Example C90_mix_vec_ex :
  forall (n : nans F32), call_fits polar 0 16 [(APtr 32); (AScal (f_ofZ F32 3)); (APtr 40); (AScal (f_ofZ F32 5))] /\ call_fits polar 16 16 [(APtr 32); (AScal (f_ofZ F32 3))] /\ arg_fit polar 0 16 (APtr 16) /\ clear_of (A := F F32) 16 16 (APtr 40) /\ clear_of (A := F F32) 16 16 (AScal (f_ofZ F32 5)).
Proof. intros n. chain_tac. Qed.

Theorem C90_mix_vec_simd : 
  forall (c : cfg) (B : backend) (n : nans (fmt_of B)) (m : mem (F (fmt_of B))) (out tmp : Z) (a1 a2 a3 a4 : arg (F (fmt_of B))) (len : Z), fuses c B = false -> simd_call_fits B m out len [a1; a2; a3; a4] -> simd_call_fits B m tmp len [a1; a2] -> 
    simd_fit B m out len (APtr tmp) -> clear_of tmp len a3 -> clear_of tmp len a4 -> 
    same_in_steps same_or_nan (mix_vec_simd (farith n) (fops c B n) B m out a1 a2 a3 a4 len)
      (times_vec_simd (farith n) (fops c B n) B m tmp a1 a2 len) (fun m2 => muladd_vec_simd (farith n) (fops c B n) B m2 out a3 a4 (APtr tmp) len) out len.
Proof. exact C90_mix_vec_simd_lemma. Qed.

Example C90_mix_vec_simd_ex :
  forall (n : nans F32), fuses no_fma AVX32 = false /\ simd_call_fits AVX32 polar 0 16 [(APtr 32); (AScal (f_ofZ F32 3)); (APtr 40); (AScal (f_ofZ F32 5))] /\ simd_call_fits AVX32 polar 16 16 [(APtr 32); (AScal (f_ofZ F32 3))] /\ simd_fit AVX32 polar 0 16 (APtr 16) /\ clear_of (A := F F32) 16 16 (APtr 40) /\ clear_of (A := F F32) 16 16 (AScal (f_ofZ F32 5)).
Proof. intros n. chain_tac. Qed.

(** ampmod_vec is muladd_vec with 1 and then times_vec, *)
Theorem C90_ampmod_vec : 
  forall (t : fmt) (n : nans t) (m : mem (F t)) (out tmp : Z) (a1 a2 a3 : arg (F t)) (len : Z), call_fits m out len [a1; a2; a3] -> call_fits m tmp len [a2; a3] -> 
    arg_fit m out len (APtr tmp) -> clear_of tmp len a1 -> 
    same_in_steps same_or_nan (ampmod_vec (farith n) (fops_scalar n) m out a1 a2 a3 len)
      (muladd_vec (farith n) (fops_scalar n) m tmp a2 a3 (AScal (f_ofZ t 1)) len) (fun m2 => times_vec (farith n) (fops_scalar n) m2 out a1 (APtr tmp) len) out len.
Proof. exact C90_ampmod_vec_lemma. Qed.

Example C90_ampmod_vec_ex :
  forall (n : nans F32), call_fits polar 0 16 [(APtr 32); (AScal (f_ofZ F32 3)); (APtr 40)] /\ call_fits polar 16 16 [(AScal (f_ofZ F32 3)); (APtr 40)] /\ arg_fit polar 0 16 (APtr 16) /\ clear_of (A := F F32) 16 16 (APtr 32).
Proof. intros n. chain_tac. Qed.

Theorem C90_ampmod_vec_simd : 
  forall (c : cfg) (B : backend) (n : nans (fmt_of B)) (m : mem (F (fmt_of B))) (out tmp : Z) (a1 a2 a3 : arg (F (fmt_of B))) (len : Z), fuses c B = false -> simd_call_fits B m out len [a1; a2; a3] -> simd_call_fits B m tmp len [a2; a3] -> 
    simd_fit B m out len (APtr tmp) -> clear_of tmp len a1 -> 
    same_in_steps same_or_nan (ampmod_vec_simd (farith n) (fops c B n) B m out a1 a2 a3 len)
      (muladd_vec_simd (farith n) (fops c B n) B m tmp a2 a3 (AScal (f_ofZ (fmt_of B) 1)) len) (fun m2 => times_vec_simd (farith n) (fops c B n) B m2 out a1 (APtr tmp) len) out len.
Proof. exact C90_ampmod_vec_simd_lemma. Qed.

Example C90_ampmod_vec_simd_ex :
  forall (n : nans F32), fuses no_fma AVX32 = false /\ simd_call_fits AVX32 polar 0 16 [(APtr 32); (AScal (f_ofZ F32 3)); (APtr 40)] /\ simd_call_fits AVX32 polar 16 16 [(AScal (f_ofZ F32 3)); (APtr 40)] /\ simd_fit AVX32 polar 0 16 (APtr 16) /\ clear_of (A := F F32) 16 16 (APtr 32).
Proof. intros n. chain_tac. Qed.

(** sum_vec is plus_vec repeatedly, from the left, for three signals, *)
Theorem C90_sum3_vec : 
  forall (t : fmt) (n : nans t) (m : mem (F t)) (out tmp : Z) (a1 a2 a3 : arg (F t)) (len : Z), call_fits m out len [a1; a2; a3] -> call_fits m tmp len [a1; a2] -> 
    arg_fit m out len (APtr tmp) -> clear_of tmp len a3 -> 
    same_in_steps same_bits (sum_vec3 (farith n) (fops_scalar n) m out a1 a2 a3 len)
      (plus_vec (farith n) (fops_scalar n) m tmp a1 a2 len) (fun m2 => plus_vec (farith n) (fops_scalar n) m2 out (APtr tmp) a3 len) out len.
Proof. exact C90_sum3_vec_lemma. Qed.

Example C90_sum3_vec_ex :
  forall (n : nans F32), call_fits polar 0 16 [(APtr 32); (AScal (f_ofZ F32 3)); (APtr 40)] /\ call_fits polar 16 16 [(APtr 32); (AScal (f_ofZ F32 3))] /\ arg_fit polar 0 16 (APtr 16) /\ clear_of (A := F F32) 16 16 (APtr 40).
Proof. intros n. chain_tac. Qed.

Theorem C90_sum3_vec_simd : 
  forall (c : cfg) (B : backend) (n : nans (fmt_of B)) (m : mem (F (fmt_of B))) (out tmp : Z) (a1 a2 a3 : arg (F (fmt_of B))) (len : Z), simd_call_fits B m out len [a1; a2; a3] -> simd_call_fits B m tmp len [a1; a2] -> 
    simd_fit B m out len (APtr tmp) -> clear_of tmp len a3 -> 
    same_in_steps same_bits (sum_vec3_simd (farith n) (fops c B n) B m out a1 a2 a3 len)
      (plus_vec_simd (farith n) (fops c B n) B m tmp a1 a2 len) (fun m2 => plus_vec_simd (farith n) (fops c B n) B m2 out (APtr tmp) a3 len) out len.
Proof. exact C90_sum3_vec_simd_lemma. Qed.

Example C90_sum3_vec_simd_ex :
  forall (n : nans F32), simd_call_fits AVX32 polar 0 16 [(APtr 32); (AScal (f_ofZ F32 3)); (APtr 40)] /\ simd_call_fits AVX32 polar 16 16 [(APtr 32); (AScal (f_ofZ F32 3))] /\ simd_fit AVX32 polar 0 16 (APtr 16) /\ clear_of (A := F F32) 16 16 (APtr 40).
Proof. intros n. chain_tac. Qed.

(** and with the last two first for four; *)
Theorem C90_sum4_vec : 
  forall (t : fmt) (n : nans t) (m : mem (F t)) (out tmp : Z) (a1 a2 a3 a4 : arg (F t)) (len : Z), call_fits m out len [a1; a2; a3; a4] -> call_fits m tmp len [a3; a4] -> 
    arg_fit m out len (APtr tmp) -> clear_of tmp len a1 -> clear_of tmp len a2 -> 
    same_in_steps same_bits (sum_vec4 (farith n) (fops_scalar n) m out a1 a2 a3 a4 len)
      (plus_vec (farith n) (fops_scalar n) m tmp a3 a4 len) (fun m2 => sum_vec3 (farith n) (fops_scalar n) m2 out a1 a2 (APtr tmp) len) out len.
Proof. exact C90_sum4_vec_lemma. Qed.

Example C90_sum4_vec_ex :
  forall (n : nans F32), call_fits polar 0 16 [(APtr 32); (AScal (f_ofZ F32 3)); (APtr 40); (AScal (f_ofZ F32 5))] /\ call_fits polar 16 16 [(APtr 40); (AScal (f_ofZ F32 5))] /\ arg_fit polar 0 16 (APtr 16) /\ clear_of (A := F F32) 16 16 (APtr 32) /\ clear_of (A := F F32) 16 16 (AScal (f_ofZ F32 3)).
Proof. intros n. chain_tac. Qed.

Theorem C90_sum4_vec_simd : 
  forall (c : cfg) (B : backend) (n : nans (fmt_of B)) (m : mem (F (fmt_of B))) (out tmp : Z) (a1 a2 a3 a4 : arg (F (fmt_of B))) (len : Z), simd_call_fits B m out len [a1; a2; a3; a4] -> simd_call_fits B m tmp len [a3; a4] -> 
    simd_fit B m out len (APtr tmp) -> clear_of tmp len a1 -> clear_of tmp len a2 -> 
    same_in_steps same_bits (sum_vec4_simd (farith n) (fops c B n) B m out a1 a2 a3 a4 len)
      (plus_vec_simd (farith n) (fops c B n) B m tmp a3 a4 len) (fun m2 => sum_vec3_simd (farith n) (fops c B n) B m2 out a1 a2 (APtr tmp) len) out len.
Proof. exact C90_sum4_vec_simd_lemma. Qed.

Example C90_sum4_vec_simd_ex :
  forall (n : nans F32), simd_call_fits AVX32 polar 0 16 [(APtr 32); (AScal (f_ofZ F32 3)); (APtr 40); (AScal (f_ofZ F32 5))] /\ simd_call_fits AVX32 polar 16 16 [(APtr 40); (AScal (f_ofZ F32 5))] /\ simd_fit AVX32 polar 0 16 (APtr 16) /\ clear_of (A := F F32) 16 16 (APtr 32) /\ clear_of (A := F F32) 16 16 (AScal (f_ofZ F32 3)).
Proof. intros n. chain_tac. Qed.

(** clip_vec is min_vec with the upper and then max_vec with the lower limit; *)
Theorem C90_clip_vec : 
  forall (t : fmt) (n : nans t) (m : mem (F t)) (out tmp : Z) (a1 a2 a3 : arg (F t)) (len : Z), call_fits m out len [a1; a2; a3] -> call_fits m tmp len [a1; a3] -> 
    arg_fit m out len (APtr tmp) -> clear_of tmp len a2 -> 
    same_in_steps same_bits (clip_vec (farith n) (fops_scalar n) m out a1 a2 a3 len)
      (min_vec (farith n) (fops_scalar n) m tmp a1 a3 len) (fun m2 => max_vec (farith n) (fops_scalar n) m2 out (APtr tmp) a2 len) out len.
Proof. exact C90_clip_vec_lemma. Qed.

Example C90_clip_vec_ex :
  forall (n : nans F32), call_fits polar 0 16 [(APtr 32); (AScal (f_ofZ F32 3)); (APtr 40)] /\ call_fits polar 16 16 [(APtr 32); (APtr 40)] /\ arg_fit polar 0 16 (APtr 16) /\ clear_of (A := F F32) 16 16 (AScal (f_ofZ F32 3)).
Proof. intros n. chain_tac. Qed.

Theorem C90_clip_vec_simd : 
  forall (c : cfg) (B : backend) (n : nans (fmt_of B)) (m : mem (F (fmt_of B))) (out tmp : Z) (a1 a2 a3 : arg (F (fmt_of B))) (len : Z), simd_call_fits B m out len [a1; a2; a3] -> simd_call_fits B m tmp len [a1; a3] -> 
    simd_fit B m out len (APtr tmp) -> clear_of tmp len a2 -> 
    same_in_steps same_bits (clip_vec_simd (farith n) (fops c B n) B m out a1 a2 a3 len)
      (min_vec_simd (farith n) (fops c B n) B m tmp a1 a3 len) (fun m2 => max_vec_simd (farith n) (fops c B n) B m2 out (APtr tmp) a2 len) out len.
Proof. exact C90_clip_vec_simd_lemma. Qed.

Example C90_clip_vec_simd_ex :
  forall (n : nans F32), simd_call_fits AVX32 polar 0 16 [(APtr 32); (AScal (f_ofZ F32 3)); (APtr 40)] /\ simd_call_fits AVX32 polar 16 16 [(APtr 32); (APtr 40)] /\ simd_fit AVX32 polar 0 16 (APtr 16) /\ clear_of (A := F F32) 16 16 (AScal (f_ofZ F32 3)).
Proof. intros n. chain_tac. Qed.

(** minus_vec is times_vec with -1 and then plus_vec; *)
Theorem C90_minus_vec : 
  forall (t : fmt) (n : nans t) (m : mem (F t)) (out tmp : Z) (a1 a2 : arg (F t)) (len : Z), call_fits m out len [a1; a2] -> call_fits m tmp len [a2] -> 
    arg_fit m out len (APtr tmp) -> clear_of tmp len a1 -> 
    same_in_steps same_or_nan (minus_vec (farith n) (fops_scalar n) m out a1 a2 len)
      (times_vec (farith n) (fops_scalar n) m tmp a2 (AScal (f_ofZ t (-1))) len) (fun m2 => plus_vec (farith n) (fops_scalar n) m2 out a1 (APtr tmp) len) out len.
Proof. exact C90_minus_vec_lemma. Qed.

Example C90_minus_vec_ex :
  forall (n : nans F32), call_fits polar 0 16 [(APtr 32); (AScal (f_ofZ F32 3))] /\ call_fits polar 16 16 [(AScal (f_ofZ F32 3))] /\ arg_fit polar 0 16 (APtr 16) /\ clear_of (A := F F32) 16 16 (APtr 32).
Proof. intros n. chain_tac. Qed.

Theorem C90_minus_vec_simd : 
  forall (c : cfg) (B : backend) (n : nans (fmt_of B)) (m : mem (F (fmt_of B))) (out tmp : Z) (a1 a2 : arg (F (fmt_of B))) (len : Z), isa_of B <> ALTIVEC -> simd_call_fits B m out len [a1; a2] -> simd_call_fits B m tmp len [a2] -> 
    simd_fit B m out len (APtr tmp) -> clear_of tmp len a1 -> 
    same_in_steps same_or_nan (minus_vec_simd (farith n) (fops c B n) B m out a1 a2 len)
      (times_vec_simd (farith n) (fops c B n) B m tmp a2 (AScal (f_ofZ (fmt_of B) (-1))) len) (fun m2 => plus_vec_simd (farith n) (fops c B n) B m2 out a1 (APtr tmp) len) out len.
Proof. exact C90_minus_vec_simd_lemma. Qed.

Example C90_minus_vec_simd_ex :
  forall (n : nans F32), isa_of AVX32 <> ALTIVEC /\ simd_call_fits AVX32 polar 0 16 [(APtr 32); (AScal (f_ofZ F32 3))] /\ simd_call_fits AVX32 polar 16 16 [(AScal (f_ofZ F32 3))] /\ simd_fit AVX32 polar 0 16 (APtr 16) /\ clear_of (A := F F32) 16 16 (APtr 32).
Proof. intros n. chain_tac. Qed.

(** cube_vec is square_vec and then times_vec; *)
Theorem C90_cube_vec : 
  forall (B : backend) (n : nans (fmt_of B)) (m : mem (F (fmt_of B))) (out tmp p : Z) (len : Z), call_fits m out len [APtr p] -> call_fits m tmp len [APtr p] -> 
    arg_fit m out len (APtr tmp) -> clear_of (A := F (fmt_of B)) tmp len (APtr p) -> 
    same_in_steps same_or_nan (cube_vec B n m out p len)
      (square_vec B n m tmp p len) (fun m2 => times_vec (farith n) (fops_scalar n) m2 out (APtr tmp) (APtr p) len) out len.
Proof. exact C90_cube_vec_lemma. Qed.

Example C90_cube_vec_ex :
  forall (n : nans F32), call_fits polar 0 16 [APtr 32] /\ call_fits polar 16 16 [APtr 32] /\ arg_fit polar 0 16 (APtr 16) /\ clear_of (A := F F32) 16 16 (APtr 32).
Proof. intros n. chain_tac. Qed.

Theorem C90_cube_vec_simd : 
  forall (c : cfg) (B : backend) (n : nans (fmt_of B)) (m : mem (F (fmt_of B))) (out tmp p : Z) (len : Z), simd_call_fits B m out len [APtr p] -> simd_call_fits B m tmp len [APtr p] -> 
    simd_fit B m out len (APtr tmp) -> clear_of (A := F (fmt_of B)) tmp len (APtr p) -> 
    same_in_steps same_or_nan (cube_vec_simd B n m out p len)
      (square_vec_simd B n m tmp p len) (fun m2 => times_vec_simd (farith n) (fops c B n) B m2 out (APtr tmp) (APtr p) len) out len.
Proof. exact C90_cube_vec_simd_lemma. Qed.

Example C90_cube_vec_simd_ex :
  forall (n : nans F32), simd_call_fits AVX32 polar 0 16 [APtr 32] /\ simd_call_fits AVX32 polar 16 16 [APtr 32] /\ simd_fit AVX32 polar 0 16 (APtr 16) /\ clear_of (A := F F32) 16 16 (APtr 32).
Proof. intros n. chain_tac. Qed.

(** frac_vec is floor_vec, subtracted; *)
Theorem C90_frac_vec : 
  forall (B : backend) (n : nans (fmt_of B)) (m : mem (F (fmt_of B))) (out tmp p : Z) (len : Z), call_fits m out len [APtr p] -> call_fits m tmp len [APtr p] -> 
    arg_fit m out len (APtr tmp) -> clear_of (A := F (fmt_of B)) tmp len (APtr p) -> 
    same_in_steps same_bits (frac_vec B n m out p len)
      (floor_vec B n m tmp p len) (fun m2 => minus_vec (farith n) (fops_scalar n) m2 out (APtr p) (APtr tmp) len) out len.
Proof. exact C90_frac_vec_lemma. Qed.

Example C90_frac_vec_ex :
  forall (n : nans F32), call_fits polar 0 16 [APtr 32] /\ call_fits polar 16 16 [APtr 32] /\ arg_fit polar 0 16 (APtr 16) /\ clear_of (A := F F32) 16 16 (APtr 32).
Proof. intros n. chain_tac. Qed.

Theorem C90_frac_vec_simd : 
  forall (c : cfg) (B : backend) (n : nans (fmt_of B)) (m : mem (F (fmt_of B))) (out tmp p : Z) (len : Z), simd_call_fits B m out len [APtr p] -> simd_call_fits B m tmp len [APtr p] -> 
    simd_fit B m out len (APtr tmp) -> clear_of (A := F (fmt_of B)) tmp len (APtr p) -> 
    same_in_steps same_bits (frac_vec_simd c B n m out p len)
      (floor_vec_simd c B n m tmp p len) (fun m2 => minus_vec_simd (farith n) (fops c B n) B m2 out (APtr p) (APtr tmp) len) out len.
Proof. exact C90_frac_vec_simd_lemma. Qed.

Example C90_frac_vec_simd_ex :
  forall (n : nans F32), simd_call_fits AVX32 polar 0 16 [APtr 32] /\ simd_call_fits AVX32 polar 16 16 [APtr 32] /\ simd_fit AVX32 polar 0 16 (APtr 16) /\ clear_of (A := F F32) 16 16 (APtr 32).
Proof. intros n. chain_tac. Qed.

(** abs_vec of numbers is the larger of the sample and its negative. *)
Theorem C90_abs_vec : 
  forall (B : backend) (n : nans (fmt_of B)) (m : mem (F (fmt_of B))) (out tmp p : Z) (len : Z), call_fits m out len [APtr p] -> call_fits m tmp len [APtr p] -> 
    arg_fit m out len (APtr tmp) -> clear_of (A := F (fmt_of B)) tmp len (APtr p) -> samples (farith n) number m (APtr p) len -> 
    same_in_steps equal_numbers (abs_vec B m out p len)
      (minus_vec (farith n) (fops_scalar n) m tmp (AScal (f_ofZ (fmt_of B) 0)) (APtr p) len) (fun m2 => max_vec (farith n) (fops_scalar n) m2 out (APtr p) (APtr tmp) len) out len.
Proof. exact C90_abs_vec_lemma. Qed.

Example C90_abs_vec_ex :
  forall (n : nans F32), call_fits polar 0 16 [APtr 32] /\ call_fits polar 16 16 [APtr 32] /\ arg_fit polar 0 16 (APtr 16) /\ clear_of (A := F F32) 16 16 (APtr 32) /\ samples (farith n) number polar (APtr 32) 16.
Proof. intros n. chain_tac. Qed.

Theorem C90_abs_vec_simd : 
  forall (c : cfg) (B : backend) (n : nans (fmt_of B)) (m : mem (F (fmt_of B))) (out tmp p : Z) (len : Z), simd_call_fits B m out len [APtr p] -> simd_call_fits B m tmp len [APtr p] -> 
    simd_fit B m out len (APtr tmp) -> clear_of (A := F (fmt_of B)) tmp len (APtr p) -> samples (farith n) number m (APtr p) len -> 
    same_in_steps equal_numbers (abs_vec_simd c B n m out p len)
      (minus_vec_simd (farith n) (fops c B n) B m tmp (AScal (f_ofZ (fmt_of B) 0)) (APtr p) len) (fun m2 => max_vec_simd (farith n) (fops c B n) B m2 out (APtr p) (APtr tmp) len) out len.
Proof. exact C90_abs_vec_simd_lemma. Qed.

Example C90_abs_vec_simd_ex :
  forall (n : nans F32), simd_call_fits AVX32 polar 0 16 [APtr 32] /\ simd_call_fits AVX32 polar 16 16 [APtr 32] /\ simd_fit AVX32 polar 0 16 (APtr 16) /\ clear_of (A := F F32) 16 16 (APtr 32) /\ samples (farith n) number polar (APtr 32) 16.
Proof. intros n. chain_tac. Qed.

(** square_vec is times_vec with itself, *)
Theorem C90_square_vec : 
  forall (B : backend) (n : nans (fmt_of B)) (m : mem (F (fmt_of B))) (out p len : Z), call_fits m out len [APtr p] ->
    alike same_bits m (square_vec B n m out p len) (times_vec (farith n) (fops_scalar n) m out (APtr p) (APtr p) len) out len.
Proof. exact C90_square_vec_lemma. Qed.

Example C90_square_vec_ex :
  call_fits polar 0 16 [APtr 32].
Proof. chain_tac. Qed.

(** and clip2_vec of numbers is clip_vec between the negated limit and the limit. *)
Theorem C90_clip2_vec : 
  forall (t : fmt) (n : nans t) (m : mem (F t)) (out : Z) (a1 a2 b2 : arg (F t)) (len : Z), call_fits m out len [a1; a2; b2] ->
    inverts (farith n) m a2 b2 len -> samples (farith n) number m a1 len -> samples (farith n) number m a2 len ->
    alike equal_numbers m (clip2_vec (farith n) (fops_scalar n) m out a1 a2 len) (clip_vec (farith n) (fops_scalar n) m out a1 b2 a2 len) out len.
Proof. exact C90_clip2_vec_lemma. Qed.

Example C90_clip2_vec_ex :
  forall (n : nans F32), call_fits polar 0 32 [APtr 16; AScal (f_ofZ F32 3); AScal (fneg (f_ofZ F32 3))] /\ inverts (farith n) polar (AScal (f_ofZ F32 3)) (AScal (fneg (f_ofZ F32 3))) 32 /\ samples (farith n) number polar (APtr 16) 32 /\ samples (farith n) number polar (AScal (f_ofZ F32 3)) 32.
Proof. intros n. polar_tac. Qed.

Theorem C90_square_vec_simd : 
  forall (c : cfg) (B : backend) (n : nans (fmt_of B)) (m : mem (F (fmt_of B))) (out p len : Z), simd_call_fits B m out len [APtr p] ->
    alike same_bits m (square_vec_simd B n m out p len) (times_vec_simd (farith n) (fops c B n) B m out (APtr p) (APtr p) len) out len.
Proof. exact C90_square_vec_simd_lemma. Qed.

Example C90_square_vec_simd_ex :
  simd_call_fits AVX32 polar 0 16 [APtr 32].
Proof. chain_tac. Qed.

Theorem C90_clip2_vec_simd : 
  forall (c : cfg) (B : backend) (n : nans (fmt_of B)) (m : mem (F (fmt_of B))) (out : Z) (a1 a2 b2 : arg (F (fmt_of B))) (len : Z), simd_call_fits B m out len [a1; a2; b2] ->
    inverts (farith n) m a2 b2 len -> samples (farith n) number m a1 len -> samples (farith n) number m a2 len ->
    alike equal_numbers m (clip2_vec_simd (farith n) (fops c B n) B m out a1 a2 len) (clip_vec_simd (farith n) (fops c B n) B m out a1 b2 a2 len) out len.
Proof. exact C90_clip2_vec_simd_lemma. Qed.

Example C90_clip2_vec_simd_ex :
  forall (n : nans F32), simd_call_fits AVX32 polar 0 32 [APtr 16; AScal (f_ofZ F32 3); AScal (fneg (f_ofZ F32 3))] /\ inverts (farith n) polar (AScal (f_ofZ F32 3)) (AScal (fneg (f_ofZ F32 3))) 32 /\ samples (farith n) number polar (APtr 16) 32 /\ samples (farith n) number polar (AScal (f_ofZ F32 3)) 32.
Proof. intros n. polar_tac. Qed.

(** Where the SIMD form fuses, muladd_vec_simd differs from the two calls. *)
Theorem C90_muladd_fused_refuted : 
  forall (c : cfg) (n : nans F32), has_fma c = true -> exists (m : mem (F F32)) (out tmp : Z) (a1 a2 a3 : arg (F F32)) (len : Z),
    simd_call_fits AVX32 m out len [a1; a2; a3] /\ simd_call_fits AVX32 m tmp len [a1; a2] /\ simd_fit AVX32 m out len (APtr tmp) /\
    clear_of tmp len a3 /\
    ~ same_in_steps same_or_nan (muladd_vec_simd (farith n) (fops c AVX32 n) AVX32 m out a1 a2 a3 len)
      (times_vec_simd (farith n) (fops c AVX32 n) AVX32 m tmp a1 a2 len) (fun m2 => plus_vec_simd (farith n) (fops c AVX32 n) AVX32 m2 out (APtr tmp) a3 len) out len.
Proof. exact C90_muladd_fused_refuted_lemma. Qed.

Example C90_muladd_fused_refuted_ex :
  val (f_lit F32 4097 (-12)) = (4097 * bpow radix2 (-12))%R.
Proof. destruct (lit32 4097 (-12)) as [_ V]; [lia|lia|]. exact V. Qed.

(** All theorems of this file together, for one run of Print Assumptions. *)
Definition all_Chain := (
  C90_muladd_vec,
  C90_muladd_vec_simd,
  C90_mix_vec,
  C90_mix_vec_simd,
  C90_ampmod_vec,
  C90_ampmod_vec_simd,
  C90_sum3_vec,
  C90_sum3_vec_simd,
  C90_sum4_vec,
  C90_sum4_vec_simd,
  C90_clip_vec,
  C90_clip_vec_simd,
  C90_minus_vec,
  C90_minus_vec_simd,
  C90_cube_vec,
  C90_cube_vec_simd,
  C90_frac_vec,
  C90_frac_vec_simd,
  C90_abs_vec,
  C90_abs_vec_simd,
  C90_square_vec,
  C90_clip2_vec,
  C90_square_vec_simd,
  C90_clip2_vec_simd,
  C90_muladd_fused_refuted).
Print Assumptions all_Chain.
