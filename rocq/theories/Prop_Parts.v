(** Samples taken apart and put together again (C91). *)
From Coq Require Import ZArith Reals List Lia Bool Lra.
From Flocq Require Import Core IEEE754.Binary IEEE754.Bits.
From Verif Require Import
  Base Mem Backend Args Drivers Functors Lanes Float LaneOps FloatOps VecMath FloatFuns Spec SpecLane SpecAgree SpecAlike SpecSwap SpecChain SpecGain SpecRound SpecKeep SpecParts
  FloatFacts FloatRound ScalarMath ExData ExFloat ExMath SwapFacts ChainFacts PartsFacts PartsClaims.
Import ListNotations.
Local Open Scope Z_scope.

(** * C91: samples taken apart and put together again *)

(** The sign times the absolute value is the sample; *)
Theorem C91_sgn_abs_vec : 
  forall (B : backend) (n : nans (fmt_of B)) (m : mem (F (fmt_of B))) (out tmp p : Z) (len : Z),
    call_fits m out len [APtr p] -> call_fits m tmp len [APtr p] -> clear_of (A := F (fmt_of B)) out len (APtr p) -> clear_of (A := F (fmt_of B)) out len (APtr tmp) -> samples (farith n) number m (APtr p) len -> 
    gives_back equal_numbers (farith n) m (APtr p)
      [fun m => sgn_vec B m out p len;
       fun m => abs_vec B m tmp p len;
       fun m => times_vec (farith n) (fops_scalar n) m out (APtr out) (APtr tmp) len] out len.
Proof. exact C91_sgn_abs_vec_lemma. Qed.

Example C91_sgn_abs_vec_ex :
  forall (n : nans F32), call_fits polar 0 16 [APtr 32] /\ call_fits polar 16 16 [APtr 32] /\ clear_of (A := F F32) 0 16 (APtr 32) /\ clear_of (A := F F32) 0 16 (APtr 16) /\ samples (farith n) number polar (APtr 32) 16.
Proof. intros n. parts_tac. Qed.

Theorem C91_sgn_abs_vec_simd : 
  forall (c : cfg) (B : backend) (n : nans (fmt_of B)) (m : mem (F (fmt_of B))) (out tmp p : Z) (len : Z),
    simd_call_fits B m out len [APtr p] -> simd_call_fits B m tmp len [APtr p] -> clear_of (A := F (fmt_of B)) out len (APtr p) -> clear_of (A := F (fmt_of B)) out len (APtr tmp) -> samples (farith n) number m (APtr p) len -> 
    gives_back equal_numbers (farith n) m (APtr p)
      [fun m => sgn_vec_simd c B n m out p len;
       fun m => abs_vec_simd c B n m tmp p len;
       fun m => times_vec_simd (farith n) (fops c B n) B m out (APtr out) (APtr tmp) len] out len.
Proof. exact C91_sgn_abs_vec_simd_lemma. Qed.

Example C91_sgn_abs_vec_simd_ex :
  forall (n : nans F32), simd_call_fits AVX32 polar 0 16 [APtr 32] /\ simd_call_fits AVX32 polar 16 16 [APtr 32] /\ clear_of (A := F F32) 0 16 (APtr 32) /\ clear_of (A := F F32) 0 16 (APtr 16) /\ samples (farith n) number polar (APtr 32) 16.
Proof. intros n. parts_tac. Qed.

(** floor plus frac is the sample, unless it is between -1/2 and 0; *)
Theorem C91_floor_frac_vec : 
  forall (B : backend) (n : nans (fmt_of B)) (m : mem (F (fmt_of B))) (out tmp p : Z) (len : Z),
    call_fits m out len [APtr p] -> call_fits m tmp len [APtr p] -> clear_of (A := F (fmt_of B)) out len (APtr p) -> clear_of (A := F (fmt_of B)) out len (APtr tmp) -> samples (farith n) not_slightly_negative m (APtr p) len -> 
    gives_back equal_numbers (farith n) m (APtr p)
      [fun m => floor_vec B n m out p len;
       fun m => frac_vec B n m tmp p len;
       fun m => plus_vec (farith n) (fops_scalar n) m out (APtr out) (APtr tmp) len] out len.
Proof. exact C91_floor_frac_vec_lemma. Qed.

Example C91_floor_frac_vec_ex :
  forall (n : nans F32), call_fits polar 0 16 [APtr 32] /\ call_fits polar 16 16 [APtr 32] /\ clear_of (A := F F32) 0 16 (APtr 32) /\ clear_of (A := F F32) 0 16 (APtr 16) /\ samples (farith n) not_slightly_negative polar (APtr 32) 16.
Proof. intros n. parts_tac. Qed.

Theorem C91_floor_frac_vec_simd : 
  forall (c : cfg) (B : backend) (n : nans (fmt_of B)) (m : mem (F (fmt_of B))) (out tmp p : Z) (len : Z),
    simd_call_fits B m out len [APtr p] -> simd_call_fits B m tmp len [APtr p] -> clear_of (A := F (fmt_of B)) out len (APtr p) -> clear_of (A := F (fmt_of B)) out len (APtr tmp) -> samples (farith n) (fun x => not_slightly_negative x /\ (magic_floor c B -> within_2_23 x)) m (APtr p) len -> 
    gives_back equal_numbers (farith n) m (APtr p)
      [fun m => floor_vec_simd c B n m out p len;
       fun m => frac_vec_simd c B n m tmp p len;
       fun m => plus_vec_simd (farith n) (fops c B n) B m out (APtr out) (APtr tmp) len] out len.
Proof. exact C91_floor_frac_vec_simd_lemma. Qed.

Example C91_floor_frac_vec_simd_ex :
  forall (n : nans F32), simd_call_fits AVX32 polar 0 16 [APtr 32] /\ simd_call_fits AVX32 polar 16 16 [APtr 32] /\ clear_of (A := F F32) 0 16 (APtr 32) /\ clear_of (A := F F32) 0 16 (APtr 16) /\ samples (farith n) (fun x => not_slightly_negative x /\ (magic_floor no_fma AVX32 -> within_2_23 x)) polar (APtr 32) 16.
Proof. intros n. parts_tac. Qed.

(** ceil is floor between two changes of sign; *)
Theorem C91_ceil_floor_vec : 
  forall (B : backend) (n : nans (fmt_of B)) (m : mem (F (fmt_of B))) (out p : Z) (len : Z),
    call_fits m out len [APtr p] -> samples (farith n) number m (APtr p) len -> 
    same_in_turn equal_numbers m (ceil_vec B n m out p len)
      [fun m => minus_vec (farith n) (fops_scalar n) m out (AScal (f_ofZ (fmt_of B) 0)) (APtr p) len;
       fun m => floor_vec B n m out out len;
       fun m => minus_vec (farith n) (fops_scalar n) m out (AScal (f_ofZ (fmt_of B) 0)) (APtr out) len] out len.
Proof. exact C91_ceil_floor_vec_lemma. Qed.

Example C91_ceil_floor_vec_ex :
  forall (n : nans F32), call_fits polar 0 16 [APtr 32] /\ samples (farith n) number polar (APtr 32) 16.
Proof. intros n. parts_tac. Qed.

Theorem C91_ceil_floor_vec_simd : 
  forall (c : cfg) (B : backend) (n : nans (fmt_of B)) (m : mem (F (fmt_of B))) (out p : Z) (len : Z),
    simd_call_fits B m out len [APtr p] -> samples (farith n) (roundable (magic_floor c B)) m (APtr p) len -> 
    same_in_turn equal_numbers m (ceil_vec_simd c B n m out p len)
      [fun m => minus_vec_simd (farith n) (fops c B n) B m out (AScal (f_ofZ (fmt_of B) 0)) (APtr p) len;
       fun m => floor_vec_simd c B n m out out len;
       fun m => minus_vec_simd (farith n) (fops c B n) B m out (AScal (f_ofZ (fmt_of B) 0)) (APtr out) len] out len.
Proof. exact C91_ceil_floor_vec_simd_lemma. Qed.

Example C91_ceil_floor_vec_simd_ex :
  forall (n : nans F32), simd_call_fits AVX32 polar 0 16 [APtr 32] /\ samples (farith n) (roundable (magic_floor no_fma AVX32)) polar (APtr 32) 16.
Proof. intros n. parts_tac. Qed.

(** the minimum plus the maximum is the sum; *)
Theorem C91_min_max_vec : 
  forall (t : fmt) (n : nans t) (m : mem (F t)) (out tmp : Z) (a1 a2 : arg (F t)) (len : Z),
    call_fits m out len [a1; a2] -> call_fits m tmp len [a1; a2] -> clear_of (A := F t) out len a1 -> clear_of (A := F t) out len a2 -> clear_of (A := F t) out len (APtr tmp) -> samples (farith n) finite m a1 len -> samples (farith n) finite m a2 len -> 
    same_in_turn equal_numbers m (plus_vec (farith n) (fops_scalar n) m out a1 a2 len)
      [fun m => min_vec (farith n) (fops_scalar n) m out a1 a2 len;
       fun m => max_vec (farith n) (fops_scalar n) m tmp a1 a2 len;
       fun m => plus_vec (farith n) (fops_scalar n) m out (APtr out) (APtr tmp) len] out len.
Proof. exact C91_min_max_vec_lemma. Qed.

Example C91_min_max_vec_ex :
  forall (n : nans F32), call_fits polar 0 16 [APtr 32; AScal (f_ofZ F32 3)] /\ call_fits polar 16 16 [APtr 32; AScal (f_ofZ F32 3)] /\ clear_of (A := F F32) 0 16 (APtr 32) /\ clear_of (A := F F32) 0 16 (AScal (f_ofZ F32 3)) /\ clear_of (A := F F32) 0 16 (APtr 16) /\ samples (farith n) finite polar (APtr 32) 16 /\ samples (farith n) finite polar (AScal (f_ofZ F32 3)) 16.
Proof. intros n. parts_tac. Qed.

Theorem C91_min_max_vec_simd : 
  forall (c : cfg) (B : backend) (n : nans (fmt_of B)) (m : mem (F (fmt_of B))) (out tmp : Z) (a1 a2 : arg (F (fmt_of B))) (len : Z),
    simd_call_fits B m out len [a1; a2] -> simd_call_fits B m tmp len [a1; a2] -> clear_of (A := F (fmt_of B)) out len a1 -> clear_of (A := F (fmt_of B)) out len a2 -> clear_of (A := F (fmt_of B)) out len (APtr tmp) -> samples (farith n) finite m a1 len -> samples (farith n) finite m a2 len -> 
    same_in_turn equal_numbers m (plus_vec_simd (farith n) (fops c B n) B m out a1 a2 len)
      [fun m => min_vec_simd (farith n) (fops c B n) B m out a1 a2 len;
       fun m => max_vec_simd (farith n) (fops c B n) B m tmp a1 a2 len;
       fun m => plus_vec_simd (farith n) (fops c B n) B m out (APtr out) (APtr tmp) len] out len.
Proof. exact C91_min_max_vec_simd_lemma. Qed.

Example C91_min_max_vec_simd_ex :
  forall (n : nans F32), simd_call_fits AVX32 polar 0 16 [APtr 32; AScal (f_ofZ F32 3)] /\ simd_call_fits AVX32 polar 16 16 [APtr 32; AScal (f_ofZ F32 3)] /\ clear_of (A := F F32) 0 16 (APtr 32) /\ clear_of (A := F F32) 0 16 (AScal (f_ofZ F32 3)) /\ clear_of (A := F F32) 0 16 (APtr 16) /\ samples (farith n) finite polar (APtr 32) 16 /\ samples (farith n) finite polar (AScal (f_ofZ F32 3)) 16.
Proof. intros n. parts_tac. Qed.

(** the difference of samples within a factor of two, added to the second, is the first; *)
Theorem C91_difference_vec : 
  forall (t : fmt) (n : nans t) (m : mem (F t)) (out : Z) (a1 a2 : arg (F t)) (len : Z),
    call_fits m out len [a1; a2] -> clear_of out len a2 -> neighbours (farith n) m a1 a2 len ->
    gives_back equal_numbers (farith n) m a1 [fun m => minus_vec (farith n) (fops_scalar n) m out a1 a2 len; fun m => plus_vec (farith n) (fops_scalar n) m out (APtr out) a2 len] out len.
Proof. exact C91_difference_vec_lemma. Qed.

Example C91_difference_vec_ex :
  forall (n : nans F32), call_fits polar 0 16 [APtr 32; AScal (f_lit F32 5 0)] /\ neighbours (farith n) polar (APtr 32) (AScal (f_lit F32 5 0)) 16.
Proof. intros n. parts_tac. Qed.

Theorem C91_difference_vec_simd : 
  forall (c : cfg) (B : backend) (n : nans (fmt_of B)) (m : mem (F (fmt_of B))) (out : Z) (a1 a2 : arg (F (fmt_of B))) (len : Z),
    simd_call_fits B m out len [a1; a2] -> clear_of out len a2 -> neighbours (farith n) m a1 a2 len ->
    gives_back equal_numbers (farith n) m a1 [fun m => minus_vec_simd (farith n) (fops c B n) B m out a1 a2 len; fun m => plus_vec_simd (farith n) (fops c B n) B m out (APtr out) a2 len] out len.
Proof. exact C91_difference_vec_simd_lemma. Qed.

Example C91_difference_vec_simd_ex :
  forall (n : nans F32), simd_call_fits AVX32 polar 0 16 [APtr 32; AScal (f_lit F32 5 0)] /\ neighbours (farith n) polar (APtr 32) (AScal (f_lit F32 5 0)) 16.
Proof. intros n. parts_tac. Qed.

(** the square root of the square is the absolute value, bit for bit; *)
Theorem C91_square_root_vec : 
  forall (B : backend) (n : nans (fmt_of B)) (m : mem (F (fmt_of B))) (out tmp p len : Z), 
    call_fits m out len [APtr p] -> call_fits m tmp len [APtr p] -> arg_fit m out len (APtr tmp) ->
    samples (farith n) squarable m (APtr p) len ->
    same_in_steps same_bits (abs_vec B m out p len) (square_vec B n m tmp p len) (fun m2 => signed_sqrt_vec B n m2 out tmp len) out len.
Proof. exact C91_square_root_vec_lemma. Qed.

Example C91_square_root_vec_ex :
  forall (n : nans F32), call_fits polar 0 16 [APtr 32] /\ call_fits polar 16 16 [APtr 32] /\ arg_fit polar 0 16 (APtr 16) /\ samples (farith n) squarable polar (APtr 32) 16.
Proof. intros n. parts_tac. Qed.

Theorem C91_square_root_vec_simd : 
  forall (c : cfg) (B : backend) (n : nans (fmt_of B)) (m : mem (F (fmt_of B))) (out tmp p len : Z), isa_of B <> NEON -> 
    simd_call_fits B m out len [APtr p] -> simd_call_fits B m tmp len [APtr p] -> simd_fit B m out len (APtr tmp) ->
    samples (farith n) squarable m (APtr p) len ->
    same_in_steps same_bits (abs_vec_simd c B n m out p len) (square_vec_simd B n m tmp p len) (fun m2 => signed_sqrt_vec_simd c B n m2 out tmp len) out len.
Proof. exact C91_square_root_vec_simd_lemma. Qed.

Example C91_square_root_vec_simd_ex :
  forall (n : nans F32), isa_of AVX32 <> NEON /\ simd_call_fits AVX32 polar 0 16 [APtr 32] /\ simd_call_fits AVX32 polar 16 16 [APtr 32] /\ simd_fit AVX32 polar 0 16 (APtr 16) /\ samples (farith n) squarable polar (APtr 32) 16.
Proof. intros n. parts_tac. Qed.

(** a sample minus itself is +0, *)
Theorem C91_minus_self_vec : 
  forall (t : fmt) (n : nans t) (m : mem (F t)) (out : Z) (a : arg (F t)) (len : Z), 
    call_fits m out len [a] -> samples (farith n) finite m a len ->
    leaves m (minus_vec (farith n) (fops_scalar n) m out a a len) out len (fun _ => Some (f_ofZ t 0)).
Proof. exact C91_minus_self_vec_lemma. Qed.

Example C91_minus_self_vec_ex :
  forall (n : nans F32), call_fits polar 0 16 [APtr 32] /\ samples (farith n) finite polar (APtr 32) 16.
Proof. intros n. parts_tac. Qed.

Theorem C91_minus_self_vec_simd : 
  forall (c : cfg) (B : backend) (n : nans (fmt_of B)) (m : mem (F (fmt_of B))) (out : Z) (a : arg (F (fmt_of B))) (len : Z), 
    simd_call_fits B m out len [a] -> samples (farith n) finite m a len ->
    leaves m (minus_vec_simd (farith n) (fops c B n) B m out a a len) out len (fun _ => Some (f_ofZ (fmt_of B) 0)).
Proof. exact C91_minus_self_vec_simd_lemma. Qed.

Example C91_minus_self_vec_simd_ex :
  forall (n : nans F32), simd_call_fits AVX32 polar 0 16 [APtr 32] /\ samples (farith n) finite polar (APtr 32) 16.
Proof. intros n. parts_tac. Qed.

(** and divided by itself 1. *)
Theorem C91_over_self_vec : 
  forall (t : fmt) (n : nans t) (m : mem (F t)) (out : Z) (a : arg (F t)) (len : Z), 
    call_fits m out len [a] -> samples (farith n) finite_nonzero m a len ->
    leaves m (over_vec (farith n) (fops_scalar n) m out a a len) out len (fun _ => Some (f_ofZ t 1)).
Proof. exact C91_over_self_vec_lemma. Qed.

Example C91_over_self_vec_ex :
  forall (n : nans F32), call_fits polar 0 16 [APtr 32] /\ samples (farith n) finite_nonzero polar (APtr 32) 16.
Proof. intros n. parts_tac. Qed.

Theorem C91_over_self_vec_simd : 
  forall (c : cfg) (B : backend) (n : nans (fmt_of B)) (m : mem (F (fmt_of B))) (out : Z) (a : arg (F (fmt_of B))) (len : Z), divides B = true -> 
    simd_call_fits B m out len [a] -> samples (farith n) finite_nonzero m a len ->
    leaves m (over_vec_simd (farith n) (fops c B n) B m out a a len) out len (fun _ => Some (f_ofZ (fmt_of B) 1)).
Proof. exact C91_over_self_vec_simd_lemma. Qed.

Example C91_over_self_vec_simd_ex :
  forall (n : nans F32), divides AVX32 = true /\ simd_call_fits AVX32 polar 0 16 [APtr 32] /\ samples (farith n) finite_nonzero polar (APtr 32) 16.
Proof. intros n. parts_tac. Qed.

(** Samples just below zero are not floor plus frac. *)
Theorem C91_floor_frac_refuted : 
  forall (n : nans F32), exists (m : mem (F F32)) (out tmp p len : Z),
    call_fits m out len [APtr p] /\ call_fits m tmp len [APtr p] /\ clear_of (A := F F32) out len (APtr p) /\ clear_of (A := F F32) out len (APtr tmp) /\ samples (farith n) finite m (APtr p) len /\
    ~ gives_back equal_numbers (farith n) m (APtr p) [fun m => floor_vec SSE32 n m out p len; fun m => frac_vec SSE32 n m tmp p len;
       fun m => plus_vec (farith n) (fops_scalar n) m out (APtr out) (APtr tmp) len] out len.
Proof. exact C91_floor_frac_refuted_lemma. Qed.

Example C91_floor_frac_refuted_ex :
  isfin (f_lit F32 (-1) (-60)) = true.
Proof. reflexivity. Qed.

(** All theorems of this file together, for one run of Print Assumptions. *)
Definition all_Parts := (
  C91_sgn_abs_vec,
  C91_sgn_abs_vec_simd,
  C91_floor_frac_vec,
  C91_floor_frac_vec_simd,
  C91_ceil_floor_vec,
  C91_ceil_floor_vec_simd,
  C91_min_max_vec,
  C91_min_max_vec_simd,
  C91_difference_vec,
  C91_difference_vec_simd,
  C91_square_root_vec,
  C91_square_root_vec_simd,
  C91_minus_self_vec,
  C91_minus_self_vec_simd,
  C91_over_self_vec,
  C91_over_self_vec_simd,
  C91_floor_frac_refuted).
Print Assumptions all_Parts.
