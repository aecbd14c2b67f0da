(** Silence stays silence (C94). *)
From Coq Require Import ZArith Reals List Lia Bool Lra.
From Flocq Require Import Core IEEE754.Binary IEEE754.Bits.
From Verif Require Import
  Base Mem Backend Args Drivers Functors Lanes Float LaneOps FloatOps VecMath FloatFuns Libm Estimate Spec SpecLane SpecMath SpecLib SpecAgree SpecAlike SpecNeutral SpecSwap SpecParts SpecQuiet
  FloatFacts SwapFacts ChainFacts QuietFacts QuietEx QuietClaims.
Import ListNotations.
Local Open Scope Z_scope.

(** * C94: silence stays silence *)

(** The functions of one signal: of silence they make silence. *)
Theorem C94_abs_vec : 
  forall (B : backend) (n : nans (fmt_of B)) (m : mem (F (fmt_of B))) (out p len : Z), 
    call_fits m out len [APtr p] -> silent (farith n) m (APtr p) len ->
    leaves_silence m (abs_vec B m out p len) out len.
Proof. exact C94_abs_vec_lemma. Qed.

Example C94_abs_vec_ex :
  forall (n : nans F32), call_fits hush 0 16 [APtr 32] /\ silent (farith n) hush (APtr 32) 16.
Proof. intros n. quiet_tac. Qed.

Theorem C94_abs_vec_simd : 
  forall (c : cfg) (B : backend) (n : nans (fmt_of B)) (m : mem (F (fmt_of B))) (out p len : Z), 
    simd_call_fits B m out len [APtr p] -> silent (farith n) m (APtr p) len ->
    leaves_silence m (abs_vec_simd c B n m out p len) out len.
Proof. exact C94_abs_vec_simd_lemma. Qed.

Example C94_abs_vec_simd_ex :
  forall (n : nans F32), simd_call_fits AVX32 hush 0 16 [APtr 32] /\ silent (farith n) hush (APtr 32) 16.
Proof. intros n. quiet_tac. Qed.

Theorem C94_sgn_vec : 
  forall (B : backend) (n : nans (fmt_of B)) (m : mem (F (fmt_of B))) (out p len : Z), 
    call_fits m out len [APtr p] -> silent (farith n) m (APtr p) len ->
    leaves_silence m (sgn_vec B m out p len) out len.
Proof. exact C94_sgn_vec_lemma. Qed.

Example C94_sgn_vec_ex :
  forall (n : nans F32), call_fits hush 0 16 [APtr 32] /\ silent (farith n) hush (APtr 32) 16.
Proof. intros n. quiet_tac. Qed.

Theorem C94_sgn_vec_simd : 
  forall (c : cfg) (B : backend) (n : nans (fmt_of B)) (m : mem (F (fmt_of B))) (out p len : Z), 
    simd_call_fits B m out len [APtr p] -> silent (farith n) m (APtr p) len ->
    leaves_silence m (sgn_vec_simd c B n m out p len) out len.
Proof. exact C94_sgn_vec_simd_lemma. Qed.

Example C94_sgn_vec_simd_ex :
  forall (n : nans F32), simd_call_fits AVX32 hush 0 16 [APtr 32] /\ silent (farith n) hush (APtr 32) 16.
Proof. intros n. quiet_tac. Qed.

Theorem C94_square_vec : 
  forall (B : backend) (n : nans (fmt_of B)) (m : mem (F (fmt_of B))) (out p len : Z), 
    call_fits m out len [APtr p] -> silent (farith n) m (APtr p) len ->
    leaves_silence m (square_vec B n m out p len) out len.
Proof. exact C94_square_vec_lemma. Qed.

Example C94_square_vec_ex :
  forall (n : nans F32), call_fits hush 0 16 [APtr 32] /\ silent (farith n) hush (APtr 32) 16.
Proof. intros n. quiet_tac. Qed.

Theorem C94_square_vec_simd : 
  forall (c : cfg) (B : backend) (n : nans (fmt_of B)) (m : mem (F (fmt_of B))) (out p len : Z), 
    simd_call_fits B m out len [APtr p] -> silent (farith n) m (APtr p) len ->
    leaves_silence m (square_vec_simd B n m out p len) out len.
Proof. exact C94_square_vec_simd_lemma. Qed.

Example C94_square_vec_simd_ex :
  forall (n : nans F32), simd_call_fits AVX32 hush 0 16 [APtr 32] /\ silent (farith n) hush (APtr 32) 16.
Proof. intros n. quiet_tac. Qed.

Theorem C94_cube_vec : 
  forall (B : backend) (n : nans (fmt_of B)) (m : mem (F (fmt_of B))) (out p len : Z), 
    call_fits m out len [APtr p] -> silent (farith n) m (APtr p) len ->
    leaves_silence m (cube_vec B n m out p len) out len.
Proof. exact C94_cube_vec_lemma. Qed.

Example C94_cube_vec_ex :
  forall (n : nans F32), call_fits hush 0 16 [APtr 32] /\ silent (farith n) hush (APtr 32) 16.
Proof. intros n. quiet_tac. Qed.

Theorem C94_cube_vec_simd : 
  forall (c : cfg) (B : backend) (n : nans (fmt_of B)) (m : mem (F (fmt_of B))) (out p len : Z), 
    simd_call_fits B m out len [APtr p] -> silent (farith n) m (APtr p) len ->
    leaves_silence m (cube_vec_simd B n m out p len) out len.
Proof. exact C94_cube_vec_simd_lemma. Qed.

Example C94_cube_vec_simd_ex :
  forall (n : nans F32), simd_call_fits AVX32 hush 0 16 [APtr 32] /\ silent (farith n) hush (APtr 32) 16.
Proof. intros n. quiet_tac. Qed.

Theorem C94_round_vec : 
  forall (B : backend) (n : nans (fmt_of B)) (m : mem (F (fmt_of B))) (out p len : Z), 
    call_fits m out len [APtr p] -> silent (farith n) m (APtr p) len ->
    leaves_silence m (round_vec B n m out p len) out len.
Proof. exact C94_round_vec_lemma. Qed.

Example C94_round_vec_ex :
  forall (n : nans F32), call_fits hush 0 16 [APtr 32] /\ silent (farith n) hush (APtr 32) 16.
Proof. intros n. quiet_tac. Qed.

Theorem C94_round_vec_simd : 
  forall (c : cfg) (B : backend) (n : nans (fmt_of B)) (m : mem (F (fmt_of B))) (out p len : Z), 
    simd_call_fits B m out len [APtr p] -> silent (farith n) m (APtr p) len ->
    leaves_silence m (round_vec_simd c B n m out p len) out len.
Proof. exact C94_round_vec_simd_lemma. Qed.

Example C94_round_vec_simd_ex :
  forall (n : nans F32), simd_call_fits AVX32 hush 0 16 [APtr 32] /\ silent (farith n) hush (APtr 32) 16.
Proof. intros n. quiet_tac. Qed.

Theorem C94_floor_vec : 
  forall (B : backend) (n : nans (fmt_of B)) (m : mem (F (fmt_of B))) (out p len : Z), 
    call_fits m out len [APtr p] -> silent (farith n) m (APtr p) len ->
    leaves_silence m (floor_vec B n m out p len) out len.
Proof. exact C94_floor_vec_lemma. Qed.

Example C94_floor_vec_ex :
  forall (n : nans F32), call_fits hush 0 16 [APtr 32] /\ silent (farith n) hush (APtr 32) 16.
Proof. intros n. quiet_tac. Qed.

Theorem C94_floor_vec_simd : 
  forall (c : cfg) (B : backend) (n : nans (fmt_of B)) (m : mem (F (fmt_of B))) (out p len : Z), 
    simd_call_fits B m out len [APtr p] -> silent (farith n) m (APtr p) len ->
    leaves_silence m (floor_vec_simd c B n m out p len) out len.
Proof. exact C94_floor_vec_simd_lemma. Qed.

Example C94_floor_vec_simd_ex :
  forall (n : nans F32), simd_call_fits AVX32 hush 0 16 [APtr 32] /\ silent (farith n) hush (APtr 32) 16.
Proof. intros n. quiet_tac. Qed.

Theorem C94_ceil_vec : 
  forall (B : backend) (n : nans (fmt_of B)) (m : mem (F (fmt_of B))) (out p len : Z), 
    call_fits m out len [APtr p] -> silent (farith n) m (APtr p) len ->
    leaves_silence m (ceil_vec B n m out p len) out len.
Proof. exact C94_ceil_vec_lemma. Qed.

Example C94_ceil_vec_ex :
  forall (n : nans F32), call_fits hush 0 16 [APtr 32] /\ silent (farith n) hush (APtr 32) 16.
Proof. intros n. quiet_tac. Qed.

Theorem C94_ceil_vec_simd : 
  forall (c : cfg) (B : backend) (n : nans (fmt_of B)) (m : mem (F (fmt_of B))) (out p len : Z), 
    simd_call_fits B m out len [APtr p] -> silent (farith n) m (APtr p) len ->
    leaves_silence m (ceil_vec_simd c B n m out p len) out len.
Proof. exact C94_ceil_vec_simd_lemma. Qed.

Example C94_ceil_vec_simd_ex :
  forall (n : nans F32), simd_call_fits AVX32 hush 0 16 [APtr 32] /\ silent (farith n) hush (APtr 32) 16.
Proof. intros n. quiet_tac. Qed.

Theorem C94_frac_vec : 
  forall (B : backend) (n : nans (fmt_of B)) (m : mem (F (fmt_of B))) (out p len : Z), 
    call_fits m out len [APtr p] -> silent (farith n) m (APtr p) len ->
    leaves_silence m (frac_vec B n m out p len) out len.
Proof. exact C94_frac_vec_lemma. Qed.

Example C94_frac_vec_ex :
  forall (n : nans F32), call_fits hush 0 16 [APtr 32] /\ silent (farith n) hush (APtr 32) 16.
Proof. intros n. quiet_tac. Qed.

Theorem C94_frac_vec_simd : 
  forall (c : cfg) (B : backend) (n : nans (fmt_of B)) (m : mem (F (fmt_of B))) (out p len : Z), 
    simd_call_fits B m out len [APtr p] -> silent (farith n) m (APtr p) len ->
    leaves_silence m (frac_vec_simd c B n m out p len) out len.
Proof. exact C94_frac_vec_simd_lemma. Qed.

Example C94_frac_vec_simd_ex :
  forall (n : nans F32), simd_call_fits AVX32 hush 0 16 [APtr 32] /\ silent (farith n) hush (APtr 32) 16.
Proof. intros n. quiet_tac. Qed.

Theorem C94_undenormalize_vec : 
  forall (B : backend) (n : nans (fmt_of B)) (m : mem (F (fmt_of B))) (out p len : Z), 
    call_fits m out len [APtr p] -> silent (farith n) m (APtr p) len ->
    leaves_silence m (undenormalize_vec B m out p len) out len.
Proof. exact C94_undenormalize_vec_lemma. Qed.

Example C94_undenormalize_vec_ex :
  forall (n : nans F32), call_fits hush 0 16 [APtr 32] /\ silent (farith n) hush (APtr 32) 16.
Proof. intros n. quiet_tac. Qed.

Theorem C94_undenormalize_vec_simd : 
  forall (c : cfg) (B : backend) (n : nans (fmt_of B)) (m : mem (F (fmt_of B))) (out p len : Z), isa_of B <> NEON -> isa_of B <> ALTIVEC -> 
    simd_call_fits B m out len [APtr p] -> silent (farith n) m (APtr p) len ->
    leaves_silence m (undenormalize_vec_simd c B n m out p len) out len.
Proof. exact C94_undenormalize_vec_simd_lemma. Qed.

Example C94_undenormalize_vec_simd_ex :
  forall (n : nans F32), simd_call_fits AVX32 hush 0 16 [APtr 32] /\ silent (farith n) hush (APtr 32) 16 /\ isa_of AVX32 <> NEON /\ isa_of AVX32 <> ALTIVEC.
Proof. intros n. quiet_tac. Qed.

Theorem C94_softclip_vec : 
  forall (B : backend) (n : nans (fmt_of B)) (m : mem (F (fmt_of B))) (out p len : Z), 
    call_fits m out len [APtr p] -> silent (farith n) m (APtr p) len ->
    leaves_silence m (softclip_vec B n m out p len) out len.
Proof. exact C94_softclip_vec_lemma. Qed.

Example C94_softclip_vec_ex :
  forall (n : nans F32), call_fits hush 0 16 [APtr 32] /\ silent (farith n) hush (APtr 32) 16.
Proof. intros n. quiet_tac. Qed.

Theorem C94_softclip_vec_simd : 
  forall (c : cfg) (B : backend) (n : nans (fmt_of B)) (m : mem (F (fmt_of B))) (out p len : Z), 
    simd_call_fits B m out len [APtr p] -> silent (farith n) m (APtr p) len ->
    leaves_silence m (softclip_vec_simd c B n m out p len) out len.
Proof. exact C94_softclip_vec_simd_lemma. Qed.

Example C94_softclip_vec_simd_ex :
  forall (n : nans F32), simd_call_fits AVX32 hush 0 16 [APtr 32] /\ silent (farith n) hush (APtr 32) 16.
Proof. intros n. quiet_tac. Qed.

Theorem C94_signed_sqrt_vec : 
  forall (B : backend) (n : nans (fmt_of B)) (m : mem (F (fmt_of B))) (out p len : Z), 
    call_fits m out len [APtr p] -> silent (farith n) m (APtr p) len ->
    leaves_silence m (signed_sqrt_vec B n m out p len) out len.
Proof. exact C94_signed_sqrt_vec_lemma. Qed.

Example C94_signed_sqrt_vec_ex :
  forall (n : nans F32), call_fits hush 0 16 [APtr 32] /\ silent (farith n) hush (APtr 32) 16.
Proof. intros n. quiet_tac. Qed.

Theorem C94_signed_sqrt_vec_simd : 
  forall (c : cfg) (B : backend) (n : nans (fmt_of B)) (m : mem (F (fmt_of B))) (out p len : Z), isa_of B <> NEON -> 
    simd_call_fits B m out len [APtr p] -> silent (farith n) m (APtr p) len ->
    leaves_silence m (signed_sqrt_vec_simd c B n m out p len) out len.
Proof. exact C94_signed_sqrt_vec_simd_lemma. Qed.

Example C94_signed_sqrt_vec_simd_ex :
  forall (n : nans F32), simd_call_fits AVX32 hush 0 16 [APtr 32] /\ silent (farith n) hush (APtr 32) 16 /\ isa_of AVX32 <> NEON.
Proof. intros n. quiet_tac. Qed.

(** sin, tan, asin, atan and tanh, given a C library with a bounded relative error, *)
Theorem C94_math_vec : 
  forall (B : backend) (w : world (fmt_of B)) (e : R) (f : ufun) (m : mem (F (fmt_of B))) (out p len : Z),
    library e (w_lib w) -> zero_at_zero f = true ->
    call_fits m out len [APtr p] -> silent (farith (w_nan w)) m (APtr p) len ->
    leaves_silence m (math_vec B w f m out p len) out len.
Proof. exact C94_math_vec_lemma. Qed.

Example C94_math_vec_ex :
  forall (n : nans F32), library 1e-6 (w_lib (good_world n)) /\ zero_at_zero Tanh = true /\ call_fits hush 0 16 [APtr 32] /\ silent (farith (w_nan (good_world n))) hush (APtr 32) 16.
Proof. intros n. quiet_tac. Qed.

Theorem C94_math_vec_simd : 
  forall (c : cfg) (B : backend) (w : world (fmt_of B)) (k : nans F64) (e : R) (f : ufun) (m : mem (F (fmt_of B))) (out p len : Z),
    library e (w_lib w) -> zero_at_zero f = true ->
    simd_call_fits B m out len [APtr p] -> silent (farith (w_nan w)) m (APtr p) len ->
    leaves_silence m (math_vec_simd c B w k f m out p len) out len.
Proof. exact C94_math_vec_simd_lemma. Qed.

Example C94_math_vec_simd_ex :
  forall (n : nans F32), library 1e-6 (w_lib (good_world n)) /\ zero_at_zero Tanh = true /\ simd_call_fits AVX32 hush 0 16 [APtr 32] /\ silent (farith (w_nan (good_world n))) hush (APtr 32) 16.
Proof. intros n. quiet_tac. Qed.

(** and cos and exp, where they are vectorised, of silence are exactly 1. *)
Theorem C94_math_vec_simd_ones : 
  forall (c : cfg) (B : backend) (w : world (fmt_of B)) (k : nans F64) (f : ufun) (m : mem (F (fmt_of B))) (out p len : Z),
    math_backend c B -> one_at_zero f = true ->
    simd_call_fits B m out len [APtr p] -> silent (farith (w_nan w)) m (APtr p) len ->
    leaves_ones m (math_vec_simd c B w k f m out p len) out len.
Proof. exact C94_math_vec_simd_ones_lemma. Qed.

Example C94_math_vec_simd_ones_ex :
  forall (n : nans F32), math_backend no_fma AVX32 /\ one_at_zero Cos = true /\ simd_call_fits AVX32 hush 0 16 [APtr 32] /\ silent (farith n) hush (APtr 32) 16.
Proof. intros n. split; [left; reflexivity|]. quiet_tac. Qed.

(** The sum, *)
Theorem C94_plus_vec : 
  forall (t : fmt) (n : nans t) (m : mem (F t)) (out : Z) (a1 a2 : arg (F t)) (len : Z),
    call_fits m out len [a1; a2] -> silent (farith n) m a1 len -> silent (farith n) m a2 len ->
    leaves_silence m (plus_vec (farith n) (fops_scalar n) m out a1 a2 len) out len.
Proof. exact C94_plus_vec_lemma. Qed.

Example C94_plus_vec_ex :
  forall (n : nans F32), call_fits hush 0 16 [APtr 16; APtr 32] /\ silent (farith n) hush (APtr 16) 16 /\ silent (farith n) hush (APtr 32) 16.
Proof. intros n. quiet_tac. Qed.

Theorem C94_plus_vec_simd : 
  forall (c : cfg) (B : backend) (n : nans (fmt_of B)) (m : mem (F (fmt_of B))) (out : Z) (a1 a2 : arg (F (fmt_of B))) (len : Z),
    simd_call_fits B m out len [a1; a2] -> silent (farith n) m a1 len -> silent (farith n) m a2 len ->
    leaves_silence m (plus_vec_simd (farith n) (fops c B n) B m out a1 a2 len) out len.
Proof. exact C94_plus_vec_simd_lemma. Qed.

Example C94_plus_vec_simd_ex :
  forall (n : nans F32), simd_call_fits AVX32 hush 0 16 [APtr 16; APtr 32] /\ silent (farith n) hush (APtr 16) 16 /\ silent (farith n) hush (APtr 32) 16.
Proof. intros n. quiet_tac. Qed.

(** the difference, *)
Theorem C94_minus_vec : 
  forall (t : fmt) (n : nans t) (m : mem (F t)) (out : Z) (a1 a2 : arg (F t)) (len : Z),
    call_fits m out len [a1; a2] -> silent (farith n) m a1 len -> silent (farith n) m a2 len ->
    leaves_silence m (minus_vec (farith n) (fops_scalar n) m out a1 a2 len) out len.
Proof. exact C94_minus_vec_lemma. Qed.

Example C94_minus_vec_ex :
  forall (n : nans F32), call_fits hush 0 16 [APtr 16; APtr 32] /\ silent (farith n) hush (APtr 16) 16 /\ silent (farith n) hush (APtr 32) 16.
Proof. intros n. quiet_tac. Qed.

Theorem C94_minus_vec_simd : 
  forall (c : cfg) (B : backend) (n : nans (fmt_of B)) (m : mem (F (fmt_of B))) (out : Z) (a1 a2 : arg (F (fmt_of B))) (len : Z),
    simd_call_fits B m out len [a1; a2] -> silent (farith n) m a1 len -> silent (farith n) m a2 len ->
    leaves_silence m (minus_vec_simd (farith n) (fops c B n) B m out a1 a2 len) out len.
Proof. exact C94_minus_vec_simd_lemma. Qed.

Example C94_minus_vec_simd_ex :
  forall (n : nans F32), simd_call_fits AVX32 hush 0 16 [APtr 16; APtr 32] /\ silent (farith n) hush (APtr 16) 16 /\ silent (farith n) hush (APtr 32) 16.
Proof. intros n. quiet_tac. Qed.

(** the sum of three *)
Theorem C94_sum3_vec : 
  forall (t : fmt) (n : nans t) (m : mem (F t)) (out : Z) (a1 a2 a3 : arg (F t)) (len : Z),
    call_fits m out len [a1; a2; a3] -> silent (farith n) m a1 len -> silent (farith n) m a2 len -> silent (farith n) m a3 len ->
    leaves_silence m (sum_vec3 (farith n) (fops_scalar n) m out a1 a2 a3 len) out len.
Proof. exact C94_sum3_vec_lemma. Qed.

Example C94_sum3_vec_ex :
  forall (n : nans F32), call_fits hush 0 16 [APtr 16; APtr 32; APtr 48] /\ silent (farith n) hush (APtr 16) 16 /\ silent (farith n) hush (APtr 32) 16 /\ silent (farith n) hush (APtr 48) 16.
Proof. intros n. quiet_tac. Qed.

Theorem C94_sum3_vec_simd : 
  forall (c : cfg) (B : backend) (n : nans (fmt_of B)) (m : mem (F (fmt_of B))) (out : Z) (a1 a2 a3 : arg (F (fmt_of B))) (len : Z),
    simd_call_fits B m out len [a1; a2; a3] -> silent (farith n) m a1 len -> silent (farith n) m a2 len -> silent (farith n) m a3 len ->
    leaves_silence m (sum_vec3_simd (farith n) (fops c B n) B m out a1 a2 a3 len) out len.
Proof. exact C94_sum3_vec_simd_lemma. Qed.

Example C94_sum3_vec_simd_ex :
  forall (n : nans F32), simd_call_fits AVX32 hush 0 16 [APtr 16; APtr 32; APtr 48] /\ silent (farith n) hush (APtr 16) 16 /\ silent (farith n) hush (APtr 32) 16 /\ silent (farith n) hush (APtr 48) 16.
Proof. intros n. quiet_tac. Qed.

(** and of four silent signals is silent; *)
Theorem C94_sum4_vec : 
  forall (t : fmt) (n : nans t) (m : mem (F t)) (out : Z) (a1 a2 a3 a4 : arg (F t)) (len : Z),
    call_fits m out len [a1; a2; a3; a4] -> silent (farith n) m a1 len -> silent (farith n) m a2 len -> silent (farith n) m a3 len -> silent (farith n) m a4 len ->
    leaves_silence m (sum_vec4 (farith n) (fops_scalar n) m out a1 a2 a3 a4 len) out len.
Proof. exact C94_sum4_vec_lemma. Qed.

Example C94_sum4_vec_ex :
  forall (n : nans F32), call_fits hush 0 16 [APtr 16; APtr 32; APtr 48; APtr 16] /\ silent (farith n) hush (APtr 16) 16 /\ silent (farith n) hush (APtr 32) 16 /\ silent (farith n) hush (APtr 48) 16.
Proof. intros n. quiet_tac. Qed.

Theorem C94_sum4_vec_simd : 
  forall (c : cfg) (B : backend) (n : nans (fmt_of B)) (m : mem (F (fmt_of B))) (out : Z) (a1 a2 a3 a4 : arg (F (fmt_of B))) (len : Z),
    simd_call_fits B m out len [a1; a2; a3; a4] -> silent (farith n) m a1 len -> silent (farith n) m a2 len -> silent (farith n) m a3 len -> silent (farith n) m a4 len ->
    leaves_silence m (sum_vec4_simd (farith n) (fops c B n) B m out a1 a2 a3 a4 len) out len.
Proof. exact C94_sum4_vec_simd_lemma. Qed.

Example C94_sum4_vec_simd_ex :
  forall (n : nans F32), simd_call_fits AVX32 hush 0 16 [APtr 16; APtr 32; APtr 48; APtr 16] /\ silent (farith n) hush (APtr 16) 16 /\ silent (farith n) hush (APtr 32) 16 /\ silent (farith n) hush (APtr 48) 16.
Proof. intros n. quiet_tac. Qed.

(** so is a silent signal times a finite one, *)
Theorem C94_times_vec : 
  forall (t : fmt) (n : nans t) (m : mem (F t)) (out : Z) (a1 a2 : arg (F t)) (len : Z),
    call_fits m out len [a1; a2] -> silent (farith n) m a1 len -> samples (farith n) finite m a2 len ->
    leaves_silence m (times_vec (farith n) (fops_scalar n) m out a1 a2 len) out len.
Proof. exact C94_times_vec_lemma. Qed.

Example C94_times_vec_ex :
  forall (n : nans F32), call_fits hush 0 16 [APtr 16; AScal (f_ofZ F32 3)] /\ silent (farith n) hush (APtr 16) 16 /\ samples (farith n) finite hush (AScal (f_ofZ F32 3)) 16.
Proof. intros n. quiet_tac. Qed.

Theorem C94_times_vec_simd : 
  forall (c : cfg) (B : backend) (n : nans (fmt_of B)) (m : mem (F (fmt_of B))) (out : Z) (a1 a2 : arg (F (fmt_of B))) (len : Z),
    simd_call_fits B m out len [a1; a2] -> silent (farith n) m a1 len -> samples (farith n) finite m a2 len ->
    leaves_silence m (times_vec_simd (farith n) (fops c B n) B m out a1 a2 len) out len.
Proof. exact C94_times_vec_simd_lemma. Qed.

Example C94_times_vec_simd_ex :
  forall (n : nans F32), simd_call_fits AVX32 hush 0 16 [APtr 16; AScal (f_ofZ F32 3)] /\ silent (farith n) hush (APtr 16) 16 /\ samples (farith n) finite hush (AScal (f_ofZ F32 3)) 16.
Proof. intros n. quiet_tac. Qed.

(** also added to a silent one *)
Theorem C94_muladd_vec : 
  forall (t : fmt) (n : nans t) (m : mem (F t)) (out : Z) (a1 a2 a3 : arg (F t)) (len : Z),
    call_fits m out len [a1; a2; a3] -> silent (farith n) m a1 len -> samples (farith n) finite m a2 len -> silent (farith n) m a3 len ->
    leaves_silence m (muladd_vec (farith n) (fops_scalar n) m out a1 a2 a3 len) out len.
Proof. exact C94_muladd_vec_lemma. Qed.

Example C94_muladd_vec_ex :
  forall (n : nans F32), call_fits hush 0 16 [APtr 16; AScal (f_ofZ F32 3); APtr 48] /\ silent (farith n) hush (APtr 16) 16 /\ samples (farith n) finite hush (AScal (f_ofZ F32 3)) 16 /\ silent (farith n) hush (APtr 48) 16.
Proof. intros n. quiet_tac. Qed.

Theorem C94_muladd_vec_simd : 
  forall (c : cfg) (B : backend) (n : nans (fmt_of B)) (m : mem (F (fmt_of B))) (out : Z) (a1 a2 a3 : arg (F (fmt_of B))) (len : Z),
    simd_call_fits B m out len [a1; a2; a3] -> silent (farith n) m a1 len -> samples (farith n) finite m a2 len -> silent (farith n) m a3 len ->
    leaves_silence m (muladd_vec_simd (farith n) (fops c B n) B m out a1 a2 a3 len) out len.
Proof. exact C94_muladd_vec_simd_lemma. Qed.

Example C94_muladd_vec_simd_ex :
  forall (n : nans F32), simd_call_fits AVX32 hush 0 16 [APtr 16; AScal (f_ofZ F32 3); APtr 48] /\ silent (farith n) hush (APtr 16) 16 /\ samples (farith n) finite hush (AScal (f_ofZ F32 3)) 16 /\ silent (farith n) hush (APtr 48) 16.
Proof. intros n. quiet_tac. Qed.

(** or to another such product. *)
Theorem C94_mix_vec : 
  forall (t : fmt) (n : nans t) (m : mem (F t)) (out : Z) (a1 a2 a3 a4 : arg (F t)) (len : Z),
    call_fits m out len [a1; a2; a3; a4] -> silent (farith n) m a1 len -> samples (farith n) finite m a2 len -> silent (farith n) m a3 len -> samples (farith n) finite m a4 len ->
    leaves_silence m (mix_vec (farith n) (fops_scalar n) m out a1 a2 a3 a4 len) out len.
Proof. exact C94_mix_vec_lemma. Qed.

Example C94_mix_vec_ex :
  forall (n : nans F32), call_fits hush 0 16 [APtr 16; AScal (f_ofZ F32 3); APtr 48; AScal (f_ofZ F32 3)] /\ silent (farith n) hush (APtr 16) 16 /\ samples (farith n) finite hush (AScal (f_ofZ F32 3)) 16 /\ silent (farith n) hush (APtr 48) 16.
Proof. intros n. quiet_tac. Qed.

Theorem C94_mix_vec_simd : 
  forall (c : cfg) (B : backend) (n : nans (fmt_of B)) (m : mem (F (fmt_of B))) (out : Z) (a1 a2 a3 a4 : arg (F (fmt_of B))) (len : Z),
    simd_call_fits B m out len [a1; a2; a3; a4] -> silent (farith n) m a1 len -> samples (farith n) finite m a2 len -> silent (farith n) m a3 len -> samples (farith n) finite m a4 len ->
    leaves_silence m (mix_vec_simd (farith n) (fops c B n) B m out a1 a2 a3 a4 len) out len.
Proof. exact C94_mix_vec_simd_lemma. Qed.

Example C94_mix_vec_simd_ex :
  forall (n : nans F32), simd_call_fits AVX32 hush 0 16 [APtr 16; AScal (f_ofZ F32 3); APtr 48; AScal (f_ofZ F32 3)] /\ silent (farith n) hush (APtr 16) 16 /\ samples (farith n) finite hush (AScal (f_ofZ F32 3)) 16 /\ silent (farith n) hush (APtr 48) 16.
Proof. intros n. quiet_tac. Qed.

(** Any number of such functions and finite gains, one after the other in the same buffer, leave it silent. *)
Theorem C94_effects : 
  forall (B : backend) (w : world (fmt_of B)) (e : R) (effects : list (effect (fmt_of B))) (m : mem (F (fmt_of B))) (buf len : Z),
    library e (w_lib w) -> Forall harmless effects ->
    call_fits m buf len [APtr buf] -> silent (farith (w_nan w)) m (APtr buf) len ->
    leaves_silence m (in_turn (map (apply_effect B w buf len) effects) m) buf len.
Proof. exact C94_effects_lemma. Qed.

Example C94_effects_ex :
  forall (n : nans F32), library 1e-6 (w_lib (good_world n)) /\ Forall harmless [Gain (f_ofZ F32 3); Math Sin; Softclip; SignedSqrt; Math Tanh; Square] /\ call_fits hush 32 16 [APtr 32] /\ silent (farith (w_nan (good_world n))) hush (APtr 32) 16.
Proof. intros n. quiet_tac. Qed.

Theorem C94_effects_simd : 
  forall (c : cfg) (B : backend) (w : world (fmt_of B)) (k : nans F64) (e : R) (effects : list (effect (fmt_of B))) (m : mem (F (fmt_of B))) (buf len : Z),
    library e (w_lib w) -> Forall (harmless_simd B) effects ->
    simd_call_fits B m buf len [APtr buf] -> silent (farith (w_nan w)) m (APtr buf) len ->
    leaves_silence m (in_turn (map (apply_effect_simd c B w k buf len) effects) m) buf len.
Proof. exact C94_effects_simd_lemma. Qed.

Example C94_effects_simd_ex :
  forall (n : nans F32), library 1e-6 (w_lib (good_world n)) /\ Forall (harmless_simd AVX32) [Gain (f_ofZ F32 3); Math Sin; Softclip; SignedSqrt; Math Tanh; Square] /\ simd_call_fits AVX32 hush 32 16 [APtr 32] /\ silent (farith (w_nan (good_world n))) hush (APtr 32) 16.
Proof. intros n. quiet_tac. Qed.

(** Silence divided by silence is not silent, *)
Theorem C94_over_vec_nans : 
  forall (t : fmt) (n : nans t) (m : mem (F t)) (out : Z) (a1 a2 : arg (F t)) (len : Z),
    call_fits m out len [a1; a2] -> silent (farith n) m a1 len -> silent (farith n) m a2 len ->
    leaves_nans m (over_vec (farith n) (fops_scalar n) m out a1 a2 len) out len.
Proof. exact C94_over_vec_nans_lemma. Qed.

Example C94_over_vec_nans_ex :
  forall (n : nans F32), call_fits hush 0 16 [APtr 32; APtr 48] /\ silent (farith n) hush (APtr 32) 16 /\ silent (farith n) hush (APtr 48) 16.
Proof. intros n. quiet_tac. Qed.

(** nor is silence times an infinite gain. *)
Theorem C94_times_vec_nans : 
  forall (t : fmt) (n : nans t) (m : mem (F t)) (out : Z) (a1 : arg (F t)) (sign : bool) (len : Z),
    call_fits m out len [a1] -> silent (farith n) m a1 len ->
    leaves_nans m (times_vec (farith n) (fops_scalar n) m out a1 (AScal (infinite t sign)) len) out len.
Proof. exact C94_times_vec_nans_lemma. Qed.

Example C94_times_vec_nans_ex :
  forall (n : nans F32), call_fits hush 0 16 [APtr 32] /\ silent (farith n) hush (APtr 32) 16.
Proof. intros n. quiet_tac. Qed.

(** On NEON signed_sqrt of silence is not silent either. *)
Theorem C94_neon_signed_sqrt_vec_simd_nans : 
  forall (c : cfg) (n : nans F32) (m : mem (F F32)) (out p len : Z),
    simd_call_fits NEON32 m out len [APtr p] -> silent (farith n) m (APtr p) len ->
    leaves_nans m (neon_signed_sqrt_vec_simd n c m out p len) out len.
Proof. exact C94_neon_signed_sqrt_vec_simd_nans_lemma. Qed.

Example C94_neon_signed_sqrt_vec_simd_nans_ex :
  forall (n : nans F32), simd_call_fits NEON32 hush 0 16 [APtr 32] /\ silent (farith n) hush (APtr 32) 16.
Proof. intros n. quiet_tac. Qed.

(** All theorems of this file together, for one run of Print Assumptions. *)
Definition all_Quiet := (
  C94_abs_vec,
  C94_abs_vec_simd,
  C94_sgn_vec,
  C94_sgn_vec_simd,
  C94_square_vec,
  C94_square_vec_simd,
  C94_cube_vec,
  C94_cube_vec_simd,
  C94_round_vec,
  C94_round_vec_simd,
  C94_floor_vec,
  C94_floor_vec_simd,
  C94_ceil_vec,
  C94_ceil_vec_simd,
  C94_frac_vec,
  C94_frac_vec_simd,
  C94_undenormalize_vec,
  C94_undenormalize_vec_simd,
  C94_softclip_vec,
  C94_softclip_vec_simd,
  C94_signed_sqrt_vec,
  C94_signed_sqrt_vec_simd,
  C94_math_vec,
  C94_math_vec_simd,
  C94_math_vec_simd_ones,
  C94_plus_vec,
  C94_plus_vec_simd,
  C94_minus_vec,
  C94_minus_vec_simd,
  C94_sum3_vec,
  C94_sum3_vec_simd,
  C94_sum4_vec,
  C94_sum4_vec_simd,
  C94_times_vec,
  C94_times_vec_simd,
  C94_muladd_vec,
  C94_muladd_vec_simd,
  C94_mix_vec,
  C94_mix_vec_simd,
  C94_effects,
  C94_effects_simd,
  C94_over_vec_nans,
  C94_times_vec_nans,
  C94_neon_signed_sqrt_vec_simd_nans).
Print Assumptions all_Quiet.
