(** Division and square root by hardware estimates on NEON and Altivec (C67, C68). *)
From Coq Require Import ZArith Reals List Lia Bool Lra.
From Flocq Require Import Core IEEE754.Binary IEEE754.Bits.
From Verif Require Import
  Base Mem Backend Args Drivers Functors Lanes Float LaneOps FloatOps ScalarMath VecMath FloatFuns IntVec TransMath TransFuns Estimate Spec SpecLane SpecMath SpecEst
  FloatFacts FloatRound ExData ExFloat ExMath ExEst EstimateClaims.
Import ListNotations.
Local Open Scope Z_scope.

(** * C67: division and square root on NEON *)

(** operator/ has a relative error of at most 8.5e-6 (a correctly rounded one
    6e-8), whether the multiplication in the Newton step is rounded or not; *)
Theorem C67_division_accurate : 
  forall (n : nans F32) (fused : bool) (a b : F F32), safe_quotient a b ->
    close 8.5e-6 (neon_div n fused a b) (val a / val b).
Proof. exact C67_division_accurate_lemma. Qed.
Print Assumptions C67_division_accurate.

Example C67_division_accurate_ex :
  safe_quotient (f_lit F32 (-7) (-3)) (f_ofZ F32 3).
Proof. fite. Qed.

(** so has reciprocal, *)
Theorem C67_reciprocal_accurate : 
  forall (n : nans F32) (fused : bool) (x : F F32), safe_divisor x -> close 8.4e-6 (neon_reciprocal n fused x) (/ val x).
Proof. exact C67_reciprocal_accurate_lemma. Qed.
Print Assumptions C67_reciprocal_accurate.

Example C67_reciprocal_accurate_ex :
  safe_divisor (f_lit F32 (-7) (-3)).
Proof. fite. Qed.

(** while fast_reciprocal is good to eight bits. *)
Theorem C67_fast_reciprocal_accurate : 
  forall (n : nans F32) (x : F F32), isfin x = true -> (bpow radix2 (-126) <= Rabs (val x) < bpow radix2 126)%R ->
    close (187 / 65536) (neon_fast_reciprocal n x) (/ val x).
Proof. exact C67_fast_reciprocal_accurate_lemma. Qed.
Print Assumptions C67_fast_reciprocal_accurate.

Example C67_fast_reciprocal_accurate_ex :
  isfin (f_lit F32 (-7) (-3)) = true /\ (bpow radix2 (-126) <= Rabs (val (f_lit F32 (-7) (-3))) < bpow radix2 126)%R.
Proof. fite. Qed.

(** The bounds are attained up to a percent, at 274/256; *)
Theorem C67_not_more_accurate_refuted : 
  exists x : F F32, safe_divisor x /\ forall (n : nans F32) (fused : bool),
    ~ close 8.1e-6 (neon_reciprocal n fused x) (/ val x) /\ ~ close 2.85e-3 (neon_fast_reciprocal n x) (/ val x).
Proof. exact C67_not_more_accurate_refuted_lemma. Qed.
Print Assumptions C67_not_more_accurate_refuted.

(** exact quotients come out inexact: 1/1 is 1 - 2^-18. *)
Theorem C67_division_exact_refuted : 
  exists a b : F F32, safe_quotient a b /\ val a = 1%R /\ val b = 1%R /\ forall (n : nans F32) (fused : bool),
    (val (neon_div n fused a b) = 1 - 64 / 16777216)%R.
Proof. exact C67_division_exact_refuted_lemma. Qed.
Print Assumptions C67_division_exact_refuted.

(** Zero and subnormal divisors give an infinity of the right sign; *)
Theorem C67_small_divisor : 
  forall (n : nans F32) (fused : bool) (a b : F F32), isnan a = false -> ~ tiny a -> tiny b ->
    neon_div n fused a b = B754_infinity 24 128 (xorb (sgn a) (sgn b)).
Proof. exact C67_small_divisor_lemma. Qed.
Print Assumptions C67_small_divisor.

Example C67_small_divisor_ex :
  isnan (f_ofZ F32 3) = false /\ ~ tiny (f_ofZ F32 3) /\ tiny (f_lit F32 (-5) (-140)).
Proof. fite. Qed.

(** divisors of 2^126 and more give zero, as infinity does: *)
Theorem C67_large_divisor : 
  forall (n : nans F32) (fused : bool) (a b : F F32), isfin a = true -> huge b ->
    neon_div n fused a b = B754_zero 24 128 (xorb (sgn a) (sgn b)).
Proof. exact C67_large_divisor_lemma. Qed.
Print Assumptions C67_large_divisor.

Example C67_large_divisor_ex :
  isfin (f_lit F32 3 100) = true /\ huge (f_lit F32 (-12582912) 103).
Proof.
  split; [reflexivity|]. split; [reflexivity|]. intros _. assert (E : val (f_lit F32 (-12582912) 103) = (IZR (-12582912) * bpow radix2 103)%R) by (apply (f_lit_exact (t := F32) (-12582912) 103); [cbv; discriminate|cbv; discriminate|reflexivity]).
  rewrite E, Rabs_mult, (Rabs_pos_eq (bpow radix2 103)) by apply bpow_ge_0. replace (Rabs (IZR (-12582912))) with 12582912%R by (rewrite Rabs_left; lra).
  replace (bpow radix2 126) with (8388608 * bpow radix2 103)%R by (change 8388608%R with (bpow radix2 23); rewrite <- bpow_plus; reflexivity). pose proof (bpow_gt_0 radix2 103). lra.
Qed.

(** so x/x is 0 for x = 2^126. *)
Theorem C67_self_quotient_refuted : 
  exists x : F F32, isfin x = true /\ (0 < val x)%R /\ forall (n : nans F32) (fused : bool), neon_div n fused x x = f_ofZ F32 0.
Proof. exact C67_self_quotient_refuted_lemma. Qed.
Print Assumptions C67_self_quotient_refuted.

(** 0/0 and inf/inf are NaN. *)
Theorem C67_indeterminate : 
  forall (n : nans F32) (fused : bool) (a b : F F32), (is_zero a /\ is_zero b) \/ (is_inf a /\ is_inf b) -> isnan (neon_div n fused a b) = true.
Proof. exact C67_indeterminate_lemma. Qed.
Print Assumptions C67_indeterminate.

Example C67_indeterminate_ex :
  is_zero (f_ofZ F32 0) /\ is_inf (B754_infinity 24 128 true).
Proof. split; split; reflexivity. Qed.

(** sqrt has a relative error of at most 3.3e-3, *)
Theorem C67_sqrt_accurate : 
  forall (n : nans F32) (x : F F32), normal_positive x -> close 3.3e-3 (neon_sqrt n x) (sqrt (val x)).
Proof. exact C67_sqrt_accurate_lemma. Qed.
Print Assumptions C67_sqrt_accurate.

Example C67_sqrt_accurate_ex :
  normal_positive (f_lit F32 5 (-1)).
Proof. fitm. Qed.

(** which is attained up to a percent; *)
Theorem C67_sqrt_not_more_accurate_refuted : 
  exists x : F F32, normal_positive x /\ forall n : nans F32, ~ close 3.27e-3 (neon_sqrt n x) (sqrt (val x)).
Proof. exact C67_sqrt_not_more_accurate_refuted_lemma. Qed.
Print Assumptions C67_sqrt_not_more_accurate_refuted.

(** sqrt(4) is 1.99609375; *)
Theorem C67_sqrt_exact_refuted : 
  exists x : F F32, val x = 4%R /\ forall n : nans F32, val (neon_sqrt n x) = (511 / 256)%R.
Proof. exact C67_sqrt_exact_refuted_lemma. Qed.
Print Assumptions C67_sqrt_exact_refuted.

(** signed_sqrt is as accurate and keeps the sign. *)
Theorem C67_signed_sqrt_accurate : 
  forall (n : nans F32) (c : cfg) (x : F F32), isfin x = true -> ~ tiny x ->
    close 3.3e-3 (neon_signed_sqrt n c x) ((if sgn x then -1 else 1) * sqrt (Rabs (val x))).
Proof. exact C67_signed_sqrt_accurate_lemma. Qed.
Print Assumptions C67_signed_sqrt_accurate.

Example C67_signed_sqrt_accurate_ex :
  isfin (f_ofZ F32 (-3)) = true /\ ~ tiny (f_ofZ F32 (-3)).
Proof. fite. Qed.

(** But sqrt and signed_sqrt of zero and of infinity are NaN: silence becomes NaN. *)
Theorem C67_sqrt_of_zero_and_infinity : 
  forall (n : nans F32) (c : cfg) (x : F F32), is_zero x \/ is_inf x ->
    isnan (neon_signed_sqrt n c x) = true /\ (sgn x = false -> isnan (neon_sqrt n x) = true).
Proof. exact C67_sqrt_of_zero_and_infinity_lemma. Qed.
Print Assumptions C67_sqrt_of_zero_and_infinity.

Example C67_sqrt_of_zero_and_infinity_ex :
  is_zero (f_ofZ F32 0) /\ is_inf (B754_infinity 24 128 true).
Proof. split; split; reflexivity. Qed.

(** The buffer functions apply these to every sample, whatever the others hold, and
    write nothing else: over_vec_simd, *)
Theorem C67_over_vec_simd : 
  forall (n : nans F32) (fused : bool) (m : mem (F F32)) (out inp1 inp2 len : Z), binary_fit NEON32 m out inp1 inp2 len ->
    computes2 (fun a b r => safe_quotient a b -> close 8.5e-6 r (val a / val b)) m (neon_over_vec_simd n fused m out (APtr inp1) (APtr inp2) len) out inp1 inp2 len.
Proof. exact C67_over_vec_simd_lemma. Qed.
Print Assumptions C67_over_vec_simd.

Example C67_over_vec_simd_ex :
  let m := block 0 80 (fun a => f_ofZ F32 (a + 1)) in
  binary_fit NEON32 m 32 40 32 32.
Proof. fitm. Qed.

(** reciprocal_vec_simd *)
Theorem C67_reciprocal_vec_simd : 
  forall (n : nans F32) (fused : bool) (m : mem (F F32)) (out inp len : Z), unary_fit NEON32 m out inp len ->
    computes (fun x r => safe_divisor x -> close 8.4e-6 r (/ val x)) m (neon_reciprocal_vec_simd n fused m out inp len) out inp len.
Proof. exact C67_reciprocal_vec_simd_lemma. Qed.
Print Assumptions C67_reciprocal_vec_simd.

Example C67_reciprocal_vec_simd_ex :
  let m := block 0 80 (fun a => f_ofZ F32 (a + 1)) in
  unary_fit NEON32 m 32 40 32.
Proof. fitm. Qed.

(** and signed_sqrt_vec_simd. *)
Theorem C67_signed_sqrt_vec_simd : 
  forall (n : nans F32) (c : cfg) (m : mem (F F32)) (out inp len : Z), unary_fit NEON32 m out inp len ->
    computes (fun x r => (isfin x = true -> ~ tiny x -> close 3.3e-3 r ((if sgn x then -1 else 1) * sqrt (Rabs (val x)))) /\
      (is_zero x \/ is_inf x -> isnan r = true)) m (neon_signed_sqrt_vec_simd n c m out inp len) out inp len.
Proof. exact C67_signed_sqrt_vec_simd_lemma. Qed.
Print Assumptions C67_signed_sqrt_vec_simd.

Example C67_signed_sqrt_vec_simd_ex :
  let m := block 0 80 (fun a => f_ofZ F32 (a + 1)) in
  unary_fit NEON32 m 32 40 32.
Proof. fitm. Qed.

(** * C68: division and square root on Altivec *)

(** operator/ has a relative error of at most 2.6e-7 if the reciprocal estimate of
    the processor is as good as promised; *)
Theorem C68_division_accurate : 
  forall (n : nans F32) (c : cfg) (vec_re : F F32 -> F F32) (a b : F F32), re_spec vec_re -> safe_quotient a b ->
    close 2.6e-7 (altivec_div n vec_re c a b) (val a / val b).
Proof. exact C68_division_accurate_lemma. Qed.
Print Assumptions C68_division_accurate.

Example C68_division_accurate_ex :
  re_spec good_re /\ safe_quotient (f_lit F32 (-7) (-3)) (f_ofZ F32 3).
Proof. fite. Qed.

(** reciprocal of at most 1.6e-7, *)
Theorem C68_reciprocal_accurate : 
  forall (n : nans F32) (c : cfg) (vec_re : F F32 -> F F32) (x : F F32), re_spec vec_re -> safe_divisor x -> close 1.6e-7 (altivec_reciprocal n vec_re c x) (/ val x).
Proof. exact C68_reciprocal_accurate_lemma. Qed.
Print Assumptions C68_reciprocal_accurate.

Example C68_reciprocal_accurate_ex :
  re_spec good_re /\ safe_divisor (f_lit F32 (-7) (-3)).
Proof. fite. Qed.

(** sqrt of at most 3e-7. *)
Theorem C68_sqrt_accurate : 
  forall (n : nans F32) (c : cfg) (vec_rsqrte : F F32 -> F F32) (x : F F32), rsqrte_spec vec_rsqrte -> normal_positive x -> (val x <= bpow radix2 125)%R ->
    close 3e-7 (altivec_sqrt n vec_rsqrte c x) (sqrt (val x)).
Proof. exact C68_sqrt_accurate_lemma. Qed.
Print Assumptions C68_sqrt_accurate.

Example C68_sqrt_accurate_ex :
  rsqrte_spec good_rsqrte /\ normal_positive (f_lit F32 5 (-1)) /\ (val (f_lit F32 5 (-1)) <= bpow radix2 125)%R.
Proof. split; [exact good_rsqrte_ok|]. split; [fitm|fite]. Qed.

(** But a quotient by zero or by infinity is NaN, not an infinity or zero, *)
Theorem C68_division_by_zero_and_infinity : 
  forall (n : nans F32) (c : cfg) (vec_re : F F32 -> F F32) (a b : F F32), re_spec vec_re -> is_zero b \/ is_inf b ->
    isnan (altivec_reciprocal n vec_re c b) = true /\ isnan (altivec_div n vec_re c a b) = true.
Proof. exact C68_division_by_zero_and_infinity_lemma. Qed.
Print Assumptions C68_division_by_zero_and_infinity.

Example C68_division_by_zero_and_infinity_ex :
  re_spec good_re /\ is_zero (f_ofZ F32 0) /\ is_inf (B754_infinity 24 128 true).
Proof. split; [exact good_re_ok|]. split; split; reflexivity. Qed.

(** and so is the square root of zero and of infinity. *)
Theorem C68_sqrt_of_zero_and_infinity : 
  forall (n : nans F32) (c : cfg) (vec_rsqrte : F F32 -> F F32) (x : F F32), rsqrte_spec vec_rsqrte -> is_zero x \/ (is_inf x /\ sgn x = false) ->
    isnan (altivec_sqrt n vec_rsqrte c x) = true.
Proof. exact C68_sqrt_of_zero_and_infinity_lemma. Qed.
Print Assumptions C68_sqrt_of_zero_and_infinity.

Example C68_sqrt_of_zero_and_infinity_ex :
  rsqrte_spec good_rsqrte /\ is_zero (f_ofZ F32 0) /\ is_inf (B754_infinity 24 128 false).
Proof. split; [exact good_rsqrte_ok|]. split; split; reflexivity. Qed.

(** over_vec_simd *)
Theorem C68_over_vec_simd : 
  forall (n : nans F32) (c : cfg) (vec_re : F F32 -> F F32) (m : mem (F F32)) (out inp1 inp2 len : Z), re_spec vec_re -> binary_fit ALTIVEC32 m out inp1 inp2 len ->
    computes2 (fun a b r => (safe_quotient a b -> close 2.6e-7 r (val a / val b)) /\ (is_zero b \/ is_inf b -> isnan r = true))
      m (altivec_over_vec_simd n vec_re c m out (APtr inp1) (APtr inp2) len) out inp1 inp2 len.
Proof. exact C68_over_vec_simd_lemma. Qed.
Print Assumptions C68_over_vec_simd.

Example C68_over_vec_simd_ex :
  re_spec good_re /\ (let m := block 0 80 (fun a => f_ofZ F32 (a + 1)) in
  binary_fit ALTIVEC32 m 32 40 32 32).
Proof. split; [exact good_re_ok|fitm]. Qed.

(** and reciprocal_vec_simd do this to every sample. *)
Theorem C68_reciprocal_vec_simd : 
  forall (n : nans F32) (c : cfg) (vec_re : F F32 -> F F32) (m : mem (F F32)) (out inp len : Z), re_spec vec_re -> unary_fit ALTIVEC32 m out inp len ->
    computes (fun x r => (safe_divisor x -> close 1.6e-7 r (/ val x)) /\ (is_zero x \/ is_inf x -> isnan r = true))
      m (altivec_reciprocal_vec_simd n vec_re c m out inp len) out inp len.
Proof. exact C68_reciprocal_vec_simd_lemma. Qed.
Print Assumptions C68_reciprocal_vec_simd.

Example C68_reciprocal_vec_simd_ex :
  re_spec good_re /\ (let m := block 0 80 (fun a => f_ofZ F32 (a + 1)) in
  unary_fit ALTIVEC32 m 32 40 32).
Proof. split; [exact good_re_ok|fitm]. Qed.
