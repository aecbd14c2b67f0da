(** Transcendental functions: symmetry, saturation and special arguments
    (C45-C48, C50); reciprocal and multiply-add (C52, C53). *)
From Coq Require Import ZArith Reals List Lia Bool Lra.
From Flocq Require Import Core IEEE754.Binary IEEE754.Bits.
From Verif Require Import
  Base Mem Backend Args Drivers Functors Lanes Float LaneOps FloatOps ScalarMath VecMath FloatFuns IntVec TransMath TransFuns Spec SpecLane SpecMath
  FloatFacts RoundMore MathMore ExData ExFloat ExMath MathClaims.
Import ListNotations.
Local Open Scope Z_scope.

(** * C45: symmetry *)

(** sin(-x) is -sin(x) bit for bit, for every bit pattern including NaNs. *)
Theorem C45_sin_odd : 
  forall (c : cfg) (I : isa) (n : nans F32) (x : F F32), math_isa c I ->
    bits (vec_sin_float c I n (fneg x)) = bits (fneg (vec_sin_float c I n x)).
Proof. exact C45_sin_odd_lemma. Qed.

Example C45_sin_odd_ex :
  math_isa all_ext SSE.
Proof. fitm. Qed.

(** tan(-x) is -tan(x) bit for bit, for every bit pattern including NaNs. *)
Theorem C45_tan_odd : 
  forall (c : cfg) (I : isa) (n : nans F32) (x : F F32), math_isa c I ->
    bits (vec_tan_float c I n (fneg x)) = bits (fneg (vec_tan_float c I n x)).
Proof. exact C45_tan_odd_lemma. Qed.

Example C45_tan_odd_ex :
  math_isa all_ext SSE.
Proof. fitm. Qed.

(** atan(-x) is -atan(x) bit for bit, for every bit pattern including NaNs. *)
Theorem C45_atan_odd : 
  forall (c : cfg) (I : isa) (n : nans F32) (x : F F32), math_isa c I ->
    bits (vec_atan_float c I n (fneg x)) = bits (fneg (vec_atan_float c I n x)).
Proof. exact C45_atan_odd_lemma. Qed.

Example C45_atan_odd_ex :
  math_isa all_ext SSE.
Proof. fitm. Qed.

(** cos(-x) is cos(x) bit for bit. *)
Theorem C45_cos_even : 
  forall (c : cfg) (I : isa) (n : nans F32) (x : F F32), math_isa c I ->
    bits (vec_cos_float c I n (fneg x)) = bits (vec_cos_float c I n x).
Proof. exact C45_cos_even_lemma. Qed.

Example C45_cos_even_ex :
  math_isa all_ext SSE.
Proof. fitm. Qed.

(** asin is odd on [-1, 1]. *)
Theorem C45_asin_odd : 
  forall (c : cfg) (I : isa) (n : nans F32) (x : F F32), math_isa c I -> number x -> (Rabs (xval x) <= 1)%R ->
    bits (vec_asin_float c I n (fneg x)) = bits (fneg (vec_asin_float c I n x)).
Proof. exact C45_asin_odd_lemma. Qed.

Example C45_asin_odd_ex :
  math_isa all_ext SSE /\ number (f_lit F32 3 (-2)) /\ (Rabs (xval (f_lit F32 3 (-2))) <= 1)%R.
Proof. fitm. Qed.

(** Beyond it is not: both sides of 0 give +0. *)
Theorem C45_asin_unrestricted_refuted : 
  exists x : F F32, number x /\
    bits (vec_asin_float all_ext SSE (n0 F32) (fneg x)) <> bits (fneg (vec_asin_float all_ext SSE (n0 F32) x)).
Proof. exact C45_asin_unrestricted_refuted_lemma. Qed.

(** tanh is odd except at zero. *)
Theorem C45_tanh_odd : 
  forall (c : cfg) (I : isa) (n : nans F32) (x : F F32), math_isa c I -> number x -> xval x <> 0%R ->
    bits (vec_tanh_float c I n (fneg x)) = bits (fneg (vec_tanh_float c I n x)).
Proof. exact C45_tanh_odd_lemma. Qed.

Example C45_tanh_odd_ex :
  math_isa all_ext SSE /\ number (f_lit F32 3 (-2)) /\ xval (f_lit F32 3 (-2)) <> 0%R.
Proof. fitm. Qed.

(** At -0 the result is +0, on every x86 target. *)
Theorem C45_tanh_at_zero_refuted : 
  forall (c : cfg) (I : isa) (n : nans F32), math_isa c I -> exists x : F F32, number x /\
    bits (vec_tanh_float c I n (fneg x)) <> bits (fneg (vec_tanh_float c I n x)).
Proof. exact C45_tanh_at_zero_refuted_lemma. Qed.

Example C45_tanh_at_zero_refuted_ex :
  math_isa all_ext SSE.
Proof. fitm. Qed.

(** Buffers: negated input gives negated output. *)
Theorem C45_sin_vec_simd_mirrors : 
  forall (c : cfg) (B : backend) (n : nans F32) (m : mem (F F32)) (out inp1 inp2 len : Z),
    math_backend c B -> unary_fit B m out inp1 len -> unary_fit B m out inp2 len ->
    (forall i x, 0 <= i < len -> m (inp1 + i) = Some x -> m (inp2 + i) = Some (fneg x)) ->
    exists m1 m2, sin_vec_simd c B n m out inp1 len = Ok m1 /\ sin_vec_simd c B n m out inp2 len = Ok m2 /\
      forall i, 0 <= i < len -> exists y, m1 (out + i) = Some y /\ m2 (out + i) = Some (fneg y).
Proof. exact C45_sin_vec_simd_mirrors_lemma. Qed.

Example C45_sin_vec_simd_mirrors_ex :
  let m := block 0 80 (fun a => if a <? 40 then f_lit F32 (4 * a - 161) (-3) else fneg (f_lit F32 (4 * (a - 32) - 161) (-3))) in
  math_backend all_ext AVX32 /\ unary_fit AVX32 m 0 8 16 /\ unary_fit AVX32 m 0 40 16 /\
  (forall i x, 0 <= i < 16 -> m (8 + i) = Some x -> m (40 + i) = Some (fneg x)).
Proof.
  split; [left; reflexivity|]. split; [fitm|]. split; [fitm|]. intros i x Hi E. rewrite block_in in * by lia. apply some_inj in E. subst x.
  replace (8 + i <? 40) with true by lia. replace (40 + i <? 40) with false by lia. replace (4 * (40 + i - 32) - 161) with (4 * (8 + i) - 161) by lia. reflexivity.
Qed.

(** Buffers: negated input gives negated output. *)
Theorem C45_tan_vec_simd_mirrors : 
  forall (c : cfg) (B : backend) (n : nans F32) (m : mem (F F32)) (out inp1 inp2 len : Z),
    math_backend c B -> unary_fit B m out inp1 len -> unary_fit B m out inp2 len ->
    (forall i x, 0 <= i < len -> m (inp1 + i) = Some x -> m (inp2 + i) = Some (fneg x)) ->
    exists m1 m2, tan_vec_simd c B n m out inp1 len = Ok m1 /\ tan_vec_simd c B n m out inp2 len = Ok m2 /\
      forall i, 0 <= i < len -> exists y, m1 (out + i) = Some y /\ m2 (out + i) = Some (fneg y).
Proof. exact C45_tan_vec_simd_mirrors_lemma. Qed.

Example C45_tan_vec_simd_mirrors_ex :
  let m := block 0 80 (fun a => if a <? 40 then f_lit F32 (4 * a - 161) (-3) else fneg (f_lit F32 (4 * (a - 32) - 161) (-3))) in
  math_backend all_ext AVX32 /\ unary_fit AVX32 m 0 8 16 /\ unary_fit AVX32 m 0 40 16 /\
  (forall i x, 0 <= i < 16 -> m (8 + i) = Some x -> m (40 + i) = Some (fneg x)).
Proof.
  split; [left; reflexivity|]. split; [fitm|]. split; [fitm|]. intros i x Hi E. rewrite block_in in * by lia. apply some_inj in E. subst x.
  replace (8 + i <? 40) with true by lia. replace (40 + i <? 40) with false by lia. replace (4 * (40 + i - 32) - 161) with (4 * (8 + i) - 161) by lia. reflexivity.
Qed.

(** Buffers: negated input gives negated output. *)
Theorem C45_atan_vec_simd_mirrors : 
  forall (c : cfg) (B : backend) (n : nans F32) (m : mem (F F32)) (out inp1 inp2 len : Z),
    math_backend c B -> unary_fit B m out inp1 len -> unary_fit B m out inp2 len ->
    (forall i x, 0 <= i < len -> m (inp1 + i) = Some x -> m (inp2 + i) = Some (fneg x)) ->
    exists m1 m2, atan_vec_simd c B n m out inp1 len = Ok m1 /\ atan_vec_simd c B n m out inp2 len = Ok m2 /\
      forall i, 0 <= i < len -> exists y, m1 (out + i) = Some y /\ m2 (out + i) = Some (fneg y).
Proof. exact C45_atan_vec_simd_mirrors_lemma. Qed.

Example C45_atan_vec_simd_mirrors_ex :
  let m := block 0 80 (fun a => if a <? 40 then f_lit F32 (4 * a - 161) (-3) else fneg (f_lit F32 (4 * (a - 32) - 161) (-3))) in
  math_backend all_ext AVX32 /\ unary_fit AVX32 m 0 8 16 /\ unary_fit AVX32 m 0 40 16 /\
  (forall i x, 0 <= i < 16 -> m (8 + i) = Some x -> m (40 + i) = Some (fneg x)).
Proof.
  split; [left; reflexivity|]. split; [fitm|]. split; [fitm|]. intros i x Hi E. rewrite block_in in * by lia. apply some_inj in E. subst x.
  replace (8 + i <? 40) with true by lia. replace (40 + i <? 40) with false by lia. replace (4 * (40 + i - 32) - 161) with (4 * (8 + i) - 161) by lia. reflexivity.
Qed.

(** * C46: tanh saturates *)

(** Exactly +-1 beyond 22, infinities included. *)
Theorem C46_tanh_saturates : 
  forall (c : cfg) (I : isa) (n : nans F32) (x : F F32), math_isa c I -> number x -> (22 < Rabs (xval x))%R ->
    bits (vec_tanh_float c I n x) = bits (f_ofZ F32 (if sgn x then -1 else 1)).
Proof. exact C46_tanh_saturates_lemma. Qed.

Example C46_tanh_saturates_ex :
  math_isa all_ext SSE /\ number (f_lit F32 45 (-1)) /\ (22 < Rabs (xval (f_lit F32 45 (-1))))%R.
Proof. fitm. Qed.

(** The magnitude never exceeds 1. *)
Theorem C46_tanh_bounded : 
  forall (c : cfg) (I : isa) (n : nans F32) (x : F F32), math_isa c I -> number x ->
    isfin (vec_tanh_float c I n x) = true /\ (Rabs (val (vec_tanh_float c I n x)) <= 1)%R.
Proof. exact C46_tanh_bounded_lemma. Qed.

Example C46_tanh_bounded_ex :
  math_isa all_ext SSE /\ number (f_lit F32 45 (-1)).
Proof. fitm. Qed.

(** The sign follows the argument, down to the smallest subnormal. *)
Theorem C46_tanh_sign : 
  forall (c : cfg) (I : isa) (n : nans F32) (x : F F32), math_isa c I -> number x -> xval x <> 0%R ->
    sgn (vec_tanh_float c I n x) = sgn x.
Proof. exact C46_tanh_sign_lemma. Qed.

Example C46_tanh_sign_ex :
  math_isa all_ext SSE /\ number (f_lit F32 (-1) (-149)) /\ xval (f_lit F32 (-1) (-149)) <> 0%R.
Proof. fitm. Qed.

(** On AVX a NaN becomes +-1. *)
Theorem C46_tanh_nan_avx : 
  forall (c : cfg) (n : nans F32) (x : F F32), isnan x = true ->
    bits (vec_tanh_float c AVX n x) = bits (f_ofZ F32 (if sgn x then -1 else 1)).
Proof. exact C46_tanh_nan_avx_lemma. Qed.

Example C46_tanh_nan_avx_ex :
  isnan (qnan F32) = true.
Proof. reflexivity. Qed.

(** Buffers: a waveshaper built on tanh never leaves [-1, 1]. *)
Theorem C46_tanh_vec_simd_bounded : 
  forall (c : cfg) (B : backend) (n : nans F32) (m : mem (F F32)) (out inp len : Z), math_backend c B -> unary_fit B m out inp len -> each number m inp len ->
    computes (fun x y => isfin y = true /\ (Rabs (val y) <= 1)%R /\ (xval x <> 0%R -> sgn y = sgn x))
      m (tanh_vec_simd c B n m out inp len) out inp len.
Proof. exact C46_tanh_vec_simd_bounded_lemma. Qed.

Example C46_tanh_vec_simd_bounded_ex :
  let m := block 0 80 (fun a => f_lit F32 (4 * a - 161) (-3)) in
  math_backend all_ext AVX32 /\ unary_fit AVX32 m 32 40 32 /\ each number m 40 32.
Proof. fitm. Qed.

(** * C47: asin and acos outside [-1, 1] *)

(** +0 instead of a NaN. *)
Theorem C47_asin_outside : 
  forall (c : cfg) (I : isa) (n : nans F32) (x : F F32), math_isa c I -> number x -> (1 < Rabs (xval x))%R ->
    bits (vec_asin_float c I n x) = 0.
Proof. exact C47_asin_outside_lemma. Qed.

Example C47_asin_outside_ex :
  math_isa all_ext SSE /\ number (f_lit F32 3 (-1)) /\ (1 < Rabs (xval (f_lit F32 3 (-1))))%R.
Proof. fitm. Qed.

(** On AVX a NaN becomes +0 as well. *)
Theorem C47_asin_nan_avx : 
  forall (c : cfg) (n : nans F32) (x : F F32), isnan x = true -> bits (vec_asin_float c AVX n x) = 0.
Proof. exact C47_asin_nan_avx_lemma. Qed.

Example C47_asin_nan_avx_ex :
  isnan (qnan F32) = true.
Proof. reflexivity. Qed.

(** Buffers: every sample beyond 1 becomes 0. *)
Theorem C47_asin_vec_simd_outside : 
  forall (c : cfg) (B : backend) (n : nans F32) (m : mem (F F32)) (out inp len : Z), math_backend c B -> unary_fit B m out inp len -> each (fun x => number x /\ (1 < Rabs (xval x))%R) m inp len ->
    computes (fun _ y => bits y = 0) m (asin_vec_simd c B n m out inp len) out inp len.
Proof. exact C47_asin_vec_simd_outside_lemma. Qed.

Example C47_asin_vec_simd_outside_ex :
  let m := block 0 80 (fun a => f_lit F32 (4 * a + 9) (-3)) in
  math_backend all_ext AVX32 /\ unary_fit AVX32 m 32 40 32 /\ each (fun x => number x /\ (1 < Rabs (xval x))%R) m 40 32.
Proof.
  split; [left; reflexivity|]. split; [fitm|]. intros i x Hi E. rewrite block_in in E by lia. apply some_inj in E. subst x.
  destruct (lit32 (4 * (40 + i) + 9) (-3)) as [A V]; [lia|lia|]. split; [apply fin_not_nan; exact A|]. rewrite xval_fin, V by exact A.
  assert (Q : (100 <= IZR (4 * (40 + i) + 9))%R) by (apply IZR_le; lia). change (bpow radix2 (-3)) with (/ 8)%R. rewrite Rabs_pos_eq; lra.
Qed.

(** +0 instead of a NaN. *)
Theorem C47_acos_outside : 
  forall (c : cfg) (I : isa) (n : nans F32) (x : F F32), math_isa c I -> number x -> (1 < Rabs (xval x))%R ->
    bits (vec_acos_float c I n x) = 0.
Proof. exact C47_acos_outside_lemma. Qed.

Example C47_acos_outside_ex :
  math_isa all_ext SSE /\ number (f_lit F32 3 (-1)) /\ (1 < Rabs (xval (f_lit F32 3 (-1))))%R.
Proof. fitm. Qed.

(** On AVX a NaN becomes +0 as well. *)
Theorem C47_acos_nan_avx : 
  forall (c : cfg) (n : nans F32) (x : F F32), isnan x = true -> bits (vec_acos_float c AVX n x) = 0.
Proof. exact C47_acos_nan_avx_lemma. Qed.

Example C47_acos_nan_avx_ex :
  isnan (qnan F32) = true.
Proof. reflexivity. Qed.

(** Buffers: every sample beyond 1 becomes 0. *)
Theorem C47_acos_vec_simd_outside : 
  forall (c : cfg) (B : backend) (n : nans F32) (m : mem (F F32)) (out inp len : Z), math_backend c B -> unary_fit B m out inp len -> each (fun x => number x /\ (1 < Rabs (xval x))%R) m inp len ->
    computes (fun _ y => bits y = 0) m (acos_vec_simd c B n m out inp len) out inp len.
Proof. exact C47_acos_vec_simd_outside_lemma. Qed.

Example C47_acos_vec_simd_outside_ex :
  let m := block 0 80 (fun a => f_lit F32 (4 * a + 9) (-3)) in
  math_backend all_ext AVX32 /\ unary_fit AVX32 m 32 40 32 /\ each (fun x => number x /\ (1 < Rabs (xval x))%R) m 40 32.
Proof.
  split; [left; reflexivity|]. split; [fitm|]. intros i x Hi E. rewrite block_in in E by lia. apply some_inj in E. subst x.
  destruct (lit32 (4 * (40 + i) + 9) (-3)) as [A V]; [lia|lia|]. split; [apply fin_not_nan; exact A|]. rewrite xval_fin, V by exact A.
  assert (Q : (100 <= IZR (4 * (40 + i) + 9))%R) by (apply IZR_le; lia). change (bpow radix2 (-3)) with (/ 8)%R. rewrite Rabs_pos_eq; lra.
Qed.

(** * C48: exp saturates *)

(** FLT_MAX above 1453635/16384 = 88.72283935546875, infinity included. *)
Theorem C48_exp_above : 
  forall (c : cfg) (I : isa) (n : nans F32) (x : F F32), math_isa c I -> number x -> (1453635 / 16384 < xval x)%R ->
    bits (vec_exp_float c I n x) = bits (f_max F32).
Proof. exact C48_exp_above_lemma. Qed.

Example C48_exp_above_ex :
  math_isa all_ext SSE /\ number (f_lit F32 89 0) /\ (1453635 / 16384 < xval (f_lit F32 89 0))%R.
Proof. fitm. Qed.

(** +0 below -88, infinity included. *)
Theorem C48_exp_below : 
  forall (c : cfg) (I : isa) (n : nans F32) (x : F F32), math_isa c I -> number x -> (xval x < - 88)%R -> bits (vec_exp_float c I n x) = 0.
Proof. exact C48_exp_below_lemma. Qed.

Example C48_exp_below_ex :
  math_isa all_ext SSE /\ number (f_lit F32 (-89) 0) /\ (xval (f_lit F32 (-89) 0) < - 88)%R.
Proof. fitm. Qed.

(** Finite and not negative for every number but one, *)
Theorem C48_exp_finite : 
  forall (c : cfg) (I : isa) (n : nans F32) (x : F F32), math_isa c I -> number x -> xval x <> (1453635 / 16384)%R ->
    isfin (vec_exp_float c I n x) = true /\ sgn (vec_exp_float c I n x) = false.
Proof. exact C48_exp_finite_lemma. Qed.

Example C48_exp_finite_ex :
  math_isa all_ext SSE /\ number (f_lit F32 5 (-1)) /\ xval (f_lit F32 5 (-1)) <> (1453635 / 16384)%R.
Proof. fitm. Qed.

(** 88.72283935546875, the upper limit itself, where the result is a NaN. *)
Theorem C48_exp_edge_refuted : 
  forall (c : cfg) (I : isa) (n : nans F32), math_isa c I ->
    exists x : F F32, isfin x = true /\ val x = (1453635 / 16384)%R /\ isnan (vec_exp_float c I n x) = true.
Proof. exact C48_exp_edge_refuted_lemma. Qed.

Example C48_exp_edge_refuted_ex :
  math_isa all_ext SSE.
Proof. fitm. Qed.

(** Exactly 1 at both zeros. *)
Theorem C48_exp_zero : 
  forall (c : cfg) (I : isa) (n : nans F32) (x : F F32), math_isa c I -> isfin x = true -> val x = 0%R ->
    bits (vec_exp_float c I n x) = bits (f_ofZ F32 1).
Proof. exact C48_exp_zero_lemma. Qed.

Example C48_exp_zero_ex :
  math_isa all_ext SSE /\ isfin (fneg (f_ofZ F32 0)) = true /\ val (fneg (f_ofZ F32 0)) = 0%R.
Proof. split; [right; split; reflexivity|]. split; [reflexivity|rewrite val_fneg; apply Ropp_0]. Qed.

(** NaN stays NaN on SSE, *)
Theorem C48_exp_nan_sse : 
  forall (c : cfg) (n : nans F32) (x : F F32), has_sse2 c = true -> isnan x = true -> isnan (vec_exp_float c SSE n x) = true.
Proof. exact C48_exp_nan_sse_lemma. Qed.

Example C48_exp_nan_sse_ex :
  has_sse2 all_ext = true /\ isnan (qnan F32) = true.
Proof. split; reflexivity. Qed.

(** but becomes FLT_MAX on AVX. *)
Theorem C48_exp_nan_avx : 
  forall (c : cfg) (n : nans F32) (x : F F32), isnan x = true -> bits (vec_exp_float c AVX n x) = bits (f_max F32).
Proof. exact C48_exp_nan_avx_lemma. Qed.

Example C48_exp_nan_avx_ex :
  isnan (qnan F32) = true.
Proof. reflexivity. Qed.

(** Buffers. *)
Theorem C48_exp_vec_simd_finite : 
  forall (c : cfg) (B : backend) (n : nans F32) (m : mem (F F32)) (out inp len : Z), math_backend c B -> unary_fit B m out inp len -> each (fun x => number x /\ xval x <> (1453635 / 16384)%R) m inp len ->
    computes (fun _ y => isfin y = true /\ sgn y = false) m (exp_vec_simd c B n m out inp len) out inp len.
Proof. exact C48_exp_vec_simd_finite_lemma. Qed.

Example C48_exp_vec_simd_finite_ex :
  let m := block 0 80 (fun a => f_lit F32 (4 * a - 161) (-3)) in
  math_backend all_ext AVX32 /\ unary_fit AVX32 m 32 40 32 /\ each (fun x => number x /\ xval x <> (1453635 / 16384)%R) m 40 32.
Proof.
  split; [left; reflexivity|]. split; [fitm|]. intros i x Hi E. rewrite block_in in E by lia. apply some_inj in E. subst x.
  destruct (lit32 (4 * (40 + i) - 161) (-3)) as [A V]; [lia|lia|]. split; [apply fin_not_nan; exact A|]. rewrite xval_fin, V by exact A.
  assert (Q : (IZR (4 * (40 + i) - 161) <= 200)%R) by (apply IZR_le; lia). change (bpow radix2 (-3)) with (/ 8)%R. lra.
Qed.

(** * C50: log, pow and zero *)

(** log is a finite number for every bit pattern: zero, negative numbers, infinities
    and NaNs included. *)
Theorem C50_log_finite : 
  forall (c : cfg) (I : isa) (n : nans F32) (x : F F32), math_isa c I -> isfin (vec_log_float c I n x) = true.
Proof. exact C50_log_finite_lemma. Qed.

Example C50_log_finite_ex :
  math_isa all_ext SSE.
Proof. fitm. Qed.

(** log(0) is about -88.03, not -infinity, *)
Theorem C50_log_of_zero : 
  forall (c : cfg) (I : isa) (n : nans F32), math_isa c I -> (- 88.1 < val (vec_log_float c I n (f_ofZ F32 0)) < - 88)%R.
Proof. exact C50_log_of_zero_lemma. Qed.

Example C50_log_of_zero_ex :
  math_isa all_ext SSE.
Proof. fitm. Qed.

(** and log(infinity) about 88.72. *)
Theorem C50_log_of_infinity : 
  forall (c : cfg) (I : isa) (n : nans F32) (x : F F32), math_isa c I -> number x -> isfin x = false -> sgn x = false -> (88 < val (vec_log_float c I n x) < 89)%R.
Proof. exact C50_log_of_infinity_lemma. Qed.

Example C50_log_of_infinity_ex :
  math_isa all_ext SSE /\ number (B754_infinity 24 128 false : F F32).
Proof. split; [right; split; reflexivity|reflexivity]. Qed.

(** log(1) is exactly +0. *)
Theorem C50_log_one : 
  forall (c : cfg) (I : isa) (n : nans F32), math_isa c I -> bits (vec_log_float c I n (f_ofZ F32 1)) = 0.
Proof. exact C50_log_one_lemma. Qed.

Example C50_log_one_ex :
  math_isa all_ext SSE.
Proof. fitm. Qed.

(** pow(0, y) is +0 for every y: also for y = 0, negative y and NaN. *)
Theorem C50_pow_of_zero : 
  forall (c : cfg) (I : isa) (n : nans F32) (x y : F F32), math_isa c I -> isfin x = true -> val x = 0%R -> bits (vec_pow c I n x y) = 0.
Proof. exact C50_pow_of_zero_lemma. Qed.

Example C50_pow_of_zero_ex :
  math_isa all_ext SSE /\ isfin (fneg (f_ofZ F32 0)) = true /\ val (fneg (f_ofZ F32 0)) = 0%R.
Proof. split; [right; split; reflexivity|]. split; [reflexivity|rewrite val_fneg; apply Ropp_0]. Qed.

(** pow has no sign for any base (negative ones included) and finite exponent. *)
Theorem C50_pow_not_negative : 
  forall (c : cfg) (I : isa) (n : nans F32) (x y : F F32), math_isa c I -> isfin y = true -> sgn (vec_pow c I n x y) = false.
Proof. exact C50_pow_not_negative_lemma. Qed.

Example C50_pow_not_negative_ex :
  math_isa all_ext SSE /\ isfin (f_lit F32 (-3) 0) = true.
Proof. fitm. Qed.

(** signed_pow is pow of the magnitude with the sign of the base, *)
Theorem C50_signed_pow : 
  forall (c : cfg) (I : isa) (n : nans F32) (x y : F F32), math_isa c I -> isfin y = true ->
    bits (vec_signed_pow c I n x y) = bits (if sgn x then fneg (vec_pow c I n (fabs x) y) else vec_pow c I n (fabs x) y).
Proof. exact C50_signed_pow_lemma. Qed.

Example C50_signed_pow_ex :
  math_isa all_ext SSE /\ isfin (f_lit F32 (-3) 0) = true.
Proof. fitm. Qed.

(** so it keeps the sign of its base and is odd in it. *)
Theorem C50_signed_pow_odd : 
  forall (c : cfg) (I : isa) (n : nans F32) (x y : F F32), math_isa c I -> isfin y = true ->
    sgn (vec_signed_pow c I n x y) = sgn x /\
    bits (vec_signed_pow c I n (fneg x) y) = bits (fneg (vec_signed_pow c I n x y)).
Proof. exact C50_signed_pow_odd_lemma. Qed.

Example C50_signed_pow_odd_ex :
  math_isa all_ext SSE /\ isfin (f_lit F32 (-3) 0) = true.
Proof. fitm. Qed.

(** Buffers. *)
Theorem C50_log_vec_simd_finite : 
  forall (c : cfg) (B : backend) (n : nans F32) (m : mem (F F32)) (out inp len : Z), math_backend c B -> unary_fit B m out inp len -> computes (fun _ y => isfin y = true) m (log_vec_simd c B n m out inp len) out inp len.
Proof. exact C50_log_vec_simd_finite_lemma. Qed.

Example C50_log_vec_simd_finite_ex :
  let m := block 0 80 (fun a => f_lit F32 (4 * a - 161) (-3)) in
  math_backend all_ext AVX32 /\ unary_fit AVX32 m 32 40 32.
Proof. fitm. Qed.

Theorem C50_pow_vec_simd_not_negative : 
  forall (c : cfg) (B : backend) (n : nans F32) (m : mem (F F32)) (out inp1 inp2 len : Z), math_backend c B -> binary_fit B m out inp1 inp2 len -> each (fun y => isfin y = true) m inp2 len ->
    computes2 (fun _ _ z => sgn z = false) m (pow_vec_simd c B n m out (APtr inp1) (APtr inp2) len) out inp1 inp2 len.
Proof. exact C50_pow_vec_simd_not_negative_lemma. Qed.

Example C50_pow_vec_simd_not_negative_ex :
  let m := block 0 80 (fun a => f_lit F32 (4 * a - 161) (-3)) in
  math_backend all_ext AVX32 /\ binary_fit AVX32 m 32 40 48 16 /\ each (fun y => isfin y = true) m 48 16.
Proof.
  split; [left; reflexivity|]. split; [fitm|]. intros i x Hi E. rewrite block_in in E by lia. apply some_inj in E. subst x. apply lit32; lia.
Qed.

Theorem C50_spow_vec_simd_sign : 
  forall (c : cfg) (B : backend) (n : nans F32) (m : mem (F F32)) (out inp1 inp2 len : Z), math_backend c B -> binary_fit B m out inp1 inp2 len -> each (fun y => isfin y = true) m inp2 len ->
    computes2 (fun x _ z => sgn z = sgn x) m (spow_vec_simd c B n m out (APtr inp1) (APtr inp2) len) out inp1 inp2 len.
Proof. exact C50_spow_vec_simd_sign_lemma. Qed.

Example C50_spow_vec_simd_sign_ex :
  let m := block 0 80 (fun a => f_lit F32 (4 * a - 161) (-3)) in
  math_backend all_ext AVX32 /\ binary_fit AVX32 m 32 40 48 16 /\ each (fun y => isfin y = true) m 48 16.
Proof.
  split; [left; reflexivity|]. split; [fitm|]. intros i x Hi E. rewrite block_in in E by lia. apply some_inj in E. subst x. apply lit32; lia.
Qed.

(** * C52: reciprocal *)

(** One Newton step takes any estimate with the hardware's documented error of
    1.5 * 2^-12 below 2^-21, fused or not. *)
Theorem C52_reciprocal_accurate : 
  forall (c : cfg) (I : isa) (n : nans F32) (estimate : F F32 -> F F32) (x : F F32), math_isa c I -> isfin x = true ->
    (bpow radix2 (-126) <= Rabs (val x) <= bpow radix2 125)%R -> close (1.5 / 4096) (estimate x) (/ val x) ->
    close (/ 2097152) (vec_reciprocal_newton c I n estimate x) (/ val x).
Proof. exact C52_reciprocal_accurate_lemma. Qed.

Example C52_reciprocal_accurate_ex :
  let x := f_lit F32 3 0 in let r := f_lit F32 1365 (-12) in
  math_isa all_ext SSE /\ isfin x = true /\ (bpow radix2 (-126) <= Rabs (val x) <= bpow radix2 125)%R /\ close (1.5 / 4096) r (/ val x).
Proof.
  cbv zeta. destruct (lit32 3 0) as [A V]; [lia|lia|]. destruct (lit32 1365 (-12)) as [A' V']; [lia|lia|].
  split; [right; split; reflexivity|]. split; [exact A|]. rewrite V. change (bpow radix2 0) with 1%R. split.
  - assert (bpow radix2 (-126) <= bpow radix2 0)%R by (apply bpow_le; lia). assert (bpow radix2 2 <= bpow radix2 125)%R by (apply bpow_le; lia).
    change (bpow radix2 0) with 1%R in *. change (bpow radix2 2) with 4%R in *. rewrite Rabs_pos_eq; lra.
  - split; [exact A'|]. rewrite V'. change (bpow radix2 (-12)) with (/ 4096)%R. rewrite Rabs_left1, (Rabs_pos_eq (/ (3 * 1))) by lra. lra.
Qed.

(** For a zero, whose estimate is an infinity, the step gives a NaN, *)
Theorem C52_reciprocal_of_zero : 
  forall (c : cfg) (I : isa) (n : nans F32) (estimate : F F32 -> F F32) (x : F F32), math_isa c I -> isfin x = true -> val x = 0%R ->
    isfin (estimate x) = false -> isnan (estimate x) = false ->
    isnan (vec_reciprocal_newton c I n estimate x) = true.
Proof. exact C52_reciprocal_of_zero_lemma. Qed.

Example C52_reciprocal_of_zero_ex :
  let r := B754_infinity 24 128 false : F F32 in math_isa all_ext SSE /\ isfin (f_ofZ F32 0) = true /\ val (f_ofZ F32 0) = 0%R /\ isfin r = false /\ isnan r = false.
Proof. split; [right; split; reflexivity|]. split; [reflexivity|]. split; [apply zero_ok|]. split; reflexivity. Qed.

(** and likewise for an infinity, whose estimate is a zero. *)
Theorem C52_reciprocal_of_infinity : 
  forall (c : cfg) (I : isa) (n : nans F32) (estimate : F F32 -> F F32) (x : F F32), math_isa c I -> isfin x = false -> isnan x = false ->
    isfin (estimate x) = true -> val (estimate x) = 0%R ->
    isnan (vec_reciprocal_newton c I n estimate x) = true.
Proof. exact C52_reciprocal_of_infinity_lemma. Qed.

Example C52_reciprocal_of_infinity_ex :
  let x := B754_infinity 24 128 false : F F32 in math_isa all_ext SSE /\ isfin x = false /\ isnan x = false /\ isfin (f_ofZ F32 0) = true /\ val (f_ofZ F32 0) = 0%R.
Proof. split; [right; split; reflexivity|]. split; [reflexivity|]. split; [reflexivity|]. split; [reflexivity|apply zero_ok]. Qed.

(** * C53: muladd, fused and unfused *)

(** muladd of one lane is within two roundings of a*b+x on every back-end, fused or not, *)
Theorem C53_madd_error : 
  forall (c : cfg) (I : isa) (n : nans F32) (a b x : F F32), isfin a = true -> isfin b = true -> isfin x = true ->
    (Rabs (val a * val b) <= bpow radix2 125)%R -> (Rabs (val x) <= bpow radix2 126)%R ->
    isfin (madd c I n a b x) = true /\
    (Rabs (val (madd c I n a b x) - (val a * val b + val x)) <=
     bpow radix2 (-24) * (Rabs (val a * val b + val x) + 1.001 * Rabs (val a * val b)) + bpow radix2 (-148))%R.
Proof. exact C53_madd_error_lemma. Qed.

Example C53_madd_error_ex :
  let a := f_lit F32 3 (-1) in let b := f_lit F32 5 (-2) in let x := f_lit F32 (-7) 3 in
  isfin a = true /\ isfin b = true /\ isfin x = true /\ (Rabs (val a * val b) <= bpow radix2 125)%R /\ (Rabs (val x) <= bpow radix2 126)%R.
Proof.
  cbv zeta. destruct (lit32 3 (-1)) as [A V]; [lia|lia|]. destruct (lit32 5 (-2)) as [A' V']; [lia|lia|]. destruct (lit32 (-7) 3) as [A2 V2]; [lia|lia|].
  assert (bpow radix2 6 <= bpow radix2 125)%R by (apply bpow_le; lia). assert (bpow radix2 6 <= bpow radix2 126)%R by (apply bpow_le; lia).
  change (bpow radix2 6) with 64%R in *. split; [exact A|]. split; [exact A'|]. split; [exact A2|]. rewrite V, V', V2.
  change (bpow radix2 (-1)) with (/ 2)%R. change (bpow radix2 (-2)) with (/ 4)%R. change (bpow radix2 3) with 8%R.
  split; [rewrite Rabs_pos_eq; lra|rewrite Rabs_left1; lra].
Qed.

(** and so is the scalar expression, so the two differ by at most twice that. *)
Theorem C53_scalar_muladd_error : 
  forall (n : nans F32) (a b x : F F32), isfin a = true -> isfin b = true -> isfin x = true ->
    (Rabs (val a * val b) <= bpow radix2 125)%R -> (Rabs (val x) <= bpow radix2 126)%R ->
    isfin (fadd n (fmul n a b) x) = true /\
    (Rabs (val (fadd n (fmul n a b) x) - (val a * val b + val x)) <=
     bpow radix2 (-24) * (Rabs (val a * val b + val x) + 1.001 * Rabs (val a * val b)) + bpow radix2 (-148))%R.
Proof. exact C53_scalar_muladd_error_lemma. Qed.

Example C53_scalar_muladd_error_ex :
  let a := f_lit F32 3 (-1) in let b := f_lit F32 5 (-2) in let x := f_lit F32 (-7) 3 in
  isfin a = true /\ isfin b = true /\ isfin x = true /\ (Rabs (val a * val b) <= bpow radix2 125)%R /\ (Rabs (val x) <= bpow radix2 126)%R.
Proof.
  cbv zeta. destruct (lit32 3 (-1)) as [A V]; [lia|lia|]. destruct (lit32 5 (-2)) as [A' V']; [lia|lia|]. destruct (lit32 (-7) 3) as [A2 V2]; [lia|lia|].
  assert (bpow radix2 6 <= bpow radix2 125)%R by (apply bpow_le; lia). assert (bpow radix2 6 <= bpow radix2 126)%R by (apply bpow_le; lia).
  change (bpow radix2 6) with 64%R in *. split; [exact A|]. split; [exact A'|]. split; [exact A2|]. rewrite V, V', V2.
  change (bpow radix2 (-1)) with (/ 2)%R. change (bpow radix2 (-2)) with (/ 4)%R. change (bpow radix2 3) with 8%R.
  split; [rewrite Rabs_pos_eq; lra|rewrite Rabs_left1; lra].
Qed.

(** When the product is representable they are equal. *)
Theorem C53_exact_product : 
  forall (c : cfg) (I : isa) (n : nans F32) (a b x : F F32), isfin a = true -> isfin b = true -> isfin x = true ->
    (Rabs (val a * val b) <= bpow radix2 125)%R -> (Rabs (val x) <= bpow radix2 126)%R ->
    (exists p : F F32, isfin p = true /\ val p = val a * val b)%R ->
    isfin (madd c I n a b x) = true /\ val (madd c I n a b x) = val (fadd n (fmul n a b) x).
Proof. exact C53_exact_product_lemma. Qed.

Example C53_exact_product_ex :
  let a := f_lit F32 3 (-1) in let b := f_lit F32 5 (-2) in let x := f_lit F32 (-7) 3 in
  isfin a = true /\ isfin b = true /\ isfin x = true /\ (Rabs (val a * val b) <= bpow radix2 125)%R /\ (Rabs (val x) <= bpow radix2 126)%R /\ (exists p : F F32, isfin p = true /\ val p = val a * val b)%R.
Proof.
  cbv zeta. destruct (lit32 3 (-1)) as [A V]; [lia|lia|]. destruct (lit32 5 (-2)) as [A' V']; [lia|lia|]. destruct (lit32 (-7) 3) as [A2 V2]; [lia|lia|].
  assert (bpow radix2 6 <= bpow radix2 125)%R by (apply bpow_le; lia). assert (bpow radix2 6 <= bpow radix2 126)%R by (apply bpow_le; lia).
  change (bpow radix2 6) with 64%R in *. split; [exact A|]. split; [exact A'|]. split; [exact A2|]. rewrite V, V', V2.
  change (bpow radix2 (-1)) with (/ 2)%R. change (bpow radix2 (-2)) with (/ 4)%R. change (bpow radix2 3) with 8%R.
  split; [rewrite Rabs_pos_eq; lra|]. split; [rewrite Rabs_left1; lra|]. destruct (lit32 15 (-3)) as [A3 V3]; [lia|lia|].
  exists (f_lit F32 15 (-3)). split; [exact A3|]. rewrite V3. change (bpow radix2 (-3)) with (/ 8)%R. lra.
Qed.

(** They can differ, by everything: x = -(a*b rounded) leaves the rounding error in
    one and 0 in the other. *)
Theorem C53_forms_differ_refuted : 
  exists a b x : F F32, isfin a = true /\ isfin b = true /\ isfin x = true /\
    (0 < val a <= 2)%R /\ val a = val b /\ (Rabs (val x) <= 2)%R /\
    bits (madd all_ext SSE (n0 F32) a b x) <> bits (fadd (n0 F32) (fmul (n0 F32) a b) x).
Proof. exact C53_forms_differ_refuted_lemma. Qed.

(** All theorems of this file together, for one run of Print Assumptions. *)
Definition all_Math := (
  C45_sin_odd,
  C45_tan_odd,
  C45_atan_odd,
  C45_cos_even,
  C45_asin_odd,
  C45_asin_unrestricted_refuted,
  C45_tanh_odd,
  C45_tanh_at_zero_refuted,
  C45_sin_vec_simd_mirrors,
  C45_tan_vec_simd_mirrors,
  C45_atan_vec_simd_mirrors,
  C46_tanh_saturates,
  C46_tanh_bounded,
  C46_tanh_sign,
  C46_tanh_nan_avx,
  C46_tanh_vec_simd_bounded,
  C47_asin_outside,
  C47_asin_nan_avx,
  C47_asin_vec_simd_outside,
  C47_acos_outside,
  C47_acos_nan_avx,
  C47_acos_vec_simd_outside,
  C48_exp_above,
  C48_exp_below,
  C48_exp_finite,
  C48_exp_edge_refuted,
  C48_exp_zero,
  C48_exp_nan_sse,
  C48_exp_nan_avx,
  C48_exp_vec_simd_finite,
  C50_log_finite,
  C50_log_of_zero,
  C50_log_of_infinity,
  C50_log_one,
  C50_pow_of_zero,
  C50_pow_not_negative,
  C50_signed_pow,
  C50_signed_pow_odd,
  C50_log_vec_simd_finite,
  C50_pow_vec_simd_not_negative,
  C50_spow_vec_simd_sign,
  C52_reciprocal_accurate,
  C52_reciprocal_of_zero,
  C52_reciprocal_of_infinity,
  C53_madd_error,
  C53_scalar_muladd_error,
  C53_exact_product,
  C53_forms_differ_refuted).
Print Assumptions all_Math.
