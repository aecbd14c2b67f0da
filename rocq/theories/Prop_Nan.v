(** NaNs and infinities in the transcendental functions (C78). *)
From Coq Require Import ZArith Reals List Lia Bool.
From Flocq Require Import Core IEEE754.Binary IEEE754.Bits.
From Verif Require Import
  Base Mem Backend Args Drivers Functors Lanes Float LaneOps FloatOps ScalarMath VecMath FloatFuns IntVec TransMath TransFuns Spec SpecLane SpecMath SpecOrder
  FloatFacts FloatRound MathMore ExData ExFloat ExMath NanClaims.
Import ListNotations.
Local Open Scope Z_scope.

(** * C78: NaNs and infinities *)

(** sin of a NaN or of an infinity is a NaN. *)
Theorem C78_sin_not_finite : 
  forall (c : cfg) (I : isa) (n : nans F32) (x : F F32), math_isa c I -> isfin x = false -> isnan (vec_sin_float c I n x) = true.
Proof. exact C78_sin_not_finite_lemma. Qed.

Example C78_sin_not_finite_ex :
  math_isa all_ext SSE /\ isfin (qnan F32) = false.
Proof. split; [fitm|reflexivity]. Qed.

(** cos of a NaN or of an infinity is a NaN. *)
Theorem C78_cos_not_finite : 
  forall (c : cfg) (I : isa) (n : nans F32) (x : F F32), math_isa c I -> isfin x = false -> isnan (vec_cos_float c I n x) = true.
Proof. exact C78_cos_not_finite_lemma. Qed.

Example C78_cos_not_finite_ex :
  math_isa all_ext SSE /\ isfin (qnan F32) = false.
Proof. split; [fitm|reflexivity]. Qed.

(** tan of a NaN is a NaN. *)
Theorem C78_tan_nan : 
  forall (c : cfg) (I : isa) (n : nans F32) (x : F F32), math_isa c I -> isnan x = true -> isnan (vec_tan_float c I n x) = true.
Proof. exact C78_tan_nan_lemma. Qed.

Example C78_tan_nan_ex :
  math_isa all_ext SSE /\ isnan (qnan F32) = true.
Proof. split; [fitm|reflexivity]. Qed.

(** atan of a NaN is a NaN. *)
Theorem C78_atan_nan : 
  forall (c : cfg) (I : isa) (n : nans F32) (x : F F32), math_isa c I -> isnan x = true -> isnan (vec_atan_float c I n x) = true.
Proof. exact C78_atan_nan_lemma. Qed.

Example C78_atan_nan_ex :
  math_isa all_ext SSE /\ isnan (qnan F32) = true.
Proof. split; [fitm|reflexivity]. Qed.

(** tan of an infinity is that infinity. *)
Theorem C78_tan_infinite : 
  forall (c : cfg) (I : isa) (n : nans F32) (x : F F32), math_isa c I -> isfin x = false -> number x -> bits (vec_tan_float c I n x) = bits x.
Proof. exact C78_tan_infinite_lemma. Qed.

Example C78_tan_infinite_ex :
  let x := (B754_infinity 24 128 true : F F32) in math_isa all_ext SSE /\ isfin x = false /\ number x.
Proof. split; [fitm|split; reflexivity]. Qed.

(** On SSE asin of a NaN is a NaN (on AVX it is zero, C47). *)
Theorem C78_asin_nan_sse : 
  forall (c : cfg) (n : nans F32) (x : F F32), has_sse2 c = true -> isnan x = true -> isnan (vec_asin_float c SSE n x) = true.
Proof. exact C78_asin_nan_sse_lemma. Qed.

Example C78_asin_nan_sse_ex :
  has_sse2 all_ext = true /\ isnan (qnan F32) = true.
Proof. split; reflexivity. Qed.

(** On SSE acos of a NaN is a NaN (on AVX it is zero, C47). *)
Theorem C78_acos_nan_sse : 
  forall (c : cfg) (n : nans F32) (x : F F32), has_sse2 c = true -> isnan x = true -> isnan (vec_acos_float c SSE n x) = true.
Proof. exact C78_acos_nan_sse_lemma. Qed.

Example C78_acos_nan_sse_ex :
  has_sse2 all_ext = true /\ isnan (qnan F32) = true.
Proof. split; reflexivity. Qed.

(** But sin of a finite number need not be finite. *)
Theorem C78_sin_finite_refuted : 
  forall (c : cfg) (I : isa) (n : nans F32), math_isa c I -> exists x : F F32, isfin x = true /\ isfin (vec_sin_float c I n x) = false.
Proof. exact C78_sin_finite_refuted_lemma. Qed.

Example C78_sin_finite_refuted_ex :
  math_isa all_ext SSE.
Proof. fitm. Qed.

(** The buffer function. *)
Theorem C78_sin_vec_simd_nan : 
  forall (c : cfg) (B : backend) (n : nans F32) (m : mem (F F32)) (out inp len : Z), math_backend c B -> unary_fit B m out inp len ->
    computes (fun x y => isfin x = false -> isnan y = true) m (sin_vec_simd c B n m out inp len) out inp len.
Proof. exact C78_sin_vec_simd_nan_lemma. Qed.

Example C78_sin_vec_simd_nan_ex :
  let m := block 0 80 (fun a => if Z.even a then qnan F32 else f_ofZ F32 a) in
  math_backend all_ext AVX32 /\ unary_fit AVX32 m 32 40 32 /\ m 40 = Some (qnan F32).
Proof. split; [first [left; reflexivity|right; split; reflexivity]|]. split; [fitm|reflexivity]. Qed.

(** The buffer function. *)
Theorem C78_cos_vec_simd_nan : 
  forall (c : cfg) (B : backend) (n : nans F32) (m : mem (F F32)) (out inp len : Z), math_backend c B -> unary_fit B m out inp len ->
    computes (fun x y => isfin x = false -> isnan y = true) m (cos_vec_simd c B n m out inp len) out inp len.
Proof. exact C78_cos_vec_simd_nan_lemma. Qed.

Example C78_cos_vec_simd_nan_ex :
  let m := block 0 80 (fun a => if Z.even a then qnan F32 else f_ofZ F32 a) in
  math_backend all_ext AVX32 /\ unary_fit AVX32 m 32 40 32 /\ m 40 = Some (qnan F32).
Proof. split; [first [left; reflexivity|right; split; reflexivity]|]. split; [fitm|reflexivity]. Qed.

(** The buffer function. *)
Theorem C78_tan_vec_simd_nan : 
  forall (c : cfg) (B : backend) (n : nans F32) (m : mem (F F32)) (out inp len : Z), math_backend c B -> unary_fit B m out inp len ->
    computes (fun x y => isnan x = true -> isnan y = true) m (tan_vec_simd c B n m out inp len) out inp len.
Proof. exact C78_tan_vec_simd_nan_lemma. Qed.

Example C78_tan_vec_simd_nan_ex :
  let m := block 0 80 (fun a => if Z.even a then qnan F32 else f_ofZ F32 a) in
  math_backend all_ext AVX32 /\ unary_fit AVX32 m 32 40 32 /\ m 40 = Some (qnan F32).
Proof. split; [first [left; reflexivity|right; split; reflexivity]|]. split; [fitm|reflexivity]. Qed.

(** The buffer function. *)
Theorem C78_atan_vec_simd_nan : 
  forall (c : cfg) (B : backend) (n : nans F32) (m : mem (F F32)) (out inp len : Z), math_backend c B -> unary_fit B m out inp len ->
    computes (fun x y => isnan x = true -> isnan y = true) m (atan_vec_simd c B n m out inp len) out inp len.
Proof. exact C78_atan_vec_simd_nan_lemma. Qed.

Example C78_atan_vec_simd_nan_ex :
  let m := block 0 80 (fun a => if Z.even a then qnan F32 else f_ofZ F32 a) in
  math_backend all_ext AVX32 /\ unary_fit AVX32 m 32 40 32 /\ m 40 = Some (qnan F32).
Proof. split; [first [left; reflexivity|right; split; reflexivity]|]. split; [fitm|reflexivity]. Qed.

(** The buffer function on SSE. *)
Theorem C78_asin_vec_simd_nan_sse : 
  forall (c : cfg) (n : nans F32) (m : mem (F F32)) (out inp len : Z), has_sse2 c = true -> unary_fit SSE32 m out inp len ->
    computes (fun x y => isnan x = true -> isnan y = true) m (asin_vec_simd c SSE32 n m out inp len) out inp len.
Proof. exact C78_asin_vec_simd_nan_sse_lemma. Qed.

Example C78_asin_vec_simd_nan_sse_ex :
  let m := block 0 80 (fun a => if Z.even a then qnan F32 else f_ofZ F32 a) in
   unary_fit SSE32 m 32 40 32 /\ m 40 = Some (qnan F32).
Proof. split; [fitm|reflexivity]. Qed.

(** The buffer function on SSE. *)
Theorem C78_acos_vec_simd_nan_sse : 
  forall (c : cfg) (n : nans F32) (m : mem (F F32)) (out inp len : Z), has_sse2 c = true -> unary_fit SSE32 m out inp len ->
    computes (fun x y => isnan x = true -> isnan y = true) m (acos_vec_simd c SSE32 n m out inp len) out inp len.
Proof. exact C78_acos_vec_simd_nan_sse_lemma. Qed.

Example C78_acos_vec_simd_nan_sse_ex :
  let m := block 0 80 (fun a => if Z.even a then qnan F32 else f_ofZ F32 a) in
   unary_fit SSE32 m 32 40 32 /\ m 40 = Some (qnan F32).
Proof. split; [fitm|reflexivity]. Qed.

(** The buffer function. *)
Theorem C78_log_vec_simd_finite : 
  forall (c : cfg) (B : backend) (n : nans F32) (m : mem (F F32)) (out inp len : Z), math_backend c B -> unary_fit B m out inp len ->
    computes (fun _ y => isfin y = true) m (log_vec_simd c B n m out inp len) out inp len.
Proof. exact C78_log_vec_simd_finite_lemma. Qed.

Example C78_log_vec_simd_finite_ex :
  let m := block 0 80 (fun a => if Z.even a then qnan F32 else f_ofZ F32 a) in
  math_backend all_ext AVX32 /\ unary_fit AVX32 m 32 40 32 /\ m 40 = Some (qnan F32).
Proof. split; [first [left; reflexivity|right; split; reflexivity]|]. split; [fitm|reflexivity]. Qed.

(** log2 of any bit pattern whatsoever is a finite number: NaNs, infinities,
    zero and negative numbers go unnoticed. *)
Theorem C78_log2_finite : 
  forall (c : cfg) (I : isa) (n : nans F32) (k : nans F64) (x : F F32), math_isa c I -> isfin (vec_log2 c I n k x) = true.
Proof. exact C78_log2_finite_lemma. Qed.

Example C78_log2_finite_ex :
  math_isa all_ext SSE.
Proof. fitm. Qed.

(** The buffer function. *)
Theorem C78_log2_vec_simd_finite : 
  forall (c : cfg) (B : backend) (n : nans F32) (k : nans F64) (m : mem (F F32)) (out inp len : Z), math_backend c B -> unary_fit B m out inp len ->
    computes (fun _ y => isfin y = true) m (log2_vec_simd c B n k m out inp len) out inp len.
Proof. exact C78_log2_vec_simd_finite_lemma. Qed.

Example C78_log2_vec_simd_finite_ex :
  let m := block 0 80 (fun a => if Z.even a then qnan F32 else f_ofZ F32 a) in
  math_backend all_ext AVX32 /\ unary_fit AVX32 m 32 40 32 /\ m 40 = Some (qnan F32).
Proof. split; [first [left; reflexivity|right; split; reflexivity]|]. split; [fitm|reflexivity]. Qed.

(** log10 of any bit pattern whatsoever is a finite number: NaNs, infinities,
    zero and negative numbers go unnoticed. *)
Theorem C78_log10_finite : 
  forall (c : cfg) (I : isa) (n : nans F32) (k : nans F64) (x : F F32), math_isa c I -> isfin (vec_log10 c I n k x) = true.
Proof. exact C78_log10_finite_lemma. Qed.

Example C78_log10_finite_ex :
  math_isa all_ext SSE.
Proof. fitm. Qed.

(** The buffer function. *)
Theorem C78_log10_vec_simd_finite : 
  forall (c : cfg) (B : backend) (n : nans F32) (k : nans F64) (m : mem (F F32)) (out inp len : Z), math_backend c B -> unary_fit B m out inp len ->
    computes (fun _ y => isfin y = true) m (log10_vec_simd c B n k m out inp len) out inp len.
Proof. exact C78_log10_vec_simd_finite_lemma. Qed.

Example C78_log10_vec_simd_finite_ex :
  let m := block 0 80 (fun a => if Z.even a then qnan F32 else f_ofZ F32 a) in
  math_backend all_ext AVX32 /\ unary_fit AVX32 m 32 40 32 /\ m 40 = Some (qnan F32).
Proof. split; [first [left; reflexivity|right; split; reflexivity]|]. split; [fitm|reflexivity]. Qed.

(** ratio2midi of any bit pattern whatsoever is a finite number: NaNs, infinities,
    zero and negative numbers go unnoticed. *)
Theorem C78_ratio2midi_finite : 
  forall (c : cfg) (I : isa) (n : nans F32) (k : nans F64) (x : F F32), math_isa c I -> isfin (ratio2midi c I n k x) = true.
Proof. exact C78_ratio2midi_finite_lemma. Qed.

Example C78_ratio2midi_finite_ex :
  math_isa all_ext SSE.
Proof. fitm. Qed.

(** The buffer function. *)
Theorem C78_ratio2midi_vec_simd_finite : 
  forall (c : cfg) (B : backend) (n : nans F32) (k : nans F64) (m : mem (F F32)) (out inp len : Z), math_backend c B -> unary_fit B m out inp len ->
    computes (fun _ y => isfin y = true) m (ratio2midi_vec_simd c B n k m out inp len) out inp len.
Proof. exact C78_ratio2midi_vec_simd_finite_lemma. Qed.

Example C78_ratio2midi_vec_simd_finite_ex :
  let m := block 0 80 (fun a => if Z.even a then qnan F32 else f_ofZ F32 a) in
  math_backend all_ext AVX32 /\ unary_fit AVX32 m 32 40 32 /\ m 40 = Some (qnan F32).
Proof. split; [first [left; reflexivity|right; split; reflexivity]|]. split; [fitm|reflexivity]. Qed.

(** amp2db of any bit pattern whatsoever is a finite number: NaNs, infinities,
    zero and negative numbers go unnoticed. *)
Theorem C78_amp2db_finite : 
  forall (c : cfg) (I : isa) (n : nans F32) (k : nans F64) (x : F F32), math_isa c I -> isfin (amp2db c I n k x) = true.
Proof. exact C78_amp2db_finite_lemma. Qed.

Example C78_amp2db_finite_ex :
  math_isa all_ext SSE.
Proof. fitm. Qed.

(** The buffer function. *)
Theorem C78_amp2db_vec_simd_finite : 
  forall (c : cfg) (B : backend) (n : nans F32) (k : nans F64) (m : mem (F F32)) (out inp len : Z), math_backend c B -> unary_fit B m out inp len ->
    computes (fun _ y => isfin y = true) m (amp2db_vec_simd c B n k m out inp len) out inp len.
Proof. exact C78_amp2db_vec_simd_finite_lemma. Qed.

Example C78_amp2db_vec_simd_finite_ex :
  let m := block 0 80 (fun a => if Z.even a then qnan F32 else f_ofZ F32 a) in
  math_backend all_ext AVX32 /\ unary_fit AVX32 m 32 40 32 /\ m 40 = Some (qnan F32).
Proof. split; [first [left; reflexivity|right; split; reflexivity]|]. split; [fitm|reflexivity]. Qed.

(** freq2midi of any bit pattern whatsoever is a finite number: NaNs, infinities,
    zero and negative numbers go unnoticed. *)
Theorem C78_freq2midi_finite : 
  forall (c : cfg) (I : isa) (n : nans F32) (k : nans F64) (x : F F32), math_isa c I -> isfin (freq2midi c I n k x) = true.
Proof. exact C78_freq2midi_finite_lemma. Qed.

Example C78_freq2midi_finite_ex :
  math_isa all_ext SSE.
Proof. fitm. Qed.

(** The buffer function. *)
Theorem C78_freq2midi_vec_simd_finite : 
  forall (c : cfg) (B : backend) (n : nans F32) (k : nans F64) (m : mem (F F32)) (out inp len : Z), math_backend c B -> unary_fit B m out inp len ->
    computes (fun _ y => isfin y = true) m (freq2midi_vec_simd c B n k m out inp len) out inp len.
Proof. exact C78_freq2midi_vec_simd_finite_lemma. Qed.

Example C78_freq2midi_vec_simd_finite_ex :
  let m := block 0 80 (fun a => if Z.even a then qnan F32 else f_ofZ F32 a) in
  math_backend all_ext AVX32 /\ unary_fit AVX32 m 32 40 32 /\ m 40 = Some (qnan F32).
Proof. split; [first [left; reflexivity|right; split; reflexivity]|]. split; [fitm|reflexivity]. Qed.

(** freq2oct of any bit pattern whatsoever is a finite number: NaNs, infinities,
    zero and negative numbers go unnoticed. *)
Theorem C78_freq2oct_finite : 
  forall (c : cfg) (I : isa) (n : nans F32) (k : nans F64) (x : F F32), math_isa c I -> isfin (freq2oct c I n k x) = true.
Proof. exact C78_freq2oct_finite_lemma. Qed.

Example C78_freq2oct_finite_ex :
  math_isa all_ext SSE.
Proof. fitm. Qed.

(** The buffer function. *)
Theorem C78_freq2oct_vec_simd_finite : 
  forall (c : cfg) (B : backend) (n : nans F32) (k : nans F64) (m : mem (F F32)) (out inp len : Z), math_backend c B -> unary_fit B m out inp len ->
    computes (fun _ y => isfin y = true) m (freq2oct_vec_simd c B n k m out inp len) out inp len.
Proof. exact C78_freq2oct_vec_simd_finite_lemma. Qed.

Example C78_freq2oct_vec_simd_finite_ex :
  let m := block 0 80 (fun a => if Z.even a then qnan F32 else f_ofZ F32 a) in
  math_backend all_ext AVX32 /\ unary_fit AVX32 m 32 40 32 /\ m 40 = Some (qnan F32).
Proof. split; [first [left; reflexivity|right; split; reflexivity]|]. split; [fitm|reflexivity]. Qed.

(** pow with a NaN as exponent, and a base other than zero, is a NaN on SSE *)
Theorem C78_pow_nan_exponent_sse : 
  forall (c : cfg) (n : nans F32) (x y : F F32), has_sse2 c = true -> feq x (f_ofZ F32 0) = false -> isnan y = true -> isnan (vec_pow c SSE n x y) = true.
Proof. exact C78_pow_nan_exponent_sse_lemma. Qed.

Example C78_pow_nan_exponent_sse_ex :
  has_sse2 all_ext = true /\ feq (f_ofZ F32 3) (f_ofZ F32 0) = false /\ isnan (qnan F32) = true.
Proof. repeat split; vm_compute; reflexivity. Qed.

(** and the largest float on AVX. *)
Theorem C78_pow_nan_exponent_avx : 
  forall (c : cfg) (n : nans F32) (x y : F F32), feq x (f_ofZ F32 0) = false -> isnan y = true -> bits (vec_pow c AVX n x y) = bits (f_max F32).
Proof. exact C78_pow_nan_exponent_avx_lemma. Qed.

Example C78_pow_nan_exponent_avx_ex :
  feq (f_ofZ F32 3) (f_ofZ F32 0) = false /\ isnan (qnan F32) = true.
Proof. split; vm_compute; reflexivity. Qed.

(** A NaN as base is turned into a number on both. *)
Theorem C78_pow_nan_base_refuted : 
  forall (c : cfg) (I : isa) (n : nans F32), math_isa c I -> exists x y : F F32, isnan x = true /\ isfin y = true /\ isfin (vec_pow c I n x y) = true.
Proof. exact C78_pow_nan_base_refuted_lemma. Qed.

Example C78_pow_nan_base_refuted_ex :
  math_isa all_ext SSE.
Proof. fitm. Qed.

(** midi2freq of a NaN is a NaN on SSE *)
Theorem C78_midi2freq_nan_sse : 
  forall (c : cfg) (n : nans F32) (x : F F32), has_sse2 c = true -> isnan x = true -> isnan (midi2freq c SSE n x) = true.
Proof. exact C78_midi2freq_nan_sse_lemma. Qed.

Example C78_midi2freq_nan_sse_ex :
  has_sse2 all_ext = true /\ isnan (qnan F32) = true.
Proof. split; reflexivity. Qed.

(** and plus infinity on AVX. *)
Theorem C78_midi2freq_nan_avx : 
  forall (c : cfg) (n : nans F32) (x : F F32), isnan x = true -> bits (midi2freq c AVX n x) = bits (B754_infinity 24 128 false : F F32).
Proof. exact C78_midi2freq_nan_avx_lemma. Qed.

Example C78_midi2freq_nan_avx_ex :
  isnan (qnan F32) = true.
Proof. reflexivity. Qed.

(** The buffer function. *)
Theorem C78_midi2freq_vec_simd_nan : 
  forall (c : cfg) (B : backend) (n : nans F32) (m : mem (F F32)) (out inp len : Z), math_backend c B -> unary_fit B m out inp len ->
    computes (fun x y => isnan x = true -> match B with AVX32 => bits y = bits (B754_infinity 24 128 false : F F32) | _ => isnan y = true end) m (midi2freq_vec_simd c B n m out inp len) out inp len.
Proof. exact C78_midi2freq_vec_simd_nan_lemma. Qed.

Example C78_midi2freq_vec_simd_nan_ex :
  let m := block 0 80 (fun a => if Z.even a then qnan F32 else f_ofZ F32 a) in
  math_backend all_ext AVX32 /\ unary_fit AVX32 m 32 40 32 /\ m 40 = Some (qnan F32).
Proof. split; [first [left; reflexivity|right; split; reflexivity]|]. split; [fitm|reflexivity]. Qed.

(** oct2freq of a NaN is a NaN on SSE *)
Theorem C78_oct2freq_nan_sse : 
  forall (c : cfg) (n : nans F32) (x : F F32), has_sse2 c = true -> isnan x = true -> isnan (oct2freq c SSE n x) = true.
Proof. exact C78_oct2freq_nan_sse_lemma. Qed.

Example C78_oct2freq_nan_sse_ex :
  has_sse2 all_ext = true /\ isnan (qnan F32) = true.
Proof. split; reflexivity. Qed.

(** and plus infinity on AVX. *)
Theorem C78_oct2freq_nan_avx : 
  forall (c : cfg) (n : nans F32) (x : F F32), isnan x = true -> bits (oct2freq c AVX n x) = bits (B754_infinity 24 128 false : F F32).
Proof. exact C78_oct2freq_nan_avx_lemma. Qed.

Example C78_oct2freq_nan_avx_ex :
  isnan (qnan F32) = true.
Proof. reflexivity. Qed.

(** The buffer function. *)
Theorem C78_oct2freq_vec_simd_nan : 
  forall (c : cfg) (B : backend) (n : nans F32) (m : mem (F F32)) (out inp len : Z), math_backend c B -> unary_fit B m out inp len ->
    computes (fun x y => isnan x = true -> match B with AVX32 => bits y = bits (B754_infinity 24 128 false : F F32) | _ => isnan y = true end) m (oct2freq_vec_simd c B n m out inp len) out inp len.
Proof. exact C78_oct2freq_vec_simd_nan_lemma. Qed.

Example C78_oct2freq_vec_simd_nan_ex :
  let m := block 0 80 (fun a => if Z.even a then qnan F32 else f_ofZ F32 a) in
  math_backend all_ext AVX32 /\ unary_fit AVX32 m 32 40 32 /\ m 40 = Some (qnan F32).
Proof. split; [first [left; reflexivity|right; split; reflexivity]|]. split; [fitm|reflexivity]. Qed.

(** midi2ratio of a NaN is a NaN on SSE *)
Theorem C78_midi2ratio_nan_sse : 
  forall (c : cfg) (n : nans F32) (x : F F32), has_sse2 c = true -> isnan x = true -> isnan (midi2ratio c SSE n x) = true.
Proof. exact C78_midi2ratio_nan_sse_lemma. Qed.

Example C78_midi2ratio_nan_sse_ex :
  has_sse2 all_ext = true /\ isnan (qnan F32) = true.
Proof. split; reflexivity. Qed.

(** and the largest float on AVX. *)
Theorem C78_midi2ratio_nan_avx : 
  forall (c : cfg) (n : nans F32) (x : F F32), isnan x = true -> bits (midi2ratio c AVX n x) = bits (f_max F32 : F F32).
Proof. exact C78_midi2ratio_nan_avx_lemma. Qed.

Example C78_midi2ratio_nan_avx_ex :
  isnan (qnan F32) = true.
Proof. reflexivity. Qed.

(** The buffer function. *)
Theorem C78_midi2ratio_vec_simd_nan : 
  forall (c : cfg) (B : backend) (n : nans F32) (m : mem (F F32)) (out inp len : Z), math_backend c B -> unary_fit B m out inp len ->
    computes (fun x y => isnan x = true -> match B with AVX32 => bits y = bits (f_max F32 : F F32) | _ => isnan y = true end) m (midi2ratio_vec_simd c B n m out inp len) out inp len.
Proof. exact C78_midi2ratio_vec_simd_nan_lemma. Qed.

Example C78_midi2ratio_vec_simd_nan_ex :
  let m := block 0 80 (fun a => if Z.even a then qnan F32 else f_ofZ F32 a) in
  math_backend all_ext AVX32 /\ unary_fit AVX32 m 32 40 32 /\ m 40 = Some (qnan F32).
Proof. split; [first [left; reflexivity|right; split; reflexivity]|]. split; [fitm|reflexivity]. Qed.

(** db2amp of a NaN is a NaN on SSE *)
Theorem C78_db2amp_nan_sse : 
  forall (c : cfg) (n : nans F32) (x : F F32), has_sse2 c = true -> isnan x = true -> isnan (db2amp c SSE n x) = true.
Proof. exact C78_db2amp_nan_sse_lemma. Qed.

Example C78_db2amp_nan_sse_ex :
  has_sse2 all_ext = true /\ isnan (qnan F32) = true.
Proof. split; reflexivity. Qed.

(** and the largest float on AVX. *)
Theorem C78_db2amp_nan_avx : 
  forall (c : cfg) (n : nans F32) (x : F F32), isnan x = true -> bits (db2amp c AVX n x) = bits (f_max F32 : F F32).
Proof. exact C78_db2amp_nan_avx_lemma. Qed.

Example C78_db2amp_nan_avx_ex :
  isnan (qnan F32) = true.
Proof. reflexivity. Qed.

(** The buffer function. *)
Theorem C78_db2amp_vec_simd_nan : 
  forall (c : cfg) (B : backend) (n : nans F32) (m : mem (F F32)) (out inp len : Z), math_backend c B -> unary_fit B m out inp len ->
    computes (fun x y => isnan x = true -> match B with AVX32 => bits y = bits (f_max F32 : F F32) | _ => isnan y = true end) m (db2amp_vec_simd c B n m out inp len) out inp len.
Proof. exact C78_db2amp_vec_simd_nan_lemma. Qed.

Example C78_db2amp_vec_simd_nan_ex :
  let m := block 0 80 (fun a => if Z.even a then qnan F32 else f_ofZ F32 a) in
  math_backend all_ext AVX32 /\ unary_fit AVX32 m 32 40 32 /\ m 40 = Some (qnan F32).
Proof. split; [first [left; reflexivity|right; split; reflexivity]|]. split; [fitm|reflexivity]. Qed.

(** All theorems of this file together, for one run of Print Assumptions. *)
Definition all_Nan := (
  C78_sin_not_finite,
  C78_cos_not_finite,
  C78_tan_nan,
  C78_atan_nan,
  C78_tan_infinite,
  C78_asin_nan_sse,
  C78_acos_nan_sse,
  C78_sin_finite_refuted,
  C78_sin_vec_simd_nan,
  C78_cos_vec_simd_nan,
  C78_tan_vec_simd_nan,
  C78_atan_vec_simd_nan,
  C78_asin_vec_simd_nan_sse,
  C78_acos_vec_simd_nan_sse,
  C78_log_vec_simd_finite,
  C78_log2_finite,
  C78_log2_vec_simd_finite,
  C78_log10_finite,
  C78_log10_vec_simd_finite,
  C78_ratio2midi_finite,
  C78_ratio2midi_vec_simd_finite,
  C78_amp2db_finite,
  C78_amp2db_vec_simd_finite,
  C78_freq2midi_finite,
  C78_freq2midi_vec_simd_finite,
  C78_freq2oct_finite,
  C78_freq2oct_vec_simd_finite,
  C78_pow_nan_exponent_sse,
  C78_pow_nan_exponent_avx,
  C78_pow_nan_base_refuted,
  C78_midi2freq_nan_sse,
  C78_midi2freq_nan_avx,
  C78_midi2freq_vec_simd_nan,
  C78_oct2freq_nan_sse,
  C78_oct2freq_nan_avx,
  C78_oct2freq_vec_simd_nan,
  C78_midi2ratio_nan_sse,
  C78_midi2ratio_nan_avx,
  C78_midi2ratio_vec_simd_nan,
  C78_db2amp_nan_sse,
  C78_db2amp_nan_avx,
  C78_db2amp_vec_simd_nan).
Print Assumptions all_Nan.
