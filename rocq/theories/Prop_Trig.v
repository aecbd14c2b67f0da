(** Accuracy of the trigonometric functions (C59, C60, C61). *)
From Coq Require Import ZArith Reals Ratan List Lia Bool Lra.
From Flocq Require Import Core IEEE754.Binary IEEE754.Bits.
From Verif Require Import
  Base Mem Backend Args Drivers Functors Lanes Float LaneOps FloatOps ScalarMath VecMath FloatFuns IntVec TransMath TransFuns Spec SpecLane SpecMath
  FloatFacts RoundMore MathMore ExData ExFloat ExMath TrigClaims.
Import ListNotations.
Local Open Scope Z_scope.

(** * C59: sin and cos *)

(** sin: for every finite float up to 8192 in magnitude, a relative error of 2.7e-7,
    plus a term that is proportional to the argument (at most 8.3e-11) and
    matters only next to the zeros of sin. *)
Theorem C59_sin : 
  forall (c : cfg) (I : isa) (n : nans F32) (x : F F32), math_isa c I -> isfin x = true -> (Rabs (val x) <= 8192)%R ->
    (isfin (vec_sin_float c I n x) = true /\ Rabs (val (vec_sin_float c I n x) - sin (val x)) <= 27e-8 * Rabs (sin (val x)) + 1.01e-14 * Rabs (val x) + bpow radix2 (-148))%R.
Proof. exact C59_sin_lemma. Qed.

Example C59_sin_ex :
  let x := f_lit F32 12345 (-2) in
  math_isa all_ext SSE /\ isfin x = true /\ (Rabs (val x) <= 8192)%R.
Proof. fitm. Qed.

(** The buffer function. *)
Theorem C59_sin_vec_simd : 
  forall (c : cfg) (B : backend) (n : nans F32) (m : mem (F F32)) (out inp len : Z), math_backend c B -> unary_fit B m out inp len -> each (fun x => isfin x = true /\ (Rabs (val x) <= 8192)%R) m inp len ->
    computes (fun x y => (isfin y = true /\ Rabs (val y - sin (val x)) <= 27e-8 * Rabs (sin (val x)) + 1.01e-14 * Rabs (val x) + bpow radix2 (-148))%R) m (sin_vec_simd c B n m out inp len) out inp len.
Proof. exact C59_sin_vec_simd_lemma. Qed.

Example C59_sin_vec_simd_ex :
  let m := block 0 80 (fun a => f_lit F32 (1624 * a + -91000) (-3)) in
  math_backend all_ext AVX32 /\ unary_fit AVX32 m 32 40 32 /\ each (fun x => isfin x = true /\ (Rabs (val x) <= 8192)%R) m 40 32.
Proof.
  split; [left; reflexivity|]. split; [fitm|]. intros i x Hi E. rewrite block_in in E by lia. apply some_inj in E. subst x.
  destruct (lit32 (1624 * (40 + i) + -91000) (-3)) as [A V]; [lia|lia|].
  assert (Q1 : (IZR (-26040) <= IZR (1624 * (40 + i) + -91000))%R) by (apply IZR_le; lia).
  assert (Q2 : (IZR (1624 * (40 + i) + -91000) <= IZR (25928))%R) by (apply IZR_le; lia).
  unfold normal_positive. first [exact A|split; [exact A|]; rewrite V; pose proof tinyb; change (bpow radix2 (-3)) with (/ 8)%R;
  try split; unfold Rabs; repeat destruct Rcase_abs; first [lra|intros ?; lra]].
Qed.

(** cos, with the same bound. *)
Theorem C59_cos : 
  forall (c : cfg) (I : isa) (n : nans F32) (x : F F32), math_isa c I -> isfin x = true -> (Rabs (val x) <= 8192)%R ->
    (isfin (vec_cos_float c I n x) = true /\ Rabs (val (vec_cos_float c I n x) - cos (val x)) <= 27e-8 * Rabs (cos (val x)) + 1.01e-14 * Rabs (val x) + bpow radix2 (-148))%R.
Proof. exact C59_cos_lemma. Qed.

Example C59_cos_ex :
  let x := f_lit F32 12345 (-2) in
  math_isa all_ext SSE /\ isfin x = true /\ (Rabs (val x) <= 8192)%R.
Proof. fitm. Qed.

(** The buffer function. *)
Theorem C59_cos_vec_simd : 
  forall (c : cfg) (B : backend) (n : nans F32) (m : mem (F F32)) (out inp len : Z), math_backend c B -> unary_fit B m out inp len -> each (fun x => isfin x = true /\ (Rabs (val x) <= 8192)%R) m inp len ->
    computes (fun x y => (isfin y = true /\ Rabs (val y - cos (val x)) <= 27e-8 * Rabs (cos (val x)) + 1.01e-14 * Rabs (val x) + bpow radix2 (-148))%R) m (cos_vec_simd c B n m out inp len) out inp len.
Proof. exact C59_cos_vec_simd_lemma. Qed.

Example C59_cos_vec_simd_ex :
  let m := block 0 80 (fun a => f_lit F32 (1624 * a + -91000) (-3)) in
  math_backend all_ext AVX32 /\ unary_fit AVX32 m 32 40 32 /\ each (fun x => isfin x = true /\ (Rabs (val x) <= 8192)%R) m 40 32.
Proof.
  split; [left; reflexivity|]. split; [fitm|]. intros i x Hi E. rewrite block_in in E by lia. apply some_inj in E. subst x.
  destruct (lit32 (1624 * (40 + i) + -91000) (-3)) as [A V]; [lia|lia|].
  assert (Q1 : (IZR (-26040) <= IZR (1624 * (40 + i) + -91000))%R) by (apply IZR_le; lia).
  assert (Q2 : (IZR (1624 * (40 + i) + -91000) <= IZR (25928))%R) by (apply IZR_le; lia).
  unfold normal_positive. first [exact A|split; [exact A|]; rewrite V; pose proof tinyb; change (bpow radix2 (-3)) with (/ 8)%R;
  try split; unfold Rabs; repeat destruct Rcase_abs; first [lra|intros ?; lra]].
Qed.

(** An oscillator built on the two stays on the unit circle. *)
Theorem C59_circle : 
  forall (c : cfg) (I : isa) (n : nans F32) (x : F F32), math_isa c I -> isfin x = true -> (Rabs (val x) <= 8192)%R ->
    let s := val (vec_sin_float c I n x) in let k := val (vec_cos_float c I n x) in
    (Rabs (s * s + k * k - 1) <= 6e-7)%R.
Proof. exact C59_circle_lemma. Qed.

Example C59_circle_ex :
  let x := f_lit F32 12345 (-2) in
  math_isa all_ext SSE /\ isfin x = true /\ (Rabs (val x) <= 8192)%R.
Proof. fitm. Qed.

(** sin(+0) = +0 and sin(-0) = -0. *)
Theorem C59_sin_zero : 
  forall (c : cfg) (I : isa) (n : nans F32) (s : bool), math_isa c I -> vec_sin_float c I n (B754_zero 24 128 s) = (B754_zero 24 128 s : F F32).
Proof. exact C59_sin_zero_lemma. Qed.

Example C59_sin_zero_ex :
  math_isa all_ext SSE.
Proof. fitm. Qed.

(** cos(0) = 1. *)
Theorem C59_cos_zero : 
  forall (c : cfg) (I : isa) (n : nans F32) (s : bool), math_isa c I -> vec_cos_float c I n (B754_zero 24 128 s) = f_ofZ F32 1.
Proof. exact C59_cos_zero_lemma. Qed.

Example C59_cos_zero_ex :
  math_isa all_ext SSE.
Proof. fitm. Qed.

(** Far outside, not even |sin x| <= 1 survives: at 2^30 the magnitude exceeds a million. *)
Theorem C59_sin_large_refuted : 
  forall (c : cfg) (I : isa) (n : nans F32), math_isa c I -> exists x : F F32, isfin x = true /\ val x = IZR (2 ^ 30) /\ (val (vec_sin_float c I n x) < - 1000000)%R.
Proof. exact C59_sin_large_refuted_lemma. Qed.

Example C59_sin_large_refuted_ex :
  math_isa all_ext SSE.
Proof. fitm. Qed.

(** Far outside, not even |cos x| <= 1 survives: at 2^30 the magnitude exceeds a million. *)
Theorem C59_cos_large_refuted : 
  forall (c : cfg) (I : isa) (n : nans F32), math_isa c I -> exists x : F F32, isfin x = true /\ val x = IZR (2 ^ 30) /\ (val (vec_cos_float c I n x) > 1000000)%R.
Proof. exact C59_cos_large_refuted_lemma. Qed.

Example C59_cos_large_refuted_ex :
  math_isa all_ext SSE.
Proof. fitm. Qed.

(** * C60: tan *)

(** tan: finite for every float up to 8192 in magnitude, so no float in this range
    is a pole; a relative error of 4.3e-7 plus the effect of the rounded pi, which
    grows with the derivative 1 + tan^2. *)
Theorem C60_tan : 
  forall (c : cfg) (I : isa) (n : nans F32) (x : F F32), math_isa c I -> isfin x = true -> (Rabs (val x) <= 8192)%R ->
    (isfin (vec_tan_float c I n x) = true /\ Rabs (val (vec_tan_float c I n x) - tan (val x)) <= 43e-8 * Rabs (tan (val x)) + 2.2e-14 * Rabs (val x) * (1 + tan (val x) * tan (val x)) + bpow radix2 (-146))%R.
Proof. exact C60_tan_lemma. Qed.

Example C60_tan_ex :
  let x := f_lit F32 12345 (-2) in
  math_isa all_ext SSE /\ isfin x = true /\ (Rabs (val x) <= 8192)%R.
Proof. fitm. Qed.

(** The buffer function. *)
Theorem C60_tan_vec_simd : 
  forall (c : cfg) (B : backend) (n : nans F32) (m : mem (F F32)) (out inp len : Z), math_backend c B -> unary_fit B m out inp len -> each (fun x => isfin x = true /\ (Rabs (val x) <= 8192)%R) m inp len ->
    computes (fun x y => (isfin y = true /\ Rabs (val y - tan (val x)) <= 43e-8 * Rabs (tan (val x)) + 2.2e-14 * Rabs (val x) * (1 + tan (val x) * tan (val x)) + bpow radix2 (-146))%R) m (tan_vec_simd c B n m out inp len) out inp len.
Proof. exact C60_tan_vec_simd_lemma. Qed.

Example C60_tan_vec_simd_ex :
  let m := block 0 80 (fun a => f_lit F32 (1624 * a + -91000) (-3)) in
  math_backend all_ext AVX32 /\ unary_fit AVX32 m 32 40 32 /\ each (fun x => isfin x = true /\ (Rabs (val x) <= 8192)%R) m 40 32.
Proof.
  split; [left; reflexivity|]. split; [fitm|]. intros i x Hi E. rewrite block_in in E by lia. apply some_inj in E. subst x.
  destruct (lit32 (1624 * (40 + i) + -91000) (-3)) as [A V]; [lia|lia|].
  assert (Q1 : (IZR (-26040) <= IZR (1624 * (40 + i) + -91000))%R) by (apply IZR_le; lia).
  assert (Q2 : (IZR (1624 * (40 + i) + -91000) <= IZR (25928))%R) by (apply IZR_le; lia).
  unfold normal_positive. first [exact A|split; [exact A|]; rewrite V; pose proof tinyb; change (bpow radix2 (-3)) with (/ 8)%R;
  try split; unfold Rabs; repeat destruct Rcase_abs; first [lra|intros ?; lra]].
Qed.

(** tan(+0) = +0 and tan(-0) = -0. *)
Theorem C60_tan_zero : 
  forall (c : cfg) (I : isa) (n : nans F32) (s : bool), math_isa c I -> vec_tan_float c I n (B754_zero 24 128 s) = (B754_zero 24 128 s : F F32).
Proof. exact C60_tan_zero_lemma. Qed.

Example C60_tan_zero_ex :
  math_isa all_ext SSE.
Proof. fitm. Qed.

(** * C61: asin, acos, atan *)

(** asin: relative error below 7e-7 on [-1, 1]. *)
Theorem C61_asin : 
  forall (c : cfg) (I : isa) (n : nans F32) (x : F F32), math_isa c I -> isfin x = true -> (Rabs (val x) <= 1)%R ->
    (isfin (vec_asin_float c I n x) = true /\ Rabs (val (vec_asin_float c I n x) - asin (val x)) <= 7e-7 * Rabs (asin (val x)) + bpow radix2 (-146))%R.
Proof. exact C61_asin_lemma. Qed.

Example C61_asin_ex :
  let x := f_lit F32 (-3) (-2) in
  math_isa all_ext SSE /\ isfin x = true /\ (Rabs (val x) <= 1)%R.
Proof. fitm. Qed.

(** The buffer function. *)
Theorem C61_asin_vec_simd : 
  forall (c : cfg) (B : backend) (n : nans F32) (m : mem (F F32)) (out inp len : Z), math_backend c B -> unary_fit B m out inp len -> each (fun x => isfin x = true /\ (Rabs (val x) <= 1)%R) m inp len ->
    computes (fun x y => (isfin y = true /\ Rabs (val y - asin (val x)) <= 7e-7 * Rabs (asin (val x)) + bpow radix2 (-146))%R) m (asin_vec_simd c B n m out inp len) out inp len.
Proof. exact C61_asin_vec_simd_lemma. Qed.

Example C61_asin_vec_simd_ex :
  let m := block 0 80 (fun a => f_lit F32 (4 * a + -225) (-7)) in
  math_backend all_ext AVX32 /\ unary_fit AVX32 m 32 40 32 /\ each (fun x => isfin x = true /\ (Rabs (val x) <= 1)%R) m 40 32.
Proof.
  split; [left; reflexivity|]. split; [fitm|]. intros i x Hi E. rewrite block_in in E by lia. apply some_inj in E. subst x.
  destruct (lit32 (4 * (40 + i) + -225) (-7)) as [A V]; [lia|lia|].
  assert (Q1 : (IZR (-65) <= IZR (4 * (40 + i) + -225))%R) by (apply IZR_le; lia).
  assert (Q2 : (IZR (4 * (40 + i) + -225) <= IZR (63))%R) by (apply IZR_le; lia).
  unfold normal_positive. first [exact A|split; [exact A|]; rewrite V; pose proof tinyb; change (bpow radix2 (-7)) with (/ 128)%R;
  try split; unfold Rabs; repeat destruct Rcase_abs; first [lra|intros ?; lra]].
Qed.

(** acos: relative error below 2.1e-7 on [-1, 1], except at -1/2. *)
Theorem C61_acos : 
  forall (c : cfg) (I : isa) (n : nans F32) (x : F F32), math_isa c I -> isfin x = true -> (Rabs (val x) <= 1)%R -> (val x <> - 0.5)%R ->
    (isfin (vec_acos_float c I n x) = true /\ Rabs (val (vec_acos_float c I n x) - acos (val x)) <= 21e-8 * acos (val x) + bpow radix2 (-145))%R.
Proof. exact C61_acos_lemma. Qed.

Example C61_acos_ex :
  let x := f_lit F32 (-3) (-2) in
  math_isa all_ext SSE /\ isfin x = true /\ (Rabs (val x) <= 1)%R /\ (val x <> - 0.5)%R.
Proof. fitm. Qed.

(** The buffer function. *)
Theorem C61_acos_vec_simd : 
  forall (c : cfg) (B : backend) (n : nans F32) (m : mem (F F32)) (out inp len : Z), math_backend c B -> unary_fit B m out inp len -> each (fun x => isfin x = true /\ (Rabs (val x) <= 1)%R /\ (val x <> - 0.5)%R) m inp len ->
    computes (fun x y => (isfin y = true /\ Rabs (val y - acos (val x)) <= 21e-8 * acos (val x) + bpow radix2 (-145))%R) m (acos_vec_simd c B n m out inp len) out inp len.
Proof. exact C61_acos_vec_simd_lemma. Qed.

Example C61_acos_vec_simd_ex :
  let m := block 0 80 (fun a => f_lit F32 (3 * a + -150) (-7)) in
  math_backend all_ext AVX32 /\ unary_fit AVX32 m 32 40 32 /\ each (fun x => isfin x = true /\ (Rabs (val x) <= 1)%R /\ (val x <> - 0.5)%R) m 40 32.
Proof.
  split; [left; reflexivity|]. split; [fitm|]. intros i x Hi E. rewrite block_in in E by lia. apply some_inj in E. subst x.
  destruct (lit32 (3 * (40 + i) + -150) (-7)) as [A V]; [lia|lia|].
  assert (Q1 : (IZR (-30) <= IZR (3 * (40 + i) + -150))%R) by (apply IZR_le; lia).
  assert (Q2 : (IZR (3 * (40 + i) + -150) <= IZR (66))%R) by (apply IZR_le; lia).
  unfold normal_positive. first [exact A|split; [exact A|]; rewrite V; pose proof tinyb; change (bpow radix2 (-7)) with (/ 128)%R;
  try split; unfold Rabs; repeat destruct Rcase_abs; first [lra|intros ?; lra]].
Qed.

(** acos(-1/2) comes out as 4.19, twice the right value and above pi: the two tests
    of the code disagree about which interval -1/2 belongs to. *)
Theorem C61_acos_minus_half_refuted : 
  forall (c : cfg) (I : isa) (n : nans F32), math_isa c I -> exists x : F F32, isfin x = true /\ val x = (- 0.5)%R /\ (val (vec_acos_float c I n x) > 4)%R.
Proof. exact C61_acos_minus_half_refuted_lemma. Qed.

Example C61_acos_minus_half_refuted_ex :
  math_isa all_ext SSE.
Proof. fitm. Qed.

(** atan: relative error below 5e-7 for every finite float. *)
Theorem C61_atan : 
  forall (c : cfg) (I : isa) (n : nans F32) (x : F F32), math_isa c I -> isfin x = true ->
    (isfin (vec_atan_float c I n x) = true /\ Rabs (val (vec_atan_float c I n x) - atan (val x)) <= 5e-7 * Rabs (atan (val x)) + bpow radix2 (-146))%R.
Proof. exact C61_atan_lemma. Qed.

Example C61_atan_ex :
  let x := f_lit F32 (-3) 40 in
  math_isa all_ext SSE /\ isfin x = true.
Proof. fitm. Qed.

(** The buffer function. *)
Theorem C61_atan_vec_simd : 
  forall (c : cfg) (B : backend) (n : nans F32) (m : mem (F F32)) (out inp len : Z), math_backend c B -> unary_fit B m out inp len -> each (fun x => isfin x = true) m inp len ->
    computes (fun x y => (isfin y = true /\ Rabs (val y - atan (val x)) <= 5e-7 * Rabs (atan (val x)) + bpow radix2 (-146))%R) m (atan_vec_simd c B n m out inp len) out inp len.
Proof. exact C61_atan_vec_simd_lemma. Qed.

Example C61_atan_vec_simd_ex :
  let m := block 0 80 (fun a => f_lit F32 (4 * a + -161) (-3)) in
  math_backend all_ext AVX32 /\ unary_fit AVX32 m 32 40 32 /\ each (fun x => isfin x = true) m 40 32.
Proof.
  split; [left; reflexivity|]. split; [fitm|]. intros i x Hi E. rewrite block_in in E by lia. apply some_inj in E. subst x.
  destruct (lit32 (4 * (40 + i) + -161) (-3)) as [A V]; [lia|lia|].
  assert (Q1 : (IZR (-1) <= IZR (4 * (40 + i) + -161))%R) by (apply IZR_le; lia).
  assert (Q2 : (IZR (4 * (40 + i) + -161) <= IZR (127))%R) by (apply IZR_le; lia).
  unfold normal_positive. first [exact A|split; [exact A|]; rewrite V; pose proof tinyb; change (bpow radix2 (-3)) with (/ 8)%R;
  try split; unfold Rabs; repeat destruct Rcase_abs; first [lra|intros ?; lra]].
Qed.

(** At the infinities: half pi with the sign of the argument. *)
Theorem C61_atan_inf : 
  forall (c : cfg) (I : isa) (n : nans F32) (s : bool), math_isa c I -> let y := vec_atan_float c I n (B754_infinity 24 128 s) in
    isfin y = true /\ (Rabs (val y - (if s then - (PI / 2) else PI / 2)) <= 1e-7)%R.
Proof. exact C61_atan_inf_lemma. Qed.

Example C61_atan_inf_ex :
  math_isa all_ext SSE.
Proof. fitm. Qed.

(** asin(+0) = +0 and asin(-0) = -0. *)
Theorem C61_asin_zero : 
  forall (c : cfg) (I : isa) (n : nans F32) (s : bool), math_isa c I -> vec_asin_float c I n (B754_zero 24 128 s) = (B754_zero 24 128 s : F F32).
Proof. exact C61_asin_zero_lemma. Qed.

Example C61_asin_zero_ex :
  math_isa all_ext SSE.
Proof. fitm. Qed.

(** atan(+0) = +0 and atan(-0) = -0. *)
Theorem C61_atan_zero : 
  forall (c : cfg) (I : isa) (n : nans F32) (s : bool), math_isa c I -> vec_atan_float c I n (B754_zero 24 128 s) = (B754_zero 24 128 s : F F32).
Proof. exact C61_atan_zero_lemma. Qed.

Example C61_atan_zero_ex :
  math_isa all_ext SSE.
Proof. fitm. Qed.

(** acos(1) = +0. *)
Theorem C61_acos_one : 
  forall (c : cfg) (I : isa) (n : nans F32), math_isa c I -> vec_acos_float c I n (f_ofZ F32 1) = f_ofZ F32 0.
Proof. exact C61_acos_one_lemma. Qed.

Example C61_acos_one_ex :
  math_isa all_ext SSE.
Proof. fitm. Qed.

(** All theorems of this file together, for one run of Print Assumptions. *)
Definition all_Trig := (
  C59_sin,
  C59_sin_vec_simd,
  C59_cos,
  C59_cos_vec_simd,
  C59_circle,
  C59_sin_zero,
  C59_cos_zero,
  C59_sin_large_refuted,
  C59_cos_large_refuted,
  C60_tan,
  C60_tan_vec_simd,
  C60_tan_zero,
  C61_asin,
  C61_asin_vec_simd,
  C61_acos,
  C61_acos_vec_simd,
  C61_acos_minus_half_refuted,
  C61_atan,
  C61_atan_vec_simd,
  C61_atan_inf,
  C61_asin_zero,
  C61_atan_zero,
  C61_acos_one).
Print Assumptions all_Trig.
