(** Round trips and identities between transcendental functions (C85, C86). *)
From Coq Require Import ZArith Reals Ratan List Lia Bool Lra Psatz.
From Flocq Require Import Core IEEE754.Binary IEEE754.Bits.
From Verif Require Import
  Base Mem Backend Args Drivers Functors Lanes Float LaneOps FloatOps ScalarMath VecMath FloatFuns IntVec TransMath TransFuns Spec SpecLane SpecMath SpecOrder SpecTrip
  FloatFacts MathMore RealTrip ExData ExFloat ExMath TripClaims.
Import ListNotations.
Local Open Scope Z_scope.

(** * C85: there and back again *)

(** The exponential of the logarithm is x again, up to a relative error; *)
Theorem C85_exp_log : 
  forall (c : cfg) (I : isa) (n : nans F32) (x : F F32), math_isa c I -> isfin x = true -> (1.19e-38 <= val x <= 3.4e38)%R ->
    close (4e-7 * (1 + Rabs (ln (val x)))) (vec_exp_float c I n (vec_log_float c I n x)) (val x).
Proof. exact C85_exp_log_lemma. Qed.

Example C85_exp_log_ex :
  let x := f_lit F32 11 (-4) in math_isa all_ext SSE /\ isfin x = true /\ (1.19e-38 <= val x <= 3.4e38)%R.
Proof. destruct (lit32 (11) (-4)) as [A V]; [lia|lia|]. cbv zeta. split; [right; split; reflexivity|]. split; [exact A|]. rewrite V. change (bpow radix2 (-4)) with (/ 16)%R. repeat split; try split_Rabs; lra. Qed.

(** the logarithm of the exponential; *)
Theorem C85_log_exp : 
  forall (c : cfg) (I : isa) (n : nans F32) (x : F F32), math_isa c I -> isfin x = true -> (Rabs (val x) <= 87)%R ->
    off_by (4e-7 * (1 + Rabs (val x))) (vec_log_float c I n (vec_exp_float c I n x)) (val x).
Proof. exact C85_log_exp_lemma. Qed.

Example C85_log_exp_ex :
  let x := f_lit F32 11 (-4) in math_isa all_ext SSE /\ isfin x = true /\ (Rabs (val x) <= 87)%R.
Proof. destruct (lit32 (11) (-4)) as [A V]; [lia|lia|]. cbv zeta. split; [right; split; reflexivity|]. split; [exact A|]. rewrite V. change (bpow radix2 (-4)) with (/ 16)%R. repeat split; try split_Rabs; lra. Qed.

(** the sine of the arc sine, over the whole domain; *)
Theorem C85_sin_asin : 
  forall (c : cfg) (I : isa) (n : nans F32) (x : F F32), math_isa c I -> isfin x = true -> (Rabs (val x) <= 1)%R ->
    off_by (1.4e-6 * Rabs (val x) + bpow radix2 (-145)) (vec_sin_float c I n (vec_asin_float c I n x)) (val x).
Proof. exact C85_sin_asin_lemma. Qed.

Example C85_sin_asin_ex :
  let x := f_lit F32 11 (-4) in math_isa all_ext SSE /\ isfin x = true /\ (Rabs (val x) <= 1)%R.
Proof. destruct (lit32 (11) (-4)) as [A V]; [lia|lia|]. cbv zeta. split; [right; split; reflexivity|]. split; [exact A|]. rewrite V. change (bpow radix2 (-4)) with (/ 16)%R. repeat split; try split_Rabs; lra. Qed.

(** the arc sine of the sine; *)
Theorem C85_asin_sin : 
  forall (c : cfg) (I : isa) (n : nans F32) (x : F F32), math_isa c I -> isfin x = true -> (Rabs (val x) <= 1.5)%R ->
    off_by (5e-6 * Rabs (val x) + bpow radix2 (-143)) (vec_asin_float c I n (vec_sin_float c I n x)) (val x).
Proof. exact C85_asin_sin_lemma. Qed.

Example C85_asin_sin_ex :
  let x := f_lit F32 11 (-4) in math_isa all_ext SSE /\ isfin x = true /\ (Rabs (val x) <= 1.5)%R.
Proof. destruct (lit32 (11) (-4)) as [A V]; [lia|lia|]. cbv zeta. split; [right; split; reflexivity|]. split; [exact A|]. rewrite V. change (bpow radix2 (-4)) with (/ 16)%R. repeat split; try split_Rabs; lra. Qed.

(** the cosine of the arc cosine, over the whole domain (even at -0.5, where the arc
    cosine itself is wrong: C61); *)
Theorem C85_cos_acos : 
  forall (c : cfg) (I : isa) (n : nans F32) (x : F F32), math_isa c I -> isfin x = true -> (Rabs (val x) <= 1)%R ->
    off_by 1e-6 (vec_cos_float c I n (vec_acos_float c I n x)) (val x).
Proof. exact C85_cos_acos_lemma. Qed.

Example C85_cos_acos_ex :
  let x := f_lit F32 11 (-4) in math_isa all_ext SSE /\ isfin x = true /\ (Rabs (val x) <= 1)%R.
Proof. destruct (lit32 (11) (-4)) as [A V]; [lia|lia|]. cbv zeta. split; [right; split; reflexivity|]. split; [exact A|]. rewrite V. change (bpow radix2 (-4)) with (/ 16)%R. repeat split; try split_Rabs; lra. Qed.

(** the arc cosine of the cosine; *)
Theorem C85_acos_cos : 
  forall (c : cfg) (I : isa) (n : nans F32) (x : F F32), math_isa c I -> isfin x = true -> (0.1 <= val x <= 3)%R ->
    off_by 4e-6 (vec_acos_float c I n (vec_cos_float c I n x)) (val x).
Proof. exact C85_acos_cos_lemma. Qed.

Example C85_acos_cos_ex :
  let x := f_lit F32 21 (-4) in math_isa all_ext SSE /\ isfin x = true /\ (0.1 <= val x <= 3)%R.
Proof. destruct (lit32 (21) (-4)) as [A V]; [lia|lia|]. cbv zeta. split; [right; split; reflexivity|]. split; [exact A|]. rewrite V. change (bpow radix2 (-4)) with (/ 16)%R. repeat split; try split_Rabs; lra. Qed.

(** the tangent of the arc tangent; *)
Theorem C85_tan_atan : 
  forall (c : cfg) (I : isa) (n : nans F32) (x : F F32), math_isa c I -> isfin x = true -> (Rabs (val x) <= 100)%R ->
    off_by (1e-6 * Rabs (val x) * (1 + Rabs (val x)) + bpow radix2 (-144)) (vec_tan_float c I n (vec_atan_float c I n x)) (val x).
Proof. exact C85_tan_atan_lemma. Qed.

Example C85_tan_atan_ex :
  let x := f_lit F32 11 (-4) in math_isa all_ext SSE /\ isfin x = true /\ (Rabs (val x) <= 100)%R.
Proof. destruct (lit32 (11) (-4)) as [A V]; [lia|lia|]. cbv zeta. split; [right; split; reflexivity|]. split; [exact A|]. rewrite V. change (bpow radix2 (-4)) with (/ 16)%R. repeat split; try split_Rabs; lra. Qed.

(** the arc tangent of the tangent; *)
Theorem C85_atan_tan : 
  forall (c : cfg) (I : isa) (n : nans F32) (x : F F32), math_isa c I -> isfin x = true -> (Rabs (val x) <= 1.5)%R ->
    off_by (1.4e-6 * Rabs (val x) + bpow radix2 (-144)) (vec_atan_float c I n (vec_tan_float c I n x)) (val x).
Proof. exact C85_atan_tan_lemma. Qed.

Example C85_atan_tan_ex :
  let x := f_lit F32 11 (-4) in math_isa all_ext SSE /\ isfin x = true /\ (Rabs (val x) <= 1.5)%R.
Proof. destruct (lit32 (11) (-4)) as [A V]; [lia|lia|]. cbv zeta. split; [right; split; reflexivity|]. split; [exact A|]. rewrite V. change (bpow radix2 (-4)) with (/ 16)%R. repeat split; try split_Rabs; lra. Qed.

(** semitones to a frequency ratio and back; *)
Theorem C85_semitones : 
  forall (c : cfg) (I : isa) (n : nans F32) (k : nans F64) (x : F F32), math_isa c I -> isfin x = true -> (Rabs (val x) <= 1200)%R ->
    off_by (9e-6 + 1.4e-6 * Rabs (val x)) (ratio2midi c I n k (midi2ratio c I n x)) (val x).
Proof. exact C85_semitones_lemma. Qed.

Example C85_semitones_ex :
  let x := f_lit F32 11 (-4) in math_isa all_ext SSE /\ isfin x = true /\ (Rabs (val x) <= 1200)%R.
Proof. destruct (lit32 (11) (-4)) as [A V]; [lia|lia|]. cbv zeta. split; [right; split; reflexivity|]. split; [exact A|]. rewrite V. change (bpow radix2 (-4)) with (/ 16)%R. repeat split; try split_Rabs; lra. Qed.

(** a frequency ratio to semitones and back; *)
Theorem C85_ratio : 
  forall (c : cfg) (I : isa) (n : nans F32) (k : nans F64) (x : F F32), math_isa c I -> isfin x = true -> (1e-30 <= val x <= 1e30)%R ->
    close (5.2e-7 + 7.6e-8 * Rabs (semitones_of_ratio (val x))) (midi2ratio c I n (ratio2midi c I n k x)) (val x).
Proof. exact C85_ratio_lemma. Qed.

Example C85_ratio_ex :
  let x := f_lit F32 11 (-4) in math_isa all_ext SSE /\ isfin x = true /\ (1e-30 <= val x <= 1e30)%R.
Proof. destruct (lit32 (11) (-4)) as [A V]; [lia|lia|]. cbv zeta. split; [right; split; reflexivity|]. split; [exact A|]. rewrite V. change (bpow radix2 (-4)) with (/ 16)%R. repeat split; try split_Rabs; lra. Qed.

(** octaves to hertz and back; *)
Theorem C85_octave : 
  forall (c : cfg) (I : isa) (n : nans F32) (k : nans F64) (x : F F32), math_isa c I -> isfin x = true -> (Rabs (val x - 4.75) <= 95)%R ->
    off_by (1.4e-6 + 1.2e-6 * Rabs (val x - 4.75)) (freq2oct c I n k (oct2freq c I n x)) (val x).
Proof. exact C85_octave_lemma. Qed.

Example C85_octave_ex :
  let x := f_lit F32 11 (-4) in math_isa all_ext SSE /\ isfin x = true /\ (Rabs (val x - 4.75) <= 95)%R.
Proof. destruct (lit32 (11) (-4)) as [A V]; [lia|lia|]. cbv zeta. split; [right; split; reflexivity|]. split; [exact A|]. rewrite V. change (bpow radix2 (-4)) with (/ 16)%R. repeat split; try split_Rabs; lra. Qed.

(** hertz to octaves and back, which loses the sign; *)
Theorem C85_freq_octave : 
  forall (c : cfg) (I : isa) (n : nans F32) (k : nans F64) (x : F F32), math_isa c I -> isfin x = true -> (1e-25 <= Rabs (val x) <= 1e30)%R ->
    close (9.5e-7 + 8.2e-7 * Rabs (octave_of_hertz (Rabs (val x)) - 4.75)) (oct2freq c I n (freq2oct c I n k x)) (Rabs (val x)).
Proof. exact C85_freq_octave_lemma. Qed.

Example C85_freq_octave_ex :
  let x := f_lit F32 11 (-4) in math_isa all_ext SSE /\ isfin x = true /\ (1e-25 <= Rabs (val x) <= 1e30)%R.
Proof. destruct (lit32 (11) (-4)) as [A V]; [lia|lia|]. cbv zeta. split; [right; split; reflexivity|]. split; [exact A|]. rewrite V. change (bpow radix2 (-4)) with (/ 16)%R. repeat split; try split_Rabs; lra. Qed.

(** hertz to keys and back, which loses the sign; *)
Theorem C85_freq_key : 
  forall (c : cfg) (I : isa) (n : nans F32) (k : nans F64) (x : F F32), math_isa c I -> isfin x = true -> (1e-25 <= Rabs (val x) <= 1e30)%R ->
    close (1.01e-6 + 9.1e-8 * Rabs (key_of_hertz (Rabs (val x)) - 69)) (midi2freq c I n (freq2midi c I n k x)) (Rabs (val x)).
Proof. exact C85_freq_key_lemma. Qed.

Example C85_freq_key_ex :
  let x := f_lit F32 11 (-4) in math_isa all_ext SSE /\ isfin x = true /\ (1e-25 <= Rabs (val x) <= 1e30)%R.
Proof. destruct (lit32 (11) (-4)) as [A V]; [lia|lia|]. cbv zeta. split; [right; split; reflexivity|]. split; [exact A|]. rewrite V. change (bpow radix2 (-4)) with (/ 16)%R. repeat split; try split_Rabs; lra. Qed.

(** amplitude to decibels and back, which loses the sign. *)
Theorem C85_amp : 
  forall (c : cfg) (I : isa) (n : nans F32) (k : nans F64) (x : F F32), math_isa c I -> isfin x = true -> (1e-30 <= Rabs (val x) <= 1e30)%R ->
    close (5.2e-7 + 1.7e-7 * Rabs (db_of_amplitude (Rabs (val x)))) (db2amp c I n (amp2db c I n k x)) (Rabs (val x)).
Proof. exact C85_amp_lemma. Qed.

Example C85_amp_ex :
  let x := f_lit F32 11 (-4) in math_isa all_ext SSE /\ isfin x = true /\ (1e-30 <= Rabs (val x) <= 1e30)%R.
Proof. destruct (lit32 (11) (-4)) as [A V]; [lia|lia|]. cbv zeta. split; [right; split; reflexivity|]. split; [exact A|]. rewrite V. change (bpow radix2 (-4)) with (/ 16)%R. repeat split; try split_Rabs; lra. Qed.

(** Buffers: a call of the one function from inp to mid and of the other from mid to
    out brings every sample back, within the same bounds, and changes nothing
    outside mid and out; *)
Theorem C85_exp_log_vec_simd : 
  forall (c : cfg) (B : backend) (n : nans F32) (m : mem (F F32)) (out mid inp len : Z), math_backend c B ->
    unary_fit B m mid inp len -> unary_fit B m out mid len -> each (fun x => isfin x = true /\ (1.19e-38 <= val x <= 3.4e38)%R) m inp len ->
    there_and_back (fun x y => close (4e-7 * (1 + Rabs (ln (val x)))) y (val x))
      (fun m => log_vec_simd c B n m mid inp len) (fun m => exp_vec_simd c B n m out mid len) m out mid inp len.
Proof. exact C85_exp_log_vec_simd_lemma. Qed.

Example C85_exp_log_vec_simd_ex :
  let m := block 0 128 (fun a => f_lit F32 a (-7)) in
  math_backend all_ext AVX32 /\ unary_fit AVX32 m 0 64 32 /\ unary_fit AVX32 m 32 0 32 /\ each (fun x => isfin x = true /\ (1.19e-38 <= val x <= 3.4e38)%R) m 64 32.
Proof.
  intros m. split; [left; reflexivity|]. split; [repeat split; fitm|]. split; [repeat split; fitm|].
  intros i x Hi E. unfold m in E. rewrite (block_in 0 128 (fun a => f_lit F32 a (-7)) (64 + i)) in E by lia. assert (x = f_lit F32 (64 + i) (-7)) as -> by congruence.
  destruct (lit32 (64 + i) (-7)) as [A V]; [lia|lia|]. split; [exact A|]. rewrite V. change (bpow radix2 (-7)) with (/ 128)%R.
  assert (Q : (64 <= IZR (64 + i) <= 95)%R) by (split; apply IZR_le; lia). repeat split; try split_Rabs; lra.
Qed.

(** the logarithm of the exponential; *)
Theorem C85_log_exp_vec_simd : 
  forall (c : cfg) (B : backend) (n : nans F32) (m : mem (F F32)) (out mid inp len : Z), math_backend c B ->
    unary_fit B m mid inp len -> unary_fit B m out mid len -> each (fun x => isfin x = true /\ (Rabs (val x) <= 87)%R) m inp len ->
    there_and_back (fun x y => off_by (4e-7 * (1 + Rabs (val x))) y (val x))
      (fun m => exp_vec_simd c B n m mid inp len) (fun m => log_vec_simd c B n m out mid len) m out mid inp len.
Proof. exact C85_log_exp_vec_simd_lemma. Qed.

Example C85_log_exp_vec_simd_ex :
  let m := block 0 128 (fun a => f_lit F32 a (-7)) in
  math_backend all_ext AVX32 /\ unary_fit AVX32 m 0 64 32 /\ unary_fit AVX32 m 32 0 32 /\ each (fun x => isfin x = true /\ (Rabs (val x) <= 87)%R) m 64 32.
Proof.
  intros m. split; [left; reflexivity|]. split; [repeat split; fitm|]. split; [repeat split; fitm|].
  intros i x Hi E. unfold m in E. rewrite (block_in 0 128 (fun a => f_lit F32 a (-7)) (64 + i)) in E by lia. assert (x = f_lit F32 (64 + i) (-7)) as -> by congruence.
  destruct (lit32 (64 + i) (-7)) as [A V]; [lia|lia|]. split; [exact A|]. rewrite V. change (bpow radix2 (-7)) with (/ 128)%R.
  assert (Q : (64 <= IZR (64 + i) <= 95)%R) by (split; apply IZR_le; lia). repeat split; try split_Rabs; lra.
Qed.

(** the sine of the arc sine, over the whole domain; *)
Theorem C85_sin_asin_vec_simd : 
  forall (c : cfg) (B : backend) (n : nans F32) (m : mem (F F32)) (out mid inp len : Z), math_backend c B ->
    unary_fit B m mid inp len -> unary_fit B m out mid len -> each (fun x => isfin x = true /\ (Rabs (val x) <= 1)%R) m inp len ->
    there_and_back (fun x y => off_by (1.4e-6 * Rabs (val x) + bpow radix2 (-145)) y (val x))
      (fun m => asin_vec_simd c B n m mid inp len) (fun m => sin_vec_simd c B n m out mid len) m out mid inp len.
Proof. exact C85_sin_asin_vec_simd_lemma. Qed.

Example C85_sin_asin_vec_simd_ex :
  let m := block 0 128 (fun a => f_lit F32 a (-7)) in
  math_backend all_ext AVX32 /\ unary_fit AVX32 m 0 64 32 /\ unary_fit AVX32 m 32 0 32 /\ each (fun x => isfin x = true /\ (Rabs (val x) <= 1)%R) m 64 32.
Proof.
  intros m. split; [left; reflexivity|]. split; [repeat split; fitm|]. split; [repeat split; fitm|].
  intros i x Hi E. unfold m in E. rewrite (block_in 0 128 (fun a => f_lit F32 a (-7)) (64 + i)) in E by lia. assert (x = f_lit F32 (64 + i) (-7)) as -> by congruence.
  destruct (lit32 (64 + i) (-7)) as [A V]; [lia|lia|]. split; [exact A|]. rewrite V. change (bpow radix2 (-7)) with (/ 128)%R.
  assert (Q : (64 <= IZR (64 + i) <= 95)%R) by (split; apply IZR_le; lia). repeat split; try split_Rabs; lra.
Qed.

(** the arc sine of the sine; *)
Theorem C85_asin_sin_vec_simd : 
  forall (c : cfg) (B : backend) (n : nans F32) (m : mem (F F32)) (out mid inp len : Z), math_backend c B ->
    unary_fit B m mid inp len -> unary_fit B m out mid len -> each (fun x => isfin x = true /\ (Rabs (val x) <= 1.5)%R) m inp len ->
    there_and_back (fun x y => off_by (5e-6 * Rabs (val x) + bpow radix2 (-143)) y (val x))
      (fun m => sin_vec_simd c B n m mid inp len) (fun m => asin_vec_simd c B n m out mid len) m out mid inp len.
Proof. exact C85_asin_sin_vec_simd_lemma. Qed.

Example C85_asin_sin_vec_simd_ex :
  let m := block 0 128 (fun a => f_lit F32 a (-7)) in
  math_backend all_ext AVX32 /\ unary_fit AVX32 m 0 64 32 /\ unary_fit AVX32 m 32 0 32 /\ each (fun x => isfin x = true /\ (Rabs (val x) <= 1.5)%R) m 64 32.
Proof.
  intros m. split; [left; reflexivity|]. split; [repeat split; fitm|]. split; [repeat split; fitm|].
  intros i x Hi E. unfold m in E. rewrite (block_in 0 128 (fun a => f_lit F32 a (-7)) (64 + i)) in E by lia. assert (x = f_lit F32 (64 + i) (-7)) as -> by congruence.
  destruct (lit32 (64 + i) (-7)) as [A V]; [lia|lia|]. split; [exact A|]. rewrite V. change (bpow radix2 (-7)) with (/ 128)%R.
  assert (Q : (64 <= IZR (64 + i) <= 95)%R) by (split; apply IZR_le; lia). repeat split; try split_Rabs; lra.
Qed.

(** the cosine of the arc cosine, over the whole domain (even at -0.5, where the arc
    cosine itself is wrong: C61); *)
Theorem C85_cos_acos_vec_simd : 
  forall (c : cfg) (B : backend) (n : nans F32) (m : mem (F F32)) (out mid inp len : Z), math_backend c B ->
    unary_fit B m mid inp len -> unary_fit B m out mid len -> each (fun x => isfin x = true /\ (Rabs (val x) <= 1)%R) m inp len ->
    there_and_back (fun x y => off_by 1e-6 y (val x))
      (fun m => acos_vec_simd c B n m mid inp len) (fun m => cos_vec_simd c B n m out mid len) m out mid inp len.
Proof. exact C85_cos_acos_vec_simd_lemma. Qed.

Example C85_cos_acos_vec_simd_ex :
  let m := block 0 128 (fun a => f_lit F32 a (-7)) in
  math_backend all_ext AVX32 /\ unary_fit AVX32 m 0 64 32 /\ unary_fit AVX32 m 32 0 32 /\ each (fun x => isfin x = true /\ (Rabs (val x) <= 1)%R) m 64 32.
Proof.
  intros m. split; [left; reflexivity|]. split; [repeat split; fitm|]. split; [repeat split; fitm|].
  intros i x Hi E. unfold m in E. rewrite (block_in 0 128 (fun a => f_lit F32 a (-7)) (64 + i)) in E by lia. assert (x = f_lit F32 (64 + i) (-7)) as -> by congruence.
  destruct (lit32 (64 + i) (-7)) as [A V]; [lia|lia|]. split; [exact A|]. rewrite V. change (bpow radix2 (-7)) with (/ 128)%R.
  assert (Q : (64 <= IZR (64 + i) <= 95)%R) by (split; apply IZR_le; lia). repeat split; try split_Rabs; lra.
Qed.

(** the arc cosine of the cosine; *)
Theorem C85_acos_cos_vec_simd : 
  forall (c : cfg) (B : backend) (n : nans F32) (m : mem (F F32)) (out mid inp len : Z), math_backend c B ->
    unary_fit B m mid inp len -> unary_fit B m out mid len -> each (fun x => isfin x = true /\ (0.1 <= val x <= 3)%R) m inp len ->
    there_and_back (fun x y => off_by 4e-6 y (val x))
      (fun m => cos_vec_simd c B n m mid inp len) (fun m => acos_vec_simd c B n m out mid len) m out mid inp len.
Proof. exact C85_acos_cos_vec_simd_lemma. Qed.

Example C85_acos_cos_vec_simd_ex :
  let m := block 0 128 (fun a => f_lit F32 a (-7)) in
  math_backend all_ext AVX32 /\ unary_fit AVX32 m 0 64 32 /\ unary_fit AVX32 m 32 0 32 /\ each (fun x => isfin x = true /\ (0.1 <= val x <= 3)%R) m 64 32.
Proof.
  intros m. split; [left; reflexivity|]. split; [repeat split; fitm|]. split; [repeat split; fitm|].
  intros i x Hi E. unfold m in E. rewrite (block_in 0 128 (fun a => f_lit F32 a (-7)) (64 + i)) in E by lia. assert (x = f_lit F32 (64 + i) (-7)) as -> by congruence.
  destruct (lit32 (64 + i) (-7)) as [A V]; [lia|lia|]. split; [exact A|]. rewrite V. change (bpow radix2 (-7)) with (/ 128)%R.
  assert (Q : (64 <= IZR (64 + i) <= 95)%R) by (split; apply IZR_le; lia). repeat split; try split_Rabs; lra.
Qed.

(** the tangent of the arc tangent; *)
Theorem C85_tan_atan_vec_simd : 
  forall (c : cfg) (B : backend) (n : nans F32) (m : mem (F F32)) (out mid inp len : Z), math_backend c B ->
    unary_fit B m mid inp len -> unary_fit B m out mid len -> each (fun x => isfin x = true /\ (Rabs (val x) <= 100)%R) m inp len ->
    there_and_back (fun x y => off_by (1e-6 * Rabs (val x) * (1 + Rabs (val x)) + bpow radix2 (-144)) y (val x))
      (fun m => atan_vec_simd c B n m mid inp len) (fun m => tan_vec_simd c B n m out mid len) m out mid inp len.
Proof. exact C85_tan_atan_vec_simd_lemma. Qed.

Example C85_tan_atan_vec_simd_ex :
  let m := block 0 128 (fun a => f_lit F32 a (-7)) in
  math_backend all_ext AVX32 /\ unary_fit AVX32 m 0 64 32 /\ unary_fit AVX32 m 32 0 32 /\ each (fun x => isfin x = true /\ (Rabs (val x) <= 100)%R) m 64 32.
Proof.
  intros m. split; [left; reflexivity|]. split; [repeat split; fitm|]. split; [repeat split; fitm|].
  intros i x Hi E. unfold m in E. rewrite (block_in 0 128 (fun a => f_lit F32 a (-7)) (64 + i)) in E by lia. assert (x = f_lit F32 (64 + i) (-7)) as -> by congruence.
  destruct (lit32 (64 + i) (-7)) as [A V]; [lia|lia|]. split; [exact A|]. rewrite V. change (bpow radix2 (-7)) with (/ 128)%R.
  assert (Q : (64 <= IZR (64 + i) <= 95)%R) by (split; apply IZR_le; lia). repeat split; try split_Rabs; lra.
Qed.

(** the arc tangent of the tangent; *)
Theorem C85_atan_tan_vec_simd : 
  forall (c : cfg) (B : backend) (n : nans F32) (m : mem (F F32)) (out mid inp len : Z), math_backend c B ->
    unary_fit B m mid inp len -> unary_fit B m out mid len -> each (fun x => isfin x = true /\ (Rabs (val x) <= 1.5)%R) m inp len ->
    there_and_back (fun x y => off_by (1.4e-6 * Rabs (val x) + bpow radix2 (-144)) y (val x))
      (fun m => tan_vec_simd c B n m mid inp len) (fun m => atan_vec_simd c B n m out mid len) m out mid inp len.
Proof. exact C85_atan_tan_vec_simd_lemma. Qed.

Example C85_atan_tan_vec_simd_ex :
  let m := block 0 128 (fun a => f_lit F32 a (-7)) in
  math_backend all_ext AVX32 /\ unary_fit AVX32 m 0 64 32 /\ unary_fit AVX32 m 32 0 32 /\ each (fun x => isfin x = true /\ (Rabs (val x) <= 1.5)%R) m 64 32.
Proof.
  intros m. split; [left; reflexivity|]. split; [repeat split; fitm|]. split; [repeat split; fitm|].
  intros i x Hi E. unfold m in E. rewrite (block_in 0 128 (fun a => f_lit F32 a (-7)) (64 + i)) in E by lia. assert (x = f_lit F32 (64 + i) (-7)) as -> by congruence.
  destruct (lit32 (64 + i) (-7)) as [A V]; [lia|lia|]. split; [exact A|]. rewrite V. change (bpow radix2 (-7)) with (/ 128)%R.
  assert (Q : (64 <= IZR (64 + i) <= 95)%R) by (split; apply IZR_le; lia). repeat split; try split_Rabs; lra.
Qed.

(** semitones to a frequency ratio and back; *)
Theorem C85_semitones_vec_simd : 
  forall (c : cfg) (B : backend) (n : nans F32) (k : nans F64) (m : mem (F F32)) (out mid inp len : Z), math_backend c B ->
    unary_fit B m mid inp len -> unary_fit B m out mid len -> each (fun x => isfin x = true /\ (Rabs (val x) <= 1200)%R) m inp len ->
    there_and_back (fun x y => off_by (9e-6 + 1.4e-6 * Rabs (val x)) y (val x))
      (fun m => midi2ratio_vec_simd c B n m mid inp len) (fun m => ratio2midi_vec_simd c B n k m out mid len) m out mid inp len.
Proof. exact C85_semitones_vec_simd_lemma. Qed.

Example C85_semitones_vec_simd_ex :
  let m := block 0 128 (fun a => f_lit F32 a (-7)) in
  math_backend all_ext AVX32 /\ unary_fit AVX32 m 0 64 32 /\ unary_fit AVX32 m 32 0 32 /\ each (fun x => isfin x = true /\ (Rabs (val x) <= 1200)%R) m 64 32.
Proof.
  intros m. split; [left; reflexivity|]. split; [repeat split; fitm|]. split; [repeat split; fitm|].
  intros i x Hi E. unfold m in E. rewrite (block_in 0 128 (fun a => f_lit F32 a (-7)) (64 + i)) in E by lia. assert (x = f_lit F32 (64 + i) (-7)) as -> by congruence.
  destruct (lit32 (64 + i) (-7)) as [A V]; [lia|lia|]. split; [exact A|]. rewrite V. change (bpow radix2 (-7)) with (/ 128)%R.
  assert (Q : (64 <= IZR (64 + i) <= 95)%R) by (split; apply IZR_le; lia). repeat split; try split_Rabs; lra.
Qed.

(** a frequency ratio to semitones and back; *)
Theorem C85_ratio_vec_simd : 
  forall (c : cfg) (B : backend) (n : nans F32) (k : nans F64) (m : mem (F F32)) (out mid inp len : Z), math_backend c B ->
    unary_fit B m mid inp len -> unary_fit B m out mid len -> each (fun x => isfin x = true /\ (1e-30 <= val x <= 1e30)%R) m inp len ->
    there_and_back (fun x y => close (5.2e-7 + 7.6e-8 * Rabs (semitones_of_ratio (val x))) y (val x))
      (fun m => ratio2midi_vec_simd c B n k m mid inp len) (fun m => midi2ratio_vec_simd c B n m out mid len) m out mid inp len.
Proof. exact C85_ratio_vec_simd_lemma. Qed.

Example C85_ratio_vec_simd_ex :
  let m := block 0 128 (fun a => f_lit F32 a (-7)) in
  math_backend all_ext AVX32 /\ unary_fit AVX32 m 0 64 32 /\ unary_fit AVX32 m 32 0 32 /\ each (fun x => isfin x = true /\ (1e-30 <= val x <= 1e30)%R) m 64 32.
Proof.
  intros m. split; [left; reflexivity|]. split; [repeat split; fitm|]. split; [repeat split; fitm|].
  intros i x Hi E. unfold m in E. rewrite (block_in 0 128 (fun a => f_lit F32 a (-7)) (64 + i)) in E by lia. assert (x = f_lit F32 (64 + i) (-7)) as -> by congruence.
  destruct (lit32 (64 + i) (-7)) as [A V]; [lia|lia|]. split; [exact A|]. rewrite V. change (bpow radix2 (-7)) with (/ 128)%R.
  assert (Q : (64 <= IZR (64 + i) <= 95)%R) by (split; apply IZR_le; lia). repeat split; try split_Rabs; lra.
Qed.

(** octaves to hertz and back; *)
Theorem C85_octave_vec_simd : 
  forall (c : cfg) (B : backend) (n : nans F32) (k : nans F64) (m : mem (F F32)) (out mid inp len : Z), math_backend c B ->
    unary_fit B m mid inp len -> unary_fit B m out mid len -> each (fun x => isfin x = true /\ (Rabs (val x - 4.75) <= 95)%R) m inp len ->
    there_and_back (fun x y => off_by (1.4e-6 + 1.2e-6 * Rabs (val x - 4.75)) y (val x))
      (fun m => oct2freq_vec_simd c B n m mid inp len) (fun m => freq2oct_vec_simd c B n k m out mid len) m out mid inp len.
Proof. exact C85_octave_vec_simd_lemma. Qed.

Example C85_octave_vec_simd_ex :
  let m := block 0 128 (fun a => f_lit F32 a (-7)) in
  math_backend all_ext AVX32 /\ unary_fit AVX32 m 0 64 32 /\ unary_fit AVX32 m 32 0 32 /\ each (fun x => isfin x = true /\ (Rabs (val x - 4.75) <= 95)%R) m 64 32.
Proof.
  intros m. split; [left; reflexivity|]. split; [repeat split; fitm|]. split; [repeat split; fitm|].
  intros i x Hi E. unfold m in E. rewrite (block_in 0 128 (fun a => f_lit F32 a (-7)) (64 + i)) in E by lia. assert (x = f_lit F32 (64 + i) (-7)) as -> by congruence.
  destruct (lit32 (64 + i) (-7)) as [A V]; [lia|lia|]. split; [exact A|]. rewrite V. change (bpow radix2 (-7)) with (/ 128)%R.
  assert (Q : (64 <= IZR (64 + i) <= 95)%R) by (split; apply IZR_le; lia). repeat split; try split_Rabs; lra.
Qed.

(** hertz to octaves and back, which loses the sign; *)
Theorem C85_freq_octave_vec_simd : 
  forall (c : cfg) (B : backend) (n : nans F32) (k : nans F64) (m : mem (F F32)) (out mid inp len : Z), math_backend c B ->
    unary_fit B m mid inp len -> unary_fit B m out mid len -> each (fun x => isfin x = true /\ (1e-25 <= Rabs (val x) <= 1e30)%R) m inp len ->
    there_and_back (fun x y => close (9.5e-7 + 8.2e-7 * Rabs (octave_of_hertz (Rabs (val x)) - 4.75)) y (Rabs (val x)))
      (fun m => freq2oct_vec_simd c B n k m mid inp len) (fun m => oct2freq_vec_simd c B n m out mid len) m out mid inp len.
Proof. exact C85_freq_octave_vec_simd_lemma. Qed.

Example C85_freq_octave_vec_simd_ex :
  let m := block 0 128 (fun a => f_lit F32 a (-7)) in
  math_backend all_ext AVX32 /\ unary_fit AVX32 m 0 64 32 /\ unary_fit AVX32 m 32 0 32 /\ each (fun x => isfin x = true /\ (1e-25 <= Rabs (val x) <= 1e30)%R) m 64 32.
Proof.
  intros m. split; [left; reflexivity|]. split; [repeat split; fitm|]. split; [repeat split; fitm|].
  intros i x Hi E. unfold m in E. rewrite (block_in 0 128 (fun a => f_lit F32 a (-7)) (64 + i)) in E by lia. assert (x = f_lit F32 (64 + i) (-7)) as -> by congruence.
  destruct (lit32 (64 + i) (-7)) as [A V]; [lia|lia|]. split; [exact A|]. rewrite V. change (bpow radix2 (-7)) with (/ 128)%R.
  assert (Q : (64 <= IZR (64 + i) <= 95)%R) by (split; apply IZR_le; lia). repeat split; try split_Rabs; lra.
Qed.

(** hertz to keys and back, which loses the sign; *)
Theorem C85_freq_key_vec_simd : 
  forall (c : cfg) (B : backend) (n : nans F32) (k : nans F64) (m : mem (F F32)) (out mid inp len : Z), math_backend c B ->
    unary_fit B m mid inp len -> unary_fit B m out mid len -> each (fun x => isfin x = true /\ (1e-25 <= Rabs (val x) <= 1e30)%R) m inp len ->
    there_and_back (fun x y => close (1.01e-6 + 9.1e-8 * Rabs (key_of_hertz (Rabs (val x)) - 69)) y (Rabs (val x)))
      (fun m => freq2midi_vec_simd c B n k m mid inp len) (fun m => midi2freq_vec_simd c B n m out mid len) m out mid inp len.
Proof. exact C85_freq_key_vec_simd_lemma. Qed.

Example C85_freq_key_vec_simd_ex :
  let m := block 0 128 (fun a => f_lit F32 a (-7)) in
  math_backend all_ext AVX32 /\ unary_fit AVX32 m 0 64 32 /\ unary_fit AVX32 m 32 0 32 /\ each (fun x => isfin x = true /\ (1e-25 <= Rabs (val x) <= 1e30)%R) m 64 32.
Proof.
  intros m. split; [left; reflexivity|]. split; [repeat split; fitm|]. split; [repeat split; fitm|].
  intros i x Hi E. unfold m in E. rewrite (block_in 0 128 (fun a => f_lit F32 a (-7)) (64 + i)) in E by lia. assert (x = f_lit F32 (64 + i) (-7)) as -> by congruence.
  destruct (lit32 (64 + i) (-7)) as [A V]; [lia|lia|]. split; [exact A|]. rewrite V. change (bpow radix2 (-7)) with (/ 128)%R.
  assert (Q : (64 <= IZR (64 + i) <= 95)%R) by (split; apply IZR_le; lia). repeat split; try split_Rabs; lra.
Qed.

(** amplitude to decibels and back, which loses the sign. *)
Theorem C85_amp_vec_simd : 
  forall (c : cfg) (B : backend) (n : nans F32) (k : nans F64) (m : mem (F F32)) (out mid inp len : Z), math_backend c B ->
    unary_fit B m mid inp len -> unary_fit B m out mid len -> each (fun x => isfin x = true /\ (1e-30 <= Rabs (val x) <= 1e30)%R) m inp len ->
    there_and_back (fun x y => close (5.2e-7 + 1.7e-7 * Rabs (db_of_amplitude (Rabs (val x)))) y (Rabs (val x)))
      (fun m => amp2db_vec_simd c B n k m mid inp len) (fun m => db2amp_vec_simd c B n m out mid len) m out mid inp len.
Proof. exact C85_amp_vec_simd_lemma. Qed.

Example C85_amp_vec_simd_ex :
  let m := block 0 128 (fun a => f_lit F32 a (-7)) in
  math_backend all_ext AVX32 /\ unary_fit AVX32 m 0 64 32 /\ unary_fit AVX32 m 32 0 32 /\ each (fun x => isfin x = true /\ (1e-30 <= Rabs (val x) <= 1e30)%R) m 64 32.
Proof.
  intros m. split; [left; reflexivity|]. split; [repeat split; fitm|]. split; [repeat split; fitm|].
  intros i x Hi E. unfold m in E. rewrite (block_in 0 128 (fun a => f_lit F32 a (-7)) (64 + i)) in E by lia. assert (x = f_lit F32 (64 + i) (-7)) as -> by congruence.
  destruct (lit32 (64 + i) (-7)) as [A V]; [lia|lia|]. split; [exact A|]. rewrite V. change (bpow radix2 (-7)) with (/ 128)%R.
  assert (Q : (64 <= IZR (64 + i) <= 95)%R) by (split; apply IZR_le; lia). repeat split; try split_Rabs; lra.
Qed.

(** keys to hertz and back (lane by lane: C54); *)
Theorem C85_key_vec_simd : 
  forall (c : cfg) (B : backend) (n : nans F32) (k : nans F64) (m : mem (F F32)) (out mid inp len : Z), math_backend c B ->
    unary_fit B m mid inp len -> unary_fit B m out mid len -> each (fun x => isfin x = true /\ (0 <= val x <= 127)%R) m inp len ->
    there_and_back (fun x y => off_by 2e-4 y (val x))
      (fun m => midi2freq_vec_simd c B n m mid inp len) (fun m => freq2midi_vec_simd c B n k m out mid len) m out mid inp len.
Proof. exact C85_key_vec_simd_lemma. Qed.

Example C85_key_vec_simd_ex :
  let m := block 0 128 (fun a => f_lit F32 a (-7)) in
  math_backend all_ext AVX32 /\ unary_fit AVX32 m 0 64 32 /\ unary_fit AVX32 m 32 0 32 /\ each (fun x => isfin x = true /\ (0 <= val x <= 127)%R) m 64 32.
Proof.
  intros m. split; [left; reflexivity|]. split; [repeat split; fitm|]. split; [repeat split; fitm|].
  intros i x Hi E. unfold m in E. rewrite (block_in 0 128 (fun a => f_lit F32 a (-7)) (64 + i)) in E by lia. assert (x = f_lit F32 (64 + i) (-7)) as -> by congruence.
  destruct (lit32 (64 + i) (-7)) as [A V]; [lia|lia|]. split; [exact A|]. rewrite V. change (bpow radix2 (-7)) with (/ 128)%R.
  assert (Q : (64 <= IZR (64 + i) <= 95)%R) by (split; apply IZR_le; lia). repeat split; try split_Rabs; lra.
Qed.

(** decibels to amplitude and back (lane by lane: C54); *)
Theorem C85_decibels_vec_simd : 
  forall (c : cfg) (B : backend) (n : nans F32) (k : nans F64) (m : mem (F F32)) (out mid inp len : Z), math_backend c B ->
    unary_fit B m mid inp len -> unary_fit B m out mid len -> each (fun x => isfin x = true /\ (Rabs (val x) <= 200)%R) m inp len ->
    there_and_back (fun x y => off_by 4e-4 y (val x))
      (fun m => db2amp_vec_simd c B n m mid inp len) (fun m => amp2db_vec_simd c B n k m out mid len) m out mid inp len.
Proof. exact C85_decibels_vec_simd_lemma. Qed.

Example C85_decibels_vec_simd_ex :
  let m := block 0 128 (fun a => f_lit F32 a (-7)) in
  math_backend all_ext AVX32 /\ unary_fit AVX32 m 0 64 32 /\ unary_fit AVX32 m 32 0 32 /\ each (fun x => isfin x = true /\ (Rabs (val x) <= 200)%R) m 64 32.
Proof.
  intros m. split; [left; reflexivity|]. split; [repeat split; fitm|]. split; [repeat split; fitm|].
  intros i x Hi E. unfold m in E. rewrite (block_in 0 128 (fun a => f_lit F32 a (-7)) (64 + i)) in E by lia. assert (x = f_lit F32 (64 + i) (-7)) as -> by congruence.
  destruct (lit32 (64 + i) (-7)) as [A V]; [lia|lia|]. split; [exact A|]. rewrite V. change (bpow radix2 (-7)) with (/ 128)%R.
  assert (Q : (64 <= IZR (64 + i) <= 95)%R) by (split; apply IZR_le; lia). repeat split; try split_Rabs; lra.
Qed.

(** * C86: identities between functions *)

(** tan times cos is sin. *)
Theorem C86_tan_cos : 
  forall (c : cfg) (I : isa) (n : nans F32) (x : F F32), math_isa c I -> isfin x = true -> (Rabs (val x) <= 1.5)%R ->
    (Rabs (val (vec_tan_float c I n x) * val (vec_cos_float c I n x) - val (vec_sin_float c I n x)) <= 1e-6 * Rabs (val x) + bpow radix2 (-143))%R.
Proof. exact C86_tan_cos_lemma. Qed.

Example C86_tan_cos_ex :
  let x := f_lit F32 (-11) (-4) in math_isa all_ext SSE /\ isfin x = true /\ (Rabs (val x) <= 1.5)%R.
Proof.
  destruct (lit32 (-11) (-4)) as [Ax Vx]; [lia|lia|]. change (bpow radix2 (-4)) with (/ 16)%R in Vx.
  cbv zeta. split; [right; split; reflexivity|]. split; [exact Ax|]. rewrite Vx. repeat split; try split_Rabs; lra.
Qed.

(** asin and acos add up to a right angle, *)
Theorem C86_asin_acos : 
  forall (c : cfg) (I : isa) (n : nans F32) (x : F F32), math_isa c I -> isfin x = true -> (Rabs (val x) <= 1)%R -> (val x <> - 0.5)%R ->
    (Rabs (val (vec_asin_float c I n x) + val (vec_acos_float c I n x) - PI / 2) <= 1.8e-6)%R.
Proof. exact C86_asin_acos_lemma. Qed.

Example C86_asin_acos_ex :
  let x := f_lit F32 (-11) (-4) in math_isa all_ext SSE /\ isfin x = true /\ (Rabs (val x) <= 1)%R /\ (val x <> - 0.5)%R.
Proof.
  destruct (lit32 (-11) (-4)) as [Ax Vx]; [lia|lia|]. change (bpow radix2 (-4)) with (/ 16)%R in Vx.
  cbv zeta. split; [right; split; reflexivity|]. split; [exact Ax|]. rewrite Vx. split; [|lra]. repeat split; try split_Rabs; lra.
Qed.

(** but not at -0.5. *)
Theorem C86_asin_acos_refuted : 
  forall (c : cfg) (I : isa) (n : nans F32), math_isa c I ->
    exists x : F F32, isfin x = true /\ val x = (- 0.5)%R /\
      (val (vec_asin_float c I n x) + val (vec_acos_float c I n x) - PI / 2 > 1.8)%R.
Proof. exact C86_asin_acos_refuted_lemma. Qed.

Example C86_asin_acos_refuted_ex :
  math_isa all_ext SSE /\ math_isa no_ext AVX.
Proof. split; [right; split; reflexivity|left; reflexivity]. Qed.

(** The logarithm turns products into sums *)
Theorem C86_log_product : 
  forall (c : cfg) (I : isa) (n : nans F32) (x y : F F32), math_isa c I -> normal_positive x -> normal_positive y ->
    (bpow radix2 (-126) <= val x * val y <= bpow radix2 127)%R ->
    (Rabs (val (vec_log_float c I n (fmul n x y)) - (val (vec_log_float c I n x) + val (vec_log_float c I n y)))
     <= 8e-7 * (Rabs (ln (val x)) + Rabs (ln (val y))) + 1e-7)%R.
Proof. exact C86_log_product_lemma. Qed.

Example C86_log_product_ex :
  let x := f_lit F32 (11) (-4) in let y := f_lit F32 (3) (2) in math_isa all_ext SSE /\ normal_positive x /\ normal_positive y /\ (bpow radix2 (-126) <= val x * val y <= bpow radix2 127)%R.
Proof.
  destruct (lit32 (11) (-4)) as [Ax Vx]; [lia|lia|]. change (bpow radix2 (-4)) with (/ 16)%R in Vx. destruct (lit32 (3) (2)) as [Ay Vy]; [lia|lia|]. change (bpow radix2 (2)) with 4%R in Vy.
  cbv zeta. split; [right; split; reflexivity|]. split; [split; [exact Ax|rewrite Vx; eapply Rle_trans; [apply (bpow_le radix2 (-126) (-3)); lia|change (bpow radix2 (-3)) with (/ 8)%R; lra]]|]. split; [split; [exact Ay|rewrite Vy; eapply Rle_trans; [apply (bpow_le radix2 (-126) (-3)); lia|change (bpow radix2 (-3)) with (/ 8)%R; lra]]|]. rewrite Vx, Vy. split.
  - eapply Rle_trans; [apply (bpow_le radix2 (-126) (-3)); lia|]. change (bpow radix2 (-3)) with (/ 8)%R. lra.
  - eapply Rle_trans; [|apply (bpow_le radix2 10 127); lia]. change (bpow radix2 10) with 1024%R. lra.
Qed.

(** and quotients into differences; *)
Theorem C86_log_quotient : 
  forall (c : cfg) (I : isa) (n : nans F32) (x y : F F32), math_isa c I -> normal_positive x -> normal_positive y ->
    (bpow radix2 (-126) <= val x / val y <= bpow radix2 127)%R ->
    (Rabs (val (vec_log_float c I n (fdiv n x y)) - (val (vec_log_float c I n x) - val (vec_log_float c I n y)))
     <= 8e-7 * (Rabs (ln (val x)) + Rabs (ln (val y))) + 1e-7)%R.
Proof. exact C86_log_quotient_lemma. Qed.

Example C86_log_quotient_ex :
  let x := f_lit F32 (3) (2) in let y := f_lit F32 (11) (-4) in math_isa all_ext SSE /\ normal_positive x /\ normal_positive y /\ (bpow radix2 (-126) <= val x / val y <= bpow radix2 127)%R.
Proof.
  destruct (lit32 (3) (2)) as [Ax Vx]; [lia|lia|]. change (bpow radix2 (2)) with 4%R in Vx. destruct (lit32 (11) (-4)) as [Ay Vy]; [lia|lia|]. change (bpow radix2 (-4)) with (/ 16)%R in Vy.
  cbv zeta. split; [right; split; reflexivity|]. split; [split; [exact Ax|rewrite Vx; eapply Rle_trans; [apply (bpow_le radix2 (-126) (-3)); lia|change (bpow radix2 (-3)) with (/ 8)%R; lra]]|]. split; [split; [exact Ay|rewrite Vy; eapply Rle_trans; [apply (bpow_le radix2 (-126) (-3)); lia|change (bpow radix2 (-3)) with (/ 8)%R; lra]]|]. rewrite Vx, Vy. split.
  - eapply Rle_trans; [apply (bpow_le radix2 (-126) (-3)); lia|]. change (bpow radix2 (-3)) with (/ 8)%R. lra.
  - eapply Rle_trans; [|apply (bpow_le radix2 10 127); lia]. change (bpow radix2 10) with 1024%R. lra.
Qed.

(** the exponential turns sums into products *)
Theorem C86_exp_sum : 
  forall (c : cfg) (I : isa) (n : nans F32) (x y : F F32), math_isa c I -> isfin x = true -> isfin y = true ->
    (Rabs (val x) <= 87)%R -> (Rabs (val y) <= 87)%R -> (Rabs (val x + val y) <= 87)%R ->
    (Rabs (val (vec_exp_float c I n (fadd n x y)) - val (vec_exp_float c I n x) * val (vec_exp_float c I n y))
     <= (1e-6 + 6.1e-8 * Rabs (val x + val y)) * exp (val x + val y))%R.
Proof. exact C86_exp_sum_lemma. Qed.

Example C86_exp_sum_ex :
  let x := f_lit F32 (11) (-4) in let y := f_lit F32 (-5) (2) in math_isa all_ext SSE /\ isfin x = true /\ isfin y = true /\ (Rabs (val x) <= 87)%R /\ (Rabs (val y) <= 87)%R /\ (Rabs (val x + val y) <= 87)%R.
Proof.
  destruct (lit32 (11) (-4)) as [Ax Vx]; [lia|lia|]. change (bpow radix2 (-4)) with (/ 16)%R in Vx. destruct (lit32 (-5) (2)) as [Ay Vy]; [lia|lia|]. change (bpow radix2 (2)) with 4%R in Vy.
  cbv zeta. split; [right; split; reflexivity|]. split; [exact Ax|]. split; [exact Ay|]. rewrite Vx, Vy. repeat split; repeat split; try split_Rabs; lra.
Qed.

(** and exp(x) exp(-x) is one. *)
Theorem C86_exp_inverse : 
  forall (c : cfg) (I : isa) (n : nans F32) (x y : F F32), math_isa c I -> isfin x = true -> isfin y = true -> (Rabs (val x) <= 87)%R -> val y = (- val x)%R ->
    (Rabs (val (vec_exp_float c I n x) * val (vec_exp_float c I n y) - 1) <= 6.1e-7)%R.
Proof. exact C86_exp_inverse_lemma. Qed.

Example C86_exp_inverse_ex :
  let x := f_lit F32 (11) (-4) in let y := f_lit F32 (-11) (-4) in math_isa all_ext SSE /\ isfin x = true /\ isfin y = true /\ (Rabs (val x) <= 87)%R /\ val y = (- val x)%R.
Proof.
  destruct (lit32 (11) (-4)) as [Ax Vx]; [lia|lia|]. change (bpow radix2 (-4)) with (/ 16)%R in Vx. destruct (lit32 (-11) (-4)) as [Ay Vy]; [lia|lia|]. change (bpow radix2 (-4)) with (/ 16)%R in Vy.
  cbv zeta. split; [right; split; reflexivity|]. split; [exact Ax|]. split; [exact Ay|]. rewrite Vx, Vy. split; [split_Rabs; lra|lra].
Qed.

(** The logarithms of the three bases are multiples of each other. *)
Theorem C86_log2 : 
  forall (c : cfg) (I : isa) (n : nans F32) (k : nans F64) (x : F F32), math_isa c I -> normal_positive x ->
    (Rabs (val (vec_log2 c I n k x) * ln 2 - val (vec_log_float c I n x)) <= 1e-6 * Rabs (val (vec_log_float c I n x)))%R.
Proof. exact C86_log2_lemma. Qed.

Example C86_log2_ex :
  let x := f_lit F32 (11) (-4) in math_isa all_ext SSE /\ normal_positive x.
Proof.
  destruct (lit32 (11) (-4)) as [Ax Vx]; [lia|lia|]. change (bpow radix2 (-4)) with (/ 16)%R in Vx.
  cbv zeta. split; [right; split; reflexivity|]. split; [exact Ax|rewrite Vx; eapply Rle_trans; [apply (bpow_le radix2 (-126) (-3)); lia|change (bpow radix2 (-3)) with (/ 8)%R; lra]].
Qed.

(** (The same for base ten.) *)
Theorem C86_log10 : 
  forall (c : cfg) (I : isa) (n : nans F32) (k : nans F64) (x : F F32), math_isa c I -> normal_positive x ->
    (Rabs (val (vec_log10 c I n k x) * ln 10 - val (vec_log_float c I n x)) <= 1e-6 * Rabs (val (vec_log_float c I n x)))%R.
Proof. exact C86_log10_lemma. Qed.

Example C86_log10_ex :
  let x := f_lit F32 (11) (-4) in math_isa all_ext SSE /\ normal_positive x.
Proof.
  destruct (lit32 (11) (-4)) as [Ax Vx]; [lia|lia|]. change (bpow radix2 (-4)) with (/ 16)%R in Vx.
  cbv zeta. split; [right; split; reflexivity|]. split; [exact Ax|rewrite Vx; eapply Rle_trans; [apply (bpow_le radix2 (-126) (-3)); lia|change (bpow radix2 (-3)) with (/ 8)%R; lra]].
Qed.

(** Powers: the first power is the number itself, *)
Theorem C86_pow_one : 
  forall (c : cfg) (I : isa) (n : nans F32) (x y : F F32), math_isa c I -> isfin x = true -> (1.7e-38 <= val x <= 6e37)%R -> isfin y = true -> val y = 1%R ->
    close (5e-7 * (1 + Rabs (ln (val x)))) (vec_pow c I n x y) (val x).
Proof. exact C86_pow_one_lemma. Qed.

Example C86_pow_one_ex :
  let x := f_lit F32 (11) (-4) in let y := f_lit F32 (1) (0) in math_isa all_ext SSE /\ isfin x = true /\ (1.7e-38 <= val x <= 6e37)%R /\ isfin y = true /\ val y = 1%R.
Proof.
  destruct (lit32 (11) (-4)) as [Ax Vx]; [lia|lia|]. change (bpow radix2 (-4)) with (/ 16)%R in Vx. destruct (lit32 (1) (0)) as [Ay Vy]; [lia|lia|]. change (bpow radix2 (0)) with 1%R in Vy.
  cbv zeta. split; [right; split; reflexivity|]. split; [exact Ax|]. rewrite Vx. split; [lra|]. split; [exact Ay|]. rewrite Vy. lra.
Qed.

(** the second the product x * x of the vec, *)
Theorem C86_pow_two : 
  forall (c : cfg) (I : isa) (n : nans F32) (x y : F F32), math_isa c I -> isfin x = true -> (1e-18 <= val x <= 1e18)%R -> isfin y = true -> val y = 2%R ->
    (Rabs (val (vec_pow c I n x y) - val (fmul n x x)) <= (6e-7 + 1.1e-6 * Rabs (ln (val x))) * val (fmul n x x))%R.
Proof. exact C86_pow_two_lemma. Qed.

Example C86_pow_two_ex :
  let x := f_lit F32 (11) (-4) in let y := f_lit F32 (2) (0) in math_isa all_ext SSE /\ isfin x = true /\ (1e-18 <= val x <= 1e18)%R /\ isfin y = true /\ val y = 2%R.
Proof.
  destruct (lit32 (11) (-4)) as [Ax Vx]; [lia|lia|]. change (bpow radix2 (-4)) with (/ 16)%R in Vx. destruct (lit32 (2) (0)) as [Ay Vy]; [lia|lia|]. change (bpow radix2 (0)) with 1%R in Vy.
  cbv zeta. split; [right; split; reflexivity|]. split; [exact Ax|]. rewrite Vx. split; [lra|]. split; [exact Ay|]. rewrite Vy. lra.
Qed.

(** the power of a half the square root, *)
Theorem C86_pow_half : 
  forall (c : cfg) (I : isa) (n : nans F32) (x y : F F32), math_isa c I -> normal_positive x -> isfin y = true -> val y = 0.5%R ->
    (Rabs (val (vec_pow c I n x y) - val (fsqrt n x)) <= (6e-7 + 3e-7 * Rabs (ln (val x))) * val (fsqrt n x))%R.
Proof. exact C86_pow_half_lemma. Qed.

Example C86_pow_half_ex :
  let x := f_lit F32 (11) (-4) in let y := f_lit F32 (1) (-1) in math_isa all_ext SSE /\ normal_positive x /\ isfin y = true /\ val y = 0.5%R.
Proof.
  destruct (lit32 (11) (-4)) as [Ax Vx]; [lia|lia|]. change (bpow radix2 (-4)) with (/ 16)%R in Vx. destruct (lit32 (1) (-1)) as [Ay Vy]; [lia|lia|]. change (bpow radix2 (-1)) with (/ 2)%R in Vy.
  cbv zeta. split; [right; split; reflexivity|]. split; [split; [exact Ax|rewrite Vx; eapply Rle_trans; [apply (bpow_le radix2 (-126) (-3)); lia|change (bpow radix2 (-3)) with (/ 8)%R; lra]]|]. split; [exact Ay|]. rewrite Vy. lra.
Qed.

(** and opposite exponents give reciprocals. *)
Theorem C86_pow_inverse : 
  forall (c : cfg) (I : isa) (n : nans F32) (x y z : F F32), math_isa c I -> normal_positive x -> isfin y = true -> isfin z = true -> val z = (- val y)%R ->
    (Rabs (val y * ln (val x)) <= 87)%R ->
    (Rabs (val (vec_pow c I n x y) * val (vec_pow c I n x z) - 1) <= 1.1e-6 * (1 + Rabs (val y * ln (val x))))%R.
Proof. exact C86_pow_inverse_lemma. Qed.

Example C86_pow_inverse_ex :
  let x := f_lit F32 (2) (0) in let y := f_lit F32 (10) (0) in let z := f_lit F32 (-10) (0) in math_isa all_ext SSE /\ normal_positive x /\ isfin y = true /\ isfin z = true /\ val z = (- val y)%R /\ (Rabs (val y * ln (val x)) <= 87)%R.
Proof.
  destruct (lit32 (2) (0)) as [Ax Vx]; [lia|lia|]. change (bpow radix2 (0)) with 1%R in Vx. destruct (lit32 (10) (0)) as [Ay Vy]; [lia|lia|]. change (bpow radix2 (0)) with 1%R in Vy. destruct (lit32 (-10) (0)) as [Az Vz]; [lia|lia|]. change (bpow radix2 (0)) with 1%R in Vz.
  cbv zeta. split; [right; split; reflexivity|]. split; [split; [exact Ax|rewrite Vx; eapply Rle_trans; [apply (bpow_le radix2 (-126) (-3)); lia|change (bpow radix2 (-3)) with (/ 8)%R; lra]]|]. split; [exact Ay|]. split; [exact Az|]. rewrite Vx, Vy, Vz. split; [lra|]. replace (2 * 1)%R with 2%R by lra. pose proof ln2_value. split_Rabs; lra.
Qed.

(** Exactly one: anything but zero to the power of zero, be it negative, infinite or
    NaN, *)
Theorem C86_pow_zero_exponent : 
  forall (c : cfg) (I : isa) (n : nans F32) (x y : F F32), math_isa c I -> ~ (isfin x = true /\ val x = 0%R) -> isfin y = true -> val y = 0%R ->
    bits (vec_pow c I n x y) = bits (f_ofZ F32 1).
Proof. exact C86_pow_zero_exponent_lemma. Qed.

Example C86_pow_zero_exponent_ex :
  let x := f_lit F32 (-11) (-4) in let y := f_lit F32 (0) (0) in math_isa all_ext SSE /\ ~ (isfin x = true /\ val x = 0%R) /\ isfin y = true /\ val y = 0%R.
Proof.
  destruct (lit32 (-11) (-4)) as [Ax Vx]; [lia|lia|]. change (bpow radix2 (-4)) with (/ 16)%R in Vx. destruct (lit32 (0) (0)) as [Ay Vy]; [lia|lia|]. change (bpow radix2 (0)) with 1%R in Vy.
  cbv zeta. split; [right; split; reflexivity|]. split; [intros [_ Q]; rewrite Vx in Q; lra|]. split; [exact Ay|]. rewrite Vy. lra.
Qed.

(** and one to any finite power. *)
Theorem C86_pow_of_one : 
  forall (c : cfg) (I : isa) (n : nans F32) (y : F F32), math_isa c I -> isfin y = true -> bits (vec_pow c I n (f_ofZ F32 1) y) = bits (f_ofZ F32 1).
Proof. exact C86_pow_of_one_lemma. Qed.

Example C86_pow_of_one_ex :
  let y := f_lit F32 (-11) (-4) in math_isa all_ext SSE /\ isfin y = true.
Proof.
  destruct (lit32 (-11) (-4)) as [Ay Vy]; [lia|lia|]. change (bpow radix2 (-4)) with (/ 16)%R in Vy.
  cbv zeta. split; [right; split; reflexivity|]. exact Ay.
Qed.

(** Zero to the power of zero is zero, unlike std::pow. *)
Theorem C86_zero_pow_zero_refuted : 
  forall (c : cfg) (I : isa) (n : nans F32), math_isa c I -> exists x y : F F32, isfin x = true /\ val x = 0%R /\ isfin y = true /\ val y = 0%R /\
    val (vec_pow c I n x y) = 0%R.
Proof. exact C86_zero_pow_zero_refuted_lemma. Qed.

Example C86_zero_pow_zero_refuted_ex :
  math_isa all_ext SSE /\ math_isa no_ext AVX.
Proof. split; [right; split; reflexivity|left; reflexivity]. Qed.

(** All theorems of this file together, for one run of Print Assumptions. *)
Definition all_Trip := (
  C85_exp_log,
  C85_log_exp,
  C85_sin_asin,
  C85_asin_sin,
  C85_cos_acos,
  C85_acos_cos,
  C85_tan_atan,
  C85_atan_tan,
  C85_semitones,
  C85_ratio,
  C85_octave,
  C85_freq_octave,
  C85_freq_key,
  C85_amp,
  C85_exp_log_vec_simd,
  C85_log_exp_vec_simd,
  C85_sin_asin_vec_simd,
  C85_asin_sin_vec_simd,
  C85_cos_acos_vec_simd,
  C85_acos_cos_vec_simd,
  C85_tan_atan_vec_simd,
  C85_atan_tan_vec_simd,
  C85_semitones_vec_simd,
  C85_ratio_vec_simd,
  C85_octave_vec_simd,
  C85_freq_octave_vec_simd,
  C85_freq_key_vec_simd,
  C85_amp_vec_simd,
  C85_key_vec_simd,
  C85_decibels_vec_simd,
  C86_tan_cos,
  C86_asin_acos,
  C86_asin_acos_refuted,
  C86_log_product,
  C86_log_quotient,
  C86_exp_sum,
  C86_exp_inverse,
  C86_log2,
  C86_log10,
  C86_pow_one,
  C86_pow_two,
  C86_pow_half,
  C86_pow_inverse,
  C86_pow_zero_exponent,
  C86_pow_of_one,
  C86_zero_pow_zero_refuted).
Print Assumptions all_Trip.
