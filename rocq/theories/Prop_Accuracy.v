(** Accuracy of the transcendental functions and unit conversions (C49, C51, C54,
    C57, C58). *)
From Coq Require Import ZArith Reals List Lia Bool Lra.
From Flocq Require Import Core IEEE754.Binary IEEE754.Bits.
From Verif Require Import
  Base Mem Backend Args Drivers Functors Lanes Float LaneOps FloatOps ScalarMath VecMath FloatFuns IntVec TransMath TransFuns Spec SpecLane SpecMath
  FloatFacts RoundMore MathMore RealUnit ExData ExFloat ExMath AccuracyClaims.
Import ListNotations.
Local Open Scope Z_scope.

(** * C49: exp *)

(** exp is within a relative error of 3e-7 (the source promises 5e-7) on
    [-87.33, 88.72283172607422]; the upper end is the last float at which e^x
    is computed at all. *)
Theorem C49_exp : 
  forall (c : cfg) (I : isa) (n : nans F32) (x : F F32), math_isa c I -> isfin x = true -> (- 87.33 <= val x <= 11629079 / 131072)%R ->
    close 3e-7 (vec_exp_float c I n x) (exp (val x)).
Proof. exact C49_exp_lemma. Qed.

Example C49_exp_ex :
  let x := f_lit F32 (-87) 0 in
  math_isa all_ext SSE /\ isfin x = true /\ (- 87.33 <= val x <= 11629079 / 131072)%R.
Proof. fitm. Qed.

(** The buffer function. *)
Theorem C49_exp_vec_simd : 
  forall (c : cfg) (B : backend) (n : nans F32) (m : mem (F F32)) (out inp len : Z), math_backend c B -> unary_fit B m out inp len -> each (fun x => isfin x = true /\ (- 87.33 <= val x <= 11629079 / 131072)%R) m inp len ->
    computes (fun x y => close 3e-7 y (exp (val x))) m (exp_vec_simd c B n m out inp len) out inp len.
Proof. exact C49_exp_vec_simd_lemma. Qed.

Example C49_exp_vec_simd_ex :
  let m := block 0 80 (fun a => f_lit F32 (8 * a + -700) (-3)) in
  math_backend all_ext AVX32 /\ unary_fit AVX32 m 32 40 32 /\ each (fun x => isfin x = true /\ (- 87.33 <= val x <= 11629079 / 131072)%R) m 40 32.
Proof.
  split; [left; reflexivity|]. split; [fitm|]. intros i x Hi E. rewrite block_in in E by lia. apply some_inj in E. subst x.
  destruct (lit32 (8 * (40 + i) + -700) (-3)) as [A V]; [lia|lia|].
  assert (Q1 : (IZR (-380) <= IZR (8 * (40 + i) + -700))%R) by (apply IZR_le; lia).
  assert (Q2 : (IZR (8 * (40 + i) + -700) <= IZR (-124))%R) by (apply IZR_le; lia).
  unfold normal_positive. first [exact A|split; [exact A|]; rewrite V; pose proof tinyb; change (bpow radix2 (-3)) with (/ 8)%R;
  try split; unfold Rabs; repeat destruct Rcase_abs; lra].
Qed.

(** Between -88 and -87.33, where the result is subnormal but not yet cut off, the
    bound fails: exp(-88) is less than a tenth of e^-88. *)
Theorem C49_exp_below_refuted : 
  forall (c : cfg) (I : isa) (n : nans F32), math_isa c I -> exists x : F F32, isfin x = true /\ val x = (- 88)%R /\
    (val (vec_exp_float c I n x) < exp (val x) / 10)%R.
Proof. exact C49_exp_below_refuted_lemma. Qed.

Example C49_exp_below_refuted_ex :
  math_isa all_ext SSE.
Proof. fitm. Qed.

(** * C51: tanh and log *)

(** tanh is within a relative error of 4e-7 for every finite float (plus two units
    of the smallest subnormal). *)
Theorem C51_tanh : 
  forall (c : cfg) (I : isa) (n : nans F32) (x : F F32), math_isa c I -> isfin x = true ->
    (isfin (vec_tanh_float c I n x) = true /\ Rabs (val (vec_tanh_float c I n x) - tanh (val x)) <= 4e-7 * Rabs (tanh (val x)) + bpow radix2 (-148))%R.
Proof. exact C51_tanh_lemma. Qed.

Example C51_tanh_ex :
  let x := f_lit F32 3 (-2) in
  math_isa all_ext SSE /\ isfin x = true.
Proof. fitm. Qed.

(** The buffer function. *)
Theorem C51_tanh_vec_simd : 
  forall (c : cfg) (B : backend) (n : nans F32) (m : mem (F F32)) (out inp len : Z), math_backend c B -> unary_fit B m out inp len -> each (fun x => isfin x = true) m inp len ->
    computes (fun x y => (isfin y = true /\ Rabs (val y - tanh (val x)) <= 4e-7 * Rabs (tanh (val x)) + bpow radix2 (-148))%R) m (tanh_vec_simd c B n m out inp len) out inp len.
Proof. exact C51_tanh_vec_simd_lemma. Qed.

Example C51_tanh_vec_simd_ex :
  let m := block 0 80 (fun a => f_lit F32 (4 * a + -161) (-3)) in
  math_backend all_ext AVX32 /\ unary_fit AVX32 m 32 40 32 /\ each (fun x => isfin x = true) m 40 32.
Proof.
  split; [left; reflexivity|]. split; [fitm|]. intros i x Hi E. rewrite block_in in E by lia. apply some_inj in E. subst x.
  destruct (lit32 (4 * (40 + i) + -161) (-3)) as [A V]; [lia|lia|].
  assert (Q1 : (IZR (-1) <= IZR (4 * (40 + i) + -161))%R) by (apply IZR_le; lia).
  assert (Q2 : (IZR (4 * (40 + i) + -161) <= IZR (127))%R) by (apply IZR_le; lia).
  unfold normal_positive. first [exact A|split; [exact A|]; rewrite V; pose proof tinyb; change (bpow radix2 (-3)) with (/ 8)%R;
  try split; unfold Rabs; repeat destruct Rcase_abs; lra].
Qed.

(** log is within a relative error of 4e-7 for every positive normal float, also
    near 1. *)
Theorem C51_log : 
  forall (c : cfg) (I : isa) (n : nans F32) (x : F F32), math_isa c I -> normal_positive x ->
    close 4e-7 (vec_log_float c I n x) (ln (val x)).
Proof. exact C51_log_lemma. Qed.

Example C51_log_ex :
  let x := f_lit F32 3 (-2) in
  math_isa all_ext SSE /\ normal_positive x.
Proof. fitm. Qed.

(** The buffer function. *)
Theorem C51_log_vec_simd : 
  forall (c : cfg) (B : backend) (n : nans F32) (m : mem (F F32)) (out inp len : Z), math_backend c B -> unary_fit B m out inp len -> each (fun x => normal_positive x) m inp len ->
    computes (fun x y => close 4e-7 y (ln (val x))) m (log_vec_simd c B n m out inp len) out inp len.
Proof. exact C51_log_vec_simd_lemma. Qed.

Example C51_log_vec_simd_ex :
  let m := block 0 80 (fun a => f_lit F32 (4 * a + 1) (-3)) in
  math_backend all_ext AVX32 /\ unary_fit AVX32 m 32 40 32 /\ each (fun x => normal_positive x) m 40 32.
Proof.
  split; [left; reflexivity|]. split; [fitm|]. intros i x Hi E. rewrite block_in in E by lia. apply some_inj in E. subst x.
  destruct (lit32 (4 * (40 + i) + 1) (-3)) as [A V]; [lia|lia|].
  assert (Q1 : (IZR (161) <= IZR (4 * (40 + i) + 1))%R) by (apply IZR_le; lia).
  assert (Q2 : (IZR (4 * (40 + i) + 1) <= IZR (289))%R) by (apply IZR_le; lia).
  unfold normal_positive. first [exact A|split; [exact A|]; rewrite V; pose proof tinyb; change (bpow radix2 (-3)) with (/ 8)%R;
  try split; unfold Rabs; repeat destruct Rcase_abs; lra].
Qed.

(** * C54: unit conversions *)

(** midi2freq: an error below 6.5e-7 + 5e-8 per key away from A4, relative: less
    than a hundredth of a cent over the MIDI range. *)
Theorem C54_midi2freq : 
  forall (c : cfg) (I : isa) (n : nans F32) (x : F F32), math_isa c I -> isfin x = true -> (Rabs (val x - 69) <= 1200)%R ->
    close (6e-7 + 5e-8 * Rabs (val x - 69)) (midi2freq c I n x) (hertz_of_key (val x)).
Proof. exact C54_midi2freq_lemma. Qed.

Example C54_midi2freq_ex :
  let x := f_lit F32 121 (-1) in
  math_isa all_ext SSE /\ isfin x = true /\ (Rabs (val x - 69) <= 1200)%R.
Proof. fitm. Qed.

(** The buffer function. *)
Theorem C54_midi2freq_vec_simd : 
  forall (c : cfg) (B : backend) (n : nans F32) (m : mem (F F32)) (out inp len : Z), math_backend c B -> unary_fit B m out inp len -> each (fun x => isfin x = true /\ (Rabs (val x - 69) <= 1200)%R) m inp len ->
    computes (fun x y => close (6e-7 + 5e-8 * Rabs (val x - 69)) y (hertz_of_key (val x))) m (midi2freq_vec_simd c B n m out inp len) out inp len.
Proof. exact C54_midi2freq_vec_simd_lemma. Qed.

Example C54_midi2freq_vec_simd_ex :
  let m := block 0 80 (fun a => f_lit F32 (4 * a + -100) (-3)) in
  math_backend all_ext AVX32 /\ unary_fit AVX32 m 32 40 32 /\ each (fun x => isfin x = true /\ (Rabs (val x - 69) <= 1200)%R) m 40 32.
Proof.
  split; [left; reflexivity|]. split; [fitm|]. intros i x Hi E. rewrite block_in in E by lia. apply some_inj in E. subst x.
  destruct (lit32 (4 * (40 + i) + -100) (-3)) as [A V]; [lia|lia|].
  assert (Q1 : (IZR (60) <= IZR (4 * (40 + i) + -100))%R) by (apply IZR_le; lia).
  assert (Q2 : (IZR (4 * (40 + i) + -100) <= IZR (188))%R) by (apply IZR_le; lia).
  unfold normal_positive. first [exact A|split; [exact A|]; rewrite V; pose proof tinyb; change (bpow radix2 (-3)) with (/ 8)%R;
  try split; unfold Rabs; repeat destruct Rcase_abs; lra].
Qed.

(** midi2ratio. *)
Theorem C54_midi2ratio : 
  forall (c : cfg) (I : isa) (n : nans F32) (x : F F32), math_isa c I -> isfin x = true -> (Rabs (val x) <= 1200)%R ->
    close (5.1e-7 + 4e-8 * Rabs (val x)) (midi2ratio c I n x) (ratio_of_semitones (val x)).
Proof. exact C54_midi2ratio_lemma. Qed.

Example C54_midi2ratio_ex :
  let x := f_lit F32 7 0 in
  math_isa all_ext SSE /\ isfin x = true /\ (Rabs (val x) <= 1200)%R.
Proof. fitm. Qed.

(** The buffer function. *)
Theorem C54_midi2ratio_vec_simd : 
  forall (c : cfg) (B : backend) (n : nans F32) (m : mem (F F32)) (out inp len : Z), math_backend c B -> unary_fit B m out inp len -> each (fun x => isfin x = true /\ (Rabs (val x) <= 1200)%R) m inp len ->
    computes (fun x y => close (5.1e-7 + 4e-8 * Rabs (val x)) y (ratio_of_semitones (val x))) m (midi2ratio_vec_simd c B n m out inp len) out inp len.
Proof. exact C54_midi2ratio_vec_simd_lemma. Qed.

Example C54_midi2ratio_vec_simd_ex :
  let m := block 0 80 (fun a => f_lit F32 (4 * a + -161) (-3)) in
  math_backend all_ext AVX32 /\ unary_fit AVX32 m 32 40 32 /\ each (fun x => isfin x = true /\ (Rabs (val x) <= 1200)%R) m 40 32.
Proof.
  split; [left; reflexivity|]. split; [fitm|]. intros i x Hi E. rewrite block_in in E by lia. apply some_inj in E. subst x.
  destruct (lit32 (4 * (40 + i) + -161) (-3)) as [A V]; [lia|lia|].
  assert (Q1 : (IZR (-1) <= IZR (4 * (40 + i) + -161))%R) by (apply IZR_le; lia).
  assert (Q2 : (IZR (4 * (40 + i) + -161) <= IZR (127))%R) by (apply IZR_le; lia).
  unfold normal_positive. first [exact A|split; [exact A|]; rewrite V; pose proof tinyb; change (bpow radix2 (-3)) with (/ 8)%R;
  try split; unfold Rabs; repeat destruct Rcase_abs; lra].
Qed.

(** oct2freq. *)
Theorem C54_oct2freq : 
  forall (c : cfg) (I : isa) (n : nans F32) (x : F F32), math_isa c I -> isfin x = true -> (Rabs (val x - 4.75) <= 100)%R ->
    close (6e-7 + 4e-7 * Rabs (val x - 4.75)) (oct2freq c I n x) (hertz_of_octave (val x)).
Proof. exact C54_oct2freq_lemma. Qed.

Example C54_oct2freq_ex :
  let x := f_lit F32 7 0 in
  math_isa all_ext SSE /\ isfin x = true /\ (Rabs (val x - 4.75) <= 100)%R.
Proof. fitm. Qed.

(** The buffer function. *)
Theorem C54_oct2freq_vec_simd : 
  forall (c : cfg) (B : backend) (n : nans F32) (m : mem (F F32)) (out inp len : Z), math_backend c B -> unary_fit B m out inp len -> each (fun x => isfin x = true /\ (Rabs (val x - 4.75) <= 100)%R) m inp len ->
    computes (fun x y => close (6e-7 + 4e-7 * Rabs (val x - 4.75)) y (hertz_of_octave (val x))) m (oct2freq_vec_simd c B n m out inp len) out inp len.
Proof. exact C54_oct2freq_vec_simd_lemma. Qed.

Example C54_oct2freq_vec_simd_ex :
  let m := block 0 80 (fun a => f_lit F32 (4 * a + -161) (-3)) in
  math_backend all_ext AVX32 /\ unary_fit AVX32 m 32 40 32 /\ each (fun x => isfin x = true /\ (Rabs (val x - 4.75) <= 100)%R) m 40 32.
Proof.
  split; [left; reflexivity|]. split; [fitm|]. intros i x Hi E. rewrite block_in in E by lia. apply some_inj in E. subst x.
  destruct (lit32 (4 * (40 + i) + -161) (-3)) as [A V]; [lia|lia|].
  assert (Q1 : (IZR (-1) <= IZR (4 * (40 + i) + -161))%R) by (apply IZR_le; lia).
  assert (Q2 : (IZR (4 * (40 + i) + -161) <= IZR (127))%R) by (apply IZR_le; lia).
  unfold normal_positive. first [exact A|split; [exact A|]; rewrite V; pose proof tinyb; change (bpow radix2 (-3)) with (/ 8)%R;
  try split; unfold Rabs; repeat destruct Rcase_abs; lra].
Qed.

(** db2amp. *)
Theorem C54_db2amp : 
  forall (c : cfg) (I : isa) (n : nans F32) (x : F F32), math_isa c I -> isfin x = true -> (Rabs (val x) <= 700)%R ->
    close (5.1e-7 + 1e-7 * Rabs (val x)) (db2amp c I n x) (amplitude_of_db (val x)).
Proof. exact C54_db2amp_lemma. Qed.

Example C54_db2amp_ex :
  let x := f_lit F32 (-6) 0 in
  math_isa all_ext SSE /\ isfin x = true /\ (Rabs (val x) <= 700)%R.
Proof. fitm. Qed.

(** The buffer function. *)
Theorem C54_db2amp_vec_simd : 
  forall (c : cfg) (B : backend) (n : nans F32) (m : mem (F F32)) (out inp len : Z), math_backend c B -> unary_fit B m out inp len -> each (fun x => isfin x = true /\ (Rabs (val x) <= 700)%R) m inp len ->
    computes (fun x y => close (5.1e-7 + 1e-7 * Rabs (val x)) y (amplitude_of_db (val x))) m (db2amp_vec_simd c B n m out inp len) out inp len.
Proof. exact C54_db2amp_vec_simd_lemma. Qed.

Example C54_db2amp_vec_simd_ex :
  let m := block 0 80 (fun a => f_lit F32 (4 * a + -161) (-3)) in
  math_backend all_ext AVX32 /\ unary_fit AVX32 m 32 40 32 /\ each (fun x => isfin x = true /\ (Rabs (val x) <= 700)%R) m 40 32.
Proof.
  split; [left; reflexivity|]. split; [fitm|]. intros i x Hi E. rewrite block_in in E by lia. apply some_inj in E. subst x.
  destruct (lit32 (4 * (40 + i) + -161) (-3)) as [A V]; [lia|lia|].
  assert (Q1 : (IZR (-1) <= IZR (4 * (40 + i) + -161))%R) by (apply IZR_le; lia).
  assert (Q2 : (IZR (4 * (40 + i) + -161) <= IZR (127))%R) by (apply IZR_le; lia).
  unfold normal_positive. first [exact A|split; [exact A|]; rewrite V; pose proof tinyb; change (bpow radix2 (-3)) with (/ 8)%R;
  try split; unfold Rabs; repeat destruct Rcase_abs; lra].
Qed.

(** ratio2midi. *)
Theorem C54_ratio2midi : 
  forall (c : cfg) (I : isa) (n : nans F32) (k : nans F64) (x : F F32), math_isa c I -> normal_positive x ->
    close 6e-7 (ratio2midi c I n k x) (semitones_of_ratio (val x)).
Proof. exact C54_ratio2midi_lemma. Qed.

Example C54_ratio2midi_ex :
  let x := f_lit F32 3 (-1) in
  math_isa all_ext SSE /\ normal_positive x.
Proof. fitm. Qed.

(** The buffer function. *)
Theorem C54_ratio2midi_vec_simd : 
  forall (c : cfg) (B : backend) (n : nans F32) (k : nans F64) (m : mem (F F32)) (out inp len : Z), math_backend c B -> unary_fit B m out inp len -> each (fun x => normal_positive x) m inp len ->
    computes (fun x y => close 6e-7 y (semitones_of_ratio (val x))) m (ratio2midi_vec_simd c B n k m out inp len) out inp len.
Proof. exact C54_ratio2midi_vec_simd_lemma. Qed.

Example C54_ratio2midi_vec_simd_ex :
  let m := block 0 80 (fun a => f_lit F32 (4 * a + 1) (-3)) in
  math_backend all_ext AVX32 /\ unary_fit AVX32 m 32 40 32 /\ each (fun x => normal_positive x) m 40 32.
Proof.
  split; [left; reflexivity|]. split; [fitm|]. intros i x Hi E. rewrite block_in in E by lia. apply some_inj in E. subst x.
  destruct (lit32 (4 * (40 + i) + 1) (-3)) as [A V]; [lia|lia|].
  assert (Q1 : (IZR (161) <= IZR (4 * (40 + i) + 1))%R) by (apply IZR_le; lia).
  assert (Q2 : (IZR (4 * (40 + i) + 1) <= IZR (289))%R) by (apply IZR_le; lia).
  unfold normal_positive. first [exact A|split; [exact A|]; rewrite V; pose proof tinyb; change (bpow radix2 (-3)) with (/ 8)%R;
  try split; unfold Rabs; repeat destruct Rcase_abs; lra].
Qed.

(** amp2db, of the magnitude. *)
Theorem C54_amp2db : 
  forall (c : cfg) (I : isa) (n : nans F32) (k : nans F64) (x : F F32), math_isa c I -> isfin x = true -> (bpow radix2 (-126) <= Rabs (val x))%R ->
    close 6e-7 (amp2db c I n k x) (db_of_amplitude (Rabs (val x))).
Proof. exact C54_amp2db_lemma. Qed.

Example C54_amp2db_ex :
  let x := f_lit F32 (-3) (-1) in
  math_isa all_ext SSE /\ isfin x = true /\ (bpow radix2 (-126) <= Rabs (val x))%R.
Proof. fitm. Qed.

(** The buffer function. *)
Theorem C54_amp2db_vec_simd : 
  forall (c : cfg) (B : backend) (n : nans F32) (k : nans F64) (m : mem (F F32)) (out inp len : Z), math_backend c B -> unary_fit B m out inp len -> each (fun x => isfin x = true /\ (bpow radix2 (-126) <= Rabs (val x))%R) m inp len ->
    computes (fun x y => close 6e-7 y (db_of_amplitude (Rabs (val x)))) m (amp2db_vec_simd c B n k m out inp len) out inp len.
Proof. exact C54_amp2db_vec_simd_lemma. Qed.

Example C54_amp2db_vec_simd_ex :
  let m := block 0 80 (fun a => f_lit F32 (4 * a + 1) (-3)) in
  math_backend all_ext AVX32 /\ unary_fit AVX32 m 32 40 32 /\ each (fun x => isfin x = true /\ (bpow radix2 (-126) <= Rabs (val x))%R) m 40 32.
Proof.
  split; [left; reflexivity|]. split; [fitm|]. intros i x Hi E. rewrite block_in in E by lia. apply some_inj in E. subst x.
  destruct (lit32 (4 * (40 + i) + 1) (-3)) as [A V]; [lia|lia|].
  assert (Q1 : (IZR (161) <= IZR (4 * (40 + i) + 1))%R) by (apply IZR_le; lia).
  assert (Q2 : (IZR (4 * (40 + i) + 1) <= IZR (289))%R) by (apply IZR_le; lia).
  unfold normal_positive. first [exact A|split; [exact A|]; rewrite V; pose proof tinyb; change (bpow radix2 (-3)) with (/ 8)%R;
  try split; unfold Rabs; repeat destruct Rcase_abs; lra].
Qed.

(** freq2midi, of the magnitude. *)
Theorem C54_freq2midi : 
  forall (c : cfg) (I : isa) (n : nans F32) (k : nans F64) (x : F F32), math_isa c I -> isfin x = true -> (1e-32 <= Rabs (val x) <= 1e33)%R ->
    (isfin (freq2midi c I n k x) = true /\ Rabs (val (freq2midi c I n k x) - key_of_hertz (Rabs (val x))) <= 7e-6 + 7e-7 * Rabs (key_of_hertz (Rabs (val x)) - 69))%R.
Proof. exact C54_freq2midi_lemma. Qed.

Example C54_freq2midi_ex :
  let x := f_lit F32 441 0 in
  math_isa all_ext SSE /\ isfin x = true /\ (1e-32 <= Rabs (val x) <= 1e33)%R.
Proof. fitm. Qed.

(** The buffer function. *)
Theorem C54_freq2midi_vec_simd : 
  forall (c : cfg) (B : backend) (n : nans F32) (k : nans F64) (m : mem (F F32)) (out inp len : Z), math_backend c B -> unary_fit B m out inp len -> each (fun x => isfin x = true /\ (1e-32 <= Rabs (val x) <= 1e33)%R) m inp len ->
    computes (fun x y => (isfin y = true /\ Rabs (val y - key_of_hertz (Rabs (val x))) <= 7e-6 + 7e-7 * Rabs (key_of_hertz (Rabs (val x)) - 69))%R) m (freq2midi_vec_simd c B n k m out inp len) out inp len.
Proof. exact C54_freq2midi_vec_simd_lemma. Qed.

Example C54_freq2midi_vec_simd_ex :
  let m := block 0 80 (fun a => f_lit F32 (4 * a + 1) (-3)) in
  math_backend all_ext AVX32 /\ unary_fit AVX32 m 32 40 32 /\ each (fun x => isfin x = true /\ (1e-32 <= Rabs (val x) <= 1e33)%R) m 40 32.
Proof.
  split; [left; reflexivity|]. split; [fitm|]. intros i x Hi E. rewrite block_in in E by lia. apply some_inj in E. subst x.
  destruct (lit32 (4 * (40 + i) + 1) (-3)) as [A V]; [lia|lia|].
  assert (Q1 : (IZR (161) <= IZR (4 * (40 + i) + 1))%R) by (apply IZR_le; lia).
  assert (Q2 : (IZR (4 * (40 + i) + 1) <= IZR (289))%R) by (apply IZR_le; lia).
  unfold normal_positive. first [exact A|split; [exact A|]; rewrite V; pose proof tinyb; change (bpow radix2 (-3)) with (/ 8)%R;
  try split; unfold Rabs; repeat destruct Rcase_abs; lra].
Qed.

(** freq2oct, of the magnitude. *)
Theorem C54_freq2oct : 
  forall (c : cfg) (I : isa) (n : nans F32) (k : nans F64) (x : F F32), math_isa c I -> isfin x = true -> (1e-32 <= Rabs (val x) <= 1e33)%R ->
    (isfin (freq2oct c I n k x) = true /\ Rabs (val (freq2oct c I n k x) - octave_of_hertz (Rabs (val x))) <= 5e-7 + 6e-7 * Rabs (octave_of_hertz (Rabs (val x)) - 4.75))%R.
Proof. exact C54_freq2oct_lemma. Qed.

Example C54_freq2oct_ex :
  let x := f_lit F32 441 0 in
  math_isa all_ext SSE /\ isfin x = true /\ (1e-32 <= Rabs (val x) <= 1e33)%R.
Proof. fitm. Qed.

(** The buffer function. *)
Theorem C54_freq2oct_vec_simd : 
  forall (c : cfg) (B : backend) (n : nans F32) (k : nans F64) (m : mem (F F32)) (out inp len : Z), math_backend c B -> unary_fit B m out inp len -> each (fun x => isfin x = true /\ (1e-32 <= Rabs (val x) <= 1e33)%R) m inp len ->
    computes (fun x y => (isfin y = true /\ Rabs (val y - octave_of_hertz (Rabs (val x))) <= 5e-7 + 6e-7 * Rabs (octave_of_hertz (Rabs (val x)) - 4.75))%R) m (freq2oct_vec_simd c B n k m out inp len) out inp len.
Proof. exact C54_freq2oct_vec_simd_lemma. Qed.

Example C54_freq2oct_vec_simd_ex :
  let m := block 0 80 (fun a => f_lit F32 (4 * a + 1) (-3)) in
  math_backend all_ext AVX32 /\ unary_fit AVX32 m 32 40 32 /\ each (fun x => isfin x = true /\ (1e-32 <= Rabs (val x) <= 1e33)%R) m 40 32.
Proof.
  split; [left; reflexivity|]. split; [fitm|]. intros i x Hi E. rewrite block_in in E by lia. apply some_inj in E. subst x.
  destruct (lit32 (4 * (40 + i) + 1) (-3)) as [A V]; [lia|lia|].
  assert (Q1 : (IZR (161) <= IZR (4 * (40 + i) + 1))%R) by (apply IZR_le; lia).
  assert (Q2 : (IZR (4 * (40 + i) + 1) <= IZR (289))%R) by (apply IZR_le; lia).
  unfold normal_positive. first [exact A|split; [exact A|]; rewrite V; pose proof tinyb; change (bpow radix2 (-3)) with (/ 8)%R;
  try split; unfold Rabs; repeat destruct Rcase_abs; lra].
Qed.

(** Round trips: a fiftieth of a cent over the MIDI range, *)
Theorem C54_key_round_trip : 
  forall (c : cfg) (I : isa) (n : nans F32) (k : nans F64) (x : F F32), math_isa c I -> isfin x = true -> (0 <= val x <= 127)%R ->
    isfin (freq2midi c I n k (midi2freq c I n x)) = true /\
    (Rabs (val (freq2midi c I n k (midi2freq c I n x)) - val x) <= 2e-4)%R.
Proof. exact C54_key_round_trip_lemma. Qed.

Example C54_key_round_trip_ex :
  let x := f_lit F32 121 (-1) in math_isa all_ext SSE /\ isfin x = true /\ (0 <= val x <= 127)%R.
Proof. fitm. Qed.

(** and 0.0004 dB over +-200 dB. *)
Theorem C54_db_round_trip : 
  forall (c : cfg) (I : isa) (n : nans F32) (k : nans F64) (x : F F32), math_isa c I -> isfin x = true -> (Rabs (val x) <= 200)%R ->
    isfin (amp2db c I n k (db2amp c I n x)) = true /\
    (Rabs (val (amp2db c I n k (db2amp c I n x)) - val x) <= 4e-4)%R.
Proof. exact C54_db_round_trip_lemma. Qed.

Example C54_db_round_trip_ex :
  let x := f_lit F32 (-121) (-1) in math_isa all_ext SSE /\ isfin x = true /\ (Rabs (val x) <= 200)%R.
Proof. fitm. Qed.

(** Reference points are exact: key 69 is 440 Hz, octave 4.75 is 440 Hz, 0 semitones
    is ratio 1, 0 dB is amplitude 1 and the other way round. *)
Theorem C54_exact_points : 
  forall (c : cfg) (I : isa) (n : nans F32) (k : nans F64), math_isa c I ->
    bits (midi2freq c I n (f_ofZ F32 69)) = bits (f_ofZ F32 440) /\
    bits (oct2freq c I n (f_lit F32 19 (-2))) = bits (f_ofZ F32 440) /\
    bits (midi2ratio c I n (f_ofZ F32 0)) = bits (f_ofZ F32 1) /\
    bits (ratio2midi c I n k (f_ofZ F32 1)) = bits (f_ofZ F32 0) /\
    bits (db2amp c I n (f_ofZ F32 0)) = bits (f_ofZ F32 1) /\
    bits (amp2db c I n k (f_ofZ F32 1)) = bits (f_ofZ F32 0).
Proof. exact C54_exact_points_lemma. Qed.

Example C54_exact_points_ex :
  math_isa all_ext SSE.
Proof. fitm. Qed.

(** amp2db ignores the sign, bit for bit. *)
Theorem C54_amp2db_even : 
  forall (c : cfg) (I : isa) (n : nans F32) (k : nans F64) (x : F F32), math_isa c I -> bits (amp2db c I n k (fneg x)) = bits (amp2db c I n k x).
Proof. exact C54_amp2db_even_lemma. Qed.

Example C54_amp2db_even_ex :
  math_isa all_ext SSE.
Proof. fitm. Qed.

(** * C57: log2 and log10 *)

(** log2: relative error below 5e-7 for every positive normal float. *)
Theorem C57_log2 : 
  forall (c : cfg) (I : isa) (n : nans F32) (k : nans F64) (x : F F32), math_isa c I -> normal_positive x ->
    close 5e-7 (vec_log2 c I n k x) (log_base 2 (val x)).
Proof. exact C57_log2_lemma. Qed.

Example C57_log2_ex :
  let x := f_lit F32 3 (-2) in
  math_isa all_ext SSE /\ normal_positive x.
Proof. fitm. Qed.

(** The buffer function. *)
Theorem C57_log2_vec_simd : 
  forall (c : cfg) (B : backend) (n : nans F32) (k : nans F64) (m : mem (F F32)) (out inp len : Z), math_backend c B -> unary_fit B m out inp len -> each (fun x => normal_positive x) m inp len ->
    computes (fun x y => close 5e-7 y (log_base 2 (val x))) m (log2_vec_simd c B n k m out inp len) out inp len.
Proof. exact C57_log2_vec_simd_lemma. Qed.

Example C57_log2_vec_simd_ex :
  let m := block 0 80 (fun a => f_lit F32 (4 * a + 1) (-3)) in
  math_backend all_ext AVX32 /\ unary_fit AVX32 m 32 40 32 /\ each (fun x => normal_positive x) m 40 32.
Proof.
  split; [left; reflexivity|]. split; [fitm|]. intros i x Hi E. rewrite block_in in E by lia. apply some_inj in E. subst x.
  destruct (lit32 (4 * (40 + i) + 1) (-3)) as [A V]; [lia|lia|].
  assert (Q1 : (IZR (161) <= IZR (4 * (40 + i) + 1))%R) by (apply IZR_le; lia).
  assert (Q2 : (IZR (4 * (40 + i) + 1) <= IZR (289))%R) by (apply IZR_le; lia).
  unfold normal_positive. first [exact A|split; [exact A|]; rewrite V; pose proof tinyb; change (bpow radix2 (-3)) with (/ 8)%R;
  try split; unfold Rabs; repeat destruct Rcase_abs; lra].
Qed.

(** log10: relative error below 5e-7 for every positive normal float. *)
Theorem C57_log10 : 
  forall (c : cfg) (I : isa) (n : nans F32) (k : nans F64) (x : F F32), math_isa c I -> normal_positive x ->
    close 5e-7 (vec_log10 c I n k x) (log_base 10 (val x)).
Proof. exact C57_log10_lemma. Qed.

Example C57_log10_ex :
  let x := f_lit F32 3 (-2) in
  math_isa all_ext SSE /\ normal_positive x.
Proof. fitm. Qed.

(** The buffer function. *)
Theorem C57_log10_vec_simd : 
  forall (c : cfg) (B : backend) (n : nans F32) (k : nans F64) (m : mem (F F32)) (out inp len : Z), math_backend c B -> unary_fit B m out inp len -> each (fun x => normal_positive x) m inp len ->
    computes (fun x y => close 5e-7 y (log_base 10 (val x))) m (log10_vec_simd c B n k m out inp len) out inp len.
Proof. exact C57_log10_vec_simd_lemma. Qed.

Example C57_log10_vec_simd_ex :
  let m := block 0 80 (fun a => f_lit F32 (4 * a + 1) (-3)) in
  math_backend all_ext AVX32 /\ unary_fit AVX32 m 32 40 32 /\ each (fun x => normal_positive x) m 40 32.
Proof.
  split; [left; reflexivity|]. split; [fitm|]. intros i x Hi E. rewrite block_in in E by lia. apply some_inj in E. subst x.
  destruct (lit32 (4 * (40 + i) + 1) (-3)) as [A V]; [lia|lia|].
  assert (Q1 : (IZR (161) <= IZR (4 * (40 + i) + 1))%R) by (apply IZR_le; lia).
  assert (Q2 : (IZR (4 * (40 + i) + 1) <= IZR (289))%R) by (apply IZR_le; lia).
  unfold normal_positive. first [exact A|split; [exact A|]; rewrite V; pose proof tinyb; change (bpow radix2 (-3)) with (/ 8)%R;
  try split; unfold Rabs; repeat destruct Rcase_abs; lra].
Qed.

(** * C58: pow *)

(** pow: the relative error grows with the exponent of the result and stays below
    4.4e-5 over the whole range of normal results. *)
Theorem C58_pow : 
  forall (c : cfg) (I : isa) (n : nans F32) (x y : F F32), math_isa c I -> normal_positive x -> isfin y = true -> (Rabs (val y * ln (val x)) <= 87)%R ->
    close (5e-7 * (1 + Rabs (val y * ln (val x)))) (vec_pow c I n x y) (Rpower (val x) (val y)).
Proof. exact C58_pow_lemma. Qed.

Example C58_pow_ex :
  let x := f_lit F32 3 (-1) in let y := f_lit F32 7 0 in
  math_isa all_ext SSE /\ normal_positive x /\ isfin y = true /\ (Rabs (val y * ln (val x)) <= 87)%R.
Proof.
  cbv zeta. split; [right; split; reflexivity|]. split; [fitm|]. split; [reflexivity|].
  rewrite (proj2 (lit32 3 (-1) ltac:(lia) ltac:(lia))), (proj2 (lit32 7 0 ltac:(lia) ltac:(lia))). change (bpow radix2 (-1)) with (/ 2)%R. change (bpow radix2 0) with 1%R.
  pose proof ln_three_halves. rewrite Rabs_pos_eq; lra.
Qed.

(** The buffer function. *)
Theorem C58_pow_vec_simd : 
  forall (c : cfg) (B : backend) (n : nans F32) (m : mem (F F32)) (out inp1 inp2 len : Z), math_backend c B -> binary_fit B m out inp1 inp2 len ->
    (forall i x y, 0 <= i < len -> m (inp1 + i) = Some x -> m (inp2 + i) = Some y -> normal_positive x /\ isfin y = true /\ (Rabs (val y * ln (val x)) <= 87)%R) ->
    computes2 (fun x y z => close (5e-7 * (1 + Rabs (val y * ln (val x)))) z (Rpower (val x) (val y))) m (pow_vec_simd c B n m out (APtr inp1) (APtr inp2) len) out inp1 inp2 len.
Proof. exact C58_pow_vec_simd_lemma. Qed.

Example C58_pow_vec_simd_ex :
  let m := block 0 80 (fun a => if a <? 40 then f_lit F32 3 (-1) else f_lit F32 (4 * a - 161) (-3)) in
  math_backend all_ext AVX32 /\ binary_fit AVX32 m 0 8 40 16 /\
  (forall i x y, 0 <= i < 16 -> m (8 + i) = Some x -> m (40 + i) = Some y -> normal_positive x /\ isfin y = true /\ (Rabs (val y * ln (val x)) <= 87)%R).
Proof.
  cbv zeta. split; [left; reflexivity|]. split; [fitm|]. intros i x y Hi E1 E2. rewrite block_in in * by lia. apply some_inj in E1. apply some_inj in E2. subst x y.
  replace (8 + i <? 40) with true by lia. replace (40 + i <? 40) with false by lia. split; [fitm|].
  destruct (lit32 (4 * (40 + i) - 161) (-3)) as [A V]; [lia|lia|]. split; [exact A|]. rewrite V, (proj2 (lit32 3 (-1) ltac:(lia) ltac:(lia))).
  change (bpow radix2 (-1)) with (/ 2)%R. change (bpow radix2 (-3)) with (/ 8)%R. pose proof ln_three_halves as L.
  assert (Q1 : (-10 <= IZR (4 * (40 + i) - 161))%R) by (apply IZR_le; lia). assert (Q2 : (IZR (4 * (40 + i) - 161) <= 100)%R) by (apply IZR_le; lia).
  set (z := IZR (4 * (40 + i) - 161)) in *. apply Rabs_le. nra.
Qed.

(** All theorems of this file together, for one run of Print Assumptions. *)
Definition all_Accuracy := (
  C49_exp,
  C49_exp_vec_simd,
  C49_exp_below_refuted,
  C51_tanh,
  C51_tanh_vec_simd,
  C51_log,
  C51_log_vec_simd,
  C54_midi2freq,
  C54_midi2freq_vec_simd,
  C54_midi2ratio,
  C54_midi2ratio_vec_simd,
  C54_oct2freq,
  C54_oct2freq_vec_simd,
  C54_db2amp,
  C54_db2amp_vec_simd,
  C54_ratio2midi,
  C54_ratio2midi_vec_simd,
  C54_amp2db,
  C54_amp2db_vec_simd,
  C54_freq2midi,
  C54_freq2midi_vec_simd,
  C54_freq2oct,
  C54_freq2oct_vec_simd,
  C54_key_round_trip,
  C54_db_round_trip,
  C54_exact_points,
  C54_amp2db_even,
  C57_log2,
  C57_log2_vec_simd,
  C57_log10,
  C57_log10_vec_simd,
  C58_pow,
  C58_pow_vec_simd).
Print Assumptions all_Accuracy.
