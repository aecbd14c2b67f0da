(** Proofs of the statements of Prop_Trip.v. *)
From Coq Require Import ZArith Reals Ratan List Lia Bool Lra Psatz.
From Flocq Require Import Core IEEE754.Binary IEEE754.Bits.
From Verif Require Import
  Base Mem Backend Args Drivers Functors Lanes Float LaneOps FloatOps ScalarMath VecMath FloatFuns IntVec TransMath TransFuns Spec SpecLane SpecMath SpecOrder SpecTrip
  FloatFacts PowFacts TransFacts MathMore AccuracyClaims TripFacts IdentFacts.
Import ListNotations.
Local Open Scope Z_scope.

Lemma C85_exp_log_lemma : 
  forall (c : cfg) (I : isa) (n : nans F32) (x : F F32), math_isa c I -> isfin x = true -> (1.19e-38 <= val x <= 3.4e38)%R ->
    close (4e-7 * (1 + Rabs (ln (val x)))) (vec_exp_float c I n (vec_log_float c I n x)) (val x).
Proof.
  intros c I n x HI Fx B. exact (lane_exp_log c I n HI x Fx B).
Qed.

Lemma C85_log_exp_lemma : 
  forall (c : cfg) (I : isa) (n : nans F32) (x : F F32), math_isa c I -> isfin x = true -> (Rabs (val x) <= 87)%R ->
    off_by (4e-7 * (1 + Rabs (val x))) (vec_log_float c I n (vec_exp_float c I n x)) (val x).
Proof.
  intros c I n x HI Fx B. exact (lane_log_exp c I n HI x Fx B).
Qed.

Lemma C85_sin_asin_lemma : 
  forall (c : cfg) (I : isa) (n : nans F32) (x : F F32), math_isa c I -> isfin x = true -> (Rabs (val x) <= 1)%R ->
    off_by (1.4e-6 * Rabs (val x) + bpow radix2 (-145)) (vec_sin_float c I n (vec_asin_float c I n x)) (val x).
Proof.
  intros c I n x HI Fx B. exact (lane_sin_asin c I n HI x Fx B).
Qed.

Lemma C85_asin_sin_lemma : 
  forall (c : cfg) (I : isa) (n : nans F32) (x : F F32), math_isa c I -> isfin x = true -> (Rabs (val x) <= 1.5)%R ->
    off_by (5e-6 * Rabs (val x) + bpow radix2 (-143)) (vec_asin_float c I n (vec_sin_float c I n x)) (val x).
Proof.
  intros c I n x HI Fx B. exact (lane_asin_sin c I n HI x Fx B).
Qed.

Lemma C85_cos_acos_lemma : 
  forall (c : cfg) (I : isa) (n : nans F32) (x : F F32), math_isa c I -> isfin x = true -> (Rabs (val x) <= 1)%R ->
    off_by 1e-6 (vec_cos_float c I n (vec_acos_float c I n x)) (val x).
Proof.
  intros c I n x HI Fx B. exact (lane_cos_acos c I n HI x Fx B).
Qed.

Lemma C85_acos_cos_lemma : 
  forall (c : cfg) (I : isa) (n : nans F32) (x : F F32), math_isa c I -> isfin x = true -> (0.1 <= val x <= 3)%R ->
    off_by 4e-6 (vec_acos_float c I n (vec_cos_float c I n x)) (val x).
Proof.
  intros c I n x HI Fx B. exact (lane_acos_cos c I n HI x Fx B).
Qed.

Lemma C85_tan_atan_lemma : 
  forall (c : cfg) (I : isa) (n : nans F32) (x : F F32), math_isa c I -> isfin x = true -> (Rabs (val x) <= 100)%R ->
    off_by (1e-6 * Rabs (val x) * (1 + Rabs (val x)) + bpow radix2 (-144)) (vec_tan_float c I n (vec_atan_float c I n x)) (val x).
Proof.
  intros c I n x HI Fx B. exact (lane_tan_atan c I n HI x Fx B).
Qed.

Lemma C85_atan_tan_lemma : 
  forall (c : cfg) (I : isa) (n : nans F32) (x : F F32), math_isa c I -> isfin x = true -> (Rabs (val x) <= 1.5)%R ->
    off_by (1.4e-6 * Rabs (val x) + bpow radix2 (-144)) (vec_atan_float c I n (vec_tan_float c I n x)) (val x).
Proof.
  intros c I n x HI Fx B. exact (lane_atan_tan c I n HI x Fx B).
Qed.

Lemma C85_semitones_lemma : 
  forall (c : cfg) (I : isa) (n : nans F32) (k : nans F64) (x : F F32), math_isa c I -> isfin x = true -> (Rabs (val x) <= 1200)%R ->
    off_by (9e-6 + 1.4e-6 * Rabs (val x)) (ratio2midi c I n k (midi2ratio c I n x)) (val x).
Proof.
  intros c I n k x HI Fx B. exact (lane_semitones c I n k HI x Fx B).
Qed.

Lemma C85_ratio_lemma : 
  forall (c : cfg) (I : isa) (n : nans F32) (k : nans F64) (x : F F32), math_isa c I -> isfin x = true -> (1e-30 <= val x <= 1e30)%R ->
    close (5.2e-7 + 7.6e-8 * Rabs (semitones_of_ratio (val x))) (midi2ratio c I n (ratio2midi c I n k x)) (val x).
Proof.
  intros c I n k x HI Fx B. exact (lane_ratio c I n k HI x Fx B).
Qed.

Lemma C85_octave_lemma : 
  forall (c : cfg) (I : isa) (n : nans F32) (k : nans F64) (x : F F32), math_isa c I -> isfin x = true -> (Rabs (val x - 4.75) <= 95)%R ->
    off_by (1.4e-6 + 1.2e-6 * Rabs (val x - 4.75)) (freq2oct c I n k (oct2freq c I n x)) (val x).
Proof.
  intros c I n k x HI Fx B. exact (lane_octave c I n k HI x Fx B).
Qed.

Lemma C85_freq_octave_lemma : 
  forall (c : cfg) (I : isa) (n : nans F32) (k : nans F64) (x : F F32), math_isa c I -> isfin x = true -> (1e-25 <= Rabs (val x) <= 1e30)%R ->
    close (9.5e-7 + 8.2e-7 * Rabs (octave_of_hertz (Rabs (val x)) - 4.75)) (oct2freq c I n (freq2oct c I n k x)) (Rabs (val x)).
Proof.
  intros c I n k x HI Fx B. exact (lane_freq_octave c I n k HI x Fx B).
Qed.

Lemma C85_freq_key_lemma : 
  forall (c : cfg) (I : isa) (n : nans F32) (k : nans F64) (x : F F32), math_isa c I -> isfin x = true -> (1e-25 <= Rabs (val x) <= 1e30)%R ->
    close (1.01e-6 + 9.1e-8 * Rabs (key_of_hertz (Rabs (val x)) - 69)) (midi2freq c I n (freq2midi c I n k x)) (Rabs (val x)).
Proof.
  intros c I n k x HI Fx B. exact (lane_freq_key c I n k HI x Fx B).
Qed.

Lemma C85_amp_lemma : 
  forall (c : cfg) (I : isa) (n : nans F32) (k : nans F64) (x : F F32), math_isa c I -> isfin x = true -> (1e-30 <= Rabs (val x) <= 1e30)%R ->
    close (5.2e-7 + 1.7e-7 * Rabs (db_of_amplitude (Rabs (val x)))) (db2amp c I n (amp2db c I n k x)) (Rabs (val x)).
Proof.
  intros c I n k x HI Fx B. exact (lane_amp c I n k HI x Fx B).
Qed.

Lemma C85_exp_log_vec_simd_lemma : 
  forall (c : cfg) (B : backend) (n : nans F32) (m : mem (F F32)) (out mid inp len : Z), math_backend c B ->
    unary_fit B m mid inp len -> unary_fit B m out mid len -> each (fun x => isfin x = true /\ (1.19e-38 <= val x <= 3.4e38)%R) m inp len ->
    there_and_back (fun x y => close (4e-7 * (1 + Rabs (ln (val x)))) y (val x))
      (fun m => log_vec_simd c B n m mid inp len) (fun m => exp_vec_simd c B n m out mid len) m out mid inp len.
Proof.
  intros c B n m out mid inp len HB H1 H2 HQ. pose proof (backend_isa c B HB) as HI.
  apply (trip_chain n B (vec_log_float c (isa_of B) n) (vec_exp_float c (isa_of B) n) (fun x => isfin x = true /\ (1.19e-38 <= val x <= 3.4e38)%R)); try assumption.
  intros x [Fx B0]. exact (lane_exp_log c (isa_of B) n HI x Fx B0).
Qed.

Lemma C85_log_exp_vec_simd_lemma : 
  forall (c : cfg) (B : backend) (n : nans F32) (m : mem (F F32)) (out mid inp len : Z), math_backend c B ->
    unary_fit B m mid inp len -> unary_fit B m out mid len -> each (fun x => isfin x = true /\ (Rabs (val x) <= 87)%R) m inp len ->
    there_and_back (fun x y => off_by (4e-7 * (1 + Rabs (val x))) y (val x))
      (fun m => exp_vec_simd c B n m mid inp len) (fun m => log_vec_simd c B n m out mid len) m out mid inp len.
Proof.
  intros c B n m out mid inp len HB H1 H2 HQ. pose proof (backend_isa c B HB) as HI.
  apply (trip_chain n B (vec_exp_float c (isa_of B) n) (vec_log_float c (isa_of B) n) (fun x => isfin x = true /\ (Rabs (val x) <= 87)%R)); try assumption.
  intros x [Fx B0]. exact (lane_log_exp c (isa_of B) n HI x Fx B0).
Qed.

Lemma C85_sin_asin_vec_simd_lemma : 
  forall (c : cfg) (B : backend) (n : nans F32) (m : mem (F F32)) (out mid inp len : Z), math_backend c B ->
    unary_fit B m mid inp len -> unary_fit B m out mid len -> each (fun x => isfin x = true /\ (Rabs (val x) <= 1)%R) m inp len ->
    there_and_back (fun x y => off_by (1.4e-6 * Rabs (val x) + bpow radix2 (-145)) y (val x))
      (fun m => asin_vec_simd c B n m mid inp len) (fun m => sin_vec_simd c B n m out mid len) m out mid inp len.
Proof.
  intros c B n m out mid inp len HB H1 H2 HQ. pose proof (backend_isa c B HB) as HI.
  apply (trip_chain n B (vec_asin_float c (isa_of B) n) (vec_sin_float c (isa_of B) n) (fun x => isfin x = true /\ (Rabs (val x) <= 1)%R)); try assumption.
  intros x [Fx B0]. exact (lane_sin_asin c (isa_of B) n HI x Fx B0).
Qed.

Lemma C85_asin_sin_vec_simd_lemma : 
  forall (c : cfg) (B : backend) (n : nans F32) (m : mem (F F32)) (out mid inp len : Z), math_backend c B ->
    unary_fit B m mid inp len -> unary_fit B m out mid len -> each (fun x => isfin x = true /\ (Rabs (val x) <= 1.5)%R) m inp len ->
    there_and_back (fun x y => off_by (5e-6 * Rabs (val x) + bpow radix2 (-143)) y (val x))
      (fun m => sin_vec_simd c B n m mid inp len) (fun m => asin_vec_simd c B n m out mid len) m out mid inp len.
Proof.
  intros c B n m out mid inp len HB H1 H2 HQ. pose proof (backend_isa c B HB) as HI.
  apply (trip_chain n B (vec_sin_float c (isa_of B) n) (vec_asin_float c (isa_of B) n) (fun x => isfin x = true /\ (Rabs (val x) <= 1.5)%R)); try assumption.
  intros x [Fx B0]. exact (lane_asin_sin c (isa_of B) n HI x Fx B0).
Qed.

Lemma C85_cos_acos_vec_simd_lemma : 
  forall (c : cfg) (B : backend) (n : nans F32) (m : mem (F F32)) (out mid inp len : Z), math_backend c B ->
    unary_fit B m mid inp len -> unary_fit B m out mid len -> each (fun x => isfin x = true /\ (Rabs (val x) <= 1)%R) m inp len ->
    there_and_back (fun x y => off_by 1e-6 y (val x))
      (fun m => acos_vec_simd c B n m mid inp len) (fun m => cos_vec_simd c B n m out mid len) m out mid inp len.
Proof.
  intros c B n m out mid inp len HB H1 H2 HQ. pose proof (backend_isa c B HB) as HI.
  apply (trip_chain n B (vec_acos_float c (isa_of B) n) (vec_cos_float c (isa_of B) n) (fun x => isfin x = true /\ (Rabs (val x) <= 1)%R)); try assumption.
  intros x [Fx B0]. exact (lane_cos_acos c (isa_of B) n HI x Fx B0).
Qed.

Lemma C85_acos_cos_vec_simd_lemma : 
  forall (c : cfg) (B : backend) (n : nans F32) (m : mem (F F32)) (out mid inp len : Z), math_backend c B ->
    unary_fit B m mid inp len -> unary_fit B m out mid len -> each (fun x => isfin x = true /\ (0.1 <= val x <= 3)%R) m inp len ->
    there_and_back (fun x y => off_by 4e-6 y (val x))
      (fun m => cos_vec_simd c B n m mid inp len) (fun m => acos_vec_simd c B n m out mid len) m out mid inp len.
Proof.
  intros c B n m out mid inp len HB H1 H2 HQ. pose proof (backend_isa c B HB) as HI.
  apply (trip_chain n B (vec_cos_float c (isa_of B) n) (vec_acos_float c (isa_of B) n) (fun x => isfin x = true /\ (0.1 <= val x <= 3)%R)); try assumption.
  intros x [Fx B0]. exact (lane_acos_cos c (isa_of B) n HI x Fx B0).
Qed.

Lemma C85_tan_atan_vec_simd_lemma : 
  forall (c : cfg) (B : backend) (n : nans F32) (m : mem (F F32)) (out mid inp len : Z), math_backend c B ->
    unary_fit B m mid inp len -> unary_fit B m out mid len -> each (fun x => isfin x = true /\ (Rabs (val x) <= 100)%R) m inp len ->
    there_and_back (fun x y => off_by (1e-6 * Rabs (val x) * (1 + Rabs (val x)) + bpow radix2 (-144)) y (val x))
      (fun m => atan_vec_simd c B n m mid inp len) (fun m => tan_vec_simd c B n m out mid len) m out mid inp len.
Proof.
  intros c B n m out mid inp len HB H1 H2 HQ. pose proof (backend_isa c B HB) as HI.
  apply (trip_chain n B (vec_atan_float c (isa_of B) n) (vec_tan_float c (isa_of B) n) (fun x => isfin x = true /\ (Rabs (val x) <= 100)%R)); try assumption.
  intros x [Fx B0]. exact (lane_tan_atan c (isa_of B) n HI x Fx B0).
Qed.

Lemma C85_atan_tan_vec_simd_lemma : 
  forall (c : cfg) (B : backend) (n : nans F32) (m : mem (F F32)) (out mid inp len : Z), math_backend c B ->
    unary_fit B m mid inp len -> unary_fit B m out mid len -> each (fun x => isfin x = true /\ (Rabs (val x) <= 1.5)%R) m inp len ->
    there_and_back (fun x y => off_by (1.4e-6 * Rabs (val x) + bpow radix2 (-144)) y (val x))
      (fun m => tan_vec_simd c B n m mid inp len) (fun m => atan_vec_simd c B n m out mid len) m out mid inp len.
Proof.
  intros c B n m out mid inp len HB H1 H2 HQ. pose proof (backend_isa c B HB) as HI.
  apply (trip_chain n B (vec_tan_float c (isa_of B) n) (vec_atan_float c (isa_of B) n) (fun x => isfin x = true /\ (Rabs (val x) <= 1.5)%R)); try assumption.
  intros x [Fx B0]. exact (lane_atan_tan c (isa_of B) n HI x Fx B0).
Qed.

Lemma C85_semitones_vec_simd_lemma : 
  forall (c : cfg) (B : backend) (n : nans F32) (k : nans F64) (m : mem (F F32)) (out mid inp len : Z), math_backend c B ->
    unary_fit B m mid inp len -> unary_fit B m out mid len -> each (fun x => isfin x = true /\ (Rabs (val x) <= 1200)%R) m inp len ->
    there_and_back (fun x y => off_by (9e-6 + 1.4e-6 * Rabs (val x)) y (val x))
      (fun m => midi2ratio_vec_simd c B n m mid inp len) (fun m => ratio2midi_vec_simd c B n k m out mid len) m out mid inp len.
Proof.
  intros c B n k m out mid inp len HB H1 H2 HQ. pose proof (backend_isa c B HB) as HI.
  apply (trip_chain n B (midi2ratio c (isa_of B) n) (ratio2midi c (isa_of B) n k) (fun x => isfin x = true /\ (Rabs (val x) <= 1200)%R)); try assumption.
  intros x [Fx B0]. exact (lane_semitones c (isa_of B) n k HI x Fx B0).
Qed.

Lemma C85_ratio_vec_simd_lemma : 
  forall (c : cfg) (B : backend) (n : nans F32) (k : nans F64) (m : mem (F F32)) (out mid inp len : Z), math_backend c B ->
    unary_fit B m mid inp len -> unary_fit B m out mid len -> each (fun x => isfin x = true /\ (1e-30 <= val x <= 1e30)%R) m inp len ->
    there_and_back (fun x y => close (5.2e-7 + 7.6e-8 * Rabs (semitones_of_ratio (val x))) y (val x))
      (fun m => ratio2midi_vec_simd c B n k m mid inp len) (fun m => midi2ratio_vec_simd c B n m out mid len) m out mid inp len.
Proof.
  intros c B n k m out mid inp len HB H1 H2 HQ. pose proof (backend_isa c B HB) as HI.
  apply (trip_chain n B (ratio2midi c (isa_of B) n k) (midi2ratio c (isa_of B) n) (fun x => isfin x = true /\ (1e-30 <= val x <= 1e30)%R)); try assumption.
  intros x [Fx B0]. exact (lane_ratio c (isa_of B) n k HI x Fx B0).
Qed.

Lemma C85_octave_vec_simd_lemma : 
  forall (c : cfg) (B : backend) (n : nans F32) (k : nans F64) (m : mem (F F32)) (out mid inp len : Z), math_backend c B ->
    unary_fit B m mid inp len -> unary_fit B m out mid len -> each (fun x => isfin x = true /\ (Rabs (val x - 4.75) <= 95)%R) m inp len ->
    there_and_back (fun x y => off_by (1.4e-6 + 1.2e-6 * Rabs (val x - 4.75)) y (val x))
      (fun m => oct2freq_vec_simd c B n m mid inp len) (fun m => freq2oct_vec_simd c B n k m out mid len) m out mid inp len.
Proof.
  intros c B n k m out mid inp len HB H1 H2 HQ. pose proof (backend_isa c B HB) as HI.
  apply (trip_chain n B (oct2freq c (isa_of B) n) (freq2oct c (isa_of B) n k) (fun x => isfin x = true /\ (Rabs (val x - 4.75) <= 95)%R)); try assumption.
  intros x [Fx B0]. exact (lane_octave c (isa_of B) n k HI x Fx B0).
Qed.

Lemma C85_freq_octave_vec_simd_lemma : 
  forall (c : cfg) (B : backend) (n : nans F32) (k : nans F64) (m : mem (F F32)) (out mid inp len : Z), math_backend c B ->
    unary_fit B m mid inp len -> unary_fit B m out mid len -> each (fun x => isfin x = true /\ (1e-25 <= Rabs (val x) <= 1e30)%R) m inp len ->
    there_and_back (fun x y => close (9.5e-7 + 8.2e-7 * Rabs (octave_of_hertz (Rabs (val x)) - 4.75)) y (Rabs (val x)))
      (fun m => freq2oct_vec_simd c B n k m mid inp len) (fun m => oct2freq_vec_simd c B n m out mid len) m out mid inp len.
Proof.
  intros c B n k m out mid inp len HB H1 H2 HQ. pose proof (backend_isa c B HB) as HI.
  apply (trip_chain n B (freq2oct c (isa_of B) n k) (oct2freq c (isa_of B) n) (fun x => isfin x = true /\ (1e-25 <= Rabs (val x) <= 1e30)%R)); try assumption.
  intros x [Fx B0]. exact (lane_freq_octave c (isa_of B) n k HI x Fx B0).
Qed.

Lemma C85_freq_key_vec_simd_lemma : 
  forall (c : cfg) (B : backend) (n : nans F32) (k : nans F64) (m : mem (F F32)) (out mid inp len : Z), math_backend c B ->
    unary_fit B m mid inp len -> unary_fit B m out mid len -> each (fun x => isfin x = true /\ (1e-25 <= Rabs (val x) <= 1e30)%R) m inp len ->
    there_and_back (fun x y => close (1.01e-6 + 9.1e-8 * Rabs (key_of_hertz (Rabs (val x)) - 69)) y (Rabs (val x)))
      (fun m => freq2midi_vec_simd c B n k m mid inp len) (fun m => midi2freq_vec_simd c B n m out mid len) m out mid inp len.
Proof.
  intros c B n k m out mid inp len HB H1 H2 HQ. pose proof (backend_isa c B HB) as HI.
  apply (trip_chain n B (freq2midi c (isa_of B) n k) (midi2freq c (isa_of B) n) (fun x => isfin x = true /\ (1e-25 <= Rabs (val x) <= 1e30)%R)); try assumption.
  intros x [Fx B0]. exact (lane_freq_key c (isa_of B) n k HI x Fx B0).
Qed.

Lemma C85_amp_vec_simd_lemma : 
  forall (c : cfg) (B : backend) (n : nans F32) (k : nans F64) (m : mem (F F32)) (out mid inp len : Z), math_backend c B ->
    unary_fit B m mid inp len -> unary_fit B m out mid len -> each (fun x => isfin x = true /\ (1e-30 <= Rabs (val x) <= 1e30)%R) m inp len ->
    there_and_back (fun x y => close (5.2e-7 + 1.7e-7 * Rabs (db_of_amplitude (Rabs (val x)))) y (Rabs (val x)))
      (fun m => amp2db_vec_simd c B n k m mid inp len) (fun m => db2amp_vec_simd c B n m out mid len) m out mid inp len.
Proof.
  intros c B n k m out mid inp len HB H1 H2 HQ. pose proof (backend_isa c B HB) as HI.
  apply (trip_chain n B (amp2db c (isa_of B) n k) (db2amp c (isa_of B) n) (fun x => isfin x = true /\ (1e-30 <= Rabs (val x) <= 1e30)%R)); try assumption.
  intros x [Fx B0]. exact (lane_amp c (isa_of B) n k HI x Fx B0).
Qed.

Lemma C85_key_vec_simd_lemma : 
  forall (c : cfg) (B : backend) (n : nans F32) (k : nans F64) (m : mem (F F32)) (out mid inp len : Z), math_backend c B ->
    unary_fit B m mid inp len -> unary_fit B m out mid len -> each (fun x => isfin x = true /\ (0 <= val x <= 127)%R) m inp len ->
    there_and_back (fun x y => off_by 2e-4 y (val x))
      (fun m => midi2freq_vec_simd c B n m mid inp len) (fun m => freq2midi_vec_simd c B n k m out mid len) m out mid inp len.
Proof.
  intros c B n k m out mid inp len HB H1 H2 HQ. pose proof (backend_isa c B HB) as HI.
  apply (trip_chain n B (midi2freq c (isa_of B) n) (freq2midi c (isa_of B) n k) (fun x => isfin x = true /\ (0 <= val x <= 127)%R)); try assumption.
  intros x [Fx B0]. exact (C54_key_round_trip_lemma c (isa_of B) n k x HI Fx B0).
Qed.

Lemma C85_decibels_vec_simd_lemma : 
  forall (c : cfg) (B : backend) (n : nans F32) (k : nans F64) (m : mem (F F32)) (out mid inp len : Z), math_backend c B ->
    unary_fit B m mid inp len -> unary_fit B m out mid len -> each (fun x => isfin x = true /\ (Rabs (val x) <= 200)%R) m inp len ->
    there_and_back (fun x y => off_by 4e-4 y (val x))
      (fun m => db2amp_vec_simd c B n m mid inp len) (fun m => amp2db_vec_simd c B n k m out mid len) m out mid inp len.
Proof.
  intros c B n k m out mid inp len HB H1 H2 HQ. pose proof (backend_isa c B HB) as HI.
  apply (trip_chain n B (db2amp c (isa_of B) n) (amp2db c (isa_of B) n k) (fun x => isfin x = true /\ (Rabs (val x) <= 200)%R)); try assumption.
  intros x [Fx B0]. exact (C54_db_round_trip_lemma c (isa_of B) n k x HI Fx B0).
Qed.

Lemma C86_tan_cos_lemma : 
  forall (c : cfg) (I : isa) (n : nans F32) (x : F F32), math_isa c I -> isfin x = true -> (Rabs (val x) <= 1.5)%R ->
    (Rabs (val (vec_tan_float c I n x) * val (vec_cos_float c I n x) - val (vec_sin_float c I n x)) <= 1e-6 * Rabs (val x) + bpow radix2 (-143))%R.
Proof.
  intros c I n x HI Fx B. exact (id_tan c I n HI x Fx B).
Qed.

Lemma C86_asin_acos_lemma : 
  forall (c : cfg) (I : isa) (n : nans F32) (x : F F32), math_isa c I -> isfin x = true -> (Rabs (val x) <= 1)%R -> (val x <> - 0.5)%R ->
    (Rabs (val (vec_asin_float c I n x) + val (vec_acos_float c I n x) - PI / 2) <= 1.8e-6)%R.
Proof.
  intros c I n x HI Fx B H. exact (id_complement c I n HI x Fx B H).
Qed.

Lemma C86_asin_acos_refuted_lemma : 
  forall (c : cfg) (I : isa) (n : nans F32), math_isa c I ->
    exists x : F F32, isfin x = true /\ val x = (- 0.5)%R /\
      (val (vec_asin_float c I n x) + val (vec_acos_float c I n x) - PI / 2 > 1.8)%R.
Proof.
  intros c I n HI. exact (id_complement_bad c I n HI).
Qed.

Lemma C86_log_product_lemma : 
  forall (c : cfg) (I : isa) (n : nans F32) (x y : F F32), math_isa c I -> normal_positive x -> normal_positive y ->
    (bpow radix2 (-126) <= val x * val y <= bpow radix2 127)%R ->
    (Rabs (val (vec_log_float c I n (fmul n x y)) - (val (vec_log_float c I n x) + val (vec_log_float c I n y)))
     <= 8e-7 * (Rabs (ln (val x)) + Rabs (ln (val y))) + 1e-7)%R.
Proof.
  intros c I n x y HI Nx Ny B. exact (id_log_product c I n HI x y Nx Ny B).
Qed.

Lemma C86_log_quotient_lemma : 
  forall (c : cfg) (I : isa) (n : nans F32) (x y : F F32), math_isa c I -> normal_positive x -> normal_positive y ->
    (bpow radix2 (-126) <= val x / val y <= bpow radix2 127)%R ->
    (Rabs (val (vec_log_float c I n (fdiv n x y)) - (val (vec_log_float c I n x) - val (vec_log_float c I n y)))
     <= 8e-7 * (Rabs (ln (val x)) + Rabs (ln (val y))) + 1e-7)%R.
Proof.
  intros c I n x y HI Nx Ny B. exact (id_log_quotient c I n HI x y Nx Ny B).
Qed.

Lemma C86_exp_sum_lemma : 
  forall (c : cfg) (I : isa) (n : nans F32) (x y : F F32), math_isa c I -> isfin x = true -> isfin y = true ->
    (Rabs (val x) <= 87)%R -> (Rabs (val y) <= 87)%R -> (Rabs (val x + val y) <= 87)%R ->
    (Rabs (val (vec_exp_float c I n (fadd n x y)) - val (vec_exp_float c I n x) * val (vec_exp_float c I n y))
     <= (1e-6 + 6.1e-8 * Rabs (val x + val y)) * exp (val x + val y))%R.
Proof.
  intros c I n x y HI Fx Fy B1 B2 B3. exact (id_exp_sum c I n HI x y Fx Fy B1 B2 B3).
Qed.

Lemma C86_exp_inverse_lemma : 
  forall (c : cfg) (I : isa) (n : nans F32) (x y : F F32), math_isa c I -> isfin x = true -> isfin y = true -> (Rabs (val x) <= 87)%R -> val y = (- val x)%R ->
    (Rabs (val (vec_exp_float c I n x) * val (vec_exp_float c I n y) - 1) <= 6.1e-7)%R.
Proof.
  intros c I n x y HI Fx Fy B E. exact (id_exp_inverse c I n HI x y Fx Fy B E).
Qed.

Lemma C86_log2_lemma : 
  forall (c : cfg) (I : isa) (n : nans F32) (k : nans F64) (x : F F32), math_isa c I -> normal_positive x ->
    (Rabs (val (vec_log2 c I n k x) * ln 2 - val (vec_log_float c I n x)) <= 1e-6 * Rabs (val (vec_log_float c I n x)))%R.
Proof.
  intros c I n k x HI Nx. exact (id_log2 c I n k HI x Nx).
Qed.

Lemma C86_log10_lemma : 
  forall (c : cfg) (I : isa) (n : nans F32) (k : nans F64) (x : F F32), math_isa c I -> normal_positive x ->
    (Rabs (val (vec_log10 c I n k x) * ln 10 - val (vec_log_float c I n x)) <= 1e-6 * Rabs (val (vec_log_float c I n x)))%R.
Proof.
  intros c I n k x HI Nx. exact (id_log10 c I n k HI x Nx).
Qed.

Lemma C86_pow_one_lemma : 
  forall (c : cfg) (I : isa) (n : nans F32) (x y : F F32), math_isa c I -> isfin x = true -> (1.7e-38 <= val x <= 6e37)%R -> isfin y = true -> val y = 1%R ->
    close (5e-7 * (1 + Rabs (ln (val x)))) (vec_pow c I n x y) (val x).
Proof.
  intros c I n x y HI Fx B Fy V. exact (id_pow_one c I n HI x y Fx B Fy V).
Qed.

Lemma C86_pow_two_lemma : 
  forall (c : cfg) (I : isa) (n : nans F32) (x y : F F32), math_isa c I -> isfin x = true -> (1e-18 <= val x <= 1e18)%R -> isfin y = true -> val y = 2%R ->
    (Rabs (val (vec_pow c I n x y) - val (fmul n x x)) <= (6e-7 + 1.1e-6 * Rabs (ln (val x))) * val (fmul n x x))%R.
Proof.
  intros c I n x y HI Fx B Fy V. exact (id_pow_two c I n HI x y Fx B Fy V).
Qed.

Lemma C86_pow_half_lemma : 
  forall (c : cfg) (I : isa) (n : nans F32) (x y : F F32), math_isa c I -> normal_positive x -> isfin y = true -> val y = 0.5%R ->
    (Rabs (val (vec_pow c I n x y) - val (fsqrt n x)) <= (6e-7 + 3e-7 * Rabs (ln (val x))) * val (fsqrt n x))%R.
Proof.
  intros c I n x y HI Nx Fy V. exact (id_pow_half c I n HI x y Nx Fy V).
Qed.

Lemma C86_pow_inverse_lemma : 
  forall (c : cfg) (I : isa) (n : nans F32) (x y z : F F32), math_isa c I -> normal_positive x -> isfin y = true -> isfin z = true -> val z = (- val y)%R ->
    (Rabs (val y * ln (val x)) <= 87)%R ->
    (Rabs (val (vec_pow c I n x y) * val (vec_pow c I n x z) - 1) <= 1.1e-6 * (1 + Rabs (val y * ln (val x))))%R.
Proof.
  intros c I n x y z HI Nx Fy Fz E B. exact (id_pow_inverse c I n HI x y z Nx Fy Fz E B).
Qed.

Lemma C86_pow_zero_exponent_lemma : 
  forall (c : cfg) (I : isa) (n : nans F32) (x y : F F32), math_isa c I -> ~ (isfin x = true /\ val x = 0%R) -> isfin y = true -> val y = 0%R ->
    bits (vec_pow c I n x y) = bits (f_ofZ F32 1).
Proof.
  intros c I n x y HI Nx Fy V. apply (id_pow_zero_exponent c I n HI); [|exact Fy|exact V]. destruct (isnan x); [left; reflexivity|right; split; [reflexivity|exact Nx]].
Qed.

Lemma C86_pow_of_one_lemma : 
  forall (c : cfg) (I : isa) (n : nans F32) (y : F F32), math_isa c I -> isfin y = true -> bits (vec_pow c I n (f_ofZ F32 1) y) = bits (f_ofZ F32 1).
Proof.
  intros c I n y HI Fy. exact (id_pow_of_one c I n HI y Fy).
Qed.

Lemma C86_zero_pow_zero_refuted_lemma : 
  forall (c : cfg) (I : isa) (n : nans F32), math_isa c I -> exists x y : F F32, isfin x = true /\ val x = 0%R /\ isfin y = true /\ val y = 0%R /\
    val (vec_pow c I n x y) = 0%R.
Proof.
  intros c I n HI. exists (f_ofZ F32 0), (f_ofZ F32 0). split; [reflexivity|]. split; [reflexivity|]. split; [reflexivity|]. split; [reflexivity|].
  rewrite (pow_zero c I n (isa_x86 _ _ HI)) by reflexivity. reflexivity.
Qed.
