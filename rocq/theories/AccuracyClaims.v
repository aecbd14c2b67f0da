(** Proofs of the statements of Prop_Accuracy.v. *)
From Coq Require Import ZArith Reals List Lia Bool Lra.
From Flocq Require Import Core IEEE754.Binary IEEE754.Bits.
From Verif Require Import
  Base Mem Backend Args Drivers Functors Lanes Float LaneOps FloatOps ScalarMath VecMath FloatFuns IntVec TransMath TransFuns Spec SpecLane SpecRound SpecInt SpecMath
  FloatFacts FloatRound LaneFacts VecFacts VecMore VecMore2 RoundMore TransConst TransFacts ErrFacts ExpFacts ExpMore TanhFacts NearFacts RealUnit LogFacts PowFacts UnitFacts MathMore ExFloat ExMath.
Import ListNotations.
Local Open Scope Z_scope.

Lemma C49_exp_lemma : 
  forall (c : cfg) (I : isa) (n : nans F32) (x : F F32), math_isa c I -> isfin x = true -> (- 87.33 <= val x <= 11629079 / 131072)%R ->
    close 3e-7 (vec_exp_float c I n x) (exp (val x)).
Proof.
  intros c I n x HI Fx B. pose proof (isa_x86 _ _ HI) as HX. rewrite exp_select by (try assumption; lra).
  destruct (exp_accurate_core c I n x HX Fx B) as (A & _ & C). split; [exact A|]. rewrite (Rabs_pos_eq (exp (val x))) by (left; apply exp_pos). exact C.
Qed.

Lemma C49_exp_vec_simd_lemma : 
  forall (c : cfg) (B : backend) (n : nans F32) (m : mem (F F32)) (out inp len : Z), math_backend c B -> unary_fit B m out inp len -> each (fun x => isfin x = true /\ (- 87.33 <= val x <= 11629079 / 131072)%R) m inp len ->
    computes (fun x y => close 3e-7 y (exp (val x))) m (exp_vec_simd c B n m out inp len) out inp len.
Proof.
  intros c B n m out inp len HB FT HN. pose proof (backend_isa _ _ HB) as HI.
  apply (computes_unary n B _ (fun x => isfin x = true /\ (- 87.33 <= val x <= 11629079 / 131072)%R)); [|exact FT|exact HN]. intros x HQ. apply (C49_exp_lemma c (isa_of B) n x HI); apply HQ.
Qed.

Lemma C49_exp_below_refuted_lemma : 
  forall (c : cfg) (I : isa) (n : nans F32), math_isa c I -> exists x : F F32, isfin x = true /\ val x = (- 88)%R /\
    (val (vec_exp_float c I n x) < exp (val x) / 10)%R.
Proof.
  intros c I n HI. pose proof (isa_x86 _ _ HI) as HX. exists (f_lit F32 (-88) 0). destruct (lit32 (-88) 0) as [A V]; [lia|lia|]. split; [exact A|].
  assert (V' : val (f_lit F32 (-88) 0) = (- 88)%R) by (rewrite V; change (bpow radix2 0) with 1%R; lra). split; [exact V'|]. rewrite V'.
  apply exp_m88_low; assumption.
Qed.

Lemma C51_tanh_lemma : 
  forall (c : cfg) (I : isa) (n : nans F32) (x : F F32), math_isa c I -> isfin x = true ->
    (isfin (vec_tanh_float c I n x) = true /\ Rabs (val (vec_tanh_float c I n x) - tanh (val x)) <= 4e-7 * Rabs (tanh (val x)) + bpow radix2 (-148))%R.
Proof.
  intros c I n x HI Fx. pose proof (isa_x86 _ _ HI) as HX. split; [apply (tanh_bound c I n HX x (fin_not_nan x Fx))|]. apply tanh_accurate; assumption.
Qed.

Lemma C51_tanh_vec_simd_lemma : 
  forall (c : cfg) (B : backend) (n : nans F32) (m : mem (F F32)) (out inp len : Z), math_backend c B -> unary_fit B m out inp len -> each (fun x => isfin x = true) m inp len ->
    computes (fun x y => (isfin y = true /\ Rabs (val y - tanh (val x)) <= 4e-7 * Rabs (tanh (val x)) + bpow radix2 (-148))%R) m (tanh_vec_simd c B n m out inp len) out inp len.
Proof.
  intros c B n m out inp len HB FT HN. pose proof (backend_isa _ _ HB) as HI.
  apply (computes_unary n B _ (fun x => isfin x = true)); [|exact FT|exact HN]. intros x HQ. apply (C51_tanh_lemma c (isa_of B) n x HI); apply HQ.
Qed.

Lemma C51_log_lemma : 
  forall (c : cfg) (I : isa) (n : nans F32) (x : F F32), math_isa c I -> normal_positive x ->
    close 4e-7 (vec_log_float c I n x) (ln (val x)).
Proof.
  intros c I n x HI NP. pose proof (isa_x86 _ _ HI) as HX. destruct (normal_pos x NP) as (A & B & C). split; [apply log_finite; exact HX|]. apply log_accurate; assumption.
Qed.

Lemma C51_log_vec_simd_lemma : 
  forall (c : cfg) (B : backend) (n : nans F32) (m : mem (F F32)) (out inp len : Z), math_backend c B -> unary_fit B m out inp len -> each (fun x => normal_positive x) m inp len ->
    computes (fun x y => close 4e-7 y (ln (val x))) m (log_vec_simd c B n m out inp len) out inp len.
Proof.
  intros c B n m out inp len HB FT HN. pose proof (backend_isa _ _ HB) as HI.
  apply (computes_unary n B _ (fun x => normal_positive x)); [|exact FT|exact HN]. intros x HQ. apply (C51_log_lemma c (isa_of B) n x HI); apply HQ.
Qed.

Lemma C54_midi2freq_lemma : 
  forall (c : cfg) (I : isa) (n : nans F32) (x : F F32), math_isa c I -> isfin x = true -> (Rabs (val x - 69) <= 1200)%R ->
    close (6e-7 + 5e-8 * Rabs (val x - 69)) (midi2freq c I n x) (hertz_of_key (val x)).
Proof.
  intros c I n x HI Fx B. pose proof (isa_x86 _ _ HI) as HX. destruct (midi2freq_accurate c I n HX x Fx B) as [A C]. split; [exact A|]. unfold hertz_of_key. rewrite (Rabs_pos_eq (440 * Rpower _ _)) by (apply Rmult_le_pos; [lra|left; apply exp_pos]). exact C.
Qed.

Lemma C54_midi2freq_vec_simd_lemma : 
  forall (c : cfg) (B : backend) (n : nans F32) (m : mem (F F32)) (out inp len : Z), math_backend c B -> unary_fit B m out inp len -> each (fun x => isfin x = true /\ (Rabs (val x - 69) <= 1200)%R) m inp len ->
    computes (fun x y => close (6e-7 + 5e-8 * Rabs (val x - 69)) y (hertz_of_key (val x))) m (midi2freq_vec_simd c B n m out inp len) out inp len.
Proof.
  intros c B n m out inp len HB FT HN. pose proof (backend_isa _ _ HB) as HI.
  apply (computes_unary n B _ (fun x => isfin x = true /\ (Rabs (val x - 69) <= 1200)%R)); [|exact FT|exact HN]. intros x HQ. apply (C54_midi2freq_lemma c (isa_of B) n x HI); apply HQ.
Qed.

Lemma C54_midi2ratio_lemma : 
  forall (c : cfg) (I : isa) (n : nans F32) (x : F F32), math_isa c I -> isfin x = true -> (Rabs (val x) <= 1200)%R ->
    close (5.1e-7 + 4e-8 * Rabs (val x)) (midi2ratio c I n x) (ratio_of_semitones (val x)).
Proof.
  intros c I n x HI Fx B. pose proof (isa_x86 _ _ HI) as HX. destruct (midi2ratio_accurate c I n HX x Fx B) as [A C]. split; [exact A|]. unfold ratio_of_semitones. rewrite (Rabs_pos_eq (Rpower _ _)) by (left; apply exp_pos). exact C.
Qed.

Lemma C54_midi2ratio_vec_simd_lemma : 
  forall (c : cfg) (B : backend) (n : nans F32) (m : mem (F F32)) (out inp len : Z), math_backend c B -> unary_fit B m out inp len -> each (fun x => isfin x = true /\ (Rabs (val x) <= 1200)%R) m inp len ->
    computes (fun x y => close (5.1e-7 + 4e-8 * Rabs (val x)) y (ratio_of_semitones (val x))) m (midi2ratio_vec_simd c B n m out inp len) out inp len.
Proof.
  intros c B n m out inp len HB FT HN. pose proof (backend_isa _ _ HB) as HI.
  apply (computes_unary n B _ (fun x => isfin x = true /\ (Rabs (val x) <= 1200)%R)); [|exact FT|exact HN]. intros x HQ. apply (C54_midi2ratio_lemma c (isa_of B) n x HI); apply HQ.
Qed.

Lemma C54_oct2freq_lemma : 
  forall (c : cfg) (I : isa) (n : nans F32) (x : F F32), math_isa c I -> isfin x = true -> (Rabs (val x - 4.75) <= 100)%R ->
    close (6e-7 + 4e-7 * Rabs (val x - 4.75)) (oct2freq c I n x) (hertz_of_octave (val x)).
Proof.
  intros c I n x HI Fx B. pose proof (isa_x86 _ _ HI) as HX. destruct (oct2freq_accurate c I n HX x Fx B) as [A C]. split; [exact A|]. unfold hertz_of_octave. rewrite (Rabs_pos_eq (440 * Rpower _ _)) by (apply Rmult_le_pos; [lra|left; apply exp_pos]). exact C.
Qed.

Lemma C54_oct2freq_vec_simd_lemma : 
  forall (c : cfg) (B : backend) (n : nans F32) (m : mem (F F32)) (out inp len : Z), math_backend c B -> unary_fit B m out inp len -> each (fun x => isfin x = true /\ (Rabs (val x - 4.75) <= 100)%R) m inp len ->
    computes (fun x y => close (6e-7 + 4e-7 * Rabs (val x - 4.75)) y (hertz_of_octave (val x))) m (oct2freq_vec_simd c B n m out inp len) out inp len.
Proof.
  intros c B n m out inp len HB FT HN. pose proof (backend_isa _ _ HB) as HI.
  apply (computes_unary n B _ (fun x => isfin x = true /\ (Rabs (val x - 4.75) <= 100)%R)); [|exact FT|exact HN]. intros x HQ. apply (C54_oct2freq_lemma c (isa_of B) n x HI); apply HQ.
Qed.

Lemma C54_db2amp_lemma : 
  forall (c : cfg) (I : isa) (n : nans F32) (x : F F32), math_isa c I -> isfin x = true -> (Rabs (val x) <= 700)%R ->
    close (5.1e-7 + 1e-7 * Rabs (val x)) (db2amp c I n x) (amplitude_of_db (val x)).
Proof.
  intros c I n x HI Fx B. pose proof (isa_x86 _ _ HI) as HX. destruct (db2amp_accurate c I n HX x Fx B) as [A C]. split; [exact A|]. unfold amplitude_of_db. rewrite (Rabs_pos_eq (Rpower _ _)) by (left; apply exp_pos). exact C.
Qed.

Lemma C54_db2amp_vec_simd_lemma : 
  forall (c : cfg) (B : backend) (n : nans F32) (m : mem (F F32)) (out inp len : Z), math_backend c B -> unary_fit B m out inp len -> each (fun x => isfin x = true /\ (Rabs (val x) <= 700)%R) m inp len ->
    computes (fun x y => close (5.1e-7 + 1e-7 * Rabs (val x)) y (amplitude_of_db (val x))) m (db2amp_vec_simd c B n m out inp len) out inp len.
Proof.
  intros c B n m out inp len HB FT HN. pose proof (backend_isa _ _ HB) as HI.
  apply (computes_unary n B _ (fun x => isfin x = true /\ (Rabs (val x) <= 700)%R)); [|exact FT|exact HN]. intros x HQ. apply (C54_db2amp_lemma c (isa_of B) n x HI); apply HQ.
Qed.

Lemma C54_ratio2midi_lemma : 
  forall (c : cfg) (I : isa) (n : nans F32) (k : nans F64) (x : F F32), math_isa c I -> normal_positive x ->
    close 6e-7 (ratio2midi c I n k x) (semitones_of_ratio (val x)).
Proof.
  intros c I n k x HI NP. pose proof (isa_x86 _ _ HI) as HX. destruct (normal_pos x NP) as (A & B & C). exact (ratio2midi_accurate c I n k HX x A B C).
Qed.

Lemma C54_ratio2midi_vec_simd_lemma : 
  forall (c : cfg) (B : backend) (n : nans F32) (k : nans F64) (m : mem (F F32)) (out inp len : Z), math_backend c B -> unary_fit B m out inp len -> each (fun x => normal_positive x) m inp len ->
    computes (fun x y => close 6e-7 y (semitones_of_ratio (val x))) m (ratio2midi_vec_simd c B n k m out inp len) out inp len.
Proof.
  intros c B n k m out inp len HB FT HN. pose proof (backend_isa _ _ HB) as HI.
  apply (computes_unary n B _ (fun x => normal_positive x)); [|exact FT|exact HN]. intros x HQ. apply (C54_ratio2midi_lemma c (isa_of B) n k x HI); apply HQ.
Qed.

Lemma C54_amp2db_lemma : 
  forall (c : cfg) (I : isa) (n : nans F32) (k : nans F64) (x : F F32), math_isa c I -> isfin x = true -> (bpow radix2 (-126) <= Rabs (val x))%R ->
    close 6e-7 (amp2db c I n k x) (db_of_amplitude (Rabs (val x))).
Proof.
  intros c I n k x HI Fx B. pose proof (isa_x86 _ _ HI) as HX. apply (amp2db_accurate c I n k HX x Fx). intros [_ T]. lra.
Qed.

Lemma C54_amp2db_vec_simd_lemma : 
  forall (c : cfg) (B : backend) (n : nans F32) (k : nans F64) (m : mem (F F32)) (out inp len : Z), math_backend c B -> unary_fit B m out inp len -> each (fun x => isfin x = true /\ (bpow radix2 (-126) <= Rabs (val x))%R) m inp len ->
    computes (fun x y => close 6e-7 y (db_of_amplitude (Rabs (val x)))) m (amp2db_vec_simd c B n k m out inp len) out inp len.
Proof.
  intros c B n k m out inp len HB FT HN. pose proof (backend_isa _ _ HB) as HI.
  apply (computes_unary n B _ (fun x => isfin x = true /\ (bpow radix2 (-126) <= Rabs (val x))%R)); [|exact FT|exact HN]. intros x HQ. apply (C54_amp2db_lemma c (isa_of B) n k x HI); apply HQ.
Qed.

Lemma C54_freq2midi_lemma : 
  forall (c : cfg) (I : isa) (n : nans F32) (k : nans F64) (x : F F32), math_isa c I -> isfin x = true -> (1e-32 <= Rabs (val x) <= 1e33)%R ->
    (isfin (freq2midi c I n k x) = true /\ Rabs (val (freq2midi c I n k x) - key_of_hertz (Rabs (val x))) <= 7e-6 + 7e-7 * Rabs (key_of_hertz (Rabs (val x)) - 69))%R.
Proof.
  intros c I n k x HI Fx B. pose proof (isa_x86 _ _ HI) as HX. destruct (freq2midi_accurate c I n k HX x Fx B) as [A C]. split; [exact A|]. unfold key_of_hertz, log_base.
  cbv zeta in C. revert C. generalize (val (freq2midi c I n k x)). generalize (12 * (ln (Rabs (val x) / 440) / ln 2))%R. intros z y C. replace (69 + z - 69)%R with z by ring. exact C.
Qed.

Lemma C54_freq2midi_vec_simd_lemma : 
  forall (c : cfg) (B : backend) (n : nans F32) (k : nans F64) (m : mem (F F32)) (out inp len : Z), math_backend c B -> unary_fit B m out inp len -> each (fun x => isfin x = true /\ (1e-32 <= Rabs (val x) <= 1e33)%R) m inp len ->
    computes (fun x y => (isfin y = true /\ Rabs (val y - key_of_hertz (Rabs (val x))) <= 7e-6 + 7e-7 * Rabs (key_of_hertz (Rabs (val x)) - 69))%R) m (freq2midi_vec_simd c B n k m out inp len) out inp len.
Proof.
  intros c B n k m out inp len HB FT HN. pose proof (backend_isa _ _ HB) as HI.
  apply (computes_unary n B _ (fun x => isfin x = true /\ (1e-32 <= Rabs (val x) <= 1e33)%R)); [|exact FT|exact HN]. intros x HQ. apply (C54_freq2midi_lemma c (isa_of B) n k x HI); apply HQ.
Qed.

Lemma C54_freq2oct_lemma : 
  forall (c : cfg) (I : isa) (n : nans F32) (k : nans F64) (x : F F32), math_isa c I -> isfin x = true -> (1e-32 <= Rabs (val x) <= 1e33)%R ->
    (isfin (freq2oct c I n k x) = true /\ Rabs (val (freq2oct c I n k x) - octave_of_hertz (Rabs (val x))) <= 5e-7 + 6e-7 * Rabs (octave_of_hertz (Rabs (val x)) - 4.75))%R.
Proof.
  intros c I n k x HI Fx B. pose proof (isa_x86 _ _ HI) as HX. destruct (freq2oct_accurate c I n k HX x Fx B) as [A C]. split; [exact A|]. unfold octave_of_hertz, log_base.
  cbv zeta in C. revert C. generalize (val (freq2oct c I n k x)). generalize (ln (Rabs (val x) / 440) / ln 2)%R. intros z y C. replace (4.75 + z - 4.75)%R with z by lra. exact C.
Qed.

Lemma C54_freq2oct_vec_simd_lemma : 
  forall (c : cfg) (B : backend) (n : nans F32) (k : nans F64) (m : mem (F F32)) (out inp len : Z), math_backend c B -> unary_fit B m out inp len -> each (fun x => isfin x = true /\ (1e-32 <= Rabs (val x) <= 1e33)%R) m inp len ->
    computes (fun x y => (isfin y = true /\ Rabs (val y - octave_of_hertz (Rabs (val x))) <= 5e-7 + 6e-7 * Rabs (octave_of_hertz (Rabs (val x)) - 4.75))%R) m (freq2oct_vec_simd c B n k m out inp len) out inp len.
Proof.
  intros c B n k m out inp len HB FT HN. pose proof (backend_isa _ _ HB) as HI.
  apply (computes_unary n B _ (fun x => isfin x = true /\ (1e-32 <= Rabs (val x) <= 1e33)%R)); [|exact FT|exact HN]. intros x HQ. apply (C54_freq2oct_lemma c (isa_of B) n k x HI); apply HQ.
Qed.

Lemma C54_key_round_trip_lemma : 
  forall (c : cfg) (I : isa) (n : nans F32) (k : nans F64) (x : F F32), math_isa c I -> isfin x = true -> (0 <= val x <= 127)%R ->
    isfin (freq2midi c I n k (midi2freq c I n x)) = true /\
    (Rabs (val (freq2midi c I n k (midi2freq c I n x)) - val x) <= 2e-4)%R.
Proof.
  intros c I n k x HI Fx B. pose proof (isa_x86 _ _ HI) as HX. exact (roundtrip_midi c I n k HX x Fx B).
Qed.

Lemma C54_db_round_trip_lemma : 
  forall (c : cfg) (I : isa) (n : nans F32) (k : nans F64) (x : F F32), math_isa c I -> isfin x = true -> (Rabs (val x) <= 200)%R ->
    isfin (amp2db c I n k (db2amp c I n x)) = true /\
    (Rabs (val (amp2db c I n k (db2amp c I n x)) - val x) <= 4e-4)%R.
Proof.
  intros c I n k x HI Fx B. pose proof (isa_x86 _ _ HI) as HX. exact (roundtrip_db c I n k HX x Fx B).
Qed.

Lemma C54_exact_points_lemma : 
  forall (c : cfg) (I : isa) (n : nans F32) (k : nans F64), math_isa c I ->
    bits (midi2freq c I n (f_ofZ F32 69)) = bits (f_ofZ F32 440) /\
    bits (oct2freq c I n (f_lit F32 19 (-2))) = bits (f_ofZ F32 440) /\
    bits (midi2ratio c I n (f_ofZ F32 0)) = bits (f_ofZ F32 1) /\
    bits (ratio2midi c I n k (f_ofZ F32 1)) = bits (f_ofZ F32 0) /\
    bits (db2amp c I n (f_ofZ F32 0)) = bits (f_ofZ F32 1) /\
    bits (amp2db c I n k (f_ofZ F32 1)) = bits (f_ofZ F32 0).
Proof.
  intros c I n k HI. pose proof (isa_x86 _ _ HI) as HX. repeat split.
  - apply midi2freq_69; exact HX.
  - change (f_lit F32 19 (-2)) with (f_lit F32 19 (-2)). apply oct2freq_475; exact HX.
  - apply midi2ratio_0; exact HX.
  - apply ratio2midi_1; exact HX.
  - apply db2amp_0; exact HX.
  - apply amp2db_1; exact HX.
Qed.

Lemma C54_amp2db_even_lemma : 
  forall (c : cfg) (I : isa) (n : nans F32) (k : nans F64) (x : F F32), math_isa c I -> bits (amp2db c I n k (fneg x)) = bits (amp2db c I n k x).
Proof.
  intros c I n k x HI. f_equal. apply amp2db_even.
Qed.

Lemma C57_log2_lemma : 
  forall (c : cfg) (I : isa) (n : nans F32) (k : nans F64) (x : F F32), math_isa c I -> normal_positive x ->
    close 5e-7 (vec_log2 c I n k x) (log_base 2 (val x)).
Proof.
  intros c I n k x HI NP. pose proof (isa_x86 _ _ HI) as HX. destruct (normal_pos x NP) as (A & B & C). exact (log2_accurate c I n k HX x A B C).
Qed.

Lemma C57_log2_vec_simd_lemma : 
  forall (c : cfg) (B : backend) (n : nans F32) (k : nans F64) (m : mem (F F32)) (out inp len : Z), math_backend c B -> unary_fit B m out inp len -> each (fun x => normal_positive x) m inp len ->
    computes (fun x y => close 5e-7 y (log_base 2 (val x))) m (log2_vec_simd c B n k m out inp len) out inp len.
Proof.
  intros c B n k m out inp len HB FT HN. pose proof (backend_isa _ _ HB) as HI.
  apply (computes_unary n B _ (fun x => normal_positive x)); [|exact FT|exact HN]. intros x HQ. apply (C57_log2_lemma c (isa_of B) n k x HI); apply HQ.
Qed.

Lemma C57_log10_lemma : 
  forall (c : cfg) (I : isa) (n : nans F32) (k : nans F64) (x : F F32), math_isa c I -> normal_positive x ->
    close 5e-7 (vec_log10 c I n k x) (log_base 10 (val x)).
Proof.
  intros c I n k x HI NP. pose proof (isa_x86 _ _ HI) as HX. destruct (normal_pos x NP) as (A & B & C). exact (log10_accurate c I n k HX x A B C).
Qed.

Lemma C57_log10_vec_simd_lemma : 
  forall (c : cfg) (B : backend) (n : nans F32) (k : nans F64) (m : mem (F F32)) (out inp len : Z), math_backend c B -> unary_fit B m out inp len -> each (fun x => normal_positive x) m inp len ->
    computes (fun x y => close 5e-7 y (log_base 10 (val x))) m (log10_vec_simd c B n k m out inp len) out inp len.
Proof.
  intros c B n k m out inp len HB FT HN. pose proof (backend_isa _ _ HB) as HI.
  apply (computes_unary n B _ (fun x => normal_positive x)); [|exact FT|exact HN]. intros x HQ. apply (C57_log10_lemma c (isa_of B) n k x HI); apply HQ.
Qed.

Lemma C58_pow_lemma : 
  forall (c : cfg) (I : isa) (n : nans F32) (x y : F F32), math_isa c I -> normal_positive x -> isfin y = true -> (Rabs (val y * ln (val x)) <= 87)%R ->
    close (5e-7 * (1 + Rabs (val y * ln (val x)))) (vec_pow c I n x y) (Rpower (val x) (val y)).
Proof.
  intros c I n x y HI NP Fy B. pose proof (isa_x86 _ _ HI) as HX. destruct (normal_pos x NP) as (A1 & A2 & A3). destruct (pow_accurate c I n HX x y A1 A2 A3 Fy B) as [C D].
  split; [exact C|]. rewrite (Rabs_pos_eq (Rpower (val x) (val y))) by (left; apply exp_pos). exact D.
Qed.

Lemma C58_pow_vec_simd_lemma : 
  forall (c : cfg) (B : backend) (n : nans F32) (m : mem (F F32)) (out inp1 inp2 len : Z), math_backend c B -> binary_fit B m out inp1 inp2 len ->
    (forall i x y, 0 <= i < len -> m (inp1 + i) = Some x -> m (inp2 + i) = Some y -> normal_positive x /\ isfin y = true /\ (Rabs (val y * ln (val x)) <= 87)%R) ->
    computes2 (fun x y z => close (5e-7 * (1 + Rabs (val y * ln (val x)))) z (Rpower (val x) (val y))) m (pow_vec_simd c B n m out (APtr inp1) (APtr inp2) len) out inp1 inp2 len.
Proof.
  intros c B n m out i1 i2 len HB FT HE. pose proof (backend_isa _ _ HB) as HI.
  apply (computes_binary n B _ (fun x y => normal_positive x /\ isfin y = true /\ (Rabs (val y * ln (val x)) <= 87)%R)); [|exact FT|exact HE]. intros x y HQ. apply (C58_pow_lemma c (isa_of B) n x y HI); apply HQ.
Qed.
