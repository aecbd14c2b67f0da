(** Helpers on SSE registers, functions left to the C library, and unit conversions
    of scalars (C62-C66). *)
From Coq Require Import ZArith Reals List Lia Bool Lra.
From Flocq Require Import Core IEEE754.Binary IEEE754.Bits.
From Verif Require Import
  Base Mem Backend Args Drivers Functors Lanes Float LaneOps FloatOps ScalarMath VecMath FloatFuns IntVec TransMath TransFuns Utils Libm Spec SpecReduce SpecLane SpecMath SpecLib
  FloatFacts ExData ExFloat ExMath ExLib LibClaims.
Import ListNotations.
Local Open Scope Z_scope.

(** * C62: the helpers of simd_utils.hpp *)

(** horizontal_max of an SSE register is the maximum of lanes 0, 1 and 2, *)
Theorem C62_horizontal_max : 
  forall (n : nans F32) (a b c d : F F32), no_nan [a; b; c] ->
    exists r, utils_horizontal_max n [a; b; c; d] = Ok r /\ is_max r [a; b; c].
Proof. exact C62_horizontal_max_lemma. Qed.

Example C62_horizontal_max_ex :
  no_nan [f_ofZ F32 (-3); f_lit F32 1 (-149); fneg (f_ofZ F32 0)].
Proof. fitf. Qed.

(** horizontal_min of an SSE register is the minimum of lanes 0, 1 and 2, *)
Theorem C62_horizontal_min : 
  forall (n : nans F32) (a b c d : F F32), no_nan [a; b; c] ->
    exists r, utils_horizontal_min n [a; b; c; d] = Ok r /\ is_min r [a; b; c].
Proof. exact C62_horizontal_min_lemma. Qed.

Example C62_horizontal_min_ex :
  no_nan [f_ofZ F32 (-3); f_lit F32 1 (-149); fneg (f_ofZ F32 0)].
Proof. fitf. Qed.

(** whatever lane 3 holds, *)
Theorem C62_lane_3_ignored : 
  forall (n : nans F32) (a b c d d' : F F32),
    utils_horizontal_max n [a; b; c; d] = utils_horizontal_max n [a; b; c; d'] /\
    utils_horizontal_min n [a; b; c; d] = utils_horizontal_min n [a; b; c; d'].
Proof. exact C62_lane_3_ignored_lemma. Qed.

(** so it is not that of all four: max(1, 2, 3, 4) = 3. *)
Theorem C62_four_lanes_refuted : 
  forall n : nans F32, exists v r, length v = 4%nat /\ no_nan v /\ utils_horizontal_max n v = Ok r /\ ~ is_max r v.
Proof. exact C62_four_lanes_refuted_lemma. Qed.

(** extract_0 and extract_3 return the first and the last lane. *)
Theorem C62_extract : 
  forall A (a b c d : A), extract_0 [a; b; c; d] = Ok a /\ extract_3 [a; b; c; d] = Ok d.
Proof. exact C62_extract_lemma. Qed.

(** The constants built from bit patterns are the ones they are named after, with
    and without SSE2. *)
Theorem C62_constants : 
  forall c : cfg, bits (utils_sign_mask c) = 2 ^ 31 /\ bits (utils_abs_mask c) = 2 ^ 31 - 1 /\
    utils_one c = f_ofZ F32 1 /\ utils_05 c = f_lit F32 1 (-1) /\ utils_025 = f_lit F32 1 (-2).
Proof. exact C62_constants_lemma. Qed.

(** select_vector picks by a comparison mask, *)
Theorem C62_select : 
  forall (c : cfg) (v0 v1 : F F32) (b : bool), select_vector c v0 v1 (mask b) = if b then v1 else v0.
Proof. exact C62_select_lemma. Qed.

(** and by anything else differently with and without SSE4.1. *)
Theorem C62_select_other_masks_refuted : 
  exists (c c' : cfg) (v0 v1 sel : F F32), has_sse41 c = true /\ has_sse41 c' = false /\
    select_vector c v0 v1 sel = v0 /\ select_vector c' v0 v1 sel <> v0 /\ sel = f_ofZ F32 1.
Proof. exact C62_select_other_masks_refuted_lemma. Qed.

(** * C63: functions left to the C library *)

(** The loops over the elements apply the function to every element, in place. *)
Theorem C63_per_element : 
  forall A (B : backend) (f : A -> A) (ret v : list A), length ret = vsize B -> length v = vsize B ->
    apply_unary B f v = Ok (map f v) /\ collect B f ret v = Ok (map f v).
Proof. exact C63_per_element_lemma. Qed.

Example C63_per_element_ex :
  length [1; 2; 3; 4] = vsize SSE32.
Proof. reflexivity. Qed.

Theorem C63_per_element_binary : 
  forall A (B : backend) (f : A -> A -> A) (ret u v : list A), length ret = vsize B -> length u = vsize B -> length v = vsize B ->
    apply_binary B f ret u v = Ok (map2 f u v).
Proof. exact C63_per_element_binary_lemma. Qed.

Example C63_per_element_binary_ex :
  length [1; 2; 3; 4] = vsize SSE32.
Proof. reflexivity. Qed.

(** On double and on every vec but the vectorised float ones, sin_vec_simd to
    exp_vec_simd do what the loop over the C library function does, whatever that
    function is; *)
Theorem C63_math_simd_equals_scalar : 
  forall (c : cfg) (B : backend) (w : world (fmt_of B)) (k : nans F64) (f : ufun) (m : mem (F (fmt_of B))) (out inp len : Z),
    delegates c B -> legal_simd_length B len -> aligned B out -> accessible m out len -> simd_fit B m out len (APtr inp) ->
    same_effect (math_vec B w f m out inp len) (math_vec_simd c B w k f m out inp len).
Proof. exact C63_math_simd_equals_scalar_lemma. Qed.

Example C63_math_simd_equals_scalar_ex :
  let m := block 0 80 (fun a => f_ofZ F64 a) in
  delegates all_ext SSE64 /\ legal_simd_length SSE64 32 /\ aligned SSE64 32 /\ accessible m 32 32 /\ simd_fit SSE64 m 32 32 (APtr 40).
Proof. fitl. Qed.

(** so do pow_vec_simd and spow_vec_simd; *)
Theorem C63_pow_simd_equals_scalar : 
  forall (c : cfg) (B : backend) (w : world (fmt_of B)) (f : bfun) (m : mem (F (fmt_of B))) (out : Z) (a1 a2 : arg (F (fmt_of B))) (len : Z),
    delegates c B -> legal_simd_length B len -> aligned B out -> accessible m out len -> simd_fit B m out len a1 -> plain a1 -> simd_fit B m out len a2 -> plain a2 ->
    same_effect (math2_vec B w f m out a1 a2 len) (math2_vec_simd c B w f m out a1 a2 len).
Proof. exact C63_pow_simd_equals_scalar_lemma. Qed.

Example C63_pow_simd_equals_scalar_ex :
  let m := block 0 80 (fun a => f_ofZ F64 a) in
  delegates all_ext SSE64 /\ legal_simd_length SSE64 32 /\ aligned SSE64 32 /\ accessible m 32 32 /\ simd_fit SSE64 m 32 32 (APtr 40) /\ plain (A := F F64) (APtr 40) /\ simd_fit SSE64 m 32 32 (AScal (f_ofZ F64 2)) /\ plain (AScal (f_ofZ F64 2)).
Proof. fitl. Qed.

(** and so do the eight unit conversions, Altivec excepted. *)
Theorem C63_unit_simd_equals_scalar : 
  forall (c : cfg) (B : backend) (w : world (fmt_of B)) (k : nans F64) (u : unit_fun) (m : mem (F (fmt_of B))) (out inp len : Z),
    delegates c B -> B <> ALTIVEC32 -> legal_simd_length B len -> aligned B out -> accessible m out len -> simd_fit B m out len (APtr inp) ->
    same_effect (unit_vec B w u m out inp len) (unit_vec_simd c B w k u m out inp len).
Proof. exact C63_unit_simd_equals_scalar_lemma. Qed.

Example C63_unit_simd_equals_scalar_ex :
  let m := block 0 80 (fun a => f_ofZ F64 a) in
  delegates all_ext SSE64 /\ legal_simd_length SSE64 32 /\ aligned SSE64 32 /\ accessible m 32 32 /\ simd_fit SSE64 m 32 32 (APtr 40) /\ SSE64 <> ALTIVEC32.
Proof. fitl. Qed.

(** * C64: signed_pow of scalars *)

(** For any C library: the power of the magnitude, with the sign of the base; *)
Theorem C64_signed_pow : 
  forall t (w : world t) (x y : F t), number x ->
    (fgt x (f_ofZ t 0) = true -> s_signed_pow w x y = m_pow (w_lib w) (fabs x) y) /\
    (flt x (f_ofZ t 0) = true -> s_signed_pow w x y = fneg (m_pow (w_lib w) (fabs x) y)).
Proof. exact C64_signed_pow_lemma. Qed.

Example C64_signed_pow_ex :
  number (f_ofZ F64 (-2)) /\ flt (f_ofZ F64 (-2)) (f_ofZ F64 0) = true.
Proof. split; vm_compute; reflexivity. Qed.

(** so an odd function of the base, except at zero: *)
Theorem C64_signed_pow_odd : 
  forall t (w : world t) (x y : F t), number x -> feq x (f_ofZ t 0) = false ->
    s_signed_pow w (fneg x) y = fneg (s_signed_pow w x y).
Proof. exact C64_signed_pow_odd_lemma. Qed.

Example C64_signed_pow_odd_ex :
  number (f_ofZ F64 (-2)) /\ feq (f_ofZ F64 (-2)) (f_ofZ F64 0) = false.
Proof. split; vm_compute; reflexivity. Qed.

(** 0 to the power 0 is -1 for both zeros, though C says pow(0, 0) = 1; *)
Theorem C64_zero_to_the_zero_refuted : 
  forall t (w : world t), (forall s, m_pow (w_lib w) (B754_zero (prec t) (emax t) s) (f_ofZ t 0) = f_ofZ t 1) ->
    exists x y : F t, isfin x = true /\ isfin y = true /\ val x = 0%R /\
      s_signed_pow w x y = fneg (f_ofZ t 1) /\ s_signed_pow w (fneg x) y = fneg (f_ofZ t 1).
Proof. exact C64_zero_to_the_zero_refuted_lemma. Qed.

Example C64_zero_to_the_zero_refuted_ex :
  let L := let i := fun x : F F64 => x in Libm F64 i i i i i i i i i i i (fun _ _ => f_ofZ F64 1) in
  forall s, m_pow L (B754_zero (prec F64) (emax F64) s) (f_ofZ F64 0) = f_ofZ F64 1.
Proof. reflexivity. Qed.

(** the float SIMD version gives a result of the other sign there. *)
Theorem C64_scalar_and_simd_differ_refuted : 
  forall (c : cfg) (I : isa) (w : world F32), math_isa c I ->
    (forall s, m_pow (w_lib w) (B754_zero 24 128 s) (f_ofZ F32 0) = f_ofZ F32 1) ->
    exists x y : F F32, isfin x = true /\ isfin y = true /\
      sgn (s_signed_pow w x y) <> sgn (vec_signed_pow c I (w_nan w) x y).
Proof. exact C64_scalar_and_simd_differ_refuted_lemma. Qed.

Example C64_scalar_and_simd_differ_refuted_ex :
  math_isa all_ext SSE.
Proof. right. split; reflexivity. Qed.

(** * C65: unit conversions over an accurate C library *)

(** midi2freq of a float or double: the error of the library, two roundings, and
    2.4e-13 (double) or 9e-9 (float) per semitone away from A4; *)
Theorem C65_midi2freq : 
  forall (t : fmt) (w : world t) (e : R) (x : F t), accurate e (w_lib w) -> (0 <= e <= 1e-5)%R -> isfin x = true -> (Rabs (val x - 69) <= 1200)%R ->
    near (e + 2 * half_ulp t + semitone_err t * Rabs (val x - 69)) (s_unit w Midi2freq x) (hertz_of_key (val x)).
Proof. exact C65_midi2freq_lemma. Qed.

Example C65_midi2freq_ex :
  let w := (World F64 (ideal F64) (n0 F64) (ideal F32) (n0 F32) true) in
  accurate (half_ulp F64) (w_lib w) /\ (0 <= half_ulp F64 <= 1e-5)%R /\
  (let x := f_lit F64 121 (-1) in isfin x = true /\ (Rabs (val x - 69) <= 1200)%R).
Proof. fitl. Qed.

(** midi2ratio; *)
Theorem C65_midi2ratio : 
  forall (t : fmt) (w : world t) (e : R) (x : F t), accurate e (w_lib w) -> (0 <= e <= 1e-5)%R -> isfin x = true -> (Rabs (val x) <= 1200)%R ->
    near (e + half_ulp t + semitone_err t * Rabs (val x)) (s_unit w Midi2ratio x) (ratio_of_semitones (val x)).
Proof. exact C65_midi2ratio_lemma. Qed.

Example C65_midi2ratio_ex :
  let w := (World F64 (ideal F64) (n0 F64) (ideal F32) (n0 F32) true) in
  accurate (half_ulp F64) (w_lib w) /\ (0 <= half_ulp F64 <= 1e-5)%R /\
  (let x := f_lit F64 7 0 in isfin x = true /\ (Rabs (val x) <= 1200)%R).
Proof. fitl. Qed.

(** oct2freq; *)
Theorem C65_oct2freq : 
  forall (t : fmt) (w : world t) (e : R) (x : F t), accurate e (w_lib w) -> (0 <= e <= 1e-5)%R -> isfin x = true -> (Rabs (val x - 4.75) <= 100)%R ->
    near (e + 2 * half_ulp t + 0.7 * half_ulp t * Rabs (val x - 4.75)) (s_unit w Oct2freq x) (hertz_of_octave (val x)).
Proof. exact C65_oct2freq_lemma. Qed.

Example C65_oct2freq_ex :
  let w := (World F64 (ideal F64) (n0 F64) (ideal F32) (n0 F32) true) in
  accurate (half_ulp F64) (w_lib w) /\ (0 <= half_ulp F64 <= 1e-5)%R /\
  (let x := f_lit F64 7 0 in isfin x = true /\ (Rabs (val x - 4.75) <= 100)%R).
Proof. fitl. Qed.

(** db2amp; *)
Theorem C65_db2amp : 
  forall (t : fmt) (w : world t) (e : R) (x : F t), accurate e (w_lib w) -> (0 <= e <= 1e-5)%R -> isfin x = true -> (Rabs (val x) <= 700)%R ->
    near (e + half_ulp t + 0.24 * half_ulp t * Rabs (val x)) (s_unit w Db2amp x) (amplitude_of_db (val x)).
Proof. exact C65_db2amp_lemma. Qed.

Example C65_db2amp_ex :
  let w := (World F64 (ideal F64) (n0 F64) (ideal F32) (n0 F32) true) in
  accurate (half_ulp F64) (w_lib w) /\ (0 <= half_ulp F64 <= 1e-5)%R /\
  (let x := f_lit F64 (-6) 0 in isfin x = true /\ (Rabs (val x) <= 700)%R).
Proof. fitl. Qed.

(** amp2db, for every finite amplitude but zero; *)
Theorem C65_amp2db : 
  forall (t : fmt) (w : world t) (e : R) (x : F t), accurate e (w_lib w) -> (0 <= e <= 1e-5)%R -> isfin x = true -> (val x <> 0)%R ->
    near (e + 1.1 * half_ulp t) (s_unit w Amp2db x) (db_of_amplitude (Rabs (val x))).
Proof. exact C65_amp2db_lemma. Qed.

Example C65_amp2db_ex :
  let w := (World F64 (ideal F64) (n0 F64) (ideal F32) (n0 F32) true) in
  accurate (half_ulp F64) (w_lib w) /\ (0 <= half_ulp F64 <= 1e-5)%R /\
  (let x := f_lit F64 (-3) (-1) in isfin x = true /\ (val x <> 0)%R).
Proof. fitl. Qed.

(** ratio2midi, for every finite positive ratio; *)
Theorem C65_ratio2midi : 
  forall (t : fmt) (w : world t) (e : R) (x : F t), accurate e (w_lib w) -> (0 <= e <= 1e-5)%R -> w_cxx11 w = true -> isfin x = true -> (0 < val x)%R ->
    near (e + 1.1 * half_ulp t) (s_unit w Ratio2midi x) (semitones_of_ratio (val x)).
Proof. exact C65_ratio2midi_lemma. Qed.

Example C65_ratio2midi_ex :
  let w := (World F64 (ideal F64) (n0 F64) (ideal F32) (n0 F32) true) in
  accurate (half_ulp F64) (w_lib w) /\ (0 <= half_ulp F64 <= 1e-5)%R /\ w_cxx11 w = true /\
  (let x := f_lit F64 3 (-1) in isfin x = true /\ (0 < val x)%R).
Proof. fitl. Qed.

(** freq2midi: off by up to 2.1e-10 key in double; *)
Theorem C65_freq2midi : 
  forall (t : fmt) (w : world t) (e : R) (x : F t), accurate e (w_lib w) -> (0 <= e <= 1e-5)%R -> w_cxx11 w = true -> isfin x = true -> (1e-30 <= Rabs (val x) <= 1e30)%R ->
    (isfin (s_unit w Freq2midi x) = true /\ Rabs (val (s_unit w Freq2midi x) - key_of_hertz (Rabs (val x))) <= (e + 2.1 * half_ulp t) * Rabs (key_of_hertz (Rabs (val x)) - 69) + key_err t)%R.
Proof. exact C65_freq2midi_lemma. Qed.

Example C65_freq2midi_ex :
  let w := (World F64 (ideal F64) (n0 F64) (ideal F32) (n0 F32) true) in
  accurate (half_ulp F64) (w_lib w) /\ (0 <= half_ulp F64 <= 1e-5)%R /\ w_cxx11 w = true /\
  (let x := f_lit F64 441 0 in isfin x = true /\ (1e-30 <= Rabs (val x) <= 1e30)%R).
Proof. fitl. Qed.

(** freq2oct. *)
Theorem C65_freq2oct : 
  forall (t : fmt) (w : world t) (e : R) (x : F t), accurate e (w_lib w) -> (0 <= e <= 1e-5)%R -> w_cxx11 w = true -> isfin x = true -> (1e-30 <= Rabs (val x) <= 1e30)%R ->
    (isfin (s_unit w Freq2oct x) = true /\ Rabs (val (s_unit w Freq2oct x) - octave_of_hertz (Rabs (val x))) <= (e + 1.1 * half_ulp t) * Rabs (octave_of_hertz (Rabs (val x)) - 4.75) + octave_err t)%R.
Proof. exact C65_freq2oct_lemma. Qed.

Example C65_freq2oct_ex :
  let w := (World F64 (ideal F64) (n0 F64) (ideal F32) (n0 F32) true) in
  accurate (half_ulp F64) (w_lib w) /\ (0 <= half_ulp F64 <= 1e-5)%R /\ w_cxx11 w = true /\
  (let x := f_lit F64 441 0 in isfin x = true /\ (1e-30 <= Rabs (val x) <= 1e30)%R).
Proof. fitl. Qed.

(** A key turned into Hz and back: 6e-10 key in double. *)
Theorem C65_key_round_trip : 
  forall (t : fmt) (w : world t) (e : R) (x : F t), accurate e (w_lib w) -> (0 <= e <= 8 * half_ulp t)%R -> w_cxx11 w = true -> isfin x = true -> (0 <= val x <= 127)%R ->
    isfin (s_unit w Freq2midi (s_unit w Midi2freq x)) = true /\
    (Rabs (val (s_unit w Freq2midi (s_unit w Midi2freq x)) - val x) <= round_trip_err t)%R.
Proof. exact C65_key_round_trip_lemma. Qed.

Example C65_key_round_trip_ex :
  let w := (World F64 (ideal F64) (n0 F64) (ideal F32) (n0 F32) true) in
  accurate (half_ulp F64) (w_lib w) /\ (0 <= half_ulp F64 <= 8 * half_ulp F64)%R /\ w_cxx11 w = true /\
  (let x := f_lit F64 121 (-1) in isfin x = true /\ (0 <= val x <= 127)%R).
Proof. fitl. Qed.

(** The constants 0.083333333333 and 0.0022727272727 are short of 1/12 and 1/440, and
    double precision shows it: an octave above A4 is not 880 Hz, *)
Theorem C65_a5_refuted : 
  forall (w : world F64) (e : R), accurate e (w_lib w) -> (0 <= e <= bpow radix2 (-50))%R -> 
    exists x : F F64, isfin x = true /\ val x = 81%R /\ let y := s_unit w Midi2freq x in isfin y = true /\ (val y <= 880 - 2.4e-9)%R.
Proof. exact C65_a5_refuted_lemma. Qed.

Example C65_a5_refuted_ex :
  let w := (World F64 (ideal F64) (n0 F64) (ideal F32) (n0 F32) true) in
  accurate (half_ulp F64) (w_lib w) /\ (0 <= half_ulp F64 <= bpow radix2 (-50))%R.
Proof. fitl. Qed.

(** and 440 Hz is not key 69, however good the C library. *)
Theorem C65_a4_refuted : 
  forall (w : world F64) (e : R), accurate e (w_lib w) -> (0 <= e <= bpow radix2 (-50))%R -> w_cxx11 w = true -> 
    exists x : F F64, isfin x = true /\ val x = 440%R /\ let y := s_unit w Freq2midi x in isfin y = true /\ (val y <= 69 - 2e-10)%R.
Proof. exact C65_a4_refuted_lemma. Qed.

Example C65_a4_refuted_ex :
  let w := (World F64 (ideal F64) (n0 F64) (ideal F32) (n0 F32) true) in
  accurate (half_ulp F64) (w_lib w) /\ (0 <= half_ulp F64 <= bpow radix2 (-50))%R.
Proof. fitl. Qed.

(** * C66: log2 before C++11 *)

(** Without C++11 log2 is the natural logarithm times a float constant: a relative
    error of 1.34e-8 on top of that of the library, *)
Theorem C66_log2_old : 
  forall (t : fmt) (w : world t) (e : R) (x : F t), accurate e (w_lib w) -> (0 <= e <= 1e-5)%R -> w_cxx11 w = false -> near (half_ulp F32) (m_log (w_lib32 w) (f_ofZ F32 2)) (ln 2) -> isfin x = true -> (0 < val x)%R ->
    near (e + 1.34e-8 + 1.1 * half_ulp t) (s_log2 w x) (log_base 2 (val x)).
Proof. exact C66_log2_old_lemma. Qed.

Example C66_log2_old_ex :
  let w := (World F64 (ideal F64) (n0 F64) (ideal F32) (n0 F32) false) in
  accurate (half_ulp F64) (w_lib w) /\ (0 <= half_ulp F64 <= 1e-5)%R /\
  w_cxx11 w = false /\ near (half_ulp F32) (m_log (w_lib32 w) (f_ofZ F32 2)) (ln 2) /\
  (let x := f_lit F64 3 0 in isfin x = true /\ (0 < val x)%R).
Proof. fitl. Qed.

(** for double a lower bound as well: half the digits are lost, for every argument
    but 1; *)
Theorem C66_log2_always_short : 
  forall (t : fmt) (w : world t) (e : R) (x : F t), accurate e (w_lib w) -> (0 <= e <= 1e-5)%R -> w_cxx11 w = false -> near (half_ulp F32) (m_log (w_lib32 w) (f_ofZ F32 2)) (ln 2) -> (e + 1.1 * half_ulp t <= 2e-11)%R ->
    isfin x = true -> (0 < val x)%R -> (val x <> 1)%R ->
    (Rabs (val (s_log2 w x)) < (1 - 1.3e-8) * Rabs (log_base 2 (val x)))%R.
Proof. exact C66_log2_always_short_lemma. Qed.

Example C66_log2_always_short_ex :
  let w := (World F64 (ideal F64) (n0 F64) (ideal F32) (n0 F32) false) in
  accurate (half_ulp F64) (w_lib w) /\ (0 <= half_ulp F64 <= 1e-5)%R /\
  w_cxx11 w = false /\ near (half_ulp F32) (m_log (w_lib32 w) (f_ofZ F32 2)) (ln 2) /\ (half_ulp F64 + 1.1 * half_ulp F64 <= 2e-11)%R /\
  (let x := f_lit F64 3 0 in isfin x = true /\ (0 < val x)%R /\ (val x <> 1)%R).
Proof. fitl. Qed.

(** so log2(8) is not 3. *)
Theorem C66_log2_of_8_refuted : 
  forall (w : world F64) (e : R), accurate e (w_lib w) -> (0 <= e <= 1e-5)%R -> w_cxx11 w = false -> near (half_ulp F32) (m_log (w_lib32 w) (f_ofZ F32 2)) (ln 2) -> (e <= 1e-12)%R ->
    exists x : F F64, isfin x = true /\ val x = 8%R /\ (val (s_log2 w x) < 3 - 3.8e-8)%R.
Proof. exact C66_log2_of_8_refuted_lemma. Qed.

Example C66_log2_of_8_refuted_ex :
  let w := (World F64 (ideal F64) (n0 F64) (ideal F32) (n0 F32) false) in
  accurate (half_ulp F64) (w_lib w) /\ (0 <= half_ulp F64 <= 1e-5)%R /\
  w_cxx11 w = false /\ near (half_ulp F32) (m_log (w_lib32 w) (f_ofZ F32 2)) (ln 2) /\ (half_ulp F64 <= 1e-12)%R.
Proof. fitl. Qed.

(** All theorems of this file together, for one run of Print Assumptions. *)
Definition all_Lib := (
  C62_horizontal_max,
  C62_horizontal_min,
  C62_lane_3_ignored,
  C62_four_lanes_refuted,
  C62_extract,
  C62_constants,
  C62_select,
  C62_select_other_masks_refuted,
  C63_per_element,
  C63_per_element_binary,
  C63_math_simd_equals_scalar,
  C63_pow_simd_equals_scalar,
  C63_unit_simd_equals_scalar,
  C64_signed_pow,
  C64_signed_pow_odd,
  C64_zero_to_the_zero_refuted,
  C64_scalar_and_simd_differ_refuted,
  C65_midi2freq,
  C65_midi2ratio,
  C65_oct2freq,
  C65_db2amp,
  C65_amp2db,
  C65_ratio2midi,
  C65_freq2midi,
  C65_freq2oct,
  C65_key_round_trip,
  C65_a5_refuted,
  C65_a4_refuted,
  C66_log2_old,
  C66_log2_always_short,
  C66_log2_of_8_refuted).
Print Assumptions all_Lib.
