(** Proofs of the statements of Prop_Lib.v. *)
From Coq Require Import ZArith Reals List Lia Bool Lra.
From Flocq Require Import Core IEEE754.Binary IEEE754.Bits.
From Verif Require Import
  Base Mem Backend Args Drivers Functors Lanes Float LaneOps FloatOps ScalarMath VecMath FloatFuns IntVec TransMath TransFuns Utils Libm Spec SpecReduce SpecLane SpecMath SpecLib
  DriverClaims DriverClaims2 FloatFacts FloatRound LaneFacts MathMore MathClaims UtilFacts LibUnit LibLog LibMore ExData ExFloat.
Import ListNotations.
Local Open Scope Z_scope.

Lemma C62_horizontal_max_lemma : 
  forall (n : nans F32) (a b c d : F F32), no_nan [a; b; c] ->
    exists r, utils_horizontal_max n [a; b; c; d] = Ok r /\ is_max r [a; b; c].
Proof.
  intros n a b c d H. exact (utils_max_ok n a b c d H).
Qed.

Lemma C62_horizontal_min_lemma : 
  forall (n : nans F32) (a b c d : F F32), no_nan [a; b; c] ->
    exists r, utils_horizontal_min n [a; b; c; d] = Ok r /\ is_min r [a; b; c].
Proof.
  intros n a b c d H. exact (utils_min_ok n a b c d H).
Qed.

Lemma C62_lane_3_ignored_lemma : 
  forall (n : nans F32) (a b c d d' : F F32),
    utils_horizontal_max n [a; b; c; d] = utils_horizontal_max n [a; b; c; d'] /\
    utils_horizontal_min n [a; b; c; d] = utils_horizontal_min n [a; b; c; d'].
Proof.
  intros n a b c d d'. rewrite !utils_max_form, !utils_min_form. split; reflexivity.
Qed.

Lemma C62_four_lanes_refuted_lemma : 
  forall n : nans F32, exists v r, length v = 4%nat /\ no_nan v /\ utils_horizontal_max n v = Ok r /\ ~ is_max r v.
Proof.
  intros n. exists [f_ofZ F32 1; f_ofZ F32 2; f_ofZ F32 3; f_ofZ F32 4], (f_ofZ F32 3). split; [reflexivity|]. split; [apply no_nan_b; vm_compute; reflexivity|]. split.
  - rewrite utils_max_form. assert (E : forall x y : F F32, bits x = bits y -> Ok x = Ok y) by (intros x y H; rewrite (bits_inj _ _ H); reflexivity). apply E. vm_compute. reflexivity.
  - intros [H _]. specialize (H (f_ofZ F32 4) ltac:(cbn; auto)). vm_compute in H. discriminate H.
Qed.

Lemma C62_extract_lemma : 
  forall A (a b c d : A), extract_0 [a; b; c; d] = Ok a /\ extract_3 [a; b; c; d] = Ok d.
Proof.
  intros A a b c d. split; reflexivity.
Qed.

Lemma C62_constants_lemma : 
  forall c : cfg, bits (utils_sign_mask c) = 2 ^ 31 /\ bits (utils_abs_mask c) = 2 ^ 31 - 1 /\
    utils_one c = f_ofZ F32 1 /\ utils_05 c = f_lit F32 1 (-1) /\ utils_025 = f_lit F32 1 (-2).
Proof.
  intros c. exact (utils_constants c).
Qed.

Lemma C62_select_lemma : 
  forall (c : cfg) (v0 v1 : F F32) (b : bool), select_vector c v0 v1 (mask b) = if b then v1 else v0.
Proof.
  intros c v0 v1 b. exact (select_vector_mask c v0 v1 b).
Qed.

Lemma C62_select_other_masks_refuted_lemma : 
  exists (c c' : cfg) (v0 v1 sel : F F32), has_sse41 c = true /\ has_sse41 c' = false /\
    select_vector c v0 v1 sel = v0 /\ select_vector c' v0 v1 sel <> v0 /\ sel = f_ofZ F32 1.
Proof.
  exists (Build_cfg true true true true), (Build_cfg true true false true), (f_lit F32 3 (-1)), (f_ofZ F32 3), (f_ofZ F32 1). repeat apply conj; try reflexivity.
  intros E. apply (f_equal bits) in E. vm_compute in E. discriminate E.
Qed.

Lemma C63_per_element_lemma : 
  forall A (B : backend) (f : A -> A) (ret v : list A), length ret = vsize B -> length v = vsize B ->
    apply_unary B f v = Ok (map f v) /\ collect B f ret v = Ok (map f v).
Proof.
  intros A B f ret v H1 H2. split; [apply apply_unary_ok|apply collect_ok]; assumption.
Qed.

Lemma C63_per_element_binary_lemma : 
  forall A (B : backend) (f : A -> A -> A) (ret u v : list A), length ret = vsize B -> length u = vsize B -> length v = vsize B ->
    apply_binary B f ret u v = Ok (map2 f u v).
Proof.
  intros A B f ret u v H1 H2 H3. apply apply_binary_ok; assumption.
Qed.

Lemma C63_math_simd_equals_scalar_lemma : 
  forall (c : cfg) (B : backend) (w : world (fmt_of B)) (k : nans F64) (f : ufun) (m : mem (F (fmt_of B))) (out inp len : Z),
    delegates c B -> legal_simd_length B len -> aligned B out -> accessible m out len -> simd_fit B m out len (APtr inp) ->
    same_effect (math_vec B w f m out inp len) (math_vec_simd c B w k f m out inp len).
Proof.
  intros c B w k f m out inp len HD H1 H2 H3 H4. destruct (delegates_not c B HD) as [D1 D2]. apply C04_simd_equals_scalar_unary_lemma; try assumption.
  intros u _. rewrite v_ufun_scalar by assumption. reflexivity.
Qed.

Lemma C63_pow_simd_equals_scalar_lemma : 
  forall (c : cfg) (B : backend) (w : world (fmt_of B)) (f : bfun) (m : mem (F (fmt_of B))) (out : Z) (a1 a2 : arg (F (fmt_of B))) (len : Z),
    delegates c B -> legal_simd_length B len -> aligned B out -> accessible m out len -> simd_fit B m out len a1 -> plain a1 -> simd_fit B m out len a2 -> plain a2 ->
    same_effect (math2_vec B w f m out a1 a2 len) (math2_vec_simd c B w f m out a1 a2 len).
Proof.
  intros c B w f m out a1 a2 len HD H1 H2 H3 H4 H5 H6 H7. destruct (delegates_not c B HD) as [D1 D2]. apply C04_simd_equals_scalar_binary_lemma; try assumption.
  intros u v _ _. rewrite v_bfun_scalar by assumption. reflexivity.
Qed.

Lemma C63_unit_simd_equals_scalar_lemma : 
  forall (c : cfg) (B : backend) (w : world (fmt_of B)) (k : nans F64) (u : unit_fun) (m : mem (F (fmt_of B))) (out inp len : Z),
    delegates c B -> B <> ALTIVEC32 -> legal_simd_length B len -> aligned B out -> accessible m out len -> simd_fit B m out len (APtr inp) ->
    same_effect (unit_vec B w u m out inp len) (unit_vec_simd c B w k u m out inp len).
Proof.
  intros c B w k u m out inp len HD HA H1 H2 H3 H4. destruct (delegates_not c B HD) as [D1 D2]. apply C04_simd_equals_scalar_unary_lemma; try assumption.
  intros v _. apply map_ext. intros x. apply v_unit_scalar; assumption.
Qed.

Lemma C64_signed_pow_lemma : 
  forall t (w : world t) (x y : F t), number x ->
    (fgt x (f_ofZ t 0) = true -> s_signed_pow w x y = m_pow (w_lib w) (fabs x) y) /\
    (flt x (f_ofZ t 0) = true -> s_signed_pow w x y = fneg (m_pow (w_lib w) (fabs x) y)).
Proof.
  intros t w x y N. exact (spow_form w x y N).
Qed.

Lemma C64_signed_pow_odd_lemma : 
  forall t (w : world t) (x y : F t), number x -> feq x (f_ofZ t 0) = false ->
    s_signed_pow w (fneg x) y = fneg (s_signed_pow w x y).
Proof.
  intros t w x y N Z. exact (spow_odd w x y N Z).
Qed.

Lemma C64_zero_to_the_zero_refuted_lemma : 
  forall t (w : world t), (forall s, m_pow (w_lib w) (B754_zero (prec t) (emax t) s) (f_ofZ t 0) = f_ofZ t 1) ->
    exists x y : F t, isfin x = true /\ isfin y = true /\ val x = 0%R /\
      s_signed_pow w x y = fneg (f_ofZ t 1) /\ s_signed_pow w (fneg x) y = fneg (f_ofZ t 1).
Proof.
  intros t w H. exists (B754_zero (prec t) (emax t) false), (f_ofZ t 0). split; [reflexivity|]. split; [destruct t; reflexivity|]. split; [reflexivity|]. exact (spow_zero w H).
Qed.

Lemma C64_scalar_and_simd_differ_refuted_lemma : 
  forall (c : cfg) (I : isa) (w : world F32), math_isa c I ->
    (forall s, m_pow (w_lib w) (B754_zero 24 128 s) (f_ofZ F32 0) = f_ofZ F32 1) ->
    exists x y : F F32, isfin x = true /\ isfin y = true /\
      sgn (s_signed_pow w x y) <> sgn (vec_signed_pow c I (w_nan w) x y).
Proof.
  intros c I w HI H. exists (B754_zero 24 128 false), (f_ofZ F32 0). split; [reflexivity|]. split; [reflexivity|].
  destruct (spow_zero w H) as [E _]. change (prec F32) with 24 in E. change (emax F32) with 128 in E. rewrite E.
  destruct (C50_signed_pow_odd_lemma c I (w_nan w) (B754_zero 24 128 false) (f_ofZ F32 0) HI eq_refl) as [S _]. rewrite S. discriminate.
Qed.

Lemma C65_midi2freq_lemma : 
  forall (t : fmt) (w : world t) (e : R) (x : F t), accurate e (w_lib w) -> (0 <= e <= 1e-5)%R -> isfin x = true -> (Rabs (val x - 69) <= 1200)%R ->
    near (e + 2 * half_ulp t + semitone_err t * Rabs (val x - 69)) (s_unit w Midi2freq x) (hertz_of_key (val x)).
Proof.
  intros t w e x HA He Fx B. rewrite <- ut_half. exact (midi2freq_lib w e HA He x Fx B).
Qed.

Lemma C65_midi2ratio_lemma : 
  forall (t : fmt) (w : world t) (e : R) (x : F t), accurate e (w_lib w) -> (0 <= e <= 1e-5)%R -> isfin x = true -> (Rabs (val x) <= 1200)%R ->
    near (e + half_ulp t + semitone_err t * Rabs (val x)) (s_unit w Midi2ratio x) (ratio_of_semitones (val x)).
Proof.
  intros t w e x HA He Fx B. rewrite <- ut_half. exact (midi2ratio_lib w e HA He x Fx B).
Qed.

Lemma C65_oct2freq_lemma : 
  forall (t : fmt) (w : world t) (e : R) (x : F t), accurate e (w_lib w) -> (0 <= e <= 1e-5)%R -> isfin x = true -> (Rabs (val x - 4.75) <= 100)%R ->
    near (e + 2 * half_ulp t + 0.7 * half_ulp t * Rabs (val x - 4.75)) (s_unit w Oct2freq x) (hertz_of_octave (val x)).
Proof.
  intros t w e x HA He Fx B. rewrite <- ut_half. exact (oct2freq_lib w e HA He x Fx B).
Qed.

Lemma C65_db2amp_lemma : 
  forall (t : fmt) (w : world t) (e : R) (x : F t), accurate e (w_lib w) -> (0 <= e <= 1e-5)%R -> isfin x = true -> (Rabs (val x) <= 700)%R ->
    near (e + half_ulp t + 0.24 * half_ulp t * Rabs (val x)) (s_unit w Db2amp x) (amplitude_of_db (val x)).
Proof.
  intros t w e x HA He Fx B. rewrite <- ut_half. exact (db2amp_lib w e HA He x Fx B).
Qed.

Lemma C65_amp2db_lemma : 
  forall (t : fmt) (w : world t) (e : R) (x : F t), accurate e (w_lib w) -> (0 <= e <= 1e-5)%R -> isfin x = true -> (val x <> 0)%R ->
    near (e + 1.1 * half_ulp t) (s_unit w Amp2db x) (db_of_amplitude (Rabs (val x))).
Proof.
  intros t w e x HA He Fx B. rewrite <- ut_half. exact (log10_at w e HA He x Fx B).
Qed.

Lemma C65_ratio2midi_lemma : 
  forall (t : fmt) (w : world t) (e : R) (x : F t), accurate e (w_lib w) -> (0 <= e <= 1e-5)%R -> w_cxx11 w = true -> isfin x = true -> (0 < val x)%R ->
    near (e + 1.1 * half_ulp t) (s_unit w Ratio2midi x) (semitones_of_ratio (val x)).
Proof.
  intros t w e x HA He H11 Fx B. rewrite <- ut_half. exact (ratio2midi_lib w e HA He H11 x Fx B).
Qed.

Lemma C65_freq2midi_lemma : 
  forall (t : fmt) (w : world t) (e : R) (x : F t), accurate e (w_lib w) -> (0 <= e <= 1e-5)%R -> w_cxx11 w = true -> isfin x = true -> (1e-30 <= Rabs (val x) <= 1e30)%R ->
    (isfin (s_unit w Freq2midi x) = true /\ Rabs (val (s_unit w Freq2midi x) - key_of_hertz (Rabs (val x))) <= (e + 2.1 * half_ulp t) * Rabs (key_of_hertz (Rabs (val x)) - 69) + key_err t)%R.
Proof.
  intros t w e x HA He H11 Fx B. rewrite <- ut_half. exact (freq2midi_lib w e HA He H11 x Fx B).
Qed.

Lemma C65_freq2oct_lemma : 
  forall (t : fmt) (w : world t) (e : R) (x : F t), accurate e (w_lib w) -> (0 <= e <= 1e-5)%R -> w_cxx11 w = true -> isfin x = true -> (1e-30 <= Rabs (val x) <= 1e30)%R ->
    (isfin (s_unit w Freq2oct x) = true /\ Rabs (val (s_unit w Freq2oct x) - octave_of_hertz (Rabs (val x))) <= (e + 1.1 * half_ulp t) * Rabs (octave_of_hertz (Rabs (val x)) - 4.75) + octave_err t)%R.
Proof.
  intros t w e x HA He H11 Fx B. rewrite <- ut_half. exact (freq2oct_lib w e HA He H11 x Fx B).
Qed.

Lemma C65_key_round_trip_lemma : 
  forall (t : fmt) (w : world t) (e : R) (x : F t), accurate e (w_lib w) -> (0 <= e <= 8 * half_ulp t)%R -> w_cxx11 w = true -> isfin x = true -> (0 <= val x <= 127)%R ->
    isfin (s_unit w Freq2midi (s_unit w Midi2freq x)) = true /\
    (Rabs (val (s_unit w Freq2midi (s_unit w Midi2freq x)) - val x) <= round_trip_err t)%R.
Proof.
  intros t w e x HA He H11 Fx B. exact (round_trip w e HA He H11 x Fx B).
Qed.

Lemma C65_a5_refuted_lemma : 
  forall (w : world F64) (e : R), accurate e (w_lib w) -> (0 <= e <= bpow radix2 (-50))%R -> 
    exists x : F F64, isfin x = true /\ val x = 81%R /\ let y := s_unit w Midi2freq x in isfin y = true /\ (val y <= 880 - 2.4e-9)%R.
Proof.
  intros w e HA He. exists (f_ofZ F64 81). destruct (ofZ_exact 81 ltac:(lia)) as [A V]. split; [exact A|]. split; [exact V|]. exact (a5_short w e HA He).
Qed.

Lemma C65_a4_refuted_lemma : 
  forall (w : world F64) (e : R), accurate e (w_lib w) -> (0 <= e <= bpow radix2 (-50))%R -> w_cxx11 w = true -> 
    exists x : F F64, isfin x = true /\ val x = 440%R /\ let y := s_unit w Freq2midi x in isfin y = true /\ (val y <= 69 - 2e-10)%R.
Proof.
  intros w e HA He H11. exists (f_ofZ F64 440). destruct (ofZ_exact 440 ltac:(lia)) as [A V]. split; [exact A|]. split; [exact V|]. exact (a4_flat w e HA He H11).
Qed.

Lemma C66_log2_old_lemma : 
  forall (t : fmt) (w : world t) (e : R) (x : F t), accurate e (w_lib w) -> (0 <= e <= 1e-5)%R -> w_cxx11 w = false -> near (half_ulp F32) (m_log (w_lib32 w) (f_ofZ F32 2)) (ln 2) -> isfin x = true -> (0 < val x)%R ->
    near (e + 1.34e-8 + 1.1 * half_ulp t) (s_log2 w x) (log_base 2 (val x)).
Proof.
  intros t w e x HA He H11 HL Fx P. exact (old_log2_close w e HA He H11 HL x Fx P).
Qed.

Lemma C66_log2_always_short_lemma : 
  forall (t : fmt) (w : world t) (e : R) (x : F t), accurate e (w_lib w) -> (0 <= e <= 1e-5)%R -> w_cxx11 w = false -> near (half_ulp F32) (m_log (w_lib32 w) (f_ofZ F32 2)) (ln 2) -> (e + 1.1 * half_ulp t <= 2e-11)%R ->
    isfin x = true -> (0 < val x)%R -> (val x <> 1)%R ->
    (Rabs (val (s_log2 w x)) < (1 - 1.3e-8) * Rabs (log_base 2 (val x)))%R.
Proof.
  intros t w e x HA He H11 HL E Fx P N. exact (old_log2_short w e HA He H11 HL x E Fx P N).
Qed.

Lemma C66_log2_of_8_refuted_lemma : 
  forall (w : world F64) (e : R), accurate e (w_lib w) -> (0 <= e <= 1e-5)%R -> w_cxx11 w = false -> near (half_ulp F32) (m_log (w_lib32 w) (f_ofZ F32 2)) (ln 2) -> (e <= 1e-12)%R ->
    exists x : F F64, isfin x = true /\ val x = 8%R /\ (val (s_log2 w x) < 3 - 3.8e-8)%R.
Proof.
  intros w e HA He H11 HL E. exists (f_ofZ F64 8). destruct (ofZ_exact 8 ltac:(lia)) as [A V]. split; [exact A|]. split; [exact V|].
  exact (old_log2_8 w e HA He H11 HL E).
Qed.
