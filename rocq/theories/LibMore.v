(** More about the conversions over the C library: a library that rounds
    correctly, round trips, log2 before C++11, and what the shortened constants
    do to well-known notes. *)
From Coq Require Import ZArith Reals List Lia Lra Bool Psatz.
From Flocq Require Import Core Relative IEEE754.Binary IEEE754.Bits.
From Verif Require Import Base Backend Lanes Float LaneOps ScalarMath VecMath IntVec TransMath TransFuns Libm Spec SpecLane SpecMath SpecLib
  FloatFacts FloatRound RoundMore RampFloat TransConst RealTanh RealLog RealUnit RealUnit2 LibUnit LibLog.
Local Open Scope R_scope.

(** * The library that rounds correctly *)
Lemma nearest_ok t r : Rabs r <= 1e38 -> isfin (nearest t r) = true /\ val (nearest t r) = rnd t r.
Proof.
  intros B. destruct (Req_dec r 0) as [->|NZ].
  { unfold nearest. rewrite scaled_mantissa_0, (Znearest_imp _ 0 0) by (rewrite Rminus_0_r, Rabs_R0; lra). rewrite rnd_0. split; reflexivity. }
  unfold nearest. change (SpecFloat.fexp (prec t) (emax t)) with (fexp t). set (m := ZnearestE _). set (x := cexp _ _ r).
  assert (RN : rnd t r = IZR m * bpow radix2 x) by reflexivity.
  assert (X1 : (emin t <= x)%Z) by (unfold x, cexp; rewrite fexp_FLT; unfold FLT_exp; lia).
  assert (X2 : (Raux.mag radix2 r <= x + prec t)%Z) by (unfold x, cexp; rewrite fexp_FLT; unfold FLT_exp; lia).
  assert (MB : (Raux.mag radix2 r <= 127)%Z).
  { apply mag_le_bpow; [exact NZ|]. eapply Rle_lt_trans; [exact B|].
    change (bpow radix2 127) with 170141183460469231731687303715884105728. lra. }
  assert (X3 : (x + prec t < emax t)%Z) by (unfold x, cexp; rewrite fexp_FLT; unfold FLT_exp; clear -MB; destruct t; [change (emin F32) with (-149)%Z; change (prec F32) with 24%Z; change (emax F32) with 128%Z|change (emin F64) with (-1074)%Z; change (prec F64) with 53%Z; change (emax F64) with 1024%Z]; lia).
  assert (A : Rabs (rnd t r) <= bpow radix2 (x + prec t)).
  { apply rnd_abs_le.
    - apply generic_format_bpow. rewrite fexp_FLT. unfold FLT_exp. pose proof (prec_pos t). lia.
    - eapply Rle_trans; [left; apply bpow_mag_gt|apply bpow_le; exact X2]. }
  rewrite RN, Rabs_mult, (Rabs_pos_eq (bpow radix2 x)), Z.add_comm, bpow_plus in A by apply bpow_ge_0. apply Rmult_le_reg_r in A; [|apply bpow_gt_0].
  rewrite <- abs_IZR, <- IZR_Zpower in A by (pose proof (prec_pos t); lia). apply le_IZR in A.
  destruct (f_lit_exact (t := t) m x A X1 X3) as (C1 & C2 & _). split; [exact C1|]. rewrite C2, RN. reflexivity.
Qed.
Lemma nearest_near t r : Rabs r <= 1e38 -> r = 0 \/ bpow radix2 (-126) <= Rabs r -> near (half_ulp t) (nearest t r) r.
Proof.
  intros B H. destruct (nearest_ok t r B) as [A V]. split; [exact A|]. rewrite V. destruct H as [->|H]; [rewrite rnd_0, Rminus_eq_0, Rabs_R0; lra|].
  unfold rnd. change (SpecFloat.fexp (prec t) (emax t)) with (fexp t). rewrite fexp_FLT.
  eapply Rle_trans; [apply relative_error_N_FLT; [apply prec_pos|eapply Rle_trans; [|exact H]; apply bpow_le; destruct t; cbv; discriminate]|].
  apply Rmult_le_compat_r; [apply Rabs_pos|]. change (/ 2) with (bpow radix2 (-1)). rewrite <- bpow_plus. destruct t; cbn [half_ulp prec]; apply Rle_refl.
Qed.
Lemma log_scaled t (x : F t) b : isfin x = true -> 0 < val x -> 0.4 <= b <= 1.5 -> near (half_ulp t) (nearest t (ln (val x) * b)) (ln (val x) * b).
Proof.
  intros F P B. apply nearest_near.
  - pose proof (ln_all x F P). rewrite Rabs_mult, (Rabs_pos_eq b) by lra. apply Rle_trans with (800 * 1.5); [apply Rmult_le_compat; try lra; apply Rabs_pos|lra].
  - destruct (Req_dec (val x) 1) as [X|X]; [left; rewrite X, ln_1; ring|right]. pose proof (ln_away_t x P X) as A.
    rewrite Rabs_mult, (Rabs_pos_eq b) by lra. apply Rle_trans with (0.9 * ut t * 0.4); [|apply Rmult_le_compat; try lra; pose proof (ut_range (t := t)); lra].
    apply Rle_trans with (0.36 * bpow radix2 (-53)); [|assert (bpow radix2 (-53) <= ut t) by (apply bpow_le; destruct t; cbv; discriminate); lra].
    assert (E : bpow radix2 (-126) <= bpow radix2 (-60)) by (apply bpow_le; lia). change (bpow radix2 (-53)) with (/ 9007199254740992).
    eapply Rle_trans; [exact E|]. change (bpow radix2 (-60)) with (/ 1152921504606846976). lra.
Qed.
Lemma bpow_Rpower z : bpow radix2 z = Rpower 2 (IZR z).
Proof. unfold Rpower. rewrite bpow_exp. reflexivity. Qed.
Lemma ideal_accurate t : accurate (half_ulp t) (ideal t).
Proof.
  pose proof inv_ln2_fine as I2. pose proof inv_ln10_fine as I10. constructor; cbn [ideal m_log m_log2 m_log10 m_pow].
  - intros x F P. pose proof (log_scaled t x 1 F P ltac:(lra)) as Q. rewrite Rmult_1_r in Q. exact Q.
  - intros x F P. apply (log_scaled t x (/ ln 2) F P). lra.
  - intros x F P. apply (log_scaled t x (/ ln 10) F P). lra.
  - intros x y Fx Fy P B. unfold log_base in B. set (z := val y * (ln (val x) / ln 2)) in B.
    assert (E : Rpower (val x) (val y) = Rpower 2 z). { unfold Rpower, z. f_equal. pose proof ln2_fine. field. lra. }
    rewrite E. apply Rabs_le_inv in B. assert (PP : 0 < Rpower 2 z) by apply exp_pos.
    assert (L : Rpower 2 (-126) <= Rpower 2 z <= Rpower 2 126) by (split; apply Rle_Rpower; lra).
    pose proof (bpow_Rpower 126) as E1. pose proof (bpow_Rpower (-126)) as E2. cbn [IZR] in E1, E2. apply nearest_near.
    + rewrite Rabs_pos_eq by lra. eapply Rle_trans; [apply L|]. change 126 with (IZR 126). rewrite <- bpow_Rpower. change (bpow radix2 126) with 85070591730234615865843651857942052864. lra.
    + right. rewrite Rabs_pos_eq by lra. rewrite bpow_Rpower. apply L.
Qed.

Lemma u_is' t : ut t = match t with F32 => / 16777216 | F64 => / 9007199254740992 end. Proof. destruct t; reflexivity. Qed.
(** * Round trip and well-known notes *)
Lemma hertz_pos k : 0 < hertz_of_key k.
Proof. unfold hertz_of_key. pose proof (exp_pos ((k - 69) / 12 * ln 2)). unfold Rpower. lra. Qed.
Lemma key_hertz k : key_of_hertz (hertz_of_key k) = k.
Proof.
  unfold key_of_hertz, hertz_of_key, log_base. replace (440 * Rpower 2 ((k - 69) / 12) / 440) with (Rpower 2 ((k - 69) / 12)) by (unfold Rdiv at 2; ring_simplify; field).
  unfold Rpower. rewrite ln_exp. pose proof ln2_fine. field. lra.
Qed.
Section W.
Context {t : fmt} (w : world t) (e : R) (HA : accurate e (w_lib w)) (He : 0 <= e <= 8 * half_ulp t) (H11 : w_cxx11 w = true).
Local Notation u := (ut t).
Lemma round_trip x : isfin x = true -> 0 <= val x <= 127 ->
  isfin (s_unit w Freq2midi (s_unit w Midi2freq x)) = true /\ Rabs (val (s_unit w Freq2midi (s_unit w Midi2freq x)) - val x) <= round_trip_err t.
Proof.
  intros F B. pose proof (ut_range (t := t)) as U. rewrite <- ut_half in He. assert (He' : 0 <= e <= 1e-5) by lra.
  assert (S : Rabs (val x - 69) <= 69) by (apply Rabs_le; lra).
  destruct (midi2freq_lib w e HA He' x F ltac:(lra)) as [FG VG]. set (g := s_unit w Midi2freq x) in *. set (h := hertz_of_key (val x)) in *. assert (PH : 0 < h) by apply hertz_pos.
  rewrite (Rabs_pos_eq h) in VG by lra. set (a := e + 2 * u + semitone_err t * 69).
  assert (SE : 0 < semitone_err t <= 9e-9) by (unfold semitone_err; destruct t; lra).
  assert (VG' : Rabs (val g - h) <= a * h). { eapply Rle_trans; [exact VG|]. apply Rmult_le_compat_r; [lra|]. unfold a. assert (semitone_err t * Rabs (val x - 69) <= semitone_err t * 69) by (apply Rmult_le_compat_l; lra). lra. }
  assert (A : 0 <= a <= 2e-6) by (unfold a; lra).
  destruct (ln_near (val g) h a PH VG' ltac:(lra)) as [PG LG].
  assert (HB : 6 <= h <= 14080).
  { unfold h, hertz_of_key, Rpower. pose proof ln2_fine as L2. assert (E1 : exp (-6 * ln 2) <= exp ((val x - 69) / 12 * ln 2)) by (apply exp_le_c; nra). assert (E2 : exp ((val x - 69) / 12 * ln 2) <= exp (5 * ln 2)) by (apply exp_le_c; nra).
    assert (X1 : exp (-6 * ln 2) = / 64). { pose proof (bpow_exp radix2 (-6)) as Q. change (bpow radix2 (-6)) with (/ 64) in Q. symmetry. exact Q. }
    assert (X2 : exp (5 * ln 2) = 32). { pose proof (bpow_exp radix2 5) as Q. change (bpow radix2 5) with 32 in Q. symmetry. exact Q. }
    lra. }
  assert (GB : 1 <= val g <= 20000) by (apply Rabs_le_inv in VG'; nra).
  destruct (freq2midi_lib w e HA He' H11 g FG) as [FK VK]; [rewrite Rabs_pos_eq by lra; lra|]. rewrite (Rabs_pos_eq (val g)) in VK by lra. split; [exact FK|].
  pose proof (key_hertz (val x)) as KH. fold h in KH. pose proof inv_ln2_fine as IL.
  assert (KD : Rabs (key_of_hertz (val g) - val x) <= 17.4 * a).
  { rewrite <- KH. unfold key_of_hertz, log_base, Rdiv. rewrite !ln_mult by lra.
    replace (69 + 12 * ((ln (val g) + ln (/ 440)) * / ln 2) - (69 + 12 * ((ln h + ln (/ 440)) * / ln 2))) with (12 * / ln 2 * (ln (val g) - ln h)) by ring.
    rewrite Rabs_mult, (Rabs_pos_eq (12 * / ln 2)) by lra. apply Rle_trans with (12 * 1.44269505 * (1.0002 * a)); [apply Rmult_le_compat; try lra; apply Rabs_pos|lra]. }
  assert (KA : Rabs (key_of_hertz (val g) - 69) <= 70).
  { replace (key_of_hertz (val g) - 69) with ((key_of_hertz (val g) - val x) + (val x - 69)) by ring. eapply Rle_trans; [apply Rabs_triang|lra]. }
  replace (val (s_unit w Freq2midi g) - val x) with ((val (s_unit w Freq2midi g) - key_of_hertz (val g)) + (key_of_hertz (val g) - val x)) by ring.
  eapply Rle_trans; [apply Rabs_triang|]. assert ((e + 2.1 * u) * Rabs (key_of_hertz (val g) - 69) <= (e + 2.1 * u) * 70) by (apply Rmult_le_compat_l; lra).
  assert (17.4 * a + (e + 2.1 * u) * 70 + key_err t <= round_trip_err t).
  { unfold a. clear - He. rewrite u_is' in He |- *. unfold key_err, round_trip_err, semitone_err. destruct t; lra. }
  lra.
Qed.
End W.
Lemma ofZ_exact k : (Z.abs k <= 1000)%Z -> isfin (f_ofZ F64 k) = true /\ val (f_ofZ F64 k) = IZR k.
Proof.
  intros K. destruct (f_lit_exact (t := F64) k 0) as (A & B & _); [change (2 ^ prec F64)%Z with 9007199254740992%Z; lia|change (emin F64) with (-1074)%Z; lia|cbv; reflexivity|].
  split; [exact A|]. etransitivity; [exact B|]. change (bpow radix2 0) with 1. ring.
Qed.
Section Double.
Context (w : world F64) (e : R) (HA : accurate e (w_lib w)) (He : 0 <= e <= bpow radix2 (-50)) (H11 : w_cxx11 w = true).
Lemma k12d : isfin (lit_as F64 83333333333 12) = true /\ Rabs (val (lit_as F64 83333333333 12) - 0.083333333333) <= 1e-16 * 0.083333333333.
Proof. unfold lit_as. l64 6004799503136642%Z (-56)%Z 83333333333%Z 12%Z. change (bpow radix2 (-56)) with (/ 72057594037927936). apply Rabs_le. lra. Qed.
Lemma k440d : isfin (lit_as F64 22727272727 13) = true /\ Rabs (val (lit_as F64 22727272727 13) - 0.0022727272727) <= 1.2e-16 * 0.0022727272727.
Proof. unfold lit_as. l64 5240552293604600%Z (-61)%Z 22727272727%Z 13%Z. change (bpow radix2 (-61)) with (/ 2305843009213693952). apply Rabs_le. lra. Qed.
Lemma e50 : 0 <= e <= 1e-15.
Proof. assert (bpow radix2 (-50) = / 1125899906842624) by reflexivity. lra. Qed.
Lemma a5_short : isfin (s_unit w Midi2freq (f_ofZ F64 81)) = true /\ val (s_unit w Midi2freq (f_ofZ F64 81)) <= 880 - 2.4e-9.
Proof.
  pose proof e50 as E. pose proof (ut_range (t := F64)) as U0. assert (UE : ut F64 = / 9007199254740992) by reflexivity. pose proof (et_range (t := F64)) as ET.
  destruct (ofZ_exact 81 ltac:(lia)) as [FX VX].
  destruct (k69 F64) as [F6 V6]. destruct (k2 F64) as [F2 V2]. destruct k12d as [FK VK].
  pose proof (rl_sub (w_nan w) _ _ _ _ _ _ (rl_exact _ FX) (rl_exact _ F6)) as R. rewrite VX, V6 in R. replace (81 - 69) with 12 in R by lra. rewrite (Rabs_pos_eq 12) in R by lra. specialize (R ltac:(lra)).
  pose proof (rl_mul (w_nan w) _ _ _ 0.083333333333 _ 1e-16 R FK ltac:(lra) VK ltac:(lra)) as R2. rewrite (Rabs_pos_eq 12) in R2 by lra. specialize (R2 ltac:(lra)).
  set (d := (1 + 1e-16) * _ * _ + _ + _) in R2. assert (D : 0 <= d <= 1e-14) by (unfold d; rewrite UE; lra).
  unfold s_unit, u_fun, s_bfun. set (y := fmul (w_nan w) (fsub (w_nan w) _ _) _) in *.
  assert (P : near (e + 1.0011 * (ln 2 * d)) (m_pow (w_lib w) (lit_as F64 2 0) y) (Rpower 2 (12 * 0.083333333333))).
  { apply (pow_at w e HA ltac:(lra) _ _ 2 _ d F2 V2); [lra|exact R2|lra|]. pose proof ln2_fine. rewrite Rabs_pos_eq by nra. nra. }
  replace (12 * 0.083333333333) with 0.999999999996 in P by lra. pose proof octave_short as O. pose proof ln2_fine as L.
  assert (ln 2 * d <= 1 * 1e-14) by (apply Rmult_le_compat; lra). assert (0 <= ln 2 * d) by (apply Rmult_le_pos; lra).
  destruct (times440 w e HA _ _ _ P ltac:(lra) ltac:(lra)) as [FR VR]. split; [exact FR|]. rewrite (Rabs_pos_eq (440 * _)) in VR by lra. apply Rabs_le_inv in VR.
  assert (Q : (e + 1.0011 * (ln 2 * d) + 1.01 * ut F64) * (440 * Rpower 2 0.999999999996) <= 2e-14 * 880) by (apply Rmult_le_compat; lra). lra.
Qed.
Lemma a4_flat : isfin (s_unit w Freq2midi (f_ofZ F64 440)) = true /\ val (s_unit w Freq2midi (f_ofZ F64 440)) <= 69 - 2e-10.
Proof.
  pose proof e50 as E. assert (UE : ut F64 = / 9007199254740992) by reflexivity. pose proof (et_range (t := F64)) as ET.
  destruct (ofZ_exact 440 ltac:(lia)) as [FX VX].
  destruct (k69 F64) as [F6 V6]. destruct (k12z F64) as [FT VT]. destruct k440d as [FK VK].
  pose proof (rl_exact _ FX) as R0. rewrite VX in R0.
  destruct (rl_mul (w_nan w) _ _ _ 0.0022727272727 _ 1.2e-16 R0 FK ltac:(lra) VK ltac:(lra)) as [FG VG]; [rewrite Rabs_pos_eq by lra; lra|]. rewrite (Rabs_pos_eq 440) in VG by lra.
  unfold s_unit, u_fun, u_abs_log2, s_ufun, s_log2. rewrite H11. set (g := fmul (w_nan w) (f_ofZ F64 440) _) in *.
  assert (GB : Rabs (val g - 0.999999999988) <= 1e-15). { replace 0.999999999988 with (440 * 0.0022727272727) by lra. eapply Rle_trans; [exact VG|]. lra. }
  assert (PG : 0 < val g) by (apply Rabs_le_inv in GB; lra). assert (VA : val (fabs g) = val g) by (rewrite val_fabs; apply Rabs_pos_eq; lra).
  destruct (acc_log2 e _ HA (fabs g)) as [FL VL]; [rewrite isfin_fabs; exact FG|rewrite VA; exact PG|]. rewrite VA in VL.
  destruct (ln_near (val g) 0.999999999988 1.1e-15 ltac:(lra) ltac:(lra) ltac:(lra)) as [_ LN]. pose proof concert_a_short as CA. pose proof inv_ln2_fine as IL.
  set (q := log_base 2 (val g)) in *.
  assert (QB : -2e-11 <= q <= -1.729e-11).
  { assert (LB : Rabs (q - ln 0.999999999988 / ln 2) <= 1e-14).
    { unfold q, log_base, Rdiv. rewrite <- Rmult_minus_distr_r, Rabs_mult, (Rabs_pos_eq (/ ln 2)) by lra. apply Rle_trans with (1.0002 * 1.1e-15 * 1.5); [apply Rmult_le_compat; try lra; apply Rabs_pos|lra]. }
    apply Rabs_le_inv in LB. pose proof concert_a_low. lra. }
  assert (RL : rl (m_log2 (w_lib w) (fabs g)) q (e * Rabs q)) by (split; assumption).
  rewrite (Rabs_left q) in RL by lra. assert (EQ : 0 <= e * - q <= 1e-15 * 1) by (split; [apply Rmult_le_pos; lra|apply Rmult_le_compat; lra]).
  pose proof (rl_mul (w_nan w) _ _ _ 12 _ 0 RL FT ltac:(lra) ltac:(rewrite VT, Rminus_eq_0, Rabs_R0; lra) ltac:(lra)) as R2. rewrite (Rabs_left q) in R2 by lra. specialize (R2 ltac:(lra)).
  set (d := (1 + 0) * _ * _ + _ + _) in R2. assert (D : d <= 1e-13) by (unfold d; rewrite UE; lra).
  pose proof (rl_exact _ F6) as R1. rewrite V6 in R1.
  assert (AB : Rabs (q * 12 + 69) <= 70) by (apply Rabs_le; lra).
  destruct (rl_add (w_nan w) _ _ _ _ _ _ R2 R1 ltac:(lra)) as [F3 V3]. split; [exact F3|]. apply Rabs_le_inv in V3. rewrite UE in V3. lra.
Qed.
End Double.

(** * log2 before C++11 *)
Lemma float_log_2 (x : F F32) : near (half_ulp F32) x (ln 2) -> x = f_lit F32 11629080 (-24).
Proof.
  intros [F V]. pose proof log2_single as L. rewrite (Rabs_pos_eq (ln 2)) in V by lra. change (half_ulp F32) with (/ 16777216) in V. apply Rabs_le_inv in V.
  assert (B : 0.69314713 <= val x <= 0.69314723) by lra.
  pose proof (val_format x) as FM. unfold fmtR, generic_format in FM. set (m := Ztrunc _) in FM.
  assert (M : Raux.mag radix2 (val x) = 0%Z :> Z) by (apply mag_unique_pos; change (bpow radix2 0) with 1; change (bpow radix2 (0 - 1)) with (/ 2); lra).
  assert (K : val x = IZR m * / 16777216).
  { rewrite FM at 1. unfold F2R, Fnum, Fexp, cexp. rewrite M. reflexivity. }
  assert (m = 11629080%Z).
  { assert (11629079 < m)%Z by (apply lt_IZR; lra). assert (m < 11629081)%Z by (apply lt_IZR; lra). lia. }
  destruct (f_lit_exact (t := F32) 11629080 (-24)) as (A1 & A2 & A3); [cbv; discriminate|cbv; discriminate|reflexivity|].
  assert (val x = val (f_lit F32 11629080 (-24))) by (rewrite A2, K, H; reflexivity).
  apply B2R_inj; [| |exact H0].
  - destruct x as [s|s|s pl Hx|s mx ex Hx]; try discriminate F; [|reflexivity]. exfalso. unfold val in B. cbn [B2R] in B. lra.
  - vm_compute. reflexivity.
Qed.
Lemma rlog2_val {t} (w : world t) : near (half_ulp F32) (m_log (w_lib32 w) (f_ofZ F32 2)) (ln 2) ->
  isfin (widen (w_nan w) (rlog2 w)) = true /\ val (widen (w_nan w) (rlog2 w)) = 12102203 / 8388608.
Proof.
  intros N. unfold rlog2. rewrite (float_log_2 _ N).
  assert (E : fdiv (w_nan32 w) (f_ofZ F32 1) (f_lit F32 11629080 (-24)) = f_lit F32 12102203 (-23)).
  { apply bits_inj. generalize (w_nan32 w). clear. intros n. vm_compute. reflexivity. }
  rewrite E. destruct (f_lit_exact (t := F32) 12102203 (-23)) as (A1 & A2 & _); [cbv; discriminate|cbv; discriminate|reflexivity|].
  assert (V : val (f_lit F32 12102203 (-23)) = 12102203 / 8388608) by (rewrite A2; reflexivity).
  revert w N E. destruct t; intros w _ _; cbn [widen]; [split; assumption|].
  assert (R : rnd F64 (val (f_lit F32 12102203 (-23))) = 12102203 / 8388608).
  { rewrite A2, rnd_id; [reflexivity|]. apply dyadic_format; cbv; discriminate. }
  destruct (f_conv_fin F64 (nan_widen (w_nan w)) (f_lit F32 12102203 (-23)) A1) as (B1 & B2 & _).
  { rewrite R. rewrite Rabs_pos_eq by lra. apply Rlt_trans with 2; [lra|]. change 2 with (bpow radix2 1). apply bpow_lt. reflexivity. }
  split; [exact B1|]. rewrite B2. exact R.
Qed.
Section Old.
Context {t : fmt} (w : world t) (e : R) (HA : accurate e (w_lib w)) (He : 0 <= e <= 1e-5) (H11 : w_cxx11 w = false)
  (HL : near (half_ulp F32) (m_log (w_lib32 w) (f_ofZ F32 2)) (ln 2)).
Lemma old_log2 x : isfin x = true -> 0 < val x -> near (e + 1.1 * half_ulp t) (s_log2 w x) (ln (val x) * (12102203 / 8388608)).
Proof.
  intros F P. destruct (rlog2_val w HL) as [FR VR]. rewrite <- ut_half. pose proof (ut_range (t := t)) as U.
  pose proof (acc_log e _ HA x F P) as Q. rewrite <- (Rmult_1_r (ln (val x))) in Q.
  destruct (log_times w e HA He _ (widen (w_nan w) (rlog2 w)) x 1 (12102203 / 8388608) 0 P ltac:(auto) Q) as [Z _]; [pose proof (ln_all x F P); lra|exact FR|lra|rewrite VR, Rminus_eq_0, Rabs_R0; lra|lra|].
  unfold s_log2. rewrite H11. rewrite Rmult_1_r in Z. eapply near_weak; [exact Z|lra].
Qed.
Lemma old_log2_close x : isfin x = true -> 0 < val x -> near (e + 1.34e-8 + 1.1 * half_ulp t) (s_log2 w x) (log_base 2 (val x)).
Proof.
  intros F P. destruct (old_log2 x F P) as [A B]. split; [exact A|]. pose proof inv_ln2_fine as IL. pose proof rlog2_short as [S1 S2]. pose proof (ut_range (t := t)) as U. rewrite ut_half in U. set (h := half_ulp t) in *.
  set (r := 12102203 / 8388608) in *. set (l := ln (val x)) in *. set (y := val (s_log2 w x)) in *. pose proof (Rabs_pos l) as PL. unfold log_base. fold l. unfold Rdiv.
  replace (y - l * / ln 2) with ((y - l * r) + l * (r - / ln 2)) by ring. eapply Rle_trans; [apply Rabs_triang|]. rewrite !Rabs_mult in *.
  rewrite (Rabs_pos_eq (/ ln 2)) by lra. rewrite (Rabs_pos_eq r) in B by (unfold r; lra).
  assert (D : Rabs (r - / ln 2) <= 1.336e-8 * / ln 2) by (apply Rabs_le; lra).
  assert (Rabs l * Rabs (r - / ln 2) <= Rabs l * (1.336e-8 * / ln 2)) by (apply Rmult_le_compat_l; lra).
  assert (RB : r <= / ln 2) by lra.
  assert ((e + 1.1 * h) * (Rabs l * r) <= (e + 1.1 * h) * (Rabs l * / ln 2)) by (apply Rmult_le_compat_l; [lra|apply Rmult_le_compat_l; lra]).
  assert (0 <= Rabs l * / ln 2) by (apply Rmult_le_pos; lra). lra.
Qed.
Lemma old_log2_short x : e + 1.1 * half_ulp t <= 2e-11 -> isfin x = true -> 0 < val x -> val x <> 1 -> Rabs (val (s_log2 w x)) < (1 - 1.3e-8) * Rabs (log_base 2 (val x)).
Proof.
  intros E F P N. destruct (old_log2 x F P) as [A B]. pose proof inv_ln2_fine as IL. pose proof rlog2_short as [S1 S2]. pose proof (ut_range (t := t)) as U. rewrite ut_half in U. set (h := half_ulp t) in *.
  set (r := 12102203 / 8388608) in *. pose proof (ln_away_t x P N) as LA. rewrite (ut_half (t := t)) in LA. fold h in LA. set (l := ln (val x)) in *. set (y := val (s_log2 w x)) in *. unfold log_base. fold l. unfold Rdiv.
  assert (PL : 0 < Rabs l) by lra. rewrite !Rabs_mult in *. rewrite (Rabs_pos_eq (/ ln 2)) by lra. rewrite (Rabs_pos_eq r) in B by (unfold r; lra).
  assert (Y : Rabs y <= (1 + 2e-11) * (Rabs l * r)).
  { replace y with ((y - l * r) + l * r) by ring. eapply Rle_trans; [apply Rabs_triang|]. rewrite (Rabs_mult l r), (Rabs_pos_eq r) by (unfold r; lra).
    assert (0 <= Rabs l * r) by (apply Rmult_le_pos; [lra|unfold r; lra]). assert ((e + 1.1 * h) * (Rabs l * r) <= 2e-11 * (Rabs l * r)) by (apply Rmult_le_compat_r; lra). lra. }
  assert (Rabs l * r <= Rabs l * ((1 - 1.334e-8) * / ln 2)) by (apply Rmult_le_compat_l; lra).
  assert (0 < Rabs l * / ln 2) by (apply Rmult_lt_0_compat; lra). lra.
Qed.
End Old.
Lemma old_log2_8 (w : world F64) e : accurate e (w_lib w) -> 0 <= e <= 1e-5 -> w_cxx11 w = false -> near (half_ulp F32) (m_log (w_lib32 w) (f_ofZ F32 2)) (ln 2) ->
  e <= 1e-12 -> val (s_log2 w (f_ofZ F64 8)) < 3 - 3.8e-8.
Proof.
  intros HA He H11 HL E. destruct (ofZ_exact 8 ltac:(lia)) as [A V].
  pose proof (old_log2_short w e HA He H11 HL (f_ofZ F64 8)) as S. rewrite V in S. change (half_ulp F64) with (/ 9007199254740992) in S. specialize (S ltac:(lra) A ltac:(lra) ltac:(lra)).
  assert (L8 : log_base 2 8 = 3). { unfold log_base. replace 8 with (2 * (2 * 2)) by lra. rewrite !ln_mult by lra. pose proof ln2_fine. field. lra. }
  rewrite L8, (Rabs_pos_eq 3) in S by lra. pose proof (Rle_abs (val (s_log2 w (f_ofZ F64 8)))). lra.
Qed.
