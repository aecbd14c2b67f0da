(** Inverse functions and identities: proofs for single lanes. *)
From Coq Require Import ZArith Reals Ratan List Lia Lra Bool Psatz.
From Flocq Require Import Core IEEE754.Binary IEEE754.Bits.
From Verif Require Import Base Mem Backend Args Drivers Functors Lanes Float LaneOps FloatOps ScalarMath VecMath FloatFuns IntVec TransMath TransFuns
  Spec SpecLane SpecMath SpecOrder SpecTrip FloatFacts FloatRound LaneFacts VecFacts VecMore VecMore2 ErrFacts ExpErr SumErr SpecDrift NearFacts DriverFacts LoopFacts MemFacts
  RealTrig RealArc RealTrip TrigMore MathMore AccuracyClaims MathClaims TrigClaims OrderClaims ExpOrder ExFloat ExMath.
Local Open Scope R_scope.

Lemma tiny_148 : bpow radix2 (-148) = 2 * eta. Proof. unfold eta. change 2 with (bpow radix2 1). rewrite <- bpow_plus. reflexivity. Qed.
Lemma tiny_146 : bpow radix2 (-146) = 8 * eta. Proof. unfold eta. change 8 with (bpow radix2 3). rewrite <- bpow_plus. reflexivity. Qed.
Lemma tiny_145 : bpow radix2 (-145) = 16 * eta. Proof. unfold eta. change 16 with (bpow radix2 4). rewrite <- bpow_plus. reflexivity. Qed.
Lemma tiny_144 : bpow radix2 (-144) = 32 * eta. Proof. unfold eta. change 32 with (bpow radix2 5). rewrite <- bpow_plus. reflexivity. Qed.
Lemma tiny_143 : bpow radix2 (-143) = 64 * eta. Proof. unfold eta. change 64 with (bpow radix2 6). rewrite <- bpow_plus. reflexivity. Qed.
Lemma eta_tiny : 0 <= eta <= 1e-20.
Proof.
  split; [apply bpow_ge_0|]. apply Rle_trans with (bpow radix2 (-80)); [apply bpow_le; lia|]. change (bpow radix2 (-80)) with (/ 1208925819614629174706176). lra.
Qed.
Lemma eta_tiny' : 0 <= eta <= 1e-9. Proof. pose proof eta_tiny. lra. Qed.
Lemma min_normal_val : bpow radix2 (-126) <= 1.18e-38.
Proof. change (bpow radix2 (-126)) with (/ 85070591730234615865843651857942052864). lra. Qed.

Lemma abs_step a b : Rabs a <= Rabs b + Rabs (a - b).
Proof. replace a with (b + (a - b)) at 1 by ring. apply Rabs_triang. Qed.
Lemma abs_tri a b d : Rabs (a - d) <= Rabs (a - b) + Rabs (b - d).
Proof. replace (a - d) with ((a - b) + (b - d)) by ring. apply Rabs_triang. Qed.

Section T.
Context (c : cfg) (I : isa) (n : nans F32) (k : nans F64) (HI : math_isa c I).

Lemma lane_exp_log x : isfin x = true -> 1.19e-38 <= val x <= 3.4e38 ->
  close (4e-7 * (1 + Rabs (ln (val x)))) (vec_exp_float c I n (vec_log_float c I n x)) (val x).
Proof.
  intros Fx B. pose proof (ln_span _ B) as L. assert (NP : normal_positive x) by (split; [exact Fx|]; pose proof min_normal_val; lra).
  destruct (C51_log_lemma c I n x HI NP) as [F1 E1]. assert (L9 : Rabs (ln (val x)) <= 89) by (apply Rabs_le; lra).
  set (l := vec_log_float c I n x) in *.
  destruct (C49_exp_lemma c I n l HI F1) as [F2 E2].
  { destruct (Rle_or_lt 0 (ln (val x))) as [S|S].
    - rewrite (Rabs_pos_eq (ln (val x))) in E1 by exact S. apply Rabs_le_inv in E1. lra.
    - rewrite (Rabs_left (ln (val x))) in E1 by exact S. apply Rabs_le_inv in E1. lra. }
  split; [exact F2|]. rewrite (Rabs_pos_eq (exp _)) in E2 by (left; apply exp_pos). rewrite (Rabs_pos_eq (val x)) by lra.
  exact (trip_exp_log (val x) (val l) _ ltac:(lra) L9 E1 E2).
Qed.
Lemma lane_log_exp x : isfin x = true -> Rabs (val x) <= 87 ->
  off_by (4e-7 * (1 + Rabs (val x))) (vec_log_float c I n (vec_exp_float c I n x)) (val x).
Proof.
  intros Fx B. assert (B' := B). apply Rabs_le_inv in B'. destruct (C49_exp_lemma c I n x HI Fx) as [F1 E1]; [lra|].
  rewrite (Rabs_pos_eq (exp _)) in E1 by (left; apply exp_pos). pose proof (exp_87 _ B) as X.
  assert (NP : normal_positive (vec_exp_float c I n x)).
  { split; [exact F1|]. pose proof min_normal_val. apply Rabs_le_inv in E1. lra. }
  destruct (C51_log_lemma c I n _ HI NP) as [F2 E2]. split; [exact F2|]. exact (trip_log_exp (val x) _ _ ltac:(lra) E1 E2).
Qed.
Lemma lane_sin_asin x : isfin x = true -> Rabs (val x) <= 1 ->
  off_by (1.4e-6 * Rabs (val x) + bpow radix2 (-145)) (vec_sin_float c I n (vec_asin_float c I n x)) (val x).
Proof.
  intros Fx B. destruct (C61_asin_lemma c I n x HI Fx B) as [F1 E1]. rewrite tiny_146 in E1. rewrite tiny_145.
  assert (A : Rabs (val (vec_asin_float c I n x)) <= 8192).
  { pose proof (asin_up2 _ B) as U. pose proof eta_tiny. eapply Rle_trans; [apply (abs_step _ (asin (val x)))|]. lra. }
  destruct (C59_sin_lemma c I n _ HI F1 A) as [F2 E2]. rewrite tiny_148 in E2. split; [exact F2|].
  exact (trip_sin_asin _ _ _ eta eta_tiny' B E1 E2).
Qed.
Lemma lane_asin_sin x : isfin x = true -> Rabs (val x) <= 1.5 ->
  off_by (5e-6 * Rabs (val x) + bpow radix2 (-143)) (vec_asin_float c I n (vec_sin_float c I n x)) (val x).
Proof.
  intros Fx B. destruct (C59_sin_lemma c I n x HI Fx ltac:(lra)) as [F1 E1]. rewrite tiny_148 in E1. rewrite tiny_143.
  destruct (C75_sin_range_lemma c I n HI x Fx ltac:(lra)) as [_ R].
  destruct (C61_asin_lemma c I n _ HI F1 ltac:(apply Rabs_le; lra)) as [F2 E2]. rewrite tiny_146 in E2. split; [exact F2|].
  pose proof (trip_asin_sin _ _ _ eta eta_tiny' B E1 E2). pose proof eta_tiny. lra.
Qed.
Lemma lane_cos_acos x : isfin x = true -> Rabs (val x) <= 1 ->
  off_by 1e-6 (vec_cos_float c I n (vec_acos_float c I n x)) (val x).
Proof.
  intros Fx B. destruct (Req_dec (val x) (- 0.5)) as [H|H].
  - destruct (lit32 (-1) (-1)) as [A0 V0]; [lia|lia|].
    assert (E : x = f_lit F32 (-1) (-1)).
    { apply B2R_inj.
      - destruct x; try discriminate; try reflexivity. exfalso. cbn in H. lra.
      - vm_compute. reflexivity.
      - change (val x = val (f_lit F32 (-1) (-1))). rewrite H, V0. change (bpow radix2 (-1)) with (/ 2). lra. }
    subst x. rewrite (bits_inj _ _ (acos_m05 c I n (isa_x86 _ _ HI))).
    destruct (lit32 8784530 (-21)) as [A V]; [lia|lia|]. change (bpow radix2 (-21)) with (/ 2097152) in V.
    destruct (C59_cos_lemma c I n (f_lit F32 8784530 (-21)) HI A) as [F2 E2]; [rewrite V, Rabs_pos_eq; lra|]. split; [exact F2|].
    rewrite H. rewrite V in E2. pose proof cos_4third as C4. rewrite tiny_148 in E2. pose proof eta_tiny.
    rewrite (Rabs_pos_eq (8784530 * / 2097152)) in E2 by lra. set (q := cos (8784530 * / 2097152)) in *.
    assert (Rabs q <= 0.6). { assert (C5 := C4). apply Rabs_le_inv in C5. apply Rabs_le. lra. }
    match goal with |- Rabs (?v - _) <= _ => replace (v - - 0.5) with ((v - q) + (q + 0.5)) by lra end. eapply Rle_trans; [apply Rabs_triang|]. lra.
  - destruct (C61_acos_lemma c I n x HI Fx B H) as [F1 E1]. rewrite tiny_145 in E1.
    assert (A : Rabs (val (vec_acos_float c I n x)) <= 8192).
    { pose proof (acos_bound (val x)) as U. pose proof pi_range. pose proof eta_tiny. eapply Rle_trans; [apply (abs_step _ (acos (val x)))|]. rewrite (Rabs_pos_eq (acos (val x))) by lra. lra. }
    destruct (C59_cos_lemma c I n _ HI F1 A) as [F2 E2]. rewrite tiny_148 in E2. split; [exact F2|].
    exact (trip_cos_acos _ _ _ eta eta_tiny' B E1 E2).
Qed.
Lemma cos_not_half x : isfin x = true -> 0.1 <= val x <= 3 -> val (vec_cos_float c I n x) <> - 0.5.
Proof.
  intros Fx B. pose proof pi_range as P.
  destruct (lit32 8784529 (-22)) as [A1 V1]; [lia|lia|]. destruct (lit32 8784530 (-22)) as [A2 V2]; [lia|lia|].
  change (bpow radix2 (-22)) with (/ 4194304) in V1, V2.
  assert (HT : forall r, 0 <= r <= 3.1 -> half_turn (2 * 0) r) by (intros r Hr; split; [rewrite Rabs_pos_eq; lra|cbn; lra]).
  assert (C1 : bits (vec_cos_float c I n (f_lit F32 8784529 (-22))) = bits (f_lit F32 (-16777211) (-25))) by (destruct (isa_x86 _ _ HI) as [-> | ->]; [destruct c as [[] ? [] ?]|]; vm_compute; reflexivity).
  assert (C2 : bits (vec_cos_float c I n (f_lit F32 8784530 (-22))) = bits (f_lit F32 (-8388609) (-24))) by (destruct (isa_x86 _ _ HI) as [-> | ->]; [destruct c as [[] ? [] ?]|]; vm_compute; reflexivity).
  apply bits_inj in C1. apply bits_inj in C2.
  destruct (lit32 (-16777211) (-25)) as [A3 V3]; [lia|lia|]. destruct (lit32 (-8388609) (-24)) as [A4 V4]; [lia|lia|].
  change (bpow radix2 (-25)) with (/ 33554432) in V3. change (bpow radix2 (-24)) with (/ 16777216) in V4.
  destruct (Rle_or_lt (val x) (8784529 * / 4194304)) as [S|S].
  - destruct (C75_cos_falls_lemma c I n 0 HI x (f_lit F32 8784529 (-22)) Fx A1) as (_ & _ & O); [apply HT; lra|apply HT; rewrite V1; lra|rewrite V1; exact S|].
    rewrite C1, V3 in O. lra.
  - assert (S2 : 8784530 * / 4194304 <= val x).
    { destruct (grid_above x 1 ltac:(lia) Fx) as [j J]; [change (bpow radix2 1) with 2; lra|]. change (bpow radix2 (1 - 23)) with (/ 4194304) in J. rewrite J in *.
      apply Rmult_le_compat_r; [lra|]. apply Rmult_lt_reg_r in S; [|lra]. apply lt_IZR in S. apply IZR_le. lia. }
    destruct (C75_cos_falls_lemma c I n 0 HI (f_lit F32 8784530 (-22)) x A2 Fx) as (_ & _ & O); [apply HT; rewrite V2; lra|apply HT; lra|rewrite V2; exact S2|].
    rewrite C2, V4 in O. lra.
Qed.
Lemma lane_acos_cos x : isfin x = true -> 0.1 <= val x <= 3 ->
  off_by 4e-6 (vec_acos_float c I n (vec_cos_float c I n x)) (val x).
Proof.
  intros Fx B. destruct (C59_cos_lemma c I n x HI Fx ltac:(rewrite Rabs_pos_eq; lra)) as [F1 E1]. rewrite tiny_148 in E1.
  destruct (trip_acos_cos (val x) (val (vec_cos_float c I n x)) (val (vec_acos_float c I n (vec_cos_float c I n x))) eta eta_tiny' B E1) as [R T].
  destruct (C61_acos_lemma c I n _ HI F1 ltac:(apply Rabs_le; lra) (cos_not_half x Fx B)) as [F2 E2]. rewrite tiny_145 in E2. split; [exact F2|exact (T E2)].
Qed.
Lemma lane_tan_atan x : isfin x = true -> Rabs (val x) <= 100 ->
  off_by (1e-6 * Rabs (val x) * (1 + Rabs (val x)) + bpow radix2 (-144)) (vec_tan_float c I n (vec_atan_float c I n x)) (val x).
Proof.
  intros Fx B. destruct (C61_atan_lemma c I n x HI Fx) as [F1 E1]. rewrite tiny_146 in E1. rewrite tiny_144.
  assert (A : Rabs (val (vec_atan_float c I n x)) <= 8192).
  { destruct (atan_bounds (val x)) as [_ U]. pose proof eta_tiny. eapply Rle_trans; [apply (abs_step _ (atan (val x)))|]. lra. }
  destruct (C60_tan_lemma c I n _ HI F1 A) as [F2 E2]. rewrite tiny_146 in E2. split; [exact F2|].
  exact (trip_tan_atan _ _ _ eta eta_tiny B E1 E2).
Qed.
Lemma lane_atan_tan x : isfin x = true -> Rabs (val x) <= 1.5 ->
  off_by (1.4e-6 * Rabs (val x) + bpow radix2 (-144)) (vec_atan_float c I n (vec_tan_float c I n x)) (val x).
Proof.
  intros Fx B. destruct (C60_tan_lemma c I n x HI Fx ltac:(lra)) as [F1 E1]. rewrite tiny_146 in E1. rewrite tiny_144.
  destruct (C61_atan_lemma c I n _ HI F1) as [F2 E2]. rewrite tiny_146 in E2. split; [exact F2|].
  exact (trip_atan_tan _ _ _ eta eta_tiny B E1 E2).
Qed.

(** Units *)
Lemma lane_semitones x : isfin x = true -> Rabs (val x) <= 1200 ->
  off_by (9e-6 + 1.4e-6 * Rabs (val x)) (ratio2midi c I n k (midi2ratio c I n x)) (val x).
Proof.
  intros Fx B. destruct (C54_midi2ratio_lemma c I n x HI Fx B) as [F1 E1]. unfold ratio_of_semitones, Rpower in E1.
  rewrite (Rabs_pos_eq (exp _)) in E1 by (left; apply exp_pos). pose proof ln2_value as L. pose proof (Rabs_pos (val x)) as X0.
  replace (val x / 12 * ln 2) with (ln 2 / 12 * val x) in E1 by field.
  set (y := midi2ratio c I n x) in *. clearbody y. set (r := 5.1e-7 + 4e-8 * Rabs (val x)) in *.
  assert (PM := exp_pm (ln 2 / 12 * val x)). assert (AB : Rabs (ln 2 / 12 * val x) <= 70) by (rewrite Rabs_mult, Rabs_pos_eq by lra; nra). specialize (PM AB).
  assert (NP : normal_positive y) by (split; [exact F1|]; pose proof min_normal_val; apply Rabs_le_inv in E1; unfold r in *; nra).
  destruct (C54_ratio2midi_lemma c I n k y HI NP) as [F2 E2]. split; [exact F2|]. unfold semitones_of_ratio, log_base in E2.
  assert (G : Rabs (12 * (ln (val y) / ln 2) - val x) <= 0 + 1.001 * r / (ln 2 / 12)).
  { apply (trip_there 1 (ln 2 / 12) (val x) (val y)); [lra|lra|unfold r; lra|rewrite !Rmult_1_l; exact E1|].
    replace (val y / 1) with (val y) by field. replace (12 * (ln (val y) / ln 2) - ln (val y) / (ln 2 / 12)) with 0 by (field; lra). rewrite Rabs_R0. lra. }
  assert (G2 : 1.001 * r / (ln 2 / 12) <= 17.4 * r).
  { apply Rmult_le_reg_r with (ln 2 / 12); [lra|]. unfold Rdiv at 1. rewrite Rmult_assoc, Rinv_l, Rmult_1_r by lra. assert (0 <= r) by (unfold r; lra). nra. }
  set (G0 := 12 * (ln (val y) / ln 2)) in *.
  assert (Rabs G0 <= Rabs (val x) + 17.4 * r). { eapply Rle_trans; [apply (abs_step _ (val x))|]. lra. }
  eapply Rle_trans; [apply (abs_tri _ G0)|]. unfold r in *. lra.
Qed.
Lemma lane_ratio x : isfin x = true -> 1e-30 <= val x <= 1e30 ->
  close (5.2e-7 + 7.6e-8 * Rabs (semitones_of_ratio (val x))) (midi2ratio c I n (ratio2midi c I n k x)) (val x).
Proof.
  intros Fx B. assert (NP : normal_positive x) by (split; [exact Fx|]; pose proof min_normal_val; lra).
  destruct (C54_ratio2midi_lemma c I n k x HI NP) as [F1 E1]. pose proof ln2_value as L. pose proof (ln_pm _ B) as LB.
  assert (SB : Rabs (semitones_of_ratio (val x)) * (ln 2 / 12) = Rabs (ln (val x))).
  { abstract (unfold semitones_of_ratio, log_base; rewrite <- (Rabs_pos_eq (ln 2 / 12)) by lra; rewrite <- Rabs_mult; f_equal; field; lra). }
  assert (SE : semitones_of_ratio (val x) = ln (val x / 1) / (ln 2 / 12)) by (abstract (unfold semitones_of_ratio, log_base; replace (val x / 1) with (val x) by field; field; lra)).
  rewrite SE in E1 at 1. unfold close. rewrite (Rabs_pos_eq (val x)) by lra. clear SE.
  set (S := Rabs (semitones_of_ratio (val x))) in *. assert (S0 : 0 <= S) by apply Rabs_pos. assert (S1 : S <= 1196) by (abstract nra).
  set (y := ratio2midi c I n k x) in *. clearbody y. 
  assert (YB : Rabs (val y) <= S + 6e-7 * S).
  { eapply Rle_trans; [apply (abs_step _ (semitones_of_ratio (val x)))|]. fold S. apply Rplus_le_compat_l. replace (semitones_of_ratio (val x)) with (ln (val x / 1) / (ln 2 / 12)); [exact E1|].
    abstract (unfold semitones_of_ratio, log_base; replace (val x / 1) with (val x) by field; field; lra). }
  destruct (C54_midi2ratio_lemma c I n y HI F1 ltac:(lra)) as [F2 E2]. split; [exact F2|]. unfold ratio_of_semitones, Rpower in E2.
  rewrite (Rabs_pos_eq (exp _)) in E2 by (left; apply exp_pos). replace (val y / 12 * ln 2) with (ln 2 / 12 * val y) in E2 by (abstract field).
  pose proof (Rabs_pos (val y)).
  eapply Rle_trans; [apply (trip_back 1 (ln 2 / 12) (val x) (val y) _ (6e-7 * S) (5.1e-7 + 4e-8 * Rabs (val y))); [lra|lra|lra|nra|lra|exact E1|rewrite !Rmult_1_l; exact E2]|].
  apply Rmult_le_compat_r; [lra|]. abstract nra.
Qed.
Lemma lane_octave x : isfin x = true -> Rabs (val x - 4.75) <= 95 ->
  off_by (1.4e-6 + 1.2e-6 * Rabs (val x - 4.75)) (freq2oct c I n k (oct2freq c I n x)) (val x).
Proof.
  intros Fx B. destruct (C54_oct2freq_lemma c I n x HI Fx ltac:(lra)) as [F1 E1]. unfold hertz_of_octave, Rpower in E1.
  pose proof (exp_pos ((val x - 4.75) * ln 2)) as PE. rewrite (Rabs_pos_eq (440 * exp _)) in E1 by lra. pose proof ln2_value as L.
  rewrite (Rmult_comm (val x - 4.75) (ln 2)) in *. set (d := val x - 4.75) in *. pose proof (Rabs_pos d) as X0.
  set (y := oct2freq c I n x) in *. clearbody y. set (r := 6e-7 + 4e-7 * Rabs d) in *.
  assert (PM := exp_pm2 (ln 2 * d)). assert (AB : Rabs (ln 2 * d) <= 66) by (rewrite Rabs_mult, Rabs_pos_eq by lra; abstract nra). specialize (PM AB).
  assert (YB : 1e-32 <= val y <= 1e33) by (apply Rabs_le_inv in E1; assert (0 <= r <= 1e-3) by (unfold r; lra); abstract nra).
  destruct (C54_freq2oct_lemma c I n k y HI F1 ltac:(rewrite Rabs_pos_eq; lra)) as [F2 E2]. split; [exact F2|]. unfold octave_of_hertz, log_base in E2. rewrite (Rabs_pos_eq (val y)) in E2 by lra.
  set (G0 := ln (val y / 440) / ln 2) in *. replace (4.75 + G0 - 4.75) with G0 in E2 by lra.
  assert (G : Rabs (G0 - d) <= 0 + 1.001 * r / ln 2).
  { apply (trip_there 440 (ln 2) d (val y)); [lra|lra|unfold r; lra|exact E1|]. fold G0. rewrite Rminus_diag_eq, Rabs_R0 by reflexivity. lra. }
  assert (G2 : 1.001 * r / ln 2 <= 1.4442 * r).
  { apply Rmult_le_reg_r with (ln 2); [lra|]. unfold Rdiv at 1. rewrite Rmult_assoc, Rinv_l, Rmult_1_r by lra. assert (0 <= r) by (unfold r; lra). abstract nra. }
  pose proof (abs_step G0 d) as GS.
  eapply Rle_trans; [apply (abs_tri _ (4.75 + G0))|]. replace (4.75 + G0 - val x) with (G0 - d) by (unfold d; lra). unfold r in *. lra.
Qed.
Lemma abs_440 x : 1e-25 <= Rabs (val (x : F F32)) <= 1e30 -> Rabs (ln (Rabs (val x) / 440)) <= 69.08.
Proof. intros H. apply ln_pm. lra. Qed.
Lemma lane_freq_octave x : isfin x = true -> 1e-25 <= Rabs (val x) <= 1e30 ->
  close (9.5e-7 + 8.2e-7 * Rabs (octave_of_hertz (Rabs (val x)) - 4.75)) (oct2freq c I n (freq2oct c I n k x)) (Rabs (val x)).
Proof.
  intros Fx B. destruct (C54_freq2oct_lemma c I n k x HI Fx ltac:(lra)) as [F1 E1]. pose proof ln2_value as L. pose proof (abs_440 x B) as LB. unfold close. rewrite Rabs_Rabsolu.
  unfold octave_of_hertz, log_base in *. set (Y := Rabs (val x)) in *. set (G0 := ln (Y / 440) / ln 2) in *. replace (4.75 + G0 - 4.75) with G0 in * by lra.
  assert (SB : Rabs G0 * ln 2 = Rabs (ln (Y / 440))).
  { abstract (rewrite <- (Rabs_pos_eq (ln 2)) at 1 by lra; rewrite <- Rabs_mult; f_equal; unfold G0; field; lra). }
  set (y := freq2oct c I n k x) in *. clearbody y. pose proof (Rabs_pos G0) as S0. set (S := Rabs G0) in *. assert (S1 : S <= 99.7) by (abstract nra).
  replace (val y - (4.75 + G0)) with (val y - 4.75 - G0) in E1 by lra. pose proof (abs_step (val y - 4.75) G0) as YB. fold S in YB.
  destruct (C54_oct2freq_lemma c I n y HI F1 ltac:(lra)) as [F2 E2]. split; [exact F2|]. unfold hertz_of_octave, Rpower in E2.
  rewrite (Rabs_pos_eq (440 * exp _)) in E2 by (pose proof (exp_pos ((val y - 4.75) * ln 2)); lra). rewrite (Rmult_comm (val y - 4.75) (ln 2)) in E2.
  pose proof (Rabs_pos (val y - 4.75)).
  eapply Rle_trans; [apply (trip_back 440 (ln 2) Y (val y - 4.75) _ (5e-7 + 6e-7 * S) (6e-7 + 4e-7 * Rabs (val y - 4.75))); [lra|lra|lra|nra|lra|exact E1|exact E2]|].
  apply Rmult_le_compat_r; [lra|]. abstract nra.
Qed.
Lemma lane_amp x : isfin x = true -> 1e-30 <= Rabs (val x) <= 1e30 ->
  close (5.2e-7 + 1.7e-7 * Rabs (db_of_amplitude (Rabs (val x)))) (db2amp c I n (amp2db c I n k x)) (Rabs (val x)).
Proof.
  intros Fx B. destruct (C54_amp2db_lemma c I n k x HI Fx ltac:(pose proof min_normal_val; lra)) as [F1 E1]. pose proof ln10_value as L. pose proof (ln_pm _ B) as LB. unfold close. rewrite Rabs_Rabsolu.
  unfold db_of_amplitude, log_base in *. set (Y := Rabs (val x)) in *.
  assert (GE : 20 * (ln Y / ln 10) = ln (Y / 1) / (ln 10 / 20)) by (abstract (replace (Y / 1) with Y by field; field; lra)). rewrite GE in *. clear GE. set (G0 := ln (Y / 1) / (ln 10 / 20)) in *.
  assert (SB : Rabs G0 * (ln 10 / 20) = Rabs (ln Y)).
  { abstract (rewrite <- (Rabs_pos_eq (ln 10 / 20)) at 1 by lra; rewrite <- Rabs_mult; f_equal; unfold G0; replace (Y / 1) with Y by field; field; lra). }
  set (y := amp2db c I n k x) in *. clearbody y. pose proof (Rabs_pos G0) as S0. set (S := Rabs G0) in *. assert (S1 : S <= 600.1) by (abstract nra).
  pose proof (abs_step (val y) G0) as YB. fold S in YB.
  destruct (C54_db2amp_lemma c I n y HI F1 ltac:(lra)) as [F2 E2]. split; [exact F2|]. unfold amplitude_of_db, Rpower in E2.
  rewrite (Rabs_pos_eq (exp _)) in E2 by (left; apply exp_pos). replace (val y / 20 * ln 10) with (ln 10 / 20 * val y) in E2 by (abstract field).
  pose proof (Rabs_pos (val y)).
  eapply Rle_trans; [apply (trip_back 1 (ln 10 / 20) Y (val y) _ (6e-7 * S) (5.1e-7 + 1e-7 * Rabs (val y))); [lra|lra|lra|nra|lra|exact E1|rewrite !Rmult_1_l; exact E2]|].
  apply Rmult_le_compat_r; [lra|]. abstract nra.
Qed.
Lemma lane_freq_key x : isfin x = true -> 1e-25 <= Rabs (val x) <= 1e30 ->
  close (1.01e-6 + 9.1e-8 * Rabs (key_of_hertz (Rabs (val x)) - 69)) (midi2freq c I n (freq2midi c I n k x)) (Rabs (val x)).
Proof.
  intros Fx B. destruct (C54_freq2midi_lemma c I n k x HI Fx ltac:(lra)) as [F1 E1]. pose proof ln2_value as L. pose proof (abs_440 x B) as LB. unfold close. rewrite Rabs_Rabsolu.
  unfold key_of_hertz, log_base in *. set (Y := Rabs (val x)) in *.
  assert (GE : 12 * (ln (Y / 440) / ln 2) = ln (Y / 440) / (ln 2 / 12)) by (abstract (field; lra)). rewrite GE in *. clear GE. set (G0 := ln (Y / 440) / (ln 2 / 12)) in *. replace (69 + G0 - 69) with G0 in * by lra.
  assert (SB : Rabs G0 * (ln 2 / 12) = Rabs (ln (Y / 440))).
  { abstract (rewrite <- (Rabs_pos_eq (ln 2 / 12)) at 1 by lra; rewrite <- Rabs_mult; f_equal; unfold G0; field; lra). }
  set (y := freq2midi c I n k x) in *. clearbody y. pose proof (Rabs_pos G0) as S0. set (S := Rabs G0) in *. assert (S1 : S <= 1196) by (abstract nra).
  replace (val y - (69 + G0)) with (val y - 69 - G0) in E1 by lra. pose proof (abs_step (val y - 69) G0) as YB. fold S in YB.
  destruct (C54_midi2freq_lemma c I n y HI F1 ltac:(lra)) as [F2 E2]. split; [exact F2|]. unfold hertz_of_key, Rpower in E2.
  rewrite (Rabs_pos_eq (440 * exp _)) in E2 by (pose proof (exp_pos ((val y - 69) / 12 * ln 2)); lra). replace ((val y - 69) / 12 * ln 2) with (ln 2 / 12 * (val y - 69)) in E2 by (abstract field).
  pose proof (Rabs_pos (val y - 69)).
  eapply Rle_trans; [apply (trip_back 440 (ln 2 / 12) Y (val y - 69) _ (7e-6 + 7e-7 * S) (6e-7 + 5e-8 * Rabs (val y - 69))); [lra|lra|lra|nra|lra|exact E1|exact E2]|].
  apply Rmult_le_compat_r; [lra|]. abstract nra.
Qed.
End T.

(** Buffers: one call after another. *)
Lemma trip_chain (n : nans F32) B f g (Q : F F32 -> Prop) (P : F F32 -> F F32 -> Prop) m out mid inp len :
  (forall x, Q x -> P x (g (f x))) -> unary_fit B m mid inp len -> unary_fit B m out mid len -> each Q m inp len ->
  there_and_back P (fun m => simd_of32 B n f m mid inp len) (fun m => simd_of32 B n g m out mid len) m out mid inp len.
Proof.
  intros H (H1 & H2 & H3 & H4) (G1 & G2 & G3 & G4) HQ.
  destruct (unary_simd_leaves (farith n) B f m mid inp len H1 H2 H3 H4) as (m1 & E1 & W1 & W2).
  assert (ACC : forall a, (exists x, m a = Some x) -> exists x, m1 a = Some x).
  { intros a [x X]. destruct (Z_lt_dec a mid); [exists x; rewrite W2 by lia; exact X|]. destruct (Z_lt_dec a (mid + len)); [|exists x; rewrite W2 by lia; exact X].
    destruct (W1 (a - mid)%Z ltac:(lia)) as [Y Z]. replace (mid + (a - mid))%Z with a in Y by ring. rewrite Y. destruct (m (inp + (a - mid))%Z); cbn in *; [eexists; reflexivity|contradiction]. }
  assert (G3' : accessible m1 out len) by (intros i Hi; apply ACC, G3; exact Hi).
  assert (G4' : simd_fit B m1 out len (APtr mid)). { destruct G4 as (A & O & L). split; [|split; assumption]. intros i Hi. apply ACC. exact (A i Hi). }
  destruct (unary_simd_leaves (farith n) B g m1 out mid len G1 G2 G3' G4') as (m2 & E2 & V1 & V2).
  exists m1, m2. split; [exact E1|]. split; [exact E2|]. split.
  - intros i x Hi Hx. exists (g (f x)). split; [|apply H; exact (HQ i x Hi Hx)].
    rewrite (proj1 (V1 i Hi)), (proj1 (W1 i Hi)), Hx. reflexivity.
  - intros a Ha Hb. rewrite V2 by lia. apply W2. lia.
Qed.
