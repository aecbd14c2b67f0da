(** Identities between functions: proofs for single lanes. *)
From Coq Require Import ZArith Reals Ratan List Lia Lra Bool Psatz.
From Flocq Require Import Core IEEE754.Binary IEEE754.Bits.
From Verif Require Import Base Mem Backend Args Drivers Functors Lanes Float LaneOps FloatOps ScalarMath VecMath FloatFuns IntVec TransMath TransFuns
  Spec SpecLane SpecMath SpecOrder SpecTrip FloatFacts FloatRound LaneFacts VecFacts VecMore VecMore2 ErrFacts ExpErr SumErr SpecDrift NearFacts
  RealTrig RealArc RealUnit RealTrip TrigMore MathMore PowFacts TransFacts LogFacts NeutralFacts AccuracyClaims MathClaims TrigClaims OrderClaims TripFacts ExFloat ExMath.
Local Open Scope R_scope.

Lemma u32 : unit_roundoff F32 <= 5.97e-8.
Proof. unfold unit_roundoff. cbn -[bpow]. change (bpow radix2 (-24)) with (/ 16777216). lra. Qed.
Lemma big32 r : Rabs r <= bpow radix2 127 -> Rabs (rnd F32 r) < bpow radix2 (emax F32).
Proof. intros H. apply Rle_lt_trans with (bpow radix2 127); [apply rnd_le_bpow; [lia|exact H]|]. apply bpow_lt. reflexivity. Qed.
Lemma rnd_close (n : nans F32) r : bpow radix2 (-126) <= r -> Rabs (rnd F32 r - r) <= 6e-8 * r.
Proof.
  intros H. assert (P := bpow_gt_0 radix2 (-126)). eapply Rle_trans; [apply (rnd_normal n r)|].
  - rewrite Rabs_pos_eq by lra. exact H.
  - rewrite Rabs_pos_eq by lra. apply Rmult_le_compat_r; [lra|]. pose proof u32. lra.
Qed.
Lemma rnd_normal_pos r : bpow radix2 (-126) <= r -> bpow radix2 (-126) <= rnd F32 r.
Proof.
  intros H. rewrite <- (rnd_id (t := F32) (bpow radix2 (-126))); [apply rnd_le; exact H|]. apply generic_format_bpow. cbv. discriminate.
Qed.

Lemma p127 : 1e36 <= bpow radix2 127. Proof. apply Rle_trans with (bpow radix2 120); [change (bpow radix2 120) with 1329227995784915872903807060280344576; lra|apply bpow_le; lia]. Qed.
Lemma p128 : bpow radix2 128 < 3.41e38. Proof. change (bpow radix2 128) with 340282366920938463463374607431768211456. lra. Qed.
Lemma min_normal_low : 1.17e-38 <= bpow radix2 (-126). Proof. change (bpow radix2 (-126)) with (/ 85070591730234615865843651857942052864). lra. Qed.
Section T.
Context (c : cfg) (I : isa) (n : nans F32) (k : nans F64) (HI : math_isa c I).

Lemma id_tan x : isfin x = true -> Rabs (val x) <= 1.5 ->
  Rabs (val (vec_tan_float c I n x) * val (vec_cos_float c I n x) - val (vec_sin_float c I n x)) <= 1e-6 * Rabs (val x) + bpow radix2 (-143).
Proof.
  intros Fx B. destruct (C59_sin_lemma c I n x HI Fx ltac:(lra)) as [_ E1]. destruct (C59_cos_lemma c I n x HI Fx ltac:(lra)) as [_ E2]. destruct (C60_tan_lemma c I n x HI Fx ltac:(lra)) as [_ E3].
  rewrite tiny_148 in E1, E2. rewrite tiny_146 in E3. rewrite tiny_143. exact (trip_tan_cos _ _ _ _ eta eta_tiny B E1 E2 E3).
Qed.
Lemma id_complement x : isfin x = true -> Rabs (val x) <= 1 -> val x <> - 0.5 ->
  Rabs (val (vec_asin_float c I n x) + val (vec_acos_float c I n x) - PI / 2) <= 1.8e-6.
Proof.
  intros Fx B H. destruct (C61_asin_lemma c I n x HI Fx B) as [_ E1]. destruct (C61_acos_lemma c I n x HI Fx B H) as [_ E2].
  rewrite tiny_146 in E1. rewrite tiny_145 in E2. exact (trip_complement _ _ _ eta eta_tiny B E1 E2).
Qed.
Lemma id_complement_bad : exists x : F F32, isfin x = true /\ val x = - 0.5 /\
  val (vec_asin_float c I n x) + val (vec_acos_float c I n x) - PI / 2 > 1.8.
Proof.
  destruct (lit32 (-1) (-1)) as [A V]; [lia|lia|]. assert (V' : val (f_lit F32 (-1) (-1)) = - 0.5) by (rewrite V; change (bpow radix2 (-1)) with (/ 2); lra).
  exists (f_lit F32 (-1) (-1)). split; [exact A|]. split; [exact V'|]. pose proof (acos_m05_val c I n (isa_x86 _ _ HI)) as H4.
  destruct (C61_asin_lemma c I n _ HI A) as [_ E1]; [rewrite V', Rabs_left; lra|]. rewrite V', tiny_146 in E1. pose proof eta_tiny. pose proof pi_range.
  pose proof (lip_asin (- 0.5) 0 ltac:(rewrite Rabs_left; lra) ltac:(rewrite Rabs_R0; lra)) as L. rewrite asin_0, !Rminus_0_r, (Rabs_left (- 0.5)) in L by lra.
  apply Rabs_le_inv in E1. pose proof L as L'. apply Rabs_le_inv in L'. lra.
Qed.
Lemma id_log_product x y : normal_positive x -> normal_positive y -> bpow radix2 (-126) <= val x * val y <= bpow radix2 127 ->
  Rabs (val (vec_log_float c I n (fmul n x y)) - (val (vec_log_float c I n x) + val (vec_log_float c I n y))) <= 8e-7 * (Rabs (ln (val x)) + Rabs (ln (val y))) + 1e-7.
Proof.
  intros Nx Ny B. pose proof (bpow_gt_0 radix2 (-126)) as P0. assert (PP : 0 < val x * val y) by lra.
  destruct (fmul_fin n x y (proj1 Nx) (proj1 Ny)) as (Fp & Vp & _); [apply big32; rewrite Rabs_pos_eq; lra|].
  assert (Np : normal_positive (fmul n x y)) by (split; [exact Fp|rewrite Vp; apply rnd_normal_pos; lra]).
  destruct (C51_log_lemma c I n _ HI Nx) as [_ E1]. destruct (C51_log_lemma c I n _ HI Ny) as [_ E2]. destruct (C51_log_lemma c I n _ HI Np) as [_ E3].
  assert (X0 : 0 < val x) by (destruct Nx; lra). assert (Y0 : 0 < val y) by (destruct Ny; lra).
  apply (trip_log_prod (val x * val y) (val (fmul n x y)) _ (ln (val x)) (ln (val y))); [lra|apply ln_mult; assumption|rewrite Vp; apply (rnd_close n); lra|exact E3|exact E1|exact E2].
Qed.
Lemma id_log_quotient x y : normal_positive x -> normal_positive y -> bpow radix2 (-126) <= val x / val y <= bpow radix2 127 ->
  Rabs (val (vec_log_float c I n (fdiv n x y)) - (val (vec_log_float c I n x) - val (vec_log_float c I n y))) <= 8e-7 * (Rabs (ln (val x)) + Rabs (ln (val y))) + 1e-7.
Proof.
  intros Nx Ny B. pose proof (bpow_gt_0 radix2 (-126)) as P0. assert (PP : 0 < val x / val y) by lra.
  assert (X0 : 0 < val x) by (destruct Nx; lra). assert (Y0 : 0 < val y) by (destruct Ny; lra).
  destruct (fdiv_fin n x y (proj1 Nx)) as (Fp & Vp & _); [lra|apply big32; rewrite Rabs_pos_eq; lra|].
  assert (Np : normal_positive (fdiv n x y)) by (split; [exact Fp|rewrite Vp; apply rnd_normal_pos; lra]).
  destruct (C51_log_lemma c I n _ HI Nx) as [_ E1]. destruct (C51_log_lemma c I n _ HI Ny) as [_ E2]. destruct (C51_log_lemma c I n _ HI Np) as [_ E3].
  unfold Rminus at 2. rewrite <- (Rabs_Ropp (ln (val y))).
  apply (trip_log_prod (val x / val y) (val (fdiv n x y)) _ (ln (val x)) (- ln (val y))); [lra|unfold Rdiv; rewrite ln_mult, ln_Rinv by (try apply Rinv_0_lt_compat; assumption); reflexivity|rewrite Vp; apply (rnd_close n); lra|exact E3|exact E1|].
  rewrite Rabs_Ropp. replace (- val (vec_log_float c I n y) - - ln (val y)) with (- (val (vec_log_float c I n y) - ln (val y))) by (set (q := val (vec_log_float c I n y)); clearbody q; ring). rewrite Rabs_Ropp. exact E2.
Qed.
Lemma id_exp_sum x y : isfin x = true -> isfin y = true -> Rabs (val x) <= 87 -> Rabs (val y) <= 87 -> Rabs (val x + val y) <= 87 ->
  Rabs (val (vec_exp_float c I n (fadd n x y)) - val (vec_exp_float c I n x) * val (vec_exp_float c I n y)) <= (1e-6 + 6.1e-8 * Rabs (val x + val y)) * exp (val x + val y).
Proof.
  intros Fx Fy Bx By Bs. assert (BB : 87 <= bpow radix2 127) by (apply Rle_trans with (bpow radix2 7); [change (bpow radix2 7) with 128; lra|apply bpow_le; lia]).
  destruct (fadd_fin n x y Fx Fy) as (Fs & Vs & _); [apply big32; lra|]. pose proof (rnd_plus F32 (val x) (val y) (val_format x) (val_format y)) as R.
  assert (SB : Rabs (val (fadd n x y) - (val x + val y)) <= 6e-8 * Rabs (val x + val y)).
  { rewrite Vs. eapply Rle_trans; [exact R|]. apply Rmult_le_compat_r; [apply Rabs_pos|]. pose proof u32. lra. }
  pose proof (abs_step (val (fadd n x y)) (val x + val y)) as AS.
  destruct (C49_exp_lemma c I n x HI Fx) as [_ E1]; [apply Rabs_le_inv in Bx; lra|]. destruct (C49_exp_lemma c I n y HI Fy) as [_ E2]; [apply Rabs_le_inv in By; lra|].
  destruct (C49_exp_lemma c I n _ HI Fs) as [_ E3]. { assert (Q : Rabs (val (fadd n x y)) <= 87.1) by lra. apply Rabs_le_inv in Q. lra. }
  rewrite (Rabs_pos_eq (exp _)) in E1 by (left; apply exp_pos). rewrite (Rabs_pos_eq (exp _)) in E2 by (left; apply exp_pos). rewrite (Rabs_pos_eq (exp _)) in E3 by (left; apply exp_pos). exact (trip_exp_sum (val x) (val y) _ _ _ _ ltac:(lra) SB E3 E1 E2).
Qed.
Lemma id_exp_inverse x y : isfin x = true -> isfin y = true -> Rabs (val x) <= 87 -> val y = - val x ->
  Rabs (val (vec_exp_float c I n x) * val (vec_exp_float c I n y) - 1) <= 6.1e-7.
Proof.
  intros Fx Fy Bx E. destruct (C49_exp_lemma c I n x HI Fx) as [_ E1]; [apply Rabs_le_inv in Bx; lra|]. destruct (C49_exp_lemma c I n y HI Fy) as [_ E2]; [apply Rabs_le_inv in Bx; lra|].
  rewrite (Rabs_pos_eq (exp _)) in E1 by (left; apply exp_pos). rewrite (Rabs_pos_eq (exp _)) in E2 by (left; apply exp_pos). rewrite E in E2. exact (trip_exp_inverse _ _ _ E1 E2).
Qed.
Lemma id_log2 x : normal_positive x -> Rabs (val (vec_log2 c I n k x) * ln 2 - val (vec_log_float c I n x)) <= 1e-6 * Rabs (val (vec_log_float c I n x)).
Proof.
  intros Nx. destruct (C51_log_lemma c I n _ HI Nx) as [_ E1]. destruct (C57_log2_lemma c I n k _ HI Nx) as [_ E2]. pose proof ln2_value. apply (trip_log_base (ln 2) (val x) _ _ 5e-7); [lra|lra|exact E1|exact E2].
Qed.
Lemma id_log10 x : normal_positive x -> Rabs (val (vec_log10 c I n k x) * ln 10 - val (vec_log_float c I n x)) <= 1e-6 * Rabs (val (vec_log_float c I n x)).
Proof.
  intros Nx. destruct (C51_log_lemma c I n _ HI Nx) as [_ E1]. destruct (C57_log10_lemma c I n k _ HI Nx) as [_ E2]. pose proof ln10_value. apply (trip_log_base (ln 10) (val x) _ _ 5e-7); [lra|lra|exact E1|exact E2].
Qed.
Lemma id_pow_inverse x y z : normal_positive x -> isfin y = true -> isfin z = true -> val z = - val y -> Rabs (val y * ln (val x)) <= 87 ->
  Rabs (val (vec_pow c I n x y) * val (vec_pow c I n x z) - 1) <= 1.1e-6 * (1 + Rabs (val y * ln (val x))).
Proof.
  intros Nx Fy Fz E B. destruct (C58_pow_lemma c I n x y HI Nx Fy B) as [_ E1]. assert (BE : Rabs (val z * ln (val x)) = Rabs (val y * ln (val x))) by (rewrite E, <- Rabs_Ropp; f_equal; ring).
  destruct (C58_pow_lemma c I n x z HI Nx Fz ltac:(lra)) as [_ E2]. rewrite BE in E2. unfold Rpower in *. rewrite (Rabs_pos_eq (exp _)) in E1 by (left; apply exp_pos). rewrite (Rabs_pos_eq (exp _)) in E2 by (left; apply exp_pos).
  eapply trip_pow_inverse; [apply exp_pos|apply exp_pos| |split; [apply Rabs_pos|lra]|exact E1|exact E2].
  rewrite <- exp_plus, E. replace (val y * ln (val x) + - val y * ln (val x)) with 0 by ring. apply exp_0.
Qed.
Lemma id_pow_one x y : isfin x = true -> 1.7e-38 <= val x <= 6e37 -> isfin y = true -> val y = 1 -> close (5e-7 * (1 + Rabs (ln (val x)))) (vec_pow c I n x y) (val x).
Proof.
  intros Fx B Fy V. pose proof (ln_87 _ B) as L. assert (Nx : normal_positive x) by (split; [exact Fx|pose proof min_normal_val; lra]).
  pose proof (C58_pow_lemma c I n x y HI Nx Fy) as E1. rewrite V, Rmult_1_l, Rpower_1 in E1 by lra. exact (E1 L).
Qed.
Lemma id_pow_two x y : isfin x = true -> 1e-18 <= val x <= 1e18 -> isfin y = true -> val y = 2 ->
  Rabs (val (vec_pow c I n x y) - val (fmul n x x)) <= (6e-7 + 1.1e-6 * Rabs (ln (val x))) * val (fmul n x x).
Proof.
  intros Fx B Fy V. pose proof (ln_18 _ B) as L. assert (Nx : normal_positive x) by (split; [exact Fx|pose proof min_normal_val; lra]).
  assert (XX : 1e-36 <= val x * val x <= 1e36) by nra.
  assert (LO : bpow radix2 (-126) <= val x * val x) by (pose proof min_normal_val; lra).
  assert (UP : val x * val x <= bpow radix2 127) by (apply Rle_trans with (1e36); [lra|apply p127]).
  destruct (fmul_fin n x x Fx Fx) as (Fp & Vp & _); [apply big32; rewrite Rabs_pos_eq; lra|]. pose proof (rnd_close n _ LO) as RC. rewrite <- Vp in RC.
  assert (AB : Rabs (val y * ln (val x)) = 2 * Rabs (ln (val x))) by (rewrite V, Rabs_mult, (Rabs_pos_eq 2); lra).
  destruct (C58_pow_lemma c I n x y HI Nx Fy ltac:(lra)) as [_ E1]. rewrite AB in E1.
  assert (PE : Rpower (val x) (val y) = val x * val x) by (rewrite V; replace 2 with (1 + 1) by ring; rewrite Rpower_plus, Rpower_1 by lra; reflexivity).
  rewrite PE, (Rabs_pos_eq (val x * val x)) in E1 by lra. pose proof (Rabs_pos (ln (val x))).
  set (q := val (fmul n x x)) in *. clearbody q. set (p := val (vec_pow c I n x y)) in *. clearbody p.
  assert (Q0 : 0 <= q) by (apply Rabs_le_inv in RC; nra).
  eapply Rle_trans; [apply (trip_rel p q (val x * val x) (5e-7 * (1 + 2 * Rabs (ln (val x)))) 6e-8); [lra|lra|lra|lra|exact E1|exact RC]|].
  apply Rmult_le_compat_r; [exact Q0|]. lra.
Qed.
Lemma id_pow_half x y : normal_positive x -> isfin y = true -> val y = 0.5 ->
  Rabs (val (vec_pow c I n x y) - val (fsqrt n x)) <= (6e-7 + 3e-7 * Rabs (ln (val x))) * val (fsqrt n x).
Proof.
  intros Nx Fy V. pose proof (bpow_gt_0 radix2 (-126)) as P0. assert (X0 : 0 < val x) by (destruct Nx; lra). 
  assert (L : Rabs (ln (val x)) <= 89).
  { apply ln_89. destruct Nx as [Fx Lx]. pose proof min_normal_low. split; [lra|]. left. eapply Rlt_trans; [|apply p128]. apply Rle_lt_trans with (Rabs (val x)); [apply Rle_abs|]. exact (abs_B2R_lt_emax _ _ x). }
  destruct (fsqrt_fin n x (proj1 Nx)) as (Fp & Vp & _); [left; exact X0|].
  assert (LO : bpow radix2 (-126) <= sqrt (val x)).
  { apply Rle_trans with (bpow radix2 (-63)); [apply bpow_le; lia|]. rewrite <- (sqrt_bpow radix2 (-63)). apply sqrt_le_1_alt. exact (proj2 Nx). }
  pose proof (rnd_close n _ LO) as RC. rewrite <- Vp in RC.
  assert (AB : Rabs (val y * ln (val x)) = 0.5 * Rabs (ln (val x))) by (rewrite V, Rabs_mult, (Rabs_pos_eq 0.5); lra).
  destruct (C58_pow_lemma c I n x y HI Nx Fy ltac:(lra)) as [_ E1]. rewrite AB in E1.
  assert (PE : Rpower (val x) (val y) = sqrt (val x)) by (rewrite V; replace 0.5 with (/ 2) by lra; apply Rpower_sqrt; exact X0).
  rewrite PE, (Rabs_pos_eq (sqrt (val x))) in E1 by lra. pose proof (Rabs_pos (ln (val x))).
  set (q := val (fsqrt n x)) in *. clearbody q. set (p := val (vec_pow c I n x y)) in *. clearbody p.
  assert (Q0 : 0 <= q) by (apply Rabs_le_inv in RC; nra).
  eapply Rle_trans; [apply (trip_rel p q (sqrt (val x)) (5e-7 * (1 + 0.5 * Rabs (ln (val x)))) 6e-8); [lra|lra|lra|lra|exact E1|exact RC]|].
  apply Rmult_le_compat_r; [exact Q0|]. lra.
Qed.
Lemma id_pow_zero_exponent x y : (isnan x = true \/ isnan x = false /\ ~ (isfin x = true /\ val x = 0)) -> isfin y = true -> val y = 0 -> bits (vec_pow c I n x y) = bits (f_ofZ F32 1).
Proof.
  intros Hx Fy V. assert (NE : feq x (f_ofZ F32 0) = false).
  { destruct x as [s|s|s pl K|s mm e K]; [|destruct s; reflexivity|destruct s; reflexivity|destruct s; reflexivity]. exfalso. destruct Hx as [E|[_ E]]; [discriminate E|apply E; split; reflexivity]. }
  rewrite (pow_nonzero c I n (isa_x86 _ _ HI) x y NE). pose proof (C50_log_finite_lemma c I n x HI) as FL. apply (C48_exp_zero_lemma c I n _ HI).
  - destruct y as [s|s|s pl K|s mm e K]; try discriminate Fy; [|exfalso; unfold val, B2R in V; apply (F2R_neq_0 radix2) in V; [exact V|destruct s; discriminate]]. rewrite (fmul_zero_l (t := F32) n _ s FL). reflexivity.
  - destruct y as [s|s|s pl K|s mm e K]; try discriminate Fy; [|exfalso; unfold val, B2R in V; apply (F2R_neq_0 radix2) in V; [exact V|destruct s; discriminate]]. rewrite (fmul_zero_l (t := F32) n _ s FL). reflexivity.
Qed.
Lemma id_pow_of_one y : isfin y = true -> bits (vec_pow c I n (f_ofZ F32 1) y) = bits (f_ofZ F32 1).
Proof.
  intros Fy. rewrite (pow_nonzero c I n (isa_x86 _ _ HI) _ y) by reflexivity. rewrite (bits_inj _ _ (log_one c I n (isa_x86 _ _ HI))). change (f_ofZ F32 0) with (B754_zero (prec F32) (emax F32) false). rewrite (fmul_zero (t := F32) n y false Fy).
  apply (C48_exp_zero_lemma c I n _ HI); reflexivity.
Qed.
Lemma id_log_one_exp : bits (vec_exp_float c I n (vec_log_float c I n (f_ofZ F32 1))) = bits (f_ofZ F32 1).
Proof. rewrite (bits_inj _ _ (log_one c I n (isa_x86 _ _ HI))). apply (C48_exp_zero_lemma c I n _ HI); reflexivity. Qed.
End T.
