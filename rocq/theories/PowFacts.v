(** exp on its whole domain; pow. *)
From Coq Require Import ZArith Reals List Lia Lra Bool.
From Flocq Require Import Core IEEE754.Binary IEEE754.Bits.
From Verif Require Import Base Backend Lanes Float LaneOps ScalarMath VecMath IntVec TransMath SpecLane SpecRound SpecInt
  FloatFacts FloatRound LaneFacts VecFacts VecMore VecMore2 RoundFacts RoundMore IntFacts LdexpFacts TransConst TransFacts
  ErrFacts ErrTac RealMath RealTanh RealLog ExpFacts ExpMore LastStep NearFacts TanhFacts LogFacts.
Import ListNotations.
Local Open Scope R_scope.
Lemma fmul_num (n : nans F32) (x y : F F32) : isfin x = true -> isfin y = true -> isnan (fmul n x y) = false.
Proof.
  intros Fx Fy. destruct (isnan (fmul n x y)) eqn:N; [|reflexivity].
  pose proof (Bmult_correct (prec F32) (emax F32) (Hprec F32) (Hmax F32) (nan_mul n) BinarySingleNaN.mode_NE x y) as H.
  cbv zeta in H. destruct (Rlt_bool _ _) in H.
  - destruct H as (_ & H & _). unfold isfin in *. rewrite Fx, Fy in H. apply fin_not_nan in H. unfold fmul in N. congruence.
  - unfold fmul in N. destruct (Bmult _ _ _ _ _ _ x y); discriminate.
Qed.
#[local] Opaque litf litd fadd fmul fsub fdiv.

Lemma exp_edge_sgn c I n : x86 I -> sgn (vec_exp_float c I n (litf 8872283905206835 14)) = false.
Proof. intros [-> | ->]; [destruct c as [[] ? [] ?]|]; vm_compute; reflexivity. Qed.
Lemma edge_adjacent (x : F F32) : isfin x = true -> 11629079 / 131072 < val x <= 1453635 / 16384 -> x = litf 8872283905206835 14.
Proof.
  intros Fx B. destruct litf_8872283905206835_14 as (F2 & _ & S2). pose proof val_litf_8872283905206835_14 as V2.
  assert (NT : ~ tiny x).
  { intros [_ T]. rewrite Rabs_pos_eq in T by lra. assert (bpow radix2 (-126) <= bpow radix2 (-1)) by (apply bpow_le; lia).
    change (bpow radix2 (-1)) with (/ 2) in H. lra. }
  pose proof (normal_fields x Fx NT) as EF. pose proof (val_binade x EF) as VB. pose proof (val_fields x EF) as VF. rewrite Rabs_pos_eq in * by lra.
  assert (E1 : (efield x - 127 < 7)%Z). { apply (lt_bpow radix2). change (bpow radix2 7) with 128. lra. }
  assert (E2 : (6 < efield x - 126)%Z). { apply (lt_bpow radix2). change (bpow radix2 6) with 64. lra. }
  assert (E3 : efield x = 133%Z) by lia. rewrite E3 in VF. change (bpow radix2 (133 - 150)) with (/ 131072) in VF.
  assert (M : (2 ^ 23 + ffield x = 11629080)%Z).
  { assert (A1 : 11629079 < IZR (2 ^ 23 + ffield x)) by lra. assert (A2 : IZR (2 ^ 23 + ffield x) <= 11629080) by lra.
    apply lt_IZR in A1. apply le_IZR in A2. lia. }
  rewrite M in VF. apply fin_eq; [exact Fx|exact F2|rewrite VF, V2; lra|].
  rewrite S2. destruct (sgn x) eqn:S; [|reflexivity]. pose proof (sgn_val_gen x Fx) as V. rewrite S in V. pose proof (Rabs_pos (val x)). lra.
Qed.
Section P.
Context (c : cfg) (I : isa) (n : nans F32) (HI : x86 I).
Lemma exp_cases x : isnan x = false ->
  vec_exp_float c I n x = f_max F32 \/ vec_exp_float c I n x = f_ofZ F32 0 \/ x = litf 8872283905206835 14 \/
  (isfin x = true /\ - 88 <= val x <= 11629079 / 131072 /\ vec_exp_float c I n x = vec_exp_tanh_float c I n x).
Proof.
  intros Nx. destruct litf_880_1 as (F1 & _ & _). pose proof val_litf_880_1 as V1. destruct litf_8872283905206835_14 as (F2 & _ & _). pose proof val_litf_8872283905206835_14 as V2.
  destruct (flt (litf 8872283905206835 14) x) eqn:A; [left; apply exp_above; assumption|].
  destruct (flt x (fneg (litf 880 1))) eqn:B; [right; left; apply exp_below; assumption|].
  assert (N1 : isnan (fneg (litf 880 1)) = false) by (rewrite isnan_fneg; apply fin_not_nan; exact F1). pose proof (fin_not_nan _ F2) as N2.
  assert (Fx : isfin x = true).
  { destruct (isfin x) eqn:Fx; [reflexivity|]. exfalso. rewrite flt_ord in A by assumption. rewrite flt_ord in B by assumption.
    assert (O : ord x = 2139095040%Z \/ ord x = (-2139095040)%Z).
    { clear A B N1 N2 F1 F2 V1 V2. destruct x as [s|s|s pl Hp|s m e Hm]; [discriminate Fx| |discriminate Nx|discriminate Fx]. destruct s; [right|left]; vm_compute; reflexivity. }
    destruct O as [O|O]; rewrite O in *; [revert A|revert B]; vm_compute; discriminate. }
  assert (A' : val x <= 1453635 / 16384).
  { destruct (Rle_dec (val x) (1453635 / 16384)) as [Q|Q]; [exact Q|]. change (srel LT (litf 8872283905206835 14) x = false) in A. rewrite (proj2 (srel_real LT _ _ F2 Fx)) in A; [discriminate A|]. unfold real_rel. rewrite V2. lra. }
  assert (B' : - 88 <= val x).
  { destruct (Rle_dec (- 88) (val x)) as [Q|Q]; [exact Q|]. change (srel LT x (fneg (litf 880 1)) = false) in B. rewrite (proj2 (srel_real LT x (fneg (litf 880 1)) Fx ltac:(rewrite isfin_fneg; exact F1))) in B; [discriminate B|].
    unfold real_rel. rewrite val_fneg, V1. lra. }
  destruct (Rle_dec (val x) (11629079 / 131072)) as [Q|Q].
  - right; right; right. split; [exact Fx|]. split; [lra|]. apply exp_select; [exact HI|exact Fx|lra].
  - right; right; left. apply edge_adjacent; [exact Fx|lra].
Qed.
Lemma fmax_ok : isfin (f_max F32) = true /\ sgn (f_max F32) = false. Proof. split; vm_compute; reflexivity. Qed.
Lemma exp_total x : isnan x = false -> x <> litf 8872283905206835 14 -> isfin (vec_exp_float c I n x) = true /\ sgn (vec_exp_float c I n x) = false.
Proof.
  intros Nx Hx. destruct (exp_cases x Nx) as [E|[E|[E|(Fx & B & E)]]]; [rewrite E; apply fmax_ok|rewrite E; destruct zero_ok as (A & _ & C); auto|contradiction|].
  rewrite E. destruct (Rle_dec (val x) (- 87.33)) as [Q|Q]; [apply exp_low; auto; lra|].
  destruct (exp_accurate_core c I n x HI Fx ltac:(lra)) as (A & C & _). auto.
Qed.
Lemma exp_sign x : isnan x = false -> sgn (vec_exp_float c I n x) = false.
Proof.
  intros Nx. destruct (exp_cases x Nx) as [E|[E|[E|(Fx & B & E)]]]; [rewrite E; apply fmax_ok|rewrite E; apply zero_ok|rewrite E; apply exp_edge_sgn; exact HI|].
  rewrite E. destruct (Rle_dec (val x) (- 87.33)) as [Q|Q]; [apply exp_low; auto; lra|].
  destruct (exp_accurate_core c I n x HI Fx ltac:(lra)) as (A & C & _). auto.
Qed.
(** Relative accuracy of exp at a point that is itself only known approximately. *)
Lemma exp_at x T d : isfin x = true -> - 87.33 <= val x <= 11629079 / 131072 -> Rabs (val x - T) <= d -> d <= 1e-4 ->
  isfin (vec_exp_float c I n x) = true /\ Rabs (val (vec_exp_float c I n x) - exp T) <= (4e-7 + 1.001 * d) * exp T.
Proof.
  intros Fx B D Dd. destruct (exp_accurate_core c I n x HI Fx B) as (A & _ & E).
  rewrite exp_select by (auto; lra). split; [exact A|]. set (y := val (vec_exp_tanh_float c I n x)) in *.
  assert (S : Rabs (exp (val x - T) - 1) <= 1.001 * d) by (apply exp_small_rel; assumption).
  assert (EX : exp (val x) = exp T * exp (val x - T)) by (rewrite <- exp_plus; f_equal; ring). rewrite EX in E.
  pose proof (exp_pos T) as PT. apply Rabs_le_inv in E. apply Rabs_le_inv in S. set (q := exp (val x - T)) in *.
  pose proof (Rabs_pos (val x - T)). apply Rabs_le. set (p := exp T) in *. 
  assert (Q1 : p * q <= p * (1 + 1.001 * d)) by (apply Rmult_le_compat_l; lra). assert (Q2 : p * (1 - 1.001 * d) <= p * q) by (apply Rmult_le_compat_l; lra).
  assert (Q3 : 3e-7 * (p * q) <= 4e-7 * p) by nra. lra.
Qed.
Lemma pow_nonzero x y : feq x (f_ofZ F32 0) = false -> vec_pow c I n x y = vec_exp_float c I n (fmul n y (vec_log_float c I n x)).
Proof.
  intros H. unfold vec_pow. cbv zeta. rewrite select_vmask by (apply x86_neon; exact HI).
  replace (vrel I EQ x gen_zero) with false; [reflexivity|]. destruct HI as [-> | ->]; symmetry; exact H.
Qed.
Lemma pow_sign x y : isfin y = true -> sgn (vec_pow c I n x y) = false.
Proof.
  intros Fy. destruct (feq x (f_ofZ F32 0)) eqn:Z; [rewrite pow_zero by assumption; apply zero_ok|].
  rewrite pow_nonzero by exact Z. apply exp_sign. apply fmul_num; [exact Fy|apply log_finite; exact HI].
Qed.
Lemma spow_signed x y : isfin y = true ->
  vec_signed_pow c I n x y = if sgn x then fneg (vec_pow c I n (fabs x) y) else vec_pow c I n (fabs x) y.
Proof. intros Fy. apply spow_split. apply pow_sign. exact Fy. Qed.
Lemma pow_accurate x y : isfin x = true -> ~ tiny x -> sgn x = false -> isfin y = true -> Rabs (val y * ln (val x)) <= 87 ->
  isfin (vec_pow c I n x y) = true /\
  Rabs (val (vec_pow c I n x y) - Rpower (val x) (val y)) <= 5e-7 * (1 + Rabs (val y * ln (val x))) * Rpower (val x) (val y).
Proof.
  intros Fx Tx Sx Fy B. pose proof (log_accurate c I n HI x Fx Tx Sx) as E. pose proof (log_finite c I n HI x) as FL.
  assert (NZ : feq x (f_ofZ F32 0) = false).
  { destruct (feq x (f_ofZ F32 0)) eqn:Q; [|reflexivity]. exfalso. apply Tx. destruct zero_ok as (F0 & V0 & _).
    apply (srel_real EQ) in Q; [|exact Fx|exact F0]. unfold real_rel in Q. rewrite V0 in Q. split; [exact Fx|]. rewrite Q, Rabs_R0. apply bpow_gt_0. }
  rewrite pow_nonzero by exact NZ. set (l := vec_log_float c I n x) in *. set (T := val y * ln (val x)) in *.
  assert (E1 : Rabs (val y * val l - T) <= 4e-7 * Rabs T).
  { unfold T. replace (val y * val l - val y * ln (val x)) with (val y * (val l - ln (val x))) by ring. rewrite !Rabs_mult. pose proof (Rabs_pos (val y)). nra. }
  assert (B1 : Rabs (val y * val l) <= Rabs T + 4e-7 * Rabs T).
  { replace (val y * val l) with (T + (val y * val l - T)) by ring. eapply Rle_trans; [apply Rabs_triang|]. lra. }
  destruct (fmul_fin n y l Fy FL) as (A & V & _); [apply small_fin; lra|].
  pose proof (rnd_eta (val y * val l)) as RE. rewrite <- V in RE. pose proof eta_small as ET. set (t := fmul n y l) in *.
  assert (D : Rabs (val t - T) <= 46e-8 * Rabs T + eta).
  { replace (val t - T) with ((val t - val y * val l) + (val y * val l - T)) by ring. eapply Rle_trans; [apply Rabs_triang|]. pose proof (Rabs_pos T). lra. }
  assert (BT : - 87.33 <= val t <= 11629079 / 131072).
  { apply Rabs_le_inv in D. apply Rabs_le_inv in B. assert (Rabs T <= 87) by (apply Rabs_le; lra). lra. }
  destruct (exp_at t T _ A BT D ltac:(lra)) as (C1 & C2). split; [exact C1|]. unfold Rpower. fold T. eapply Rle_trans; [exact C2|].
  apply Rmult_le_compat_r; [left; apply exp_pos|]. pose proof (Rabs_pos T). lra.
Qed.
End P.
