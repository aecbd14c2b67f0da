(** Real analysis for inverse functions and identities (C85). *)
From Coq Require Import ZArith Reals Ratan Lra Lia Bool Psatz.
From Flocq Require Import Core.
From Coquelicot Require Import Coquelicot.
From Interval Require Import Tactic.
From Verif Require Import RealTrig RealArc RealUnit RealAgree.
Local Open Scope R_scope.

Lemma exp_close d e : Rabs d <= e -> e <= 1e-3 -> Rabs (exp d - 1) <= 1.002 * e.
Proof.
  intros H He. apply Rabs_le_inv in H. pose proof (exp_ineq1_le d) as L. pose proof (exp_ineq1_le (- d)) as U. rewrite exp_Ropp in U.
  pose proof (exp_pos d) as P. apply Rabs_le. split; [lra|].
  assert (K : exp d * (1 - d) <= 1). { apply Rle_trans with (exp d * / exp d); [apply Rmult_le_compat_l; lra|rewrite Rinv_r; lra]. }
  assert (exp d <= 1.0011).
  { apply Rmult_le_reg_r with (1 - d); [lra|]. eapply Rle_trans; [exact K|]. nra. }
  assert (exp d * d <= 1.0011 * e). { destruct (Rle_dec 0 d); nra. }
  lra.
Qed.

(** exp after log *)
Lemma trip_exp_log X l y : 0 < X -> Rabs (ln X) <= 89 -> Rabs (l - ln X) <= 4e-7 * Rabs (ln X) ->
  Rabs (y - exp l) <= 3e-7 * exp l -> Rabs (y - X) <= 4e-7 * (1 + Rabs (ln X)) * X.
Proof.
  intros P B H1 H2. pose proof (Rabs_pos (ln X)) as P0. set (L := Rabs (ln X)) in *.
  assert (E : exp l = X * exp (l - ln X)). { rewrite <- (exp_ln X) at 1 by exact P. rewrite <- exp_plus. f_equal. ring. }
  pose proof (exp_close (l - ln X) (4e-7 * L) H1 ltac:(lra)) as H3. pose proof (exp_pos (l - ln X)) as PD. set (d := exp (l - ln X)) in *. rewrite E in H2.
  assert (D : 0 <= d <= 1.0001) by (apply Rabs_le_inv in H3; lra).
  replace (y - X) with ((y - X * d) + X * (d - 1)) by ring. eapply Rle_trans; [apply Rabs_triang|].
  rewrite Rabs_mult, (Rabs_pos_eq X) by lra.
  apply Rle_trans with (3e-7 * (X * d) + X * (1.002 * (4e-7 * L))).
  - apply Rplus_le_compat; [exact H2|]. apply Rmult_le_compat_l; [lra|exact H3].
  - replace (3e-7 * (X * d) + X * (1.002 * (4e-7 * L))) with ((3e-7 * d + 1.002 * (4e-7 * L)) * X) by ring. apply Rmult_le_compat_r; lra.
Qed.

(** log after exp *)
Lemma trip_log_exp x y l : Rabs x <= 88 -> Rabs (y - exp x) <= 3e-7 * exp x -> Rabs (l - ln y) <= 4e-7 * Rabs (ln y) ->
  Rabs (l - x) <= 4e-7 * (1 + Rabs x).
Proof.
  intros B H1 H2. pose proof (ln_near y (exp x) 3e-7 (exp_pos x) H1 ltac:(lra)) as H3. rewrite ln_exp in H3.
  assert (Rabs (ln y) <= Rabs x + 3.1e-7). { replace (ln y) with (x + (ln y - x)) by ring. eapply Rle_trans; [apply Rabs_triang|]. lra. }
  replace (l - x) with ((l - ln y) + (ln y - x)) by ring. eapply Rle_trans; [apply Rabs_triang|]. lra.
Qed.

(** sin after asin *)
Lemma asin_up2 s : Rabs s <= 1 -> Rabs (asin s) <= 1.5708 * Rabs s.
Proof.
  intros H. assert (P := pi_range).
  assert (Q : forall u, 0 <= u <= 1 -> asin u <= 1.5708 * u).
  { clear s H. intros u Hu. destruct (Rle_dec u 0.5) as [S|S].
    - pose proof (lip_asin u 0 ltac:(rewrite Rabs_pos_eq; lra) ltac:(rewrite Rabs_R0; lra)) as K. rewrite asin_0, !Rminus_0_r, (Rabs_pos_eq u) in K by lra. apply Rabs_le_inv in K. lra.
    - rewrite asin_half by lra. set (v := sqrt ((1 - u) / 2)).
      assert (V : 0 <= v) by apply sqrt_pos. assert (V2 : v * v = (1 - u) / 2) by (apply sqrt_sqrt; lra).
      assert (v <= 1) by nra. pose proof (asin_low v ltac:(rewrite Rabs_pos_eq; lra)) as L. rewrite !Rabs_pos_eq in L by (try apply asin_nonneg; lra). nra. }
  destruct (Rle_dec 0 s) as [S|S].
  - rewrite Rabs_pos_eq in H by exact S. rewrite (Rabs_pos_eq s), Rabs_pos_eq by (try apply asin_nonneg; lra). apply Q. lra.
  - rewrite <- (Rabs_Ropp (asin s)), <- asin_opp, <- (Rabs_Ropp s). rewrite <- Rabs_Ropp, Rabs_pos_eq in H by lra. rewrite (Rabs_pos_eq (- s)), Rabs_pos_eq by (try apply asin_nonneg; lra). apply Q. lra.
Qed.
Lemma trip_sin_asin x a y k : 0 <= k <= 1e-9 -> Rabs x <= 1 -> Rabs (a - asin x) <= 7e-7 * Rabs (asin x) + 8 * k ->
  Rabs (y - sin a) <= 27e-8 * Rabs (sin a) + 1.01e-14 * Rabs a + 2 * k -> Rabs (y - x) <= 1.4e-6 * Rabs x + 16 * k.
Proof.
  intros K B H1 H2. pose proof (asin_up2 x B) as U. assert (B' := B). apply Rabs_le_inv in B'.
  pose proof (lip_sin a (asin x)) as L. rewrite sin_asin in L by exact B'. pose proof (Rabs_pos x). pose proof (Rabs_pos (asin x)).
  assert (A1 : Rabs (sin a) <= Rabs x + Rabs (a - asin x)). { replace (sin a) with (x + (sin a - x)) by ring. eapply Rle_trans; [apply Rabs_triang|]. lra. }
  assert (A2 : Rabs a <= Rabs (asin x) + Rabs (a - asin x)). { replace a with (asin x + (a - asin x)) at 1 by ring. apply Rabs_triang. }
  replace (y - x) with ((y - sin a) + (sin a - x)) by ring. eapply Rle_trans; [apply Rabs_triang|]. lra.
Qed.

(** asin after sin *)
Lemma sin_15 x : Rabs x <= 1.5 -> Rabs (sin x) <= 0.9975.
Proof. intros H. apply Rabs_le_inv in H. apply Rabs_le. split; interval with (i_bisect x). Qed.
Lemma lip_asin2 x y : Rabs x <= 0.9976 -> Rabs y <= 0.9976 -> Rabs (asin x - asin y) <= 14.5 * Rabs (x - y).
Proof.
  intros Hx Hy. apply Rabs_le_inv in Hx. apply Rabs_le_inv in Hy.
  assert (MM : -0.9976 <= Rmin y x /\ Rmax y x <= 0.9976) by (unfold Rmin, Rmax; destruct (Rle_dec y x); lra).
  destruct (MVT_gen asin y x (fun t => / sqrt (1 - t * t))) as (t & Ht & E).
  - intros t Ht. apply asin_slope. lra.
  - intros t Ht. apply derivable_continuous_pt, derivable_pt_asin. lra.
  - rewrite E, Rabs_mult. apply Rmult_le_compat_r; [apply Rabs_pos|]. assert (B : -0.9976 <= t <= 0.9976) by lra.
    assert (B2 : 0.00479 <= 1 - t * t) by nra. assert (S : 0.0692 <= sqrt (1 - t * t)). { rewrite <- (sqrt_square 0.0692) by lra. apply sqrt_le_1_alt. lra. }
    rewrite Rabs_pos_eq by (left; apply Rinv_0_lt_compat; lra). apply Rle_trans with (/ 0.0692); [apply Rinv_le_contravar; lra|lra].
Qed.
Lemma sin_of_asin x : Rabs x <= 1.5 -> asin (sin x) = x.
Proof. intros H. apply Rabs_le_inv in H. pose proof pi_range. apply asin_sin. lra. Qed.
Lemma trip_asin_sin x s y k : 0 <= k <= 1e-9 -> Rabs x <= 1.5 -> Rabs (s - sin x) <= 27e-8 * Rabs (sin x) + 1.01e-14 * Rabs x + 2 * k ->
  Rabs (y - asin s) <= 7e-7 * Rabs (asin s) + 8 * k -> Rabs (y - x) <= 5e-6 * Rabs x + 40 * k.
Proof.
  intros K B H1 H2. pose proof (sin_15 x B) as U. pose proof (sin_abs_le x) as U2. pose proof (Rabs_pos x).
  assert (A : Rabs s <= 0.9976). { replace s with (sin x + (s - sin x)) by ring. eapply Rle_trans; [apply Rabs_triang|]. lra. }
  pose proof (lip_asin2 s (sin x) A ltac:(lra)) as L. rewrite sin_of_asin in L by exact B.
  assert (A1 : Rabs (asin s) <= Rabs x + Rabs (asin s - x)). { replace (asin s) with (x + (asin s - x)) at 1 by ring. apply Rabs_triang. }
  replace (y - x) with ((y - asin s) + (asin s - x)) by ring. eapply Rle_trans; [apply Rabs_triang|]. lra.
Qed.

(** cos after acos and acos after cos *)
Lemma trip_cos_acos x a y k : 0 <= k <= 1e-9 -> Rabs x <= 1 -> Rabs (a - acos x) <= 21e-8 * acos x + 16 * k ->
  Rabs (y - cos a) <= 27e-8 * Rabs (cos a) + 1.01e-14 * Rabs a + 2 * k -> Rabs (y - x) <= 1e-6.
Proof.
  intros K B H1 H2. apply Rabs_le_inv in B. pose proof (acos_bound x) as [C1 C2]. pose proof pi_range as P.
  pose proof (lip_cos a (acos x)) as L. rewrite cos_acos in L by exact B.
  assert (A1 : Rabs (cos a) <= 1) by (pose proof (COS_bound a); apply Rabs_le; lra).
  assert (A2 : Rabs a <= acos x + Rabs (a - acos x)). { replace a with (acos x + (a - acos x)) at 1 by ring. eapply Rle_trans; [apply Rabs_triang|]. rewrite (Rabs_pos_eq (acos x)) by exact C1. lra. }
  replace (y - x) with ((y - cos a) + (cos a - x)) by ring. eapply Rle_trans; [apply Rabs_triang|]. lra.
Qed.
Lemma lip_acos x y : -0.99 <= x <= 0.99501 -> -0.99 <= y <= 0.99501 -> Rabs (acos x - acos y) <= 10.1 * Rabs (x - y).
Proof.
  intros Hx Hy. rewrite !acos_asin by lra. replace (PI / 2 - asin x - (PI / 2 - asin y)) with (asin y - asin x) by ring. rewrite (Rabs_minus_sym x y).
  assert (MM : -0.99 <= Rmin x y /\ Rmax x y <= 0.99501) by (unfold Rmin, Rmax; destruct (Rle_dec x y); lra).
  destruct (MVT_gen asin x y (fun t => / sqrt (1 - t * t))) as (t & Ht & E).
  - intros t Ht. apply asin_slope. lra.
  - intros t Ht. apply derivable_continuous_pt, derivable_pt_asin. lra.
  - rewrite E, Rabs_mult. apply Rmult_le_compat_r; [apply Rabs_pos|]. assert (B : -0.99501 <= t <= 0.99501) by lra.
    assert (B2 : 0.00995 <= 1 - t * t) by nra. assert (S : 0.0997 <= sqrt (1 - t * t)). { rewrite <- (sqrt_square 0.0997) by lra. apply sqrt_le_1_alt. lra. }
    rewrite Rabs_pos_eq by (left; apply Rinv_0_lt_compat; lra). apply Rle_trans with (/ 0.0997); [apply Rinv_le_contravar; lra|lra].
Qed.
Lemma cos_mid x : 0.1 <= x <= 3 -> -0.989993 <= cos x <= 0.995005.
Proof. intros H. split; interval with (i_bisect x). Qed.
Lemma cos_4third : Rabs (cos (8784530 * / 2097152) + 0.5) <= 5e-7.
Proof. interval. Qed.
Lemma trip_acos_cos x s y k : 0 <= k <= 1e-9 -> 0.1 <= x <= 3 -> Rabs (s - cos x) <= 27e-8 * Rabs (cos x) + 1.01e-14 * Rabs x + 2 * k ->
  -1 < s < 1 /\ (Rabs (y - acos s) <= 21e-8 * acos s + 16 * k -> Rabs (y - x) <= 4e-6).
Proof.
  intros K B H1. pose proof (cos_mid x B) as U. rewrite (Rabs_pos_eq x) in H1 by lra.
  assert (A : -0.99 <= s <= 0.99501). { assert (Rabs (cos x) <= 1) by (apply Rabs_le; lra). apply Rabs_le_inv in H1. lra. }
  split; [lra|]. intros H2. pose proof (lip_acos s (cos x) A ltac:(lra)) as L. pose proof pi_range. rewrite acos_cos in L by lra.
  assert (Rabs (cos x) <= 1) by (apply Rabs_le; lra).
  assert (A1 : acos s <= x + Rabs (acos s - x)). { pose proof (Rle_abs (acos s - x)). lra. }
  replace (y - x) with ((y - acos s) + (acos s - x)) by ring. eapply Rle_trans; [apply Rabs_triang|]. lra.
Qed.

(** tan after atan and atan after tan *)
Lemma tan_small d : Rabs d <= 1e-3 -> Rabs (tan d) <= 1.001 * Rabs d.
Proof.
  intros H. assert (C : 0.9999 <= cos d <= 1). { split; [|apply COS_bound]. apply Rabs_le_inv in H. interval. }
  unfold tan, Rdiv. rewrite Rabs_mult. pose proof (sin_abs_le d) as S. pose proof (Rabs_pos (sin d)).
  rewrite (Rabs_pos_eq (/ cos d)) by (left; apply Rinv_0_lt_compat; lra).
  assert (/ cos d <= / 0.9999) by (apply Rinv_le_contravar; lra). assert (0 <= / cos d) by (left; apply Rinv_0_lt_compat; lra). nra.
Qed.
Lemma atan_bounds x : Rabs (atan x) <= Rabs x /\ Rabs (atan x) <= 1.5708.
Proof.
  split.
  - pose proof (lip_atan x 0) as L. rewrite atan_0, !Rminus_0_r in L. exact L.
  - pose proof (atan_bound x). pose proof pi_range. apply Rabs_le. lra.
Qed.
Lemma tan_shift x d : Rabs x <= 100 -> Rabs d <= 1e-6 -> Rabs (tan (atan x + d) - x) <= 1.0012 * Rabs d * (1 + x * x).
Proof.
  intros Hx Hd. pose proof (tan_small d ltac:(lra)) as T. set (q := tan d) in *.
  assert (Q : Rabs (x * q) <= 1.01e-4). { rewrite Rabs_mult. pose proof (Rabs_pos x). pose proof (Rabs_pos q). nra. }
  assert (Q' := Q). apply Rabs_le_inv in Q'.
  assert (CD : cos d <> 0). { assert (0.9 <= cos d); [|lra]. apply Rabs_le_inv in Hd. interval. }
  assert (CX : cos (atan x) <> 0). { assert (B := atan_bound x). assert (0 < cos (atan x)); [apply cos_gt_0; lra|lra]. }
  assert (TA : tan (atan x) = x). { apply tan_atan. }
  assert (NZ : 1 - tan (atan x) * tan d <> 0) by (rewrite TA; fold q; lra).
  assert (CS : cos (atan x + d) <> 0).
  { rewrite cos_plus. replace (cos (atan x) * cos d - sin (atan x) * sin d) with (cos (atan x) * cos d * (1 - tan (atan x) * tan d)) by (unfold tan; field; split; assumption).
    repeat apply Rmult_integral_contrapositive_currified; assumption. }
  rewrite tan_plus by assumption. rewrite TA. fold q.
  replace ((x + q) / (1 - x * q) - x) with (q * (1 + x * x) * / (1 - x * q)) by (field; lra).
  rewrite !Rabs_mult. assert (0 <= x * x) by nra. rewrite (Rabs_pos_eq (1 + x * x)) by lra. rewrite (Rabs_pos_eq (/ (1 - x * q))) by (left; apply Rinv_0_lt_compat; lra).
  assert (I : / (1 - x * q) <= 1.00011). { apply Rle_trans with (/ (1 - 1.01e-4)); [apply Rinv_le_contravar; lra|lra]. }
  assert (0 <= / (1 - x * q)) by (left; apply Rinv_0_lt_compat; lra). pose proof (Rabs_pos q). pose proof (Rabs_pos d).
  apply Rle_trans with (1.001 * Rabs d * (1 + x * x) * 1.00011).
  - apply Rmult_le_compat; [apply Rmult_le_pos; lra|lra| |exact I]. apply Rmult_le_compat_r; lra.
  - assert (0 <= Rabs d * (1 + x * x)) by (apply Rmult_le_pos; lra). nra.
Qed.
Lemma trip_tan_atan x a y k : 0 <= k <= 1e-20 -> Rabs x <= 100 -> Rabs (a - atan x) <= 5e-7 * Rabs (atan x) + 8 * k ->
  Rabs (y - tan a) <= 43e-8 * Rabs (tan a) + 2.2e-14 * Rabs a * (1 + tan a * tan a) + 8 * k ->
  Rabs (y - x) <= 1e-6 * Rabs x * (1 + Rabs x) + 32 * k.
Proof.
  intros K B H1 H2. destruct (atan_bounds x) as [A1 A2]. pose proof (Rabs_pos x) as X0. pose proof (Rabs_pos (atan x)) as X1.
  set (d := a - atan x) in *. assert (D : Rabs d <= 1e-6) by lra.
  pose proof (tan_shift x d B D) as S. replace (atan x + d) with a in S by (unfold d; ring).
  assert (XX : x * x = Rabs x * Rabs x) by (rewrite <- Rabs_mult; symmetry; apply Rabs_pos_eq; nra).
  set (u := Rabs x) in *. rewrite XX in S. set (A := Rabs (atan x)) in *. pose proof (Rabs_pos d) as D0. set (e := Rabs d) in *.
  assert (AX : A * (1 + u * u) <= u + 1.5708 * (u * u)) by nra.
  assert (KX : k * (u * u) <= 1e-10 * u) by nra.
  assert (E1 : Rabs (tan a - x) <= 5.01e-7 * (u + 1.5708 * (u * u)) + 9 * k + 1e-9 * u).
  { eapply Rle_trans; [exact S|]. apply Rle_trans with (1.0012 * (5e-7 * A + 8 * k) * (1 + u * u)); [apply Rmult_le_compat_r; nra|].
    replace (1.0012 * (5e-7 * A + 8 * k) * (1 + u * u)) with (1.0012 * 5e-7 * (A * (1 + u * u)) + 1.0012 * 8 * (k + k * (u * u))) by ring. nra. }
  assert (E2 : Rabs (tan a) <= u + Rabs (tan a - x)). { unfold u. replace (tan a) with (x + (tan a - x)) at 1 by ring. apply Rabs_triang. }
  assert (E3 : Rabs a <= A + e). { unfold A, e, d. replace a with (atan x + (a - atan x)) at 1 by ring. apply Rabs_triang. }
  set (w := Rabs (tan a - x)) in *. assert (W0 : 0 <= w) by apply Rabs_pos. assert (W1 : w <= 1.01 * u + 9 * k) by nra.
  assert (TT : tan a * tan a <= 2.02 * 2.02 * (u * u) + 1e-9 * u + 1e-18).
  { rewrite <- (Rabs_pos_eq (tan a * tan a)), Rabs_mult by nra. pose proof (Rabs_pos (tan a)).
    assert (Rabs (tan a) <= 2.01 * u + 9 * k) by lra. apply Rle_trans with ((2.01 * u + 9 * k) * (2.01 * u + 9 * k)); [apply Rmult_le_compat; lra|nra]. }
  assert (E4 : Rabs a * (1 + tan a * tan a) <= 5 * (u + 1.5708 * (u * u)) + 9 * k).
  { pose proof (Rabs_pos a). assert (Rabs a <= 1.001 * A + 8 * k) by lra. assert (0 <= tan a * tan a) by nra.
    apply Rle_trans with ((1.001 * A + 8 * k) * (1.0001 + 4.09 * (u * u))).
    - apply Rmult_le_compat; lra.
    - assert (A * (u * u) <= 1.5708 * (u * u)) by (apply Rmult_le_compat_r; [apply Rmult_le_pos; lra|lra]). assert (0 <= u * u) by (apply Rmult_le_pos; lra).
      lra. }
  replace (y - x) with ((y - tan a) + (tan a - x)) by ring. eapply Rle_trans; [apply Rabs_triang|]. fold w.
  rewrite (Rmult_assoc 2.2e-14) in H2. replace (1e-6 * u * (1 + u)) with (1e-6 * u + 1e-6 * (u * u)) by ring. assert (0 <= u * u) by (apply Rmult_le_pos; lra). lra.
Qed.
Lemma tan_pos_15 x : 0.78 <= Rabs x <= 1.5 -> 0.98 <= Rabs (tan x).
Proof.
  intros H. assert (Q : forall u, 0.78 <= u <= 1.5 -> 0.98 <= tan u).
  { clear x H. intros u Hu. unfold tan. assert (C : 0.07 <= cos u <= 0.711) by (split; interval with (i_bisect u)). assert (S : 0.703 <= sin u) by interval with (i_bisect u).
    apply Rmult_le_reg_r with (cos u); [lra|]. unfold Rdiv. rewrite Rmult_assoc, Rinv_l by lra. lra. }
  unfold Rabs in H at 1 2. destruct (Rcase_abs x).
  - rewrite <- Rabs_Ropp, <- tan_neg. eapply Rle_trans; [apply (Q (- x)); lra|apply Rle_abs].
  - eapply Rle_trans; [apply (Q x); lra|apply Rle_abs].
Qed.
Lemma trip_atan_tan x s y k : 0 <= k <= 1e-20 -> Rabs x <= 1.5 -> 
  Rabs (s - tan x) <= 43e-8 * Rabs (tan x) + 2.2e-14 * Rabs x * (1 + tan x * tan x) + 8 * k ->
  Rabs (y - atan s) <= 5e-7 * Rabs (atan s) + 8 * k -> Rabs (y - x) <= 1.4e-6 * Rabs x + 32 * k.
Proof.
  intros K B H1 H2. pose proof (Rabs_pos x) as X0. pose proof pi_range as P. destruct (tan_away x B) as [_ T15].
  assert (AT : atan (tan x) = x) by (apply atan_tan; apply Rabs_le_inv in B; lra).
  assert (TT : tan x * tan x = Rabs (tan x) * Rabs (tan x)) by (rewrite <- Rabs_mult; symmetry; apply Rabs_pos_eq; nra).
  assert (L : Rabs (atan s - x) <= 8.7e-7 * Rabs x + 9 * k).
  { destruct (Rle_dec (Rabs x) 0.7867) as [S|S].
    - pose proof (lip_atan s (tan x)) as L. rewrite AT in L. pose proof (lip_tan x 0 S ltac:(rewrite Rabs_R0; lra)) as L2. rewrite tan_0, !Rminus_0_r in L2.
      eapply Rle_trans; [exact L|]. eapply Rle_trans; [exact H1|]. rewrite TT. pose proof (Rabs_pos (tan x)) as T0. set (t := Rabs (tan x)) in *. assert (t * t <= 2.6) by nra. nra.
    - assert (T1 := tan_pos_15 x ltac:(lra)). set (t := tan x) in *.
      assert (D : Rabs (s - t) <= 1e-6 * Rabs t).
      { eapply Rle_trans; [exact H1|]. rewrite TT. nra. }
      destruct (MVT_gen atan t s (fun z => / (1 + z * z))) as (z & Hz & E).
      + intros z _. apply atan_slope.
      + intros z _. apply derivable_continuous_pt, derivable_pt_atan.
      + rewrite AT in E. rewrite E, Rabs_mult. assert (Z0 : 0 <= z * z) by nra.
        rewrite Rabs_pos_eq by (left; apply Rinv_0_lt_compat; lra).
        assert (Z1 : Rabs (z - t) <= Rabs (s - t)).
        { revert Hz. unfold Rmin, Rmax. destruct (Rle_dec t s); intros Hz.
          - rewrite !Rabs_pos_eq; lra.
          - rewrite !Rabs_left1; lra. }
        assert (Z2 : 0.9999 * Rabs t <= Rabs z). { pose proof (Rabs_triang z (t - z)) as R. replace (z + (t - z)) with t in R by ring. rewrite (Rabs_minus_sym t z) in R. lra. }
        assert (ZZ : z * z = Rabs z * Rabs z) by (rewrite <- Rabs_mult; symmetry; apply Rabs_pos_eq; nra).
        assert (Z3 : 0.9997 * (1 + t * t) <= 1 + z * z) by (rewrite TT, ZZ; assert ((0.9999 * Rabs t) * (0.9999 * Rabs t) <= Rabs z * Rabs z) by (apply Rmult_le_compat; lra); assert (0 <= Rabs t * Rabs t) by (apply Rmult_le_pos; lra); lra).
        apply Rmult_le_reg_l with (1 + z * z); [lra|]. rewrite <- Rmult_assoc, Rinv_r, Rmult_1_l by lra.
        eapply Rle_trans; [exact H1|]. apply Rle_trans with (0.9997 * (1 + t * t) * (8.7e-7 * Rabs x + 9 * k)); [|apply Rmult_le_compat_r; lra].
        rewrite TT. set (v := Rabs t) in *. assert (W1 : 2 * v <= 1 + v * v) by (pose proof (Rle_0_sqr (v - 1)) as Q; unfold Rsqr in Q; lra).
        assert (V2 : 0 <= v * v) by (apply Rmult_le_pos; lra). set (W := 1 + v * v) in *.
        assert (K1 : 1 * k <= W * k) by (apply Rmult_le_compat_r; unfold W; lra). assert (K2 : W * 0.7867 <= W * Rabs x) by (apply Rmult_le_compat_l; unfold W; lra).
        clearbody W v. lra. }
  assert (A1 : Rabs (atan s) <= Rabs x + Rabs (atan s - x)). { replace (atan s) with (x + (atan s - x)) at 1 by ring. apply Rabs_triang. }
  replace (y - x) with ((y - atan s) + (atan s - x)) by ring. eapply Rle_trans; [apply Rabs_triang|]. lra.
Qed.

(** tan = sin / cos *)
Lemma trip_tan_cos x S C T k : 0 <= k <= 1e-20 -> Rabs x <= 1.5 ->
  Rabs (S - sin x) <= 27e-8 * Rabs (sin x) + 1.01e-14 * Rabs x + 2 * k ->
  Rabs (C - cos x) <= 27e-8 * Rabs (cos x) + 1.01e-14 * Rabs x + 2 * k ->
  Rabs (T - tan x) <= 43e-8 * Rabs (tan x) + 2.2e-14 * Rabs x * (1 + tan x * tan x) + 8 * k ->
  Rabs (T * C - S) <= 1e-6 * Rabs x + 64 * k.
Proof.
  intros K B H1 H2 H3. pose proof (Rabs_pos x) as X0. destruct (tan_away x B) as [_ T15]. pose proof (sin_abs_le x) as SX.
  assert (C0 : 0.07 <= cos x <= 1). { split; [|apply COS_bound]. apply Rabs_le_inv in B. interval with (i_bisect x). }
  assert (TC : tan x * cos x = sin x) by (unfold tan; field; lra).
  assert (TC' : Rabs (tan x) * cos x = Rabs (sin x)) by (rewrite <- TC, Rabs_mult, (Rabs_pos_eq (cos x)); lra).
  assert (TT : tan x * tan x = Rabs (tan x) * Rabs (tan x)) by (rewrite <- Rabs_mult; symmetry; apply Rabs_pos_eq; nra).
  rewrite TT in H3. rewrite (Rabs_pos_eq (cos x)) in H2 by lra.
  assert (CB : Rabs C <= 1.000001 * cos x). { replace C with (cos x + (C - cos x)) by ring. eapply Rle_trans; [apply Rabs_triang|]. rewrite (Rabs_pos_eq (cos x)) by lra. lra. }
  replace (T * C - S) with ((T - tan x) * C + tan x * (C - cos x) + (sin x - S)) by (rewrite <- TC; ring).
  eapply Rle_trans; [apply Rabs_triang|]. eapply Rle_trans; [apply Rplus_le_compat_r, Rabs_triang|]. rewrite !Rabs_mult, (Rabs_minus_sym (sin x) S).
  set (t := Rabs (tan x)) in *. set (u := Rabs x) in *. set (c := cos x) in *. set (s := Rabs (sin x)) in *. assert (0 <= t) by apply Rabs_pos.
  assert (P1 : Rabs (T - tan x) * Rabs C <= (43e-8 * t + 2.2e-14 * u * (1 + t * t) + 8 * k) * (1.000001 * c)) by (apply Rmult_le_compat; try apply Rabs_pos; lra).
  assert (P2 : t * Rabs (C - c) <= t * (27e-8 * c + 1.01e-14 * u + 2 * k)) by (apply Rmult_le_compat_l; lra).
  assert (P3 : (43e-8 * t + 2.2e-14 * u * (1 + t * t) + 8 * k) * (1.000001 * c) = 1.000001 * (43e-8 * (t * c) + 2.2e-14 * (u * c + u * (t * c) * t) + 8 * (k * c))) by ring.
  assert (P4 : t * (27e-8 * c + 1.01e-14 * u + 2 * k) = 27e-8 * (t * c) + 1.01e-14 * (t * u) + 2 * (t * k)) by ring.
  rewrite P3 in P1. rewrite P4 in P2. rewrite TC' in P1, P2.
  assert (0 <= s) by apply Rabs_pos. assert (s <= 1) by (pose proof (SIN_bound x); apply Rabs_le; lra).
  assert (u * c <= u) by nra. assert (u * s * t <= 15 * u). { assert (0 <= u * s <= u) by nra. nra. } assert (k * c <= k) by nra. assert (t * u <= 15 * u) by nra. assert (t * k <= 15 * k) by nra. lra.
Qed.

(** asin + acos *)
Lemma trip_complement x a b k : 0 <= k <= 1e-20 -> Rabs x <= 1 -> Rabs (a - asin x) <= 7e-7 * Rabs (asin x) + 8 * k ->
  Rabs (b - acos x) <= 21e-8 * acos x + 16 * k -> Rabs (a + b - PI / 2) <= 1.8e-6.
Proof.
  intros K B H1 H2. apply Rabs_le_inv in B. pose proof (acos_bound x) as C. pose proof (asin_bound x) as D. pose proof pi_range.
  assert (Rabs (asin x) <= PI / 2) by (apply Rabs_le; lra). pose proof (acos_asin x B) as E.
  replace (a + b - PI / 2) with ((a - asin x) + (b - acos x)) by lra. eapply Rle_trans; [apply Rabs_triang|]. lra.
Qed.

(** logarithms of products *)
Lemma trip_log_prod L p lp a b la lb : 0 < L -> ln L = a + b -> Rabs (p - L) <= 6e-8 * L -> Rabs (lp - ln p) <= 4e-7 * Rabs (ln p) ->
  Rabs (la - a) <= 4e-7 * Rabs a -> Rabs (lb - b) <= 4e-7 * Rabs b ->
  Rabs (lp - (la + lb)) <= 8e-7 * (Rabs a + Rabs b) + 1e-7.
Proof.
  intros P E H1 H2 H3 H4. pose proof (ln_near p L 6e-8 P H1 ltac:(lra)) as H5. rewrite E in H5.
  assert (Rabs (ln p) <= Rabs a + Rabs b + 6.1e-8).
  { replace (ln p) with (a + b + (ln p - (a + b))) by ring. eapply Rle_trans; [apply Rabs_triang|]. pose proof (Rabs_triang a b). lra. }
  replace (lp - (la + lb)) with ((lp - ln p) + (ln p - (a + b)) + ((a - la) + (b - lb))) by ring.
  eapply Rle_trans; [apply Rabs_triang|]. eapply Rle_trans; [apply Rplus_le_compat; apply Rabs_triang|]. rewrite (Rabs_minus_sym a), (Rabs_minus_sym b). lra.
Qed.
(** exponentials of sums *)
Lemma rel_prod u v U V e f : 0 < U -> 0 < V -> 0 <= e -> 0 <= f -> Rabs (u - U) <= e * U -> Rabs (v - V) <= f * V -> Rabs (u * v - U * V) <= (e + f + e * f) * (U * V).
Proof.
  intros PU PV E0 F0 H1 H2. replace (u * v - U * V) with ((u - U) * V + U * (v - V) + (u - U) * (v - V)) by ring.
  eapply Rle_trans; [apply Rabs_triang|]. eapply Rle_trans; [apply Rplus_le_compat_r, Rabs_triang|]. rewrite !Rabs_mult, (Rabs_pos_eq U), (Rabs_pos_eq V) by lra.
  replace ((e + f + e * f) * (U * V)) with (e * U * V + U * (f * V) + e * U * (f * V)) by ring.
  apply Rplus_le_compat; [apply Rplus_le_compat|]; [apply Rmult_le_compat_r; lra|apply Rmult_le_compat_l; lra|apply Rmult_le_compat; try apply Rabs_pos; assumption].
Qed.
Lemma trip_exp_sum x y s es ex ey : Rabs (x + y) <= 89 -> Rabs (s - (x + y)) <= 6e-8 * Rabs (x + y) -> Rabs (es - exp s) <= 3e-7 * exp s ->
  Rabs (ex - exp x) <= 3e-7 * exp x -> Rabs (ey - exp y) <= 3e-7 * exp y ->
  Rabs (es - ex * ey) <= (1e-6 + 6.1e-8 * Rabs (x + y)) * exp (x + y).
Proof.
  intros B H1 H2 H3 H4. pose proof (rel_prod ex ey _ _ 3e-7 3e-7 (exp_pos x) (exp_pos y) ltac:(lra) ltac:(lra) H3 H4) as H5. rewrite <- exp_plus in H5.
  pose proof (Rabs_pos (x + y)) as S0. set (S := Rabs (x + y)) in *. set (E := exp (x + y)) in *. assert (PE : 0 < E) by apply exp_pos.
  assert (ES : exp s = E * exp (s - (x + y))) by (unfold E; rewrite <- exp_plus; f_equal; ring).
  pose proof (exp_close (s - (x + y)) (6e-8 * S) H1 ltac:(lra)) as H6. pose proof (exp_pos (s - (x + y))) as PD. set (d := exp (s - (x + y))) in *.
  assert (D : d <= 1.00001) by (apply Rabs_le_inv in H6; lra).
  replace (es - ex * ey) with ((es - exp s) + E * (d - 1) - (ex * ey - E)) by (rewrite ES; ring).
  eapply Rle_trans; [apply Rabs_triang|]. rewrite Rabs_Ropp. eapply Rle_trans; [apply Rplus_le_compat_r, Rabs_triang|]. rewrite Rabs_mult, (Rabs_pos_eq E) by lra.
  rewrite ES in H2 at 2. assert (E * Rabs (d - 1) <= E * (1.002 * (6e-8 * S))) by (apply Rmult_le_compat_l; lra). assert (0 <= E * S) by (apply Rmult_le_pos; lra). assert (E * d <= E * 1.00001) by (apply Rmult_le_compat_l; lra). nra.
Qed.
Lemma trip_exp_inverse x ex ey : Rabs (ex - exp x) <= 3e-7 * exp x -> Rabs (ey - exp (- x)) <= 3e-7 * exp (- x) -> Rabs (ex * ey - 1) <= 6.1e-7.
Proof.
  intros H3 H4. pose proof (rel_prod ex ey _ _ 3e-7 3e-7 (exp_pos x) (exp_pos (- x)) ltac:(lra) ltac:(lra) H3 H4) as H5. rewrite <- exp_plus in H5.
  replace (x + - x) with 0 in H5 by ring. rewrite exp_0 in H5. lra.
Qed.
Lemma trip_pow_inverse B p q P Q : 0 < P -> 0 < Q -> P * Q = 1 -> 0 <= B <= 88 -> Rabs (p - P) <= 5e-7 * (1 + B) * P -> Rabs (q - Q) <= 5e-7 * (1 + B) * Q -> Rabs (p * q - 1) <= 1.1e-6 * (1 + B).
Proof.
  intros HP HQ E HB H1 H2. pose proof (rel_prod p q P Q (5e-7 * (1 + B)) (5e-7 * (1 + B)) HP HQ ltac:(lra) ltac:(lra) H1 H2) as H5. rewrite E in H5. eapply Rle_trans; [exact H5|]. set (e := 5e-7 * (1 + B)) in *. assert (e * e <= 1e-4 * e) by (apply Rmult_le_compat_r; unfold e; lra). unfold e in *. lra.
Qed.
(** logarithms to other bases *)
Lemma trip_log_base b X l m e : 0 < b -> 0 <= e <= 5e-7 -> Rabs (l - ln X) <= 4e-7 * Rabs (ln X) -> Rabs (m - ln X / b) <= e * Rabs (ln X / b) -> Rabs (m * b - l) <= 1e-6 * Rabs l.
Proof.
  intros Hb He H1 H2. pose proof (Rabs_pos (ln X)) as L0.
  assert (H3 : Rabs (m * b - ln X) <= e * Rabs (ln X)).
  { replace (m * b - ln X) with ((m - ln X / b) * b) by (field; lra). replace (ln X) with (ln X / b * b) at 2 by (field; lra). rewrite !Rabs_mult, (Rabs_pos_eq b) by lra. rewrite <- Rmult_assoc. apply Rmult_le_compat_r; [lra|]. exact H2. }
  assert (H4 : Rabs (ln X) <= Rabs l + Rabs (l - ln X)). { replace (ln X) with (l + (- (l - ln X))) at 1 by ring. rewrite <- (Rabs_Ropp (l - ln X)). apply Rabs_triang. }
  replace (m * b - l) with ((m * b - ln X) + (- (l - ln X))) by ring. eapply Rle_trans; [apply Rabs_triang|]. rewrite Rabs_Ropp.
  assert (e * Rabs (ln X) <= 5e-7 * Rabs (ln X)) by (apply Rmult_le_compat_r; lra). lra.
Qed.
(** powers against products and roots *)
Lemma trip_rel p q V e f : 0 < V -> 0 <= e <= 1e-3 -> 0 <= f <= 6e-8 -> 0 <= q -> Rabs (p - V) <= e * V -> Rabs (q - V) <= f * V -> Rabs (p - q) <= (1.0000001 * e + 6.1e-8) * q.
Proof.
  intros HV He Hf Hq H1 H2. apply Rabs_le_inv in H2. assert (V <= 1.00000007 * q) by nra.
  apply Rabs_le_inv in H1. assert (e * V <= e * (1.00000007 * q)) by (apply Rmult_le_compat_l; lra). assert (f * V <= 6e-8 * (1.00000007 * q)) by nra.
  apply Rabs_le. split; nra.
Qed.

Lemma ln_span X : 1.19e-38 <= X <= 3.4e38 -> - 87.3244 <= ln X <= 88.7221.
Proof. intros H. split; interval with (i_prec 60). Qed.
Lemma exp_87 x : Rabs x <= 87 -> 1.2e-38 <= exp x * (1 - 3e-7).
Proof. intros H. apply Rabs_le_inv in H. assert (1.5e-38 <= exp x) by interval. lra. Qed.

(** A curve A exp (s (x - o)) and its inverse. *)
Lemma exp_shift s D e : 0 < s -> Rabs D <= e -> s * e <= 1e-3 -> Rabs (exp (s * D) - 1) <= 1.002 * (s * e).
Proof.
  intros Hs H1 H2. apply exp_close; [|exact H2]. rewrite Rabs_mult, (Rabs_pos_eq s) by lra. apply Rmult_le_compat_l; lra.
Qed.
Lemma trip_there A s x y z r g : 0 < A -> 0 < s -> 0 <= r <= 1e-4 -> Rabs (y - A * exp (s * x)) <= r * (A * exp (s * x)) ->
  Rabs (z - ln (y / A) / s) <= g -> Rabs (z - x) <= g + 1.001 * r / s.
Proof.
  intros HA Hs Hr H1 H2. assert (PE := exp_pos (s * x)).
  assert (N : Rabs (y / A - exp (s * x)) <= r * exp (s * x)).
  { replace (y / A - exp (s * x)) with ((y - A * exp (s * x)) * / A) by (field; lra). rewrite Rabs_mult, (Rabs_pos_eq (/ A)) by (left; apply Rinv_0_lt_compat; lra).
    apply Rmult_le_reg_r with A; [lra|]. rewrite Rmult_assoc, Rinv_l by lra. lra. }
  pose proof (ln_near (y / A) (exp (s * x)) r PE N ltac:(lra)) as L. rewrite ln_exp in L.
  replace (z - x) with ((z - ln (y / A) / s) + (ln (y / A) - s * x) * / s) by (field; lra). eapply Rle_trans; [apply Rabs_triang|]. apply Rplus_le_compat; [exact H2|].
  rewrite Rabs_mult, (Rabs_pos_eq (/ s)) by (left; apply Rinv_0_lt_compat; lra). apply Rmult_le_compat_r; [left; apply Rinv_0_lt_compat; lra|exact L].
Qed.
Lemma trip_back A s Y x z e r : 0 < A -> 0 < s -> 0 < Y -> s * e <= 1e-3 -> 0 <= r <= 1e-3 -> Rabs (x - ln (Y / A) / s) <= e ->
  Rabs (z - A * exp (s * x)) <= r * (A * exp (s * x)) -> Rabs (z - Y) <= (1.002 * (s * e) + 1.0011 * r) * Y.
Proof.
  intros HA Hs HY He Hr H1 H2. set (D := x - ln (Y / A) / s) in *. pose proof (exp_shift s D e Hs H1 He) as H3.
  assert (E : A * exp (s * x) = Y * exp (s * D)).
  { replace (s * x) with (ln (Y / A) + s * D) by (unfold D; field; lra). rewrite exp_plus, exp_ln; [field; lra|]. apply Rdiv_lt_0_compat; assumption. }
  rewrite E in H2. pose proof (exp_pos (s * D)) as PD. set (d := exp (s * D)) in *. assert (d <= 1.0011) by (apply Rabs_le_inv in H3; lra).
  replace (z - Y) with ((z - Y * d) + Y * (d - 1)) by ring. eapply Rle_trans; [apply Rabs_triang|]. rewrite (Rabs_mult Y), (Rabs_pos_eq Y) by lra.
  assert (Y * Rabs (d - 1) <= Y * (1.002 * (s * e))) by (apply Rmult_le_compat_l; lra).
  assert (r * (Y * d) <= r * (Y * 1.0011)) by (apply Rmult_le_compat_l; [lra|apply Rmult_le_compat_l; lra]). lra.
Qed.
Lemma ln2_value : 0.693147 <= ln 2 <= 0.693148. Proof. split; interval. Qed.
Lemma ln10_value : 2.302585 <= ln 10 <= 2.302586. Proof. split; interval. Qed.
Lemma exp_pm T : Rabs T <= 70 -> 3e-31 <= exp T <= 3e30.
Proof. intros H. apply Rabs_le_inv in H. split; interval. Qed.
Lemma ln_pm Y : 1e-30 <= Y <= 1e30 -> Rabs (ln Y) <= 69.08.
Proof. intros H. apply Rabs_le. split; interval. Qed.
Lemma exp_pm2 T : Rabs T <= 66 -> 2e-29 <= exp T <= 5e28.
Proof. intros H. apply Rabs_le_inv in H. split; interval. Qed.
Lemma ln_87 X : 1.7e-38 <= X <= 6e37 -> Rabs (ln X) <= 87.
Proof. intros H. interval. Qed.
Lemma ln_18 X : 1e-18 <= X <= 1e18 -> Rabs (ln X) <= 41.5.
Proof. intros H. interval. Qed.
Lemma ln_89 X : 1.17e-38 <= X <= 3.41e38 -> Rabs (ln X) <= 89.
Proof. intros H. interval. Qed.
