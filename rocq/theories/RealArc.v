(** Bounds on real functions, by interval arithmetic: arc sine and arc tangent. *)
From Coq Require Import ZArith Reals Ratan Lra Lia Bool.
From Flocq Require Import Core.
From Coquelicot Require Import Coquelicot.
From Interval Require Import Tactic.
From Verif Require Import RealTanh RealTrig.
Local Open Scope R_scope.

(** Proof auxiliary: the asin polynomial with the exact values of its float
    coefficients. *)
Definition asin_q (z : R) : R := 2796217 / 16777216 + z * (10060035 / 134217728 + z * (12205497 / 268435456 + z * (12984493 / 536870912 + z * (11316437 / 268435456)))).
(** Proof auxiliary: the same for atan. *)
Definition atan_q (z : R) : R := - (5592341 / 16777216) + z * (13406829 / 67108864 + z * (- (4656643 / 33554432) + z * (5405139 / 67108864))).

Lemma asin_slope t : -1 < t < 1 -> is_derive asin t (/ sqrt (1 - t * t)).
Proof.
  intros H. apply is_derive_Reals. replace (/ sqrt (1 - t * t)) with (1 / sqrt (1 - t * t)) by (unfold Rdiv; ring). change (t * t) with (t²). rewrite <- (derive_pt_asin t H). apply derive_pt_eq_1 with (derivable_pt_asin t H). reflexivity.
Qed.
Lemma asin_poly b : Rabs b <= 0.5 -> Rabs (b * (1 + b * b * asin_q (b * b)) - asin b) <= 3e-8 * Rabs b.
Proof.
  intros Hb. apply (odd_even_cases (fun b => b * (1 + b * b * asin_q (b * b)) - asin b) (fun b => 1 + b * b * asin_q (b * b) - asin b / b) 0.5); [| | | | |exact Hb].
  - intros x X0. field. exact X0.
  - rewrite asin_0. ring.
  - clear b Hb. intros b H. apply Rabs_le_inv in H.
    apply (small_slope (fun b => b * (1 + b * b * asin_q (b * b)) - asin b)
      (fun t => 1 + 3 * (2796217 / 16777216) * t ^ 2 + 5 * (10060035 / 134217728) * t ^ 4 + 7 * (12205497 / 268435456) * t ^ 6 + 9 * (12984493 / 536870912) * t ^ 8
        + 11 * (11316437 / 268435456) * t ^ 10 - / sqrt (1 - t * t)) 0.2 3e-8); [| | |exact H].
    + cbv beta. rewrite asin_0. ring.
    + intros t Ht. apply (is_derive_minus (fun b => b * (1 + b * b * asin_q (b * b))) asin).
      * unfold asin_q. auto_derive; [exact Logic.I|]. field.
      * apply asin_slope. lra.
    + intros t Ht. interval with (i_bisect t, i_taylor t, i_prec 60, i_degree 12).
  - clear b Hb. intros x H. rewrite asin_atan by lra. unfold asin_q, Rsqr. interval with (i_bisect x, i_taylor x, i_prec 60, i_degree 12).
  - intros x. rewrite asin_opp. replace (- x * - x) with (x * x) by ring. destruct (Req_dec x 0) as [->|X0]; [rewrite Ropp_0; unfold Rdiv; rewrite asin_0; ring|]. field. exact X0.
Qed.
Lemma odd_even_cut (f g : R -> R) d b e : (forall x, x <> 0 -> f x = g x * x) -> 0 < d ->
  (forall x, Rabs x <= d -> Rabs (f x) <= e * Rabs x) -> (forall x, d <= x <= b -> Rabs (g x) <= e) -> (forall x, g (- x) = g x) ->
  forall x, Rabs x <= b -> Rabs (f x) <= e * Rabs x.
Proof.
  intros HF F0 HS HL HE x Hx. destruct (Rle_dec (Rabs x) d) as [S|S]; [apply HS; exact S|].
  assert (X0 : x <> 0) by (intros ->; rewrite Rabs_R0 in S; lra). rewrite HF, Rabs_mult by exact X0. apply Rmult_le_compat_r; [apply Rabs_pos|].
  unfold Rabs in Hx, S. destruct (Rcase_abs x); [rewrite <- HE|]; apply HL; lra.
Qed.
Lemma atan_slope t : is_derive atan t (/ (1 + t * t)).
Proof. apply is_derive_Reals. replace (/ (1 + t * t)) with (1 / (1 + t * t)) by (unfold Rdiv; ring). change (t * t) with (t²). rewrite <- (derive_pt_atan t). apply derive_pt_eq_1 with (derivable_pt_atan t). reflexivity. Qed.
Lemma atan_poly b : Rabs b <= 0.4143 -> Rabs (b * (1 + b * b * atan_q (b * b)) - atan b) <= 4e-8 * Rabs b.
Proof.
  intros Hb. apply (odd_even_cut (fun b => b * (1 + b * b * atan_q (b * b)) - atan b) (fun b => 1 + b * b * atan_q (b * b) - atan b / b) 0.1 0.4143); [| | | | |exact Hb].
  - intros x X0. field. exact X0.
  - lra.
  - clear b Hb. intros b H. apply Rabs_le_inv in H.
    apply (small_slope (fun b => b * (1 + b * b * atan_q (b * b)) - atan b)
      (fun t => 1 - 3 * (5592341 / 16777216) * t ^ 2 + 5 * (13406829 / 67108864) * t ^ 4 - 7 * (4656643 / 33554432) * t ^ 6 + 9 * (5405139 / 67108864) * t ^ 8
        - / (1 + t * t)) 0.1 4e-8); [| | |exact H].
    + cbv beta. rewrite atan_0. ring.
    + intros t Ht. apply (is_derive_minus (fun b => b * (1 + b * b * atan_q (b * b))) atan).
      * unfold atan_q. auto_derive; [exact Logic.I|]. field.
      * apply atan_slope.
    + intros t Ht. interval with (i_bisect t, i_taylor t, i_prec 60, i_degree 12).
  - clear b Hb. intros x H. unfold atan_q. interval with (i_bisect x, i_taylor x, i_prec 60, i_degree 12).
  - intros x. rewrite atan_opp. replace (- x * - x) with (x * x) by ring. destruct (Req_dec x 0) as [->|X0]; [rewrite Ropp_0; unfold Rdiv; rewrite atan_0; ring|]. field. exact X0.
Qed.

Lemma lip_asin x y : Rabs x <= 0.5 -> Rabs y <= 0.5 -> Rabs (asin x - asin y) <= 1.155 * Rabs (x - y).
Proof.
  intros Hx Hy. apply Rabs_le_inv in Hx. apply Rabs_le_inv in Hy.
  assert (MM : -0.5 <= Rmin y x /\ Rmax y x <= 0.5) by (unfold Rmin, Rmax; destruct (Rle_dec y x); lra).
  destruct (MVT_gen asin y x (fun t => / sqrt (1 - t * t))) as (t & Ht & E).
  - intros t Ht. apply asin_slope. lra.
  - intros t Ht. apply derivable_continuous_pt, derivable_pt_asin. lra.
  - rewrite E, Rabs_mult. apply Rmult_le_compat_r; [apply Rabs_pos|]. assert (B : -0.5 <= t <= 0.5) by lra. interval.
Qed.
Lemma lip_atan x y : Rabs (atan x - atan y) <= Rabs (x - y).
Proof.
  rewrite <- (Rmult_1_l (Rabs (x - y))). apply (bounded_variation atan (fun t => / (1 + t * t))). intros t _. split; [apply atan_slope|].
  assert (0 <= t * t) by nra. rewrite Rabs_pos_eq by (left; apply Rinv_0_lt_compat; lra). rewrite <- Rinv_1 at 2. apply Rinv_le_contravar; lra.
Qed.
Lemma asin_low s : Rabs s <= 1 -> Rabs s <= Rabs (asin s).
Proof.
  intros H. apply Rabs_le_inv in H. pose proof (sin_asin s H) as E. rewrite <- E at 1. apply sin_abs_le.
Qed.
Lemma asin_nonneg s : 0 <= s <= 1 -> 0 <= asin s <= PI / 2.
Proof.
  intros H. pose proof (asin_bound s) as B. pose proof (asin_low s ltac:(rewrite Rabs_pos_eq; lra)) as L. pose proof (sin_asin s ltac:(lra)) as E.
  split; [|lra]. destruct (Rle_dec 0 (asin s)) as [|N]; [assumption|]. assert (sin (asin s) < 0) by (apply sin_lt_0_var; pose proof PI_RGT_0; lra). lra.
Qed.
Lemma asin_half a : 0 <= a <= 1 -> asin a = PI / 2 - 2 * asin (sqrt ((1 - a) / 2)).
Proof.
  intros H. assert (S0 : 0 <= (1 - a) / 2 <= 1 / 2) by lra. pose proof (sqrt_pos ((1 - a) / 2)) as SP. pose proof (sqrt_sqrt ((1 - a) / 2) ltac:(lra)) as SS.
  set (s := sqrt ((1 - a) / 2)) in *. assert (S1 : 0 <= s <= 1) by nra. pose proof (asin_nonneg s S1) as B. pose proof (sin_asin s ltac:(lra)) as E.
  set (h := asin s) in *. rewrite <- (asin_sin (PI / 2 - 2 * h)) by lra. f_equal. rewrite sin_shift. rewrite cos_2a_sin, E. 
  replace (1 - 2 * s * s) with (1 - 2 * (s * s)) by ring. rewrite SS. field.
Qed.
Lemma asin_up a : 0.5 <= a <= 1 -> 0.5235 <= asin a.
Proof.
  intros H. destruct (Rle_dec 0.5235 (asin a)) as [|N]; [assumption|exfalso]. pose proof (asin_nonneg a ltac:(lra)) as B. pose proof (sin_asin a ltac:(lra)) as E.
  assert (sin (asin a) <= sin 0.5235).
  { left. apply sin_increasing_1; try interval; try lra; pose proof pi_range; lra. }
  assert (sin 0.5235 < 0.5) by interval. lra.
Qed.
(** The two reductions of arc tangent. *)
Lemma atan_quarter a : 0 < a -> atan a = PI / 4 + atan ((a - 1) / (a + 1)).
Proof.
  intros H. rewrite <- atan_1. replace ((a - 1) / (a + 1)) with (atan_sub a 1) by (unfold atan_sub; f_equal; ring).
  pose proof (atan_bound a) as B. pose proof PI_RGT_0 as P. pose proof (atan_increasing 0 a H) as L. rewrite atan_0 in L.
  apply atan_sub_correct; [lra|rewrite atan_1; lra|apply atan_bound].
Qed.
Lemma atan_recip a : 0 < a -> atan a = PI / 2 + atan (- / a).
Proof. intros H. rewrite atan_opp, atan_inv by exact H. ring. Qed.
Lemma atan_low b : Rabs b <= 0.4143 -> Rabs b <= 1.06 * Rabs (atan b).
Proof.
  intros H. pose proof (atan_poly b H) as P. assert (Z : 0 <= b * b <= 0.1717) by (apply Rabs_le_inv in H; nra).
  assert (Q : 0.944 <= 1 + b * b * atan_q (b * b)).
  { unfold atan_q. set (z := b * b) in *. clearbody z. interval with (i_bisect z). }
  set (U := 1 + b * b * atan_q (b * b)) in *. clearbody U.
  assert (A : Rabs (b * U) = Rabs b * U) by (rewrite Rabs_mult, (Rabs_pos_eq U) by lra; reflexivity).
  pose proof (Rabs_pos b). pose proof (Rabs_triang_inv (b * U) (b * U - atan b)) as T.
  replace (b * U - (b * U - atan b)) with (atan b) in T by ring. rewrite A in T. nra.
Qed.
Lemma atan_mid a : 0.4142 <= a -> 0.39 <= atan a.
Proof.
  intros H. assert (P : 0.39 <= atan 0.4142) by (clear H; interval). destruct H as [H| <-]; [|exact P]. pose proof (atan_increasing _ _ H). lra.
Qed.
Lemma atan_big a : 2.4142 <= a -> 1.178 <= atan a.
Proof.
  intros H. assert (P : 1.178 <= atan 2.4142) by (clear H; interval). destruct H as [H| <-]; [|exact P]. pose proof (atan_increasing _ _ H). lra.
Qed.
Lemma pi2_err : Rabs (13176795 / 8388608 - PI / 2) <= 4.38e-8. Proof. interval. Qed.
Lemma asin_q_range z : 0 <= z <= 0.25 -> 0 <= asin_q z <= 0.1888.
Proof. intros H. unfold asin_q. split; interval. Qed.
Lemma atan_q_range z : 0 <= z <= 0.1717 -> -0.34 <= atan_q z <= 0.
Proof. intros H. unfold atan_q. split; interval. Qed.
