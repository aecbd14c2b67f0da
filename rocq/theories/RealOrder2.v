(** Real facts: the polynomials of the logarithm, the exponential and tanh rise. *)
From Coq Require Import Reals Lra Lia.
From Coquelicot Require Import Coquelicot.
From Interval Require Import Tactic.
From Verif Require Import RealLog RealTanh.
Local Open Scope R_scope.

(** Proof auxiliary: the polynomial that log evaluates. *)
Definition log_p (u : R) : R := u + (log_q u * u * u * u - 1 / 2 * u * u).
(** Proof auxiliary: its derivative. *)
Definition log_dp (t : R) : R := 1 + 3 * (5592405 / 16777216) * t ^ 2 - 4 * (4194303 / 16777216) * t ^ 3 + 5 * (3355563 / 16777216) * t ^ 4
        - 6 * (699109 / 4194304) * t ^ 5 + 7 * (9562559 / 67108864) * t ^ 6 - 8 * (16670031 / 134217728) * t ^ 7 + 9 * (7836301 / 67108864) * t ^ 8
        - 10 * (1931831 / 16777216) * t ^ 9 + 11 * (9445819 / 134217728) * t ^ 10 - t.
Lemma log_p_slope u v s : u <= v -> (forall t, u <= t <= v -> s <= log_dp t) -> s * (v - u) <= log_p v - log_p u.
Proof.
  intros [L| <-] H; [|lra]. destruct (MVT_cor2 log_p log_dp u v L) as (t & E & T).
  - intros t _. apply is_derive_Reals. unfold log_p, log_q, log_dp. auto_derive; [exact I|]. field.
  - rewrite E. apply Rmult_le_compat_r; [lra|]. apply H. lra.
Qed.
Lemma log_p_pos u v : 0 <= u <= v -> v <= 0.41423 -> 0.706 * (v - u) <= log_p v - log_p u.
Proof. intros H B. apply log_p_slope; [lra|]. intros t T. unfold log_dp. assert (0 <= t <= 0.41423) by lra. interval with (i_bisect t, i_taylor t). Qed.
Lemma log_p_neg u v : -0.29293 <= u <= v -> v <= 0 -> 0.9999 * (v - u) <= log_p v - log_p u.
Proof. intros H B. apply log_p_slope; [lra|]. intros t T. unfold log_dp. assert (-0.29293 <= t <= 0) by lra. interval with (i_bisect t, i_taylor t). Qed.

(** Proof auxiliary: the polynomial of the exponential, less one. *)
Definition exp_Q (t : R) : R := t * (8388611 / 8388608 + t * (16777205 / 33554432 + t * (11184069 / 67108864 + t * (2796431 / 67108864 +
    t * (9041757 / 1073741824 + t * (1488335 / 1073741824)))))).
Lemma exp_Q_slope u v : -0.34665 <= u <= v -> v <= 0 -> 0.707 * (v - u) <= exp_Q v - exp_Q u.
Proof.
  intros [A [L| <-]] B; [|lra]. destruct (MVT_cor2 exp_Q (fun t => 8388611 / 8388608 + 2 * (16777205 / 33554432) * t + 3 * (11184069 / 67108864) * t ^ 2 + 4 * (2796431 / 67108864) * t ^ 3
    + 5 * (9041757 / 1073741824) * t ^ 4 + 6 * (1488335 / 1073741824) * t ^ 5) u v L) as (t & E & T).
  - intros t _. apply is_derive_Reals. unfold exp_Q. auto_derive; [exact I|]. field.
  - rewrite E. apply Rmult_le_compat_r; [lra|]. assert (-0.34665 <= t <= 0) by lra. interval with (i_bisect t, i_taylor t).
Qed.
(** Proof auxiliary: the part of the tanh polynomial beyond its argument. *)
Definition tanh_r (t : R) : R := t * (tanh_q (t * t) * (t * t)).
(** Proof auxiliary: its derivative. *)
Definition tanh_dr (t : R) : R := 3 * (- (11184793 / 33554432)) * t ^ 2 + 5 * (8946579 / 67108864) * t ^ 4 + 7 * (- (14425645 / 268435456)) * t ^ 6
        + 9 * (5540263 / 268435456) * t ^ 8 + 11 * (- (6125685 / 1073741824)) * t ^ 10.
Lemma tanh_r_slope u v s : u <= v -> (forall t, u <= t <= v -> - s <= tanh_dr t) -> - (s * (v - u)) <= tanh_r v - tanh_r u.
Proof.
  intros [L| <-] H; [|lra]. destruct (MVT_cor2 tanh_r tanh_dr u v L) as (t & E & T).
  - intros t _. apply is_derive_Reals. unfold tanh_r, tanh_q, tanh_dr. auto_derive; [exact I|]. field.
  - rewrite E, Ropp_mult_distr_l. apply Rmult_le_compat_r; [lra|]. apply H. lra.
Qed.
Lemma tanh_r_half u v : 0 <= u <= v -> v <= 0.5 -> - (0.2137 * (v - u)) <= tanh_r v - tanh_r u.
Proof. intros H B. apply tanh_r_slope; [lra|]. intros t T. unfold tanh_dr. assert (0 <= t <= 0.5) by lra. interval with (i_bisect t, i_taylor t). Qed.
Lemma tanh_r_full u v : 0 <= u <= v -> v <= 0.625 -> - (0.31 * (v - u)) <= tanh_r v - tanh_r u.
Proof. intros H B. apply tanh_r_slope; [lra|]. intros t T. unfold tanh_dr. assert (0 <= t <= 0.625) by lra. interval with (i_bisect t, i_taylor t). Qed.
Lemma tanh_r_small t : 0 <= t <= 1e-20 -> - (1e-30 * t) <= tanh_r t <= 0.
Proof. intros H. unfold tanh_r. assert (Z : 0 <= t * t <= 1e-40) by nra. set (z := t * t) in *. assert (-1e-30 <= tanh_q z * z <= 0) by (unfold tanh_q; nra). nra. Qed.
