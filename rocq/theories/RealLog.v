(** Bounds on real functions, by interval arithmetic: the logarithm. *)
From Coq Require Import Reals Lra.
From Flocq Require Import Core.
From Coquelicot Require Import Coquelicot.
From Interval Require Import Tactic.
From Verif Require Import RealTanh.
Local Open Scope R_scope.

(** Proof auxiliary: the log polynomial with the exact values of its float
    coefficients. *)
Definition log_q (x : R) : R :=
  (((((((9445819 / 134217728 * x - 1931831 / 16777216) * x + 7836301 / 67108864) * x - 16670031 / 134217728) * x + 9562559 / 67108864) * x
    - 699109 / 4194304) * x + 3355563 / 16777216) * x - 4194303 / 16777216) * x + 5592405 / 16777216.
Lemma log_poly u : - 0.29293 <= u <= 0.41423 -> Rabs (u + (log_q u * u * u * u - 1 / 2 * u * u) - ln (1 + u)) <= 2e-8 * Rabs u.
Proof.
  intros Hu. destruct (Rle_dec (Rabs u) 0.1) as [S|S].
  - apply Rabs_le_inv in S.
    apply (small_slope (fun u => u + (log_q u * u * u * u - 1 / 2 * u * u) - ln (1 + u))
      (fun t => 1 + 3 * (5592405 / 16777216) * t ^ 2 - 4 * (4194303 / 16777216) * t ^ 3 + 5 * (3355563 / 16777216) * t ^ 4
        - 6 * (699109 / 4194304) * t ^ 5 + 7 * (9562559 / 67108864) * t ^ 6 - 8 * (16670031 / 134217728) * t ^ 7 + 9 * (7836301 / 67108864) * t ^ 8
        - 10 * (1931831 / 16777216) * t ^ 9 + 11 * (9445819 / 134217728) * t ^ 10 - t - 1 / (1 + t)) 0.1 2e-8).
    + cbv beta. rewrite Rplus_0_r, ln_1. ring.
    + intros t Ht. unfold log_q. auto_derive; [lra|]. field. lra.
    + intros t Ht. interval with (i_bisect t, i_taylor t, i_prec 60, i_degree 12).
    + exact S.
  - assert (U0 : u <> 0). { intros ->. apply S. rewrite Rabs_R0. lra. }
    replace (u + (log_q u * u * u * u - 1 / 2 * u * u) - ln (1 + u)) with ((1 + (log_q u * u * u - 1 / 2 * u) - ln (1 + u) / u) * u) by (field; exact U0).
    rewrite Rabs_mult. apply Rmult_le_compat_r; [apply Rabs_pos|]. unfold log_q.
    destruct (Rle_dec 0 u) as [P|P].
    + rewrite Rabs_pos_eq in S by exact P. assert (H : 0.1 <= u <= 0.41423) by lra. clear Hu S U0 P.
      interval with (i_bisect u, i_taylor u, i_prec 60, i_degree 12).
    + rewrite Rabs_left in S by lra. assert (H : - 0.29293 <= u <= - 0.1) by lra. clear Hu S U0 P.
      interval with (i_bisect u, i_taylor u, i_prec 60, i_degree 12).
Qed.
Lemma log_q_range u : - 0.29293 <= u <= 0.41423 -> 0.25 <= log_q u <= 0.43.
Proof. intros H. unfold log_q. split; interval with (i_bisect u, i_prec 60). Qed.
Lemma ln_ge u : - 0.29293 <= u <= 0.41423 -> 0.83 * Rabs u <= Rabs (ln (1 + u)).
Proof.
  intros H. pose proof (log_poly u H) as P. pose proof (log_q_range u H) as Q.
  assert (B : 0.835 * Rabs u <= Rabs (u + (log_q u * u * u * u - 1 / 2 * u * u))).
  { replace (u + (log_q u * u * u * u - 1 / 2 * u * u)) with (u * (1 + u * (log_q u * u - 1 / 2))) by ring. rewrite Rabs_mult, Rmult_comm.
    apply Rmult_le_compat_l; [apply Rabs_pos|]. rewrite Rabs_pos_eq; [|unfold log_q; clear P Q; interval with (i_bisect u, i_prec 60)]. 
    clear P Q. unfold log_q. interval with (i_bisect u, i_prec 60). }
  assert (C : Rabs (u + (log_q u * u * u * u - 1 / 2 * u * u)) <= Rabs (ln (1 + u)) + 2e-8 * Rabs u).
  { replace (u + (log_q u * u * u * u - 1 / 2 * u * u)) with (ln (1 + u) + (u + (log_q u * u * u * u - 1 / 2 * u * u) - ln (1 + u))) by ring.
    eapply Rle_trans; [apply Rabs_triang|]. lra. }
  pose proof (Rabs_pos u). lra.
Qed.
Lemma ln_range u : - 0.29293 <= u <= 0.41423 -> - 0.3467 <= ln (1 + u) <= 0.3467.
Proof. intros H. split; interval with (i_prec 60). Qed.
Lemma ln2_range : 0.6931 <= ln 2 <= 0.6932.
Proof. split; interval. Qed.
Lemma exp_small_rel x d : Rabs x <= d -> d <= 1e-4 -> Rabs (exp x - 1) <= 1.001 * d.
Proof.
  intros H1 H2. apply Rle_trans with (1.001 * Rabs x); [|pose proof (Rabs_pos x); lra].
  apply (small_slope (fun x => exp x - 1) exp 1e-4 1.001).
  - cbv beta. rewrite exp_0. ring.
  - intros t _. auto_derive; [exact I|ring].
  - intros t Ht. interval.
  - apply Rabs_le_inv. lra.
Qed.
