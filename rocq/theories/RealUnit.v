(** Real-analysis facts for the unit conversions. *)
From Coq Require Import Reals Lra.
From Coquelicot Require Import Coquelicot.
From Flocq Require Import Core.
From Interval Require Import Tactic.
From Verif Require Import RealTanh.
Local Open Scope R_scope.

Lemma ln10_range : 2.3025 <= ln 10 <= 2.3026. Proof. split; interval. Qed.
Lemma ln_small u d : Rabs u <= d -> d <= 1e-4 -> Rabs (ln (1 + u)) <= 1.001 * d.
Proof.
  intros H1 H2. apply Rle_trans with (1.001 * Rabs u); [|pose proof (Rabs_pos u); lra].
  apply (small_slope (fun u => ln (1 + u)) (fun u => / (1 + u)) 1e-4 1.001).
  - cbv beta. rewrite Rplus_0_r. apply ln_1.
  - intros t Ht. auto_derive; [lra|field; lra].
  - intros t Ht. interval.
  - apply Rabs_le_inv. lra.
Qed.
Lemma ln_near x X d : 0 < X -> Rabs (x - X) <= d * X -> d <= 1e-4 -> Rabs (ln x - ln X) <= 1.001 * d.
Proof.
  intros PX H D. assert (E : x = X * (1 + (x - X) / X)) by (field; lra). set (u := (x - X) / X) in *.
  assert (U : Rabs u <= d).
  { unfold u, Rdiv. rewrite Rabs_mult, (Rabs_pos_eq (/ X)) by (left; apply Rinv_0_lt_compat; exact PX).
    apply Rmult_le_reg_r with X; [exact PX|]. rewrite Rmult_assoc, Rinv_l, Rmult_1_r by lra. exact H. }
  assert (P : 0 < 1 + u) by (apply Rabs_le_inv in U; lra).
  rewrite E, ln_mult by lra. replace (ln X + ln (1 + u) - ln X) with (ln (1 + u)) by ring. apply ln_small; assumption.
Qed.
Lemma rlog2_err : Rabs (12102203 / 8388608 - / ln 2) <= 3e-8 * / ln 2. Proof. interval with (i_prec 60). Qed.
Lemma rlog10_err : Rabs (14572505 / 33554432 - / ln 10) <= 3e-8 * / ln 10. Proof. interval with (i_prec 60). Qed.
Lemma ln_away x : 0 < x -> / 16777216 <= Rabs (x - 1) -> 1e-8 <= Rabs (ln x).
Proof.
  intros P H. destruct (Rle_dec x 1) as [L|L].
  - rewrite Rabs_left1 in H by lra. rewrite Rabs_left1 by (rewrite <- ln_1; destruct (Req_dec x 1) as [->|]; [lra|left; apply ln_increasing; lra]).
    assert (ln x <= ln (1 - / 16777216)) by (destruct (Req_dec x (1 - / 16777216)) as [->|]; [lra|left; apply ln_increasing; lra]).
    assert (ln (1 - / 16777216) <= - 1e-8) by interval with (i_prec 60). lra.
  - rewrite Rabs_pos_eq in H by lra. assert (ln (1 + / 16777216) <= ln x) by (destruct (Req_dec x (1 + / 16777216)) as [->|]; [lra|left; apply ln_increasing; lra]).
    assert (1e-8 <= ln (1 + / 16777216)) by interval with (i_prec 60). rewrite Rabs_pos_eq by lra. lra.
Qed.
Lemma exp_86 T : Rabs T <= 77 -> exp T <= 3e33.
Proof. intros H. apply Rabs_le_inv in H. interval. Qed.
Lemma exp_lo T : - 4 <= T <= 3.4 -> 0.018 <= exp T. Proof. intros H. interval. Qed.
Lemma exp_hi T : - 4 <= T <= 3.4 -> exp T <= 30. Proof. intros H. interval. Qed.
Lemma exp_lo23 T : - 23.1 <= T <= 23.1 -> 9.1e-11 <= exp T. Proof. intros H. interval. Qed.
Lemma ln_three_halves : 0.4 <= ln (3 * / 2) <= 0.41. Proof. split; interval. Qed.
Lemma exp_m88_real : 6e-39 <= exp (- 88). Proof. interval. Qed.
