(** Bounds on real functions, by interval arithmetic. *)
From Coq Require Import Reals Lra.
From Flocq Require Import Core.
From Interval Require Import Tactic.
Local Open Scope R_scope.

(** ** exp *)
Lemma exp_poly g : - 0.36 <= g <= 0.36 ->
  Rabs (1 + g * (8388611 / 8388608 + g * (16777205 / 33554432 + g * (11184069 / 67108864 + g * (2796431 / 67108864 +
    g * (9041757 / 1073741824 + g * (1488335 / 1073741824)))))) - exp g) <= 4e-8.
Proof. intros H. interval with (i_bisect g, i_taylor g, i_prec 60, i_degree 10). Qed.
Lemma ln2_split : Rabs (355 / 512 - 14581891 / 68719476736 - ln 2) <= 2e-12.
Proof. interval with (i_prec 60). Qed.
Lemma exp_small d : Rabs d <= 3e-10 -> Rabs (exp d - 1) <= 4e-10.
Proof. intros H. apply Rabs_le_inv in H. interval with (i_taylor d, i_prec 80). Qed.
Lemma exp_range_bounds g : - 0.35 <= g <= 0.35 -> 0.7 <= exp g <= 1.42.
Proof. intros H. split; interval. Qed.
Lemma exp_low_edge : / 85070591730234615865843651857942052864 <= exp (- 87.33) * (1 - 3e-7).
Proof. interval with (i_prec 80). Qed.
Lemma exp_high_edge : exp (11629079 / 131072) * (1 + 3e-7) < 340282366920938463463374607431768211456.
Proof. interval with (i_prec 80). Qed.
Lemma exp_027 g : 0.029 <= g -> 1.01 <= exp g.
Proof.
  intros H. assert (A : 1.01 <= exp 0.029) by (clear; interval with (i_prec 80)). eapply Rle_trans; [exact A|].
  destruct H as [H| <-]; [left; apply exp_increasing; exact H|right; reflexivity].
Qed.
