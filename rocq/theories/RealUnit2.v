(** Real-number facts for the unit conversions in double precision. *)
From Coq Require Import Reals Lra.
From Coquelicot Require Import Coquelicot.
From Flocq Require Import Core.
From Interval Require Import Tactic.
Local Open Scope R_scope.
Lemma ln2_fine : 0.69314718 <= ln 2 <= 0.69314719. Proof. split; interval. Qed.
Lemma ln10_fine : 2.30258509 <= ln 10 <= 2.3025851. Proof. split; interval. Qed.
Lemma inv_ln2_fine : 1.44269504 <= / ln 2 <= 1.44269505. Proof. split; interval. Qed.
Lemma inv_ln10_fine : 0.43429448 <= / ln 10 <= 0.43429449. Proof. split; interval. Qed.
Lemma octave_short : 2 - 5.6e-12 <= Rpower 2 0.999999999996 <= 2 - 5.5e-12.
Proof. unfold Rpower. split; interval with (i_prec 80). Qed.
Lemma concert_a_short : ln 0.999999999988 / ln 2 <= - 1.73e-11.
Proof. interval with (i_prec 80). Qed.
Lemma pow2_range x : -100.1 <= x <= 100.1 -> 1e-31 <= Rpower 2 x <= 1e31.
Proof. intros H. unfold Rpower. split; interval. Qed.
Lemma ln_e33 : -77 <= ln 1e-33 /\ ln 1e33 <= 77. Proof. split; interval. Qed.
Lemma log2_single : 0.6931471805 <= ln 2 <= 0.6931471806. Proof. split; interval. Qed.
Lemma rlog2_short : 12102203 / 8388608 <= (1 - 1.334e-8) * / ln 2 /\ (1 - 1.336e-8) * / ln 2 <= 12102203 / 8388608.
Proof. split; interval with (i_prec 60). Qed.
Lemma concert_a_low : -1.9e-11 <= ln 0.999999999988 / ln 2. Proof. interval with (i_prec 80). Qed.
Lemma exp_le_c x y : x <= y -> exp x <= exp y.
Proof. intros [H| ->]; [left; apply exp_increasing; exact H|right; reflexivity]. Qed.
