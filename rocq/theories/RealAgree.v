(** Bounds on real functions, by interval arithmetic: no result is small, unless
    the argument is. *)
From Coq Require Import ZArith Reals Ratan Lra Lia Bool Psatz.
From Flocq Require Import Core.
From Coquelicot Require Import Coquelicot.
From Interval Require Import Tactic.
From Verif Require Import RealTanh RealTrig RealArc.
Local Open Scope R_scope.

Lemma sin_lowest d b q : Rabs d <= b -> 0 <= b <= 0.2 -> 0 <= q -> q <= 1 - 1e-8 - 0.16667 * (b * b) -> q * Rabs d <= Rabs (sin d).
Proof.
  intros H B Q0 HQ. pose proof (sin_poly d ltac:(lra)) as P. pose proof (Rabs_pos d) as PD.
  assert (Z : 0 <= d * d <= b * b). { split; [nra|]. rewrite <- (Rabs_pos_eq (d * d)), Rabs_mult by nra. apply Rmult_le_compat; lra. }
  assert (Z' : b * b <= 0.04) by nra.
  assert (S : 1 - 0.16667 * (b * b) <= 1 + sin_q (d * d)). { unfold sin_q. set (z := d * d) in *. clearbody z. nra. }
  set (U := 1 + sin_q (d * d)) in *. clearbody U.
  assert (A : Rabs (d * U) = Rabs d * U) by (rewrite Rabs_mult, (Rabs_pos_eq U) by nra; reflexivity).
  pose proof (Rabs_triang_inv (d * U) (d * U - sin d)) as T. replace (d * U - (d * U - sin d)) with (sin d) in T by ring. rewrite A in T. nra.
Qed.
Lemma sin_away r : Rabs r <= 3.2 -> 8.7e-8 <= Rabs (Rabs r - PI) -> 2.6e-8 * Rabs r <= Rabs (sin r).
Proof.
  intros B A. assert (E : Rabs (sin r) = Rabs (sin (Rabs r))).
  { unfold Rabs at 3. destruct (Rcase_abs r); [rewrite sin_neg, Rabs_Ropp|]; reflexivity. }
  rewrite E. clear E. set (a := Rabs r) in *. assert (P : 0 <= a) by apply Rabs_pos. clearbody a. clear r.
  destruct (Rle_dec a 0.2) as [C|C].
  - pose proof (sin_lowest a 0.2 0.9 ltac:(rewrite Rabs_pos_eq; lra) ltac:(lra) ltac:(lra) ltac:(lra)) as S. rewrite (Rabs_pos_eq a) in S by exact P. lra.
  - destruct (Rle_dec a 3) as [D|D].
    + assert (G : 0.2 <= a <= 3) by lra. assert (0.14 <= sin a) by (clear - G; interval with (i_bisect a)). rewrite Rabs_pos_eq by lra. lra.
    + assert (S : Rabs (sin a) = Rabs (sin (a - PI))).
      { replace a with ((a - PI) + PI) at 1 by ring. rewrite neg_sin, Rabs_Ropp. reflexivity. }
      rewrite S. assert (Q : Rabs (a - PI) <= 0.15) by (assert (3.1415 <= PI <= 3.1416) by (clear; split; interval); apply Rabs_le; lra).
      pose proof (sin_lowest (a - PI) 0.15 0.996 Q ltac:(lra) ltac:(lra) ltac:(lra)) as L. lra.
Qed.
Lemma cos_away r : Rabs r <= 3.2 -> 4.3e-8 <= Rabs (Rabs r - PI / 2) -> 2.6e-8 * Rabs r <= Rabs (cos r).
Proof.
  intros B A. assert (E : cos r = cos (Rabs r)).
  { unfold Rabs. destruct (Rcase_abs r); [rewrite cos_neg|]; reflexivity. }
  rewrite E. clear E. set (a := Rabs r) in *. assert (P : 0 <= a) by apply Rabs_pos. clearbody a. clear r.
  assert (PB : 3.1415 <= PI <= 3.1416) by (clear; split; interval).
  assert (S : cos a = sin (PI / 2 - a)) by (rewrite sin_shift; reflexivity).
  destruct (Rle_dec (Rabs (PI / 2 - a)) 0.05) as [C|C].
  - rewrite S. pose proof (sin_lowest (PI / 2 - a) 0.05 0.9995 C ltac:(lra) ltac:(lra) ltac:(lra)) as L. rewrite <- Rabs_Ropp in A. replace (- (a - PI / 2)) with (PI / 2 - a) in A by ring.
    apply Rabs_le_inv in C. lra.
  - destruct (Rle_dec a (PI / 2)) as [D|D].
    + assert (G : 0 <= a <= 1.521) by (rewrite Rabs_pos_eq in C by lra; lra). assert (0.04 <= cos a) by (clear - G; interval with (i_bisect a)). rewrite Rabs_pos_eq by lra. lra.
    + assert (G : 1.62 <= a <= 3.2) by (rewrite Rabs_left in C by lra; lra). assert (cos a <= - 0.04) by (clear - G; interval with (i_bisect a)). rewrite Rabs_left by lra. lra.
Qed.
Lemma tan_away r : Rabs r <= 1.5 -> 0.9 * Rabs r <= Rabs (tan r) <= 15.
Proof.
  intros B. assert (E : Rabs (tan r) = tan (Rabs r) /\ (Rabs r <= 0.787 \/ 0.787 <= Rabs r)).
  { split; [|lra]. assert (forall a, 0 <= a <= 1.5 -> 0 <= tan a). { intros a Ha. destruct (Req_dec a 0) as [->|N]; [rewrite tan_0; lra|]. left. apply tan_gt_0; [lra|]. assert (3.1415 <= PI) by (clear; interval). lra. }
    pose proof (Rabs_pos r) as P. unfold Rabs in *. destruct (Rcase_abs r) as [C|C].
    - pose proof (H (- r) ltac:(lra)) as Q. rewrite tan_neg in Q |- *. destruct (Rcase_abs (tan r)); lra.
    - pose proof (H r ltac:(lra)). destruct (Rcase_abs (tan r)); lra. }
  destruct E as [E H]. rewrite E. pose proof (Rabs_pos r) as P. set (a := Rabs r) in *. clearbody a. clear E r. destruct H as [H|H].
  - pose proof (tan_low a ltac:(rewrite Rabs_pos_eq; lra)) as L. rewrite (Rabs_pos_eq a) in L by exact P.
    assert (G : 0 <= a <= 0.787) by lra. assert (-1 <= tan a <= 1.1) by (clear - G; unfold tan; split; interval with (i_bisect a)).
    assert (T : 0 <= tan a). { destruct (Req_dec a 0) as [->|N]; [rewrite tan_0; lra|]. left. apply tan_gt_0; [lra|]. assert (3.1415 <= PI) by (clear; interval). lra. }
    rewrite (Rabs_pos_eq (tan a)) in L by exact T. lra.
  - assert (G : 0.787 <= a <= 1.5) by lra. clear - G. split.
    + assert (0.99 <= tan a); [|destruct (Rle_dec a 1.1); [lra|]].
      * unfold tan. interval with (i_bisect a).
      * assert (G' : 1.1 <= a <= 1.5) by lra. assert (1.8 <= tan a) by (unfold tan; clear - G'; interval with (i_bisect a)). lra.
    + unfold tan. interval with (i_bisect a).
Qed.
Lemma atan_away r : (Rabs r <= 0.4142 -> 0.9 * Rabs r <= Rabs (atan r)) /\ (0.4142 <= Rabs r -> 0.39 <= Rabs (atan r)) /\ Rabs (atan r) <= 2.
Proof.
  split; [|split].
  - intros H. pose proof (atan_low r ltac:(lra)). pose proof (Rabs_pos r). lra.
  - intros H. assert (E : Rabs (atan r) = Rabs (atan (Rabs r))) by (unfold Rabs at 3; destruct (Rcase_abs r); [rewrite atan_opp, Rabs_Ropp|]; reflexivity).
    rewrite E. pose proof (atan_mid (Rabs r) H). rewrite Rabs_pos_eq by lra. lra.
  - pose proof (atan_bound r) as B. assert (PI <= 3.2) by (clear; interval). apply Rabs_le. lra.
Qed.
Lemma tanh_away r : (Rabs r <= 0.625 -> 0.8 * Rabs r <= Rabs (tanh r)) /\ (0.625 <= Rabs r -> 0.55 <= Rabs (tanh r)).
Proof.
  split.
  - intros H. pose proof (tanh_poly r H) as P. assert (Z : 0 <= r * r <= 0.390625) by (apply Rabs_le_inv in H; nra). pose proof (tanh_q_range _ Z) as Q.
    set (U := 1 + tanh_q (r * r) * (r * r)) in *. assert (UB : 0.86 <= U) by (unfold U; lra). clearbody U.
    assert (A : Rabs (r * U) = Rabs r * U) by (rewrite Rabs_mult, (Rabs_pos_eq U) by lra; reflexivity). pose proof (Rabs_pos r).
    pose proof (Rabs_triang_inv (r * U) (r * U - tanh r)) as T. replace (r * U - (r * U - tanh r)) with (tanh r) in T by ring. rewrite A in T. nra.
  - intros H. assert (E : Rabs (tanh r) = Rabs (tanh (Rabs r))) by (unfold Rabs at 3; destruct (Rcase_abs r); [rewrite tanh_opp, Rabs_Ropp|]; reflexivity).
    rewrite E. pose proof (tanh_625 _ H). rewrite Rabs_pos_eq by lra. lra.
Qed.
Lemma asin_away r : Rabs r <= 1 -> Rabs r <= Rabs (asin r) <= 2.
Proof. intros H. split; [apply asin_low; exact H|]. pose proof (asin_bound r) as B. assert (PI <= 3.2) by (clear; interval). apply Rabs_le. lra. Qed.
Lemma acos_away r : -1 <= r <= 1 - / 33554432 -> 1e-4 <= acos r <= 3.2.
Proof.
  intros H. pose proof (acos_bound r) as B. assert (PI <= 3.2) by (clear; interval). split; [|lra].
  destruct (Rle_dec 1e-4 (acos r)) as [|N]; [assumption|exfalso]. pose proof (cos_acos r ltac:(lra)) as E.
  assert (G : 0 <= acos r <= 1e-4) by lra. set (a := acos r) in *. clearbody a. assert (1 - 1e-8 <= cos a) by (clear - G; interval with (i_taylor a)). lra.
Qed.
Lemma exp_away r : -87 <= r <= 87 -> 1.5e-38 <= exp r <= 1e38.
Proof.
  intros H. assert (exp (-87) <= exp r <= exp 87).
  { split; [destruct (Req_dec r (-87)) as [->|]|destruct (Req_dec r 87) as [->|]]; try lra; left; apply exp_increasing; lra. }
  assert (1.5e-38 <= exp (-87)) by (clear; interval with (i_prec 80)). assert (exp 87 <= 1e38) by (clear; interval with (i_prec 80)). lra.
Qed.
Lemma pi_grid k : 8.7e-8 <= Rabs (IZR k * / 4194304 - PI).
Proof.
  assert (P : 13176794.63 <= PI * 4194304 <= 13176794.634) by (split; interval with (i_prec 60)).
  destruct (Z_le_gt_dec k 13176794) as [H|H].
  - apply IZR_le in H. rewrite Rabs_left1; lra.
  - assert (H' : (13176795 <= k)%Z) by lia. apply IZR_le in H'. rewrite Rabs_pos_eq; lra.
Qed.
Lemma pi2_grid k : 4.3e-8 <= Rabs (IZR k * / 8388608 - PI / 2).
Proof.
  assert (P : 13176794.63 <= PI * 4194304 <= 13176794.634) by (split; interval with (i_prec 60)).
  destruct (Z_le_gt_dec k 13176794) as [H|H].
  - apply IZR_le in H. rewrite Rabs_left1; lra.
  - assert (H' : (13176795 <= k)%Z) by lia. apply IZR_le in H'. rewrite Rabs_pos_eq; lra.
Qed.
Lemma pi_value : 3.1415 <= PI <= 3.1416. Proof. split; interval. Qed.
Lemma octaves r : 1 <= r <= 30000 -> Rabs (ln (r / 440) / ln 2) <= 8.8.
Proof. intros H. interval. Qed.
Lemma ln_quarter x : 0.15 <= x <= 0.28 -> Rabs (2 * ln x) <= 87.
Proof. intros H. interval. Qed.
Lemma ln_two_ten : Rabs (10 * ln 2) <= 87.
Proof. interval. Qed.
