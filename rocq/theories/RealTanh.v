(** Bounds on real functions, by interval arithmetic: tanh, and functions that
    vanish at zero. *)
From Coq Require Import Reals Lra.
From Flocq Require Import Core.
From Coquelicot Require Import Coquelicot.
From Interval Require Import Tactic.
Local Open Scope R_scope.

(** A function that vanishes at 0 and has a small derivative is small relative
    to its argument. *)
Lemma small_slope f f' b e x : f 0 = 0 -> (forall t, - b <= t <= b -> is_derive f t (f' t)) ->
  (forall t, - b <= t <= b -> Rabs (f' t) <= e) -> - b <= x <= b -> Rabs (f x) <= e * Rabs x.
Proof.
  intros F0 D B Hx.
  assert (G : forall t, Rmin 0 x <= t <= Rmax 0 x -> - b <= t <= b).
  { intros t. unfold Rmin, Rmax. destruct (Rle_dec 0 x); lra. }
  destruct (MVT_gen f 0 x f') as (t & Ht & E).
  - intros t Ht. apply D, G. lra.
  - intros t Ht. apply ex_derive_continuous_pt || apply continuity_pt_filterlim, (ex_derive_continuous f). exists (f' t). apply D, G, Ht.
  - rewrite F0, !Rminus_0_r in E. rewrite E, Rabs_mult. apply Rmult_le_compat_r; [apply Rabs_pos|]. apply B, G, Ht.
Qed.

(** ** tanh *)
Lemma tanh_exp x : tanh x = 1 - 2 / (exp (2 * x) + 1).
Proof.
  unfold tanh, sinh, cosh. replace (2 * x) with (x + x) by ring. rewrite exp_plus, exp_Ropp. pose proof (exp_pos x). field. split; nra.
Qed.
Lemma tanh_opp x : tanh (- x) = - tanh x.
Proof. unfold tanh, sinh, cosh. rewrite Ropp_involutive. pose proof (exp_pos x). pose proof (exp_pos (- x)). field. lra. Qed.
(** Proof auxiliary: the tanh polynomial with the exact values of its float
    coefficients. *)
Definition tanh_q (s : R) : R := (((- (6125685 / 1073741824) * s + 5540263 / 268435456) * s + - (14425645 / 268435456)) * s + 8946579 / 67108864) * s
  + - (11184793 / 33554432).
Lemma tanh_poly x : Rabs x <= 0.625 -> Rabs (x * (1 + tanh_q (x * x) * (x * x)) - tanh x) <= 1e-8 * Rabs x.
Proof.
  assert (P : forall x, 0 <= x <= 0.625 -> Rabs (x * (1 + tanh_q (x * x) * (x * x)) - tanh x) <= 1e-8 * Rabs x).
  2:{ intros H. apply Rabs_le_inv in H. destruct (Rle_dec 0 x) as [L|L]; [apply P; lra|].
      assert (Q := P (- x) ltac:(lra)). rewrite tanh_opp, Rabs_Ropp in Q. replace (- x * - x) with (x * x) in Q by ring.
      replace (- x * (1 + tanh_q (x * x) * (x * x)) - - tanh x) with (- (x * (1 + tanh_q (x * x) * (x * x)) - tanh x)) in Q by ring.
      rewrite Rabs_Ropp in Q. exact Q. }
  clear x. intros x Hx. rewrite tanh_exp. destruct (Rle_dec x 0.1) as [S|S].
  - apply (small_slope (fun x => x * (1 + tanh_q (x * x) * (x * x)) - (1 - 2 / (exp (2 * x) + 1)))
      (fun t => 1 + 3 * (- (11184793 / 33554432)) * t ^ 2 + 5 * (8946579 / 67108864) * t ^ 4 + 7 * (- (14425645 / 268435456)) * t ^ 6
        + 9 * (5540263 / 268435456) * t ^ 8 + 11 * (- (6125685 / 1073741824)) * t ^ 10 - 4 * exp (2 * t) / (exp (2 * t) + 1) ^ 2) 0.1 1e-8).
    + cbv beta. rewrite (Rmult_0_r 2), exp_0. field.
    + intros t Ht. unfold tanh_q. auto_derive.
      * pose proof (exp_pos (2 * t)). lra.
      * pose proof (exp_pos (2 * t)). field. lra.
    + intros t Ht. interval with (i_bisect t, i_taylor t, i_prec 60, i_degree 12).
    + lra.
  - rewrite (Rabs_pos_eq x) by lra. 
    replace (x * (1 + tanh_q (x * x) * (x * x)) - (1 - 2 / (exp (2 * x) + 1))) with
      ((1 + tanh_q (x * x) * (x * x) - (1 - 2 / (exp (2 * x) + 1)) / x) * x) by (pose proof (exp_pos (2 * x)); field; lra).
    rewrite Rabs_mult, (Rabs_pos_eq x) by lra. apply Rmult_le_compat_r; [lra|]. unfold tanh_q.
    assert (Hy : 0.1 <= x <= 0.625) by lra. clear Hx S. interval with (i_bisect x, i_taylor x, i_prec 60, i_degree 12).
Qed.
Lemma tanh_range x : Rabs (tanh x) < 1.
Proof. rewrite tanh_exp. pose proof (exp_pos (2 * x)). assert (0 < 2 / (exp (2 * x) + 1) < 2).
  { split; [apply Rdiv_lt_0_compat; lra|]. apply Rmult_lt_reg_r with (exp (2 * x) + 1); [lra|]. unfold Rdiv. rewrite Rmult_assoc, Rinv_l by lra. lra. }
  apply Rabs_lt. lra. Qed.
Lemma tanh_625 x : 0.625 <= x -> 0.55 <= tanh x.
Proof.
  intros H. rewrite tanh_exp. assert (A : exp 1.25 <= exp (2 * x)).
  { destruct (Req_dec (2 * x) 1.25) as [-> |]; [lra|]. left. apply exp_increasing. lra. }
  assert (3.49 <= exp 1.25) by (clear; interval with (i_prec 60)).
  assert (2 / (exp (2 * x) + 1) <= 0.45); [|lra]. apply Rmult_le_reg_r with (exp (2 * x) + 1); [lra|]. unfold Rdiv. rewrite Rmult_assoc, Rinv_l by lra. lra.
Qed.
Lemma exp_125 : 3.49 <= exp 1.25. Proof. interval with (i_prec 60). Qed.
Lemma exp_44 : exp 44 <= 1.3e19. Proof. interval with (i_prec 60). Qed.
Lemma tanh_22 x : 22 <= x -> 1 - 1e-18 <= tanh x.
Proof.
  intros H. rewrite tanh_exp. assert (A : exp 44 <= exp (2 * x)).
  { destruct (Req_dec (2 * x) 44) as [-> |]; [lra|]. left. apply exp_increasing. lra. }
  assert (1e19 <= exp 44) by (clear; interval with (i_prec 60)).
  assert (2 / (exp (2 * x) + 1) <= 1e-18); [|lra]. apply Rmult_le_reg_r with (exp (2 * x) + 1); [lra|]. unfold Rdiv. rewrite Rmult_assoc, Rinv_l by lra. lra.
Qed.
Lemma tanh_q_range s : 0 <= s <= 0.390625 -> - 0.135 <= tanh_q s * s <= 0.
Proof. intros H. unfold tanh_q. split; interval with (i_bisect s, i_prec 60). Qed.
