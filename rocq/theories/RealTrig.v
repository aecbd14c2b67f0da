(** Bounds on real functions, by interval arithmetic: sine, cosine, tangent. *)
From Coq Require Import ZArith Reals Lra Lia Bool.
From Flocq Require Import Core.
From Coquelicot Require Import Coquelicot.
From Interval Require Import Tactic.
From Verif Require Import RealTanh.
Local Open Scope R_scope.

(** Proof auxiliary: the cos polynomial with the exact values of its float
    coefficients. *)
Definition cos_p (z : R) : R := ((6716135 / 274877906944 * z - 5964557 / 4294967296) * z + 11184805 / 268435456) * z * z - 1 / 2 * z + 1.
(** Proof auxiliary: the same for sin. *)
Definition sin_q (z : R) : R := ((- (13410809 / 68719476736) * z + 4473295 / 536870912) * z - 11184803 / 67108864) * z.
(** Proof auxiliary: the same for tan. *)
Definition tan_q (z : R) : R := 11184751 / 33554432 + z * (4475767 / 33554432 + z * (7168511 / 134217728 + z * (1639825 / 67108864 +
  z * (6684479 / 2147483648 + z * (2520397 / 268435456))))).

Lemma cos_poly b : Rabs b <= 0.787 -> Rabs (cos_p (b * b) - cos b) <= 3e-8.
Proof. intros H. apply Rabs_le_inv in H. unfold cos_p. interval with (i_bisect b, i_taylor b, i_prec 60, i_degree 12). Qed.
(** relative to the argument: by the derivative near 0, by division elsewhere *)
Lemma odd_even_cases (f g : R -> R) b e : (forall x, x <> 0 -> f x = g x * x) -> f 0 = 0 ->
  (forall x, Rabs x <= 0.2 -> Rabs (f x) <= e * Rabs x) -> (forall x, 0.2 <= x <= b -> Rabs (g x) <= e) -> (forall x, g (- x) = g x) ->
  forall x, Rabs x <= b -> Rabs (f x) <= e * Rabs x.
Proof.
  intros HF F0 HS HL HE x Hx. destruct (Rle_dec (Rabs x) 0.2) as [S|S]; [apply HS; exact S|].
  assert (X0 : x <> 0) by (intros ->; rewrite Rabs_R0 in S; lra). rewrite HF, Rabs_mult by exact X0. apply Rmult_le_compat_r; [apply Rabs_pos|].
  unfold Rabs in Hx, S. destruct (Rcase_abs x); [rewrite <- HE|]; apply HL; lra.
Qed.
Lemma sin_poly b : Rabs b <= 0.787 -> Rabs (b * (1 + sin_q (b * b)) - sin b) <= 1e-8 * Rabs b.
Proof.
  apply (odd_even_cases (fun b => b * (1 + sin_q (b * b)) - sin b) (fun b => 1 + sin_q (b * b) - sin b / b)).
  - intros x X0. field. exact X0.
  - rewrite sin_0. ring.
  - clear b. intros b H. apply Rabs_le_inv in H.
    apply (small_slope (fun b => b * (1 + sin_q (b * b)) - sin b)
      (fun t => 1 - 3 * (11184803 / 67108864) * t ^ 2 + 5 * (4473295 / 536870912) * t ^ 4 - 7 * (13410809 / 68719476736) * t ^ 6 - cos t) 0.2 1e-8); [| | |exact H].
    + cbv beta. rewrite sin_0. ring.
    + intros t Ht. unfold sin_q. auto_derive; [exact I|]. field.
    + intros t Ht. interval with (i_bisect t, i_taylor t, i_prec 60, i_degree 12).
  - clear b. intros x H. unfold sin_q. interval with (i_bisect x, i_taylor x, i_prec 60, i_degree 12).
  - intros x. rewrite sin_neg. replace (- x * - x) with (x * x) by ring. destruct (Req_dec x 0) as [->|X0]; [rewrite Ropp_0; unfold Rdiv; rewrite sin_0; ring|]. field. exact X0.
Qed.
Lemma tan_slope t : cos t <> 0 -> is_derive tan t (1 + tan t ^ 2).
Proof.
  intros C. unfold tan. evar_last; [apply (is_derive_div sin cos t (cos t) (- sin t)); [apply is_derive_sin|apply is_derive_cos|exact C]|].
  cbn. field. exact C.
Qed.
Lemma tan_poly b : Rabs b <= 0.787 -> Rabs (b * (1 + b * b * tan_q (b * b)) - tan b) <= 5e-8 * Rabs b.
Proof.
  apply (odd_even_cases (fun b => b * (1 + b * b * tan_q (b * b)) - tan b) (fun b => 1 + b * b * tan_q (b * b) - tan b / b)).
  - intros x X0. field. exact X0.
  - rewrite tan_0. ring.
  - clear b. intros b H. apply Rabs_le_inv in H.
    apply (small_slope (fun b => b * (1 + b * b * tan_q (b * b)) - tan b)
      (fun t => 1 + 3 * (11184751 / 33554432) * t ^ 2 + 5 * (4475767 / 33554432) * t ^ 4 + 7 * (7168511 / 134217728) * t ^ 6 + 9 * (1639825 / 67108864) * t ^ 8
        + 11 * (6684479 / 2147483648) * t ^ 10 + 13 * (2520397 / 268435456) * t ^ 12 - (1 + (tan t) ^ 2)) 0.2 5e-8); [| | |exact H].
    + cbv beta. rewrite tan_0. ring.
    + intros t Ht. assert (C : cos t <> 0) by (apply Rgt_not_eq, cos_gt_0; interval).
      apply (is_derive_minus (fun b => b * (1 + b * b * tan_q (b * b))) tan).
      * unfold tan_q. auto_derive; [exact Logic.I|]. field.
      * apply tan_slope. exact C.
    + intros t Ht. interval with (i_bisect t, i_taylor t, i_prec 60, i_degree 12).
  - clear b. intros x H. unfold tan_q. interval with (i_bisect x, i_taylor x, i_prec 60, i_degree 12).
  - intros x. rewrite tan_neg. replace (- x * - x) with (x * x) by ring. destruct (Req_dec x 0) as [->|X0]; [rewrite Ropp_0; unfold Rdiv; rewrite tan_0; ring|]. field. exact X0.
Qed.
Lemma pi4_split : Rabs (201 / 256 + 2029 / 8388608 + 10625385 / 281474976710656 - PI / 4) <= 1e-15.
Proof. interval with (i_prec 80). Qed.
Lemma fop_err : Rabs (10680707 / 8388608 - 4 / PI) <= 6e-8. Proof. interval with (i_prec 60). Qed.
Lemma pi_range : 3.14159265 <= PI <= 3.14159266. Proof. split; interval. Qed.

(** Sine and cosine do not stretch distances. *)
Lemma sin_abs_le u : Rabs (sin u) <= Rabs u.
Proof.
  assert (P : forall v, 0 <= v -> Rabs (sin v) <= v).
  { intros v [V| <-]; [|rewrite sin_0, Rabs_R0; lra]. destruct (Rle_dec v 1) as [L|L].
    - rewrite Rabs_pos_eq; [left; apply sin_lt_x; exact V|]. apply sin_ge_0; [lra|]. pose proof PI_RGT_0. pose proof PI2_1. lra.
    - pose proof (SIN_bound v). apply Rabs_le. lra. }
  destruct (Rle_dec 0 u) as [H|H]; [rewrite (Rabs_pos_eq u) by lra; apply P; exact H|].
  rewrite <- (Rabs_Ropp u), (Rabs_pos_eq (- u)) by lra. rewrite <- (Rabs_Ropp (sin u)), <- sin_neg. apply P. lra.
Qed.
Lemma lip_sin x y : Rabs (sin x - sin y) <= Rabs (x - y).
Proof.
  rewrite form4. rewrite Rabs_mult, Rabs_mult, (Rabs_pos_eq 2) by lra. pose proof (sin_abs_le ((x - y) / 2)) as H.
  pose proof (COS_bound ((x + y) / 2)) as C. assert (C' : Rabs (cos ((x + y) / 2)) <= 1) by (apply Rabs_le; lra).
  assert (E : Rabs ((x - y) / 2) = Rabs (x - y) / 2) by (unfold Rdiv; rewrite Rabs_mult, (Rabs_pos_eq (/ 2)) by lra; reflexivity). rewrite E in H.
  pose proof (Rabs_pos (sin ((x - y) / 2))). pose proof (Rabs_pos (cos ((x + y) / 2))). nra.
Qed.
Lemma lip_cos x y : Rabs (cos x - cos y) <= Rabs (x - y).
Proof.
  rewrite <- !sin_shift. eapply Rle_trans; [apply lip_sin|]. right. rewrite <- Rabs_Ropp. f_equal. ring.
Qed.
Lemma sin_low b : Rabs b <= 0.787 -> Rabs b <= 1.118 * Rabs (sin b).
Proof.
  intros H. pose proof (sin_poly b H) as P. assert (Z : 0 <= b * b <= 0.62) by (apply Rabs_le_inv in H; nra).
  assert (Q : 0.895 <= 1 + sin_q (b * b)). { unfold sin_q. set (z := b * b) in *. nra. }
  assert (A : Rabs (b * (1 + sin_q (b * b))) = Rabs b * (1 + sin_q (b * b))) by (rewrite Rabs_mult, (Rabs_pos_eq (1 + _)) by lra; reflexivity).
  pose proof (Rabs_pos b). pose proof (Rabs_triang_inv (b * (1 + sin_q (b * b))) (b * (1 + sin_q (b * b)) - sin b)) as T.
  replace (b * (1 + sin_q (b * b)) - (b * (1 + sin_q (b * b)) - sin b)) with (sin b) in T by ring. rewrite A in T. nra.
Qed.
Lemma cos_low t : Rabs t <= 0.7867 -> 0.706 <= cos t.
Proof. intros H. apply Rabs_le_inv in H. interval. Qed.

(** The four quadrants. *)
Lemma sin_quad t k : (0 <= k)%Z -> sin (t + IZR k * (PI / 2)) =
  let p := if Z.even k then sin t else cos t in if Z.odd (k / 2) then - p else p.
Proof.
  intros K. pose proof (Z.div_mod k 4 ltac:(lia)) as D. pose proof (Z.mod_pos_bound k 4 ltac:(lia)) as M. set (q := (k / 4)%Z) in *. set (r := (k mod 4)%Z) in *.
  assert (Q : (0 <= q)%Z) by (apply Z.div_pos; lia). clearbody q r. subst k.
  assert (E : t + IZR (4 * q + r) * (PI / 2) = (t + IZR r * (PI / 2)) + 2 * INR (Z.to_nat q) * PI).
  { rewrite plus_IZR, mult_IZR, INR_IZR_INZ, Z2Nat.id by exact Q. field. }
  rewrite E, sin_period. assert (R : r = 0%Z \/ r = 1%Z \/ r = 2%Z \/ r = 3%Z) by lia.
  assert (EV : Z.even (4 * q + r) = Z.even r) by (rewrite Z.even_add, Z.even_mul; destruct (Z.even r); reflexivity).
  assert (OD : Z.odd ((4 * q + r) / 2) = Z.odd (r / 2)).
  { replace (4 * q + r)%Z with (r + (2 * q) * 2)%Z by ring. rewrite Z.div_add by lia. rewrite Z.odd_add, Z.odd_mul. cbn [Z.odd andb]. apply xorb_false_r. }
  cbv zeta. rewrite EV, OD. destruct R as [-> |[-> |[-> | ->]]]; cbn [Z.even Z.odd Z.div Z.div_eucl Z.pos_div_eucl Z.leb Z.ltb Z.compare Pos.compare Pos.compare_cont Z.sub Z.add Z.mul Z.opp Z.pos_sub Pos.pred_double Z.pred_double Z.double Z.succ_double Pos.add Pos.mul fst].
  - f_equal. ring.
  - rewrite Rmult_1_l. rewrite Rplus_comm. rewrite <- cos_sin. reflexivity.
  - replace (t + 2 * (PI / 2)) with (t + PI) by field. apply neg_sin.
  - replace (t + 3 * (PI / 2)) with (PI / 2 + (t + PI)) by field. rewrite <- cos_sin, neg_cos. reflexivity.
Qed.
Lemma cos_quad t k : (0 <= k)%Z -> cos (t + IZR k * (PI / 2)) =
  let p := if Z.odd k then sin t else cos t in if Z.odd ((k + 1) / 2) then - p else p.
Proof.
  intros K. rewrite cos_sin. replace (PI / 2 + (t + IZR k * (PI / 2))) with (t + IZR (k + 1) * (PI / 2)) by (rewrite plus_IZR; field).
  rewrite sin_quad by lia. cbv zeta. rewrite Z.even_add. rewrite <- Z.negb_odd. destruct (Z.odd k); reflexivity.
Qed.

Lemma lip_tan b t : Rabs b <= 0.7867 -> Rabs t <= 0.7867 -> Rabs (tan b - tan t) <= 2.007 * Rabs (b - t).
Proof.
  intros Hb Ht. pose proof (cos_low b Hb) as C1. pose proof (cos_low t Ht) as C2.
  assert (E : tan b - tan t = sin (b - t) * / (cos b * cos t)) by (rewrite sin_minus; unfold tan; field; lra).
  assert (P : 0.4984 <= cos b * cos t) by nra. rewrite E, Rabs_mult. pose proof (sin_abs_le (b - t)) as S.
  rewrite (Rabs_pos_eq (/ _)) by (left; apply Rinv_0_lt_compat; lra).
  assert (I : / (cos b * cos t) <= 2.007) by (apply Rmult_le_reg_r with (cos b * cos t); [lra|]; rewrite Rinv_l by lra; lra).
  assert (0 < / (cos b * cos t)) by (apply Rinv_0_lt_compat; lra). pose proof (Rabs_pos (sin (b - t))). nra.
Qed.
Lemma tan_low b : Rabs b <= 0.787 -> Rabs b <= 1.0000001 * Rabs (tan b).
Proof.
  intros H. pose proof (tan_poly b H) as P. assert (Z : 0 <= b * b <= 0.62) by (apply Rabs_le_inv in H; nra).
  assert (Q : 1 <= 1 + b * b * tan_q (b * b)).
  { assert (0 <= tan_q (b * b)); [|nra]. unfold tan_q. set (z := b * b) in *. repeat (apply Rplus_le_le_0_compat; [lra|apply Rmult_le_pos; [lra|]]). lra. }
  set (U := 1 + b * b * tan_q (b * b)) in *. clearbody U.
  assert (A : Rabs (b * U) = Rabs b * U) by (rewrite Rabs_mult, (Rabs_pos_eq U) by lra; reflexivity).
  pose proof (Rabs_pos b). pose proof (Rabs_triang_inv (b * U) (b * U - tan b)) as T.
  replace (b * U - (b * U - tan b)) with (tan b) in T by ring. rewrite A in T. nra.
Qed.
Lemma tan_quad t k : (0 <= k)%Z -> Rabs t <= 0.7867 -> sin t <> 0 \/ Z.even k = true ->
  tan (t + IZR k * (PI / 2)) = if Z.even k then tan t else - / tan t.
Proof.
  intros K Ht NZ. pose proof (cos_low t Ht) as C. unfold tan. rewrite sin_quad, cos_quad by exact K. cbv zeta. rewrite <- (Z.negb_even k).
  assert (D : Z.odd ((k + 1) / 2) = if Z.even k then Z.odd (k / 2) else negb (Z.odd (k / 2))).
  { pose proof (Z.div_mod k 2 ltac:(lia)) as D. rewrite Zmod_even in D. destruct (Z.even k).
    - f_equal. rewrite D at 1. replace (2 * (k / 2) + 0 + 1)%Z with (1 + (k / 2) * 2)%Z by ring. rewrite Z.div_add by lia. reflexivity.
    - rewrite D at 1. replace (2 * (k / 2) + 1 + 1)%Z with (0 + (k / 2 + 1) * 2)%Z by ring. rewrite Z.div_add by lia. rewrite Z.add_0_l, Z.odd_add.
      destruct (Z.odd (k / 2)); reflexivity. }
  rewrite D. destruct (Z.even k); cbn [negb].
  - destruct (Z.odd (k / 2)); field; lra.
  - destruct NZ as [NZ|NZ]; [|discriminate]. destruct (Z.odd (k / 2)); cbn [negb]; field; split; lra.
Qed.
