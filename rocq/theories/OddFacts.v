(** Rounding errors of x + x * x^2 * P, the form shared by tangent and arc sine. *)
From Coq Require Import ZArith Reals List Lia Lra Bool.
From Flocq Require Import Core IEEE754.Binary IEEE754.Bits.
From Verif Require Import Base Backend Lanes Float LaneOps FloatFacts FloatRound LaneFacts VecFacts VecMore VecMore2 RoundFacts RoundMore ErrFacts LastStep NearFacts.
Local Open Scope R_scope.

Section N.
Context (n : nans F32).
(** Proof auxiliary: x * (x * x) as the code computes it. *)
Definition cube_of (x : F F32) := fmul n x (fmul n x x).
Lemma near_cube x : isfin x = true -> Rabs (val x) <= 1 -> near (cube_of x) (val x * val x * val x) 1 1.2e-7 2.1 (Rabs (val x) * Rabs (val x) * Rabs (val x)).
Proof.
  intros Fx Bx. pose proof (near_exact x Fx Bx) as NU. set (w := Rabs (val x)) in *. assert (W : 0 <= w) by apply Rabs_pos.
  assert (N1 := near_mul n _ _ _ _ _ _ _ _ _ _ _ NU NU ltac:(lra) ltac:(lra) ltac:(lra)).
  assert (N2 := near_mul n _ _ _ _ _ _ _ _ _ _ _ N1 NU ltac:(lra) ltac:(lra) ltac:(lra)).
  unfold cube_of. rewrite (fmul_comm n x (fmul n x x)).
  - apply (near_weaken _ _ _ _ _ _ 1 1.2e-7 2.1 N2); try lra. rewrite !Rabs_mult. fold w. lra.
  - rewrite <- (fmul_comm n (fmul n x x) x); apply fin_not_nan; destruct N2; assumption.
Qed.
Lemma odd_tail_gen x y P p M e d : isfin x = true -> isfin y = true -> val y = val x -> Rabs (val x) <= 1 -> Rabs (val x) * Rabs (val x) <= d -> d <= 1 ->
  near P p M e 0 1 -> M + e <= 1 -> e <= 1e-4 ->
  near (fadd n y (fmul n (cube_of x) P)) (val x * (1 + val x * val x * p)) (1 + d * M)
    (d * (19e-8 * (M + e) + e) + (1 + d * (M + 1e-3)) / 16777216) 5 (Rabs (val x)).
Proof.
  intros Fx Fy Vy Bx Bd D1 HP ME E4. pose proof (near_cube x Fx Bx) as NC.
  assert (NU : near y (val x) 1 0 0 (Rabs (val x))) by (rewrite <- Vy in *; apply near_exact; assumption). set (w := Rabs (val x)) in *.
  assert (W : 0 <= w) by apply Rabs_pos. assert (RNG := n_rng _ _ _ _ _ _ HP). destruct RNG as (R1 & R2 & _ & _). assert (D0 : 0 <= d) by nra.
  assert (N3 := near_mul n _ _ _ _ _ _ _ _ _ _ _ NC HP ltac:(lra) ltac:(lra) ltac:(lra)).
  assert (PB : Rabs p <= M). { pose proof (n_abs _ _ _ _ _ _ HP). lra. }
  assert (B3 : Rabs (val x * val x * val x * p) <= M * (w * w * w * 1)).
  { rewrite !Rabs_mult. fold w. pose proof (Rabs_pos p). assert (0 <= w * w * w) by nra. nra. }
  assert (N3' := near_weaken _ _ _ _ _ _ M (19e-8 * (M + e) + e) 3.2 N3 B3 ltac:(lra) ltac:(lra) ltac:(lra)).
  assert (S3 : w * w * w * 1 <= d * w) by nra.
  assert (N4 := near_scale _ _ _ _ _ _ w d N3' ltac:(lra) ltac:(lra) S3).
  assert (SB : Rabs (val x + val x * val x * val x * p) <= (1 + d * M) * w).
  { eapply Rle_trans; [apply Rabs_triang|]. fold w. assert (M * (w * w * w * 1) <= M * (d * w)) by (apply Rmult_le_compat_l; lra). lra. }
  assert (E3 : 0 <= 19e-8 * (M + e) + e <= 1e-3) by lra. set (e3 := 19e-8 * (M + e) + e) in *.
  assert (E4' : 0 <= e3 * d <= 1e-3 * d) by nra. assert (DM : 0 <= d * M <= 1) by nra.
  assert (N5 := near_add n _ _ _ _ _ _ _ _ _ _ _ (1 + d * M) NU N4 SB ltac:(lra) ltac:(lra) ltac:(lra)).
  replace (val x * (1 + val x * val x * p)) with (val x + val x * val x * val x * p) by ring.
  apply (near_weaken _ _ _ _ _ _ _ _ _ N5); [exact SB|lra| |lra]. lra.
Qed.
Lemma odd_tail x P p M e d : isfin x = true -> Rabs (val x) <= 1 -> Rabs (val x) * Rabs (val x) <= d -> d <= 1 ->
  near P p M e 0 1 -> M + e <= 1 -> e <= 1e-4 ->
  near (fadd n x (fmul n (cube_of x) P)) (val x * (1 + val x * val x * p)) (1 + d * M)
    (d * (19e-8 * (M + e) + e) + (1 + d * (M + 1e-3)) / 16777216) 5 (Rabs (val x)).
Proof. intros. apply odd_tail_gen; auto. Qed.
(** The tail alone. *)
Lemma tail_near x P p M e : isfin x = true -> Rabs (val x) <= 1 -> near P p M e 0 1 -> M + e <= 1 -> e <= 1e-4 ->
  near (fmul n (cube_of x) P) (val x * val x * val x * p) M (19e-8 * (M + e) + e) 3.2 (Rabs (val x) * Rabs (val x) * Rabs (val x)).
Proof.
  intros Fx Bx HP ME E4. pose proof (near_cube x Fx Bx) as NC. set (w := Rabs (val x)) in *.
  assert (W : 0 <= w) by apply Rabs_pos. assert (RNG := n_rng _ _ _ _ _ _ HP). destruct RNG as (R1 & R2 & _ & _).
  assert (N3 := near_mul n _ _ _ _ _ _ _ _ _ _ _ NC HP ltac:(lra) ltac:(lra) ltac:(lra)).
  assert (PB : Rabs p <= M). { pose proof (n_abs _ _ _ _ _ _ HP). lra. }
  assert (B3 : Rabs (val x * val x * val x * p) <= M * (w * w * w * 1)).
  { rewrite !Rabs_mult. fold w. pose proof (Rabs_pos p). assert (0 <= w * w * w) by nra. nra. }
  assert (N4 := near_weaken _ _ _ _ _ _ M (19e-8 * (M + e) + e) 3.2 N3 B3 ltac:(lra)). rewrite Rmult_1_r in N4. 
  apply N4; lra.
Qed.
End N.
