(** Order: float operations that keep the order of their operands, and how far
    floats are apart. *)
From Coq Require Import ZArith Reals List Lia Lra Bool Psatz.
From Flocq Require Import Core IEEE754.Binary IEEE754.Bits.
From Verif Require Import Base Backend Lanes Float LaneOps ScalarMath VecMath TransMath SpecLane
  FloatFacts FloatRound LaneFacts VecFacts VecMore RoundMore ErrFacts LastStep NearFacts.
Local Open Scope R_scope.

(** A float differs from every smaller non-negative one by about 2^-24 of itself. *)
Lemma gap (x y : F F32) : isfin x = true -> isfin y = true -> 0 <= val x < val y -> / 16777217 * val y <= val y - val x.
Proof.
  intros Fx Fy H. pose proof (val_format x) as Gx. pose proof (val_format y) as Gy.
  assert (PY : 0 < val y) by lra.
  pose proof (pred_ge_gt radix2 (fexp F32) (val x) (val y) Gx Gy ltac:(lra)) as P.
  pose proof (pred_ge_0 radix2 (fexp F32) (val y) PY Gy) as P0.
  pose proof (succ_pred radix2 (fexp F32) (val y) Gy) as S. unfold succ in S.
  destruct (Rle_bool_spec 0 (Ulp.pred radix2 (fexp F32) (val y))) as [_|]; [|lra].
  pose proof (ulp_FLT_gt radix2 (emin F32) (prec F32) (Ulp.pred radix2 (fexp F32) (val y))) as U. rewrite <- fexp_FLT in U.
  rewrite Rabs_pos_eq in U by exact P0. change (bpow radix2 (- prec F32)) with (/ 16777216) in U.
  set (p := Ulp.pred radix2 (fexp F32) (val y)) in *. set (u := ulp radix2 (fexp F32) p) in *. lra.
Qed.
(** Between 2^e and 2^(e+1) floats are multiples of 2^(e-23) apart. *)
Lemma gap_above (x y : F F32) e : (-126 <= e)%Z -> isfin x = true -> isfin y = true -> bpow radix2 e <= val x < val y -> bpow radix2 (e - 23) <= val y - val x.
Proof.
  intros He Fx Fy H. pose proof (val_format x) as Gx. pose proof (val_format y) as Gy. pose proof (bpow_gt_0 radix2 e) as P.
  pose proof (succ_le_lt radix2 (fexp F32) (val x) (val y) Gx Gy ltac:(lra)) as S. unfold succ in S.
  destruct (Rle_bool_spec 0 (val x)); [|lra]. 
  assert (U : bpow radix2 (e - 23) <= ulp radix2 (fexp F32) (val x)); [|lra].
  rewrite ulp_neq_0 by lra. apply bpow_le. unfold cexp. rewrite fexp_FLT. unfold FLT_exp. change (prec F32) with 24%Z. change (emin F32) with (-149)%Z.
  assert (M : (e + 1 <= Raux.mag radix2 (val x))%Z); [|lia]. apply mag_ge_bpow. rewrite Rabs_pos_eq by lra. replace (e + 1 - 1)%Z with e by lia. lra.
Qed.

(** Two floats in order, at least 0 and at most m / 1024. *)
Definition upto_ (x y : F F32) (m : Z) : Prop := isfin x = true /\ isfin y = true /\ 0 <= val x /\ val x <= val y /\ val y <= IZR m / 1024.
Lemma grain_format m : (0 <= m <= 2 ^ 24)%Z -> fmtR F32 (IZR m / 1024).
Proof.
  intros H. replace (IZR m / 1024) with (IZR m * bpow radix2 (-10)) by (change (bpow radix2 (-10)) with (/ 1024); reflexivity).
  apply dyadic_format; [change (2 ^ prec F32)%Z with (2 ^ 24)%Z; lia|discriminate].
Qed.
Lemma grain_big m : (0 <= m <= 2 ^ 24)%Z -> IZR m / 1024 < bpow radix2 (emax F32).
Proof.
  intros H. apply Rle_lt_trans with (bpow radix2 14); [|apply bpow_lt; reflexivity]. change (bpow radix2 14) with 16384.
  assert (IZR m <= 16777216) by (apply IZR_le; lia). lra.
Qed.
Lemma rnd_nonneg r : 0 <= r -> 0 <= rnd F32 r. Proof. intros H. rewrite <- (rnd_0 (t := F32)). apply rnd_le. exact H. Qed.
Lemma rnd_grain r m : (0 <= m <= 2 ^ 24)%Z -> 0 <= r <= IZR m / 1024 -> 0 <= rnd F32 r <= IZR m / 1024.
Proof. intros H R. split; [apply rnd_nonneg; lra|]. apply rnd_le_format; [apply grain_format; exact H|lra]. Qed.
Lemma rnd_grain_abs r m : (0 <= m <= 2 ^ 24)%Z -> 0 <= r <= IZR m / 1024 -> Rabs (rnd F32 r) < bpow radix2 (emax F32).
Proof. intros H R. destruct (rnd_grain r m H R). rewrite Rabs_pos_eq by assumption. eapply Rle_lt_trans; [eassumption|apply grain_big; exact H]. Qed.

Lemma lit_range (p e : Z) : (Z.abs p <= 2 ^ 24)%Z -> (-149 <= e <= 100)%Z -> isfin (f_lit F32 p e) = true /\ val (f_lit F32 p e) = IZR p * bpow radix2 e.
Proof.
  intros A B. destruct (f_lit_exact (t := F32) p e) as (F & V & _); [exact A|change (emin F32) with (-149)%Z; lia|change (prec F32) with 24%Z; change (emax F32) with 128%Z; lia|]. auto.
Qed.

Section M.
Context (n : nans F32).
Lemma upto_const (k : F F32) m : isfin k = true -> 0 <= val k <= IZR m / 1024 -> upto_ k k m.
Proof. intros F H. repeat split; try assumption; lra. Qed.
Lemma upto_add x y m u v m' m'' : upto_ x y m -> upto_ u v m' -> (0 <= m)%Z -> (0 <= m')%Z -> (m + m' <= m'' <= 2 ^ 24)%Z -> upto_ (fadd n x u) (fadd n y v) m''.
Proof.
  intros (Fx & Fy & X0 & XY & YM) (Fu & Fv & U0 & UV & VM) P P' Q. assert (IZR m + IZR m' <= IZR m'') by (rewrite <- plus_IZR; apply IZR_le; lia).
  assert (R : (0 <= m'' <= 2 ^ 24)%Z) by lia.
  destruct (fadd_fin n x u Fx Fu) as (A1 & B1 & _); [apply (rnd_grain_abs _ m''); [exact R|lra]|].
  destruct (fadd_fin n y v Fy Fv) as (A2 & B2 & _); [apply (rnd_grain_abs _ m''); [exact R|lra]|].
  split; [exact A1|]. split; [exact A2|]. rewrite B1, B2. split; [apply rnd_nonneg; lra|]. split; [apply rnd_le; lra|apply (rnd_grain _ m''); [exact R|lra]].
Qed.
Lemma upto_mul x y m u v m' m'' : upto_ x y m -> upto_ u v m' -> (0 <= m)%Z -> (0 <= m')%Z -> (m * m' <= m'' * 1024)%Z -> (m'' <= 2 ^ 24)%Z -> upto_ (fmul n x u) (fmul n y v) m''.
Proof.
  intros (Fx & Fy & X0 & XY & YM) (Fu & Fv & U0 & UV & VM) P P' Q Q'. assert (K : IZR m * IZR m' <= IZR m'' * 1024) by (rewrite <- !mult_IZR; apply IZR_le; lia).
  assert (R : (0 <= m'' <= 2 ^ 24)%Z) by nia. 
  assert (K1 : val x * val u <= val y * val v) by (apply Rmult_le_compat; lra).
  assert (K2 : val y * val v <= IZR m / 1024 * (IZR m' / 1024)) by (apply Rmult_le_compat; lra).
  assert (K3 : IZR m / 1024 * (IZR m' / 1024) <= IZR m'' / 1024) by lra.
  assert (K0 : 0 <= val x * val u) by (apply Rmult_le_pos; lra).
  destruct (fmul_fin n x u Fx Fu) as (A1 & B1 & _); [apply (rnd_grain_abs _ m''); [exact R|lra]|].
  destruct (fmul_fin n y v Fy Fv) as (A2 & B2 & _); [apply (rnd_grain_abs _ m''); [exact R|lra]|].
  split; [exact A1|]. split; [exact A2|]. rewrite B1, B2. split; [apply rnd_nonneg; lra|]. split; [apply rnd_le; lra|apply (rnd_grain _ m''); [exact R|lra]].
Qed.
Lemma upto_sqrt x y m m' : upto_ x y m -> (m <= m')%Z -> (1024 <= m' <= 2 ^ 24)%Z -> upto_ (fsqrt n x) (fsqrt n y) m'.
Proof.
  intros (Fx & Fy & X0 & XY & YM) L R. assert (IZR m <= IZR m') by (apply IZR_le; lia). assert (1024 <= IZR m') by (apply IZR_le; lia).
  assert (K : 0 <= sqrt (val x) <= sqrt (val y)) by (split; [apply sqrt_pos|apply sqrt_le_1; lra]).
  assert (K2 : sqrt (val y) <= IZR m' / 1024).
  { apply Rle_trans with (sqrt (IZR m' / 1024 * (IZR m' / 1024))); [apply sqrt_le_1; nra|]. rewrite sqrt_square; lra. }
  destruct (fsqrt_fin n x Fx) as (A1 & B1 & _); [lra|]. destruct (fsqrt_fin n y Fy) as (A2 & B2 & _); [lra|].
  split; [exact A1|]. split; [exact A2|]. rewrite B1, B2. split; [apply rnd_nonneg; lra|]. split; [apply rnd_le; lra|apply (rnd_grain _ m'); [lia|lra]].
Qed.
Lemma upto_weaken x y m m' : upto_ x y m -> (m <= m')%Z -> upto_ x y m'.
Proof. intros (A & B & C & D & E) L. repeat split; try assumption. apply IZR_le in L. lra. Qed.
End M.
