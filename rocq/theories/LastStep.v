(** The last step c*x + x of the polynomial approximations. *)
From Coq Require Import ZArith Reals List Lia Lra Bool.
From Flocq Require Import Core IEEE754.Binary IEEE754.Bits.
From Verif Require Import Base Backend Lanes Float LaneOps ScalarMath VecMath TransMath SpecLane
  FloatFacts FloatRound LaneFacts VecFacts VecMore RoundMore ErrFacts.
Local Open Scope R_scope.

Lemma u_val : bpow radix2 (-24) = / 16777216. Proof. reflexivity. Qed.
Lemma fmin_abs (x : F F32) : isfin x = true -> val x <> 0 -> bpow radix2 (-149) <= Rabs (val x).
Proof.
  intros Fx Hx. destruct x as [s|s|s pl Hp|s m e Hm]; try discriminate; [contradict Hx; reflexivity|].
  apply (abs_B2R_ge_emin (prec F32) (emax F32) (B754_finite (prec F32) (emax F32) s m e Hm)). reflexivity.
Qed.

Section L.
Context (n : nans F32).
Implicit Types x C : F F32.
Lemma mul_step x C : isfin C = true -> isfin x = true -> Rabs (val x) <= 4 -> Rabs (val C) <= 4 ->
  isfin (fmul n C x) = true /\ Rabs (val (fmul n C x) - val C * val x) <= / 16777216 * (Rabs (val C) * Rabs (val x)) + bpow radix2 (-150).
Proof.
  intros FC Fx Bx BC. destruct (fmul_fin n C x FC Fx) as (A & B & _).
  - eapply Rle_lt_trans; [apply (rnd_le_bpow 4); [lia|]|apply bpow_lt; reflexivity].
    rewrite Rabs_mult. change (bpow radix2 4) with 16. pose proof (Rabs_pos (val C)). pose proof (Rabs_pos (val x)). nra.
  - split; [exact A|]. rewrite B. rewrite <- u_val, <- Rabs_mult. apply rnd_rel.
Qed.
Lemma last_step x C P e M : isfin C = true -> isfin x = true -> Rabs (val x) <= 4 ->
  Rabs (val C - P) <= e -> Rabs (val C) <= M -> M <= 4 ->
  isfin (fadd n (fmul n C x) x) = true /\
  Rabs (val (fadd n (fmul n C x) x) - val x * (1 + P)) <= (e + (1 + 2.1 * M) / 16777216) * Rabs (val x) + bpow radix2 (-148).
Proof.
  intros FC Fx Bx EC BC BM. destruct (mul_step x C FC Fx Bx ltac:(lra)) as (FT & ET). set (t := fmul n C x) in *.
  assert (NC := Rabs_pos (val C)). assert (NX := Rabs_pos (val x)).
  assert (E150 : 0 < bpow radix2 (-150) <= / 1000000).
  { split; [apply bpow_gt_0|]. apply Rle_trans with (bpow radix2 (-20)); [apply bpow_le; lia|]. change (bpow radix2 (-20)) with (/ 1048576). lra. }
  assert (E148 : bpow radix2 (-148) = 4 * bpow radix2 (-150)). { change 4 with (bpow radix2 2). rewrite <- bpow_plus. reflexivity. }
  set (h := bpow radix2 (-150)) in *.
  assert (CX : Rabs (val C) * Rabs (val x) <= M * Rabs (val x)) by nra.
  assert (BT : Rabs (val t) <= M * Rabs (val x) + / 16777216 * (M * Rabs (val x)) + h).
  { replace (val t) with (val C * val x + (val t - val C * val x)) by ring. eapply Rle_trans; [apply Rabs_triang|]. rewrite Rabs_mult. lra. }
  assert (BS : Rabs (val t + val x) <= (1 + M + / 16777216 * M) * Rabs (val x) + h).
  { eapply Rle_trans; [apply Rabs_triang|]. lra. }
  destruct (fadd_fin n t x FT Fx) as (A & B & _).
  { eapply Rle_lt_trans; [apply (rnd_le_bpow 5); [lia|]|apply bpow_lt; reflexivity]. change (bpow radix2 5) with 32.
    eapply Rle_trans; [exact BS|]. assert (Q : (1 + M + / 16777216 * M) * Rabs (val x) <= (1 + 4 + / 16777216 * 4) * 4) by nra. lra. }
  split; [exact A|]. rewrite B. pose proof (rnd_rel (val t + val x)) as ER. fold h in ER. rewrite u_val in ER.
  set (r := rnd F32 (val t + val x)) in *.
  replace (r - val x * (1 + P)) with ((r - (val t + val x)) + ((val t - val C * val x) + (val C - P) * val x)) by ring.
  eapply Rle_trans; [apply Rabs_triang|]. eapply Rle_trans; [apply Rplus_le_compat_l, Rabs_triang|]. rewrite (Rabs_mult (val C - P)).
  assert (QE : Rabs (val C - P) * Rabs (val x) <= e * Rabs (val x)) by nra.
  assert (M0 : 0 <= M) by lra. assert (MX : 0 <= M * Rabs (val x)) by nra. rewrite E148. lra.
Qed.
(** The sum has the sign of x. *)
Lemma last_pos x C : isfin C = true -> isfin x = true -> Rabs (val x) <= 4 -> Rabs (val C) <= 0.45 -> val x <> 0 ->
  isfin (fmul n C x) = true /\ Rabs (val (fmul n C x)) < Rabs (val x).
Proof.
  intros FC Fx Bx BC NZ. destruct (mul_step x C FC Fx Bx ltac:(lra)) as (FT & ET). split; [exact FT|].
  pose proof (fmin_abs x Fx NZ) as LB. assert (E : bpow radix2 (-150) = / 2 * bpow radix2 (-149)).
  { change (/ 2) with (bpow radix2 (-1)). rewrite <- bpow_plus. reflexivity. }
  rewrite E in ET. pose proof (bpow_gt_0 radix2 (-149)) as P. set (h := bpow radix2 (-149)) in *. set (t := fmul n C x) in *.
  replace (val t) with (val C * val x + (val t - val C * val x)) by ring. eapply Rle_lt_trans; [apply Rabs_triang|]. rewrite Rabs_mult.
  pose proof (Rabs_pos (val C)). assert (Rabs (val C) * Rabs (val x) <= 0.45 * Rabs (val x)) by nra. lra.
Qed.
Lemma last_fin x C : isfin C = true -> isfin x = true -> Rabs (val x) <= 4 -> Rabs (val C) <= 0.45 ->
  Rabs (rnd F32 (val (fmul n C x) + val x)) < bpow radix2 (emax F32).
Proof.
  intros FC Fx Bx BC. eapply Rle_lt_trans; [apply (rnd_le_bpow 4); [lia|]|apply bpow_lt; reflexivity]. change (bpow radix2 4) with 16.
  destruct (mul_step x C FC Fx Bx ltac:(lra)) as (FT & ET). set (t := fmul n C x) in *.
  assert (E150 : bpow radix2 (-150) <= / 1000000).
  { apply Rle_trans with (bpow radix2 (-20)); [apply bpow_le; lia|]. change (bpow radix2 (-20)) with (/ 1048576). lra. }
  replace (val t + val x) with (val C * val x + (val t - val C * val x) + val x) by ring. eapply Rle_trans; [apply Rabs_triang|].
  eapply Rle_trans; [apply Rplus_le_compat_r, Rabs_triang|]. rewrite Rabs_mult.
  pose proof (Rabs_pos (val C)). pose proof (Rabs_pos (val x)). assert (Rabs (val C) * Rabs (val x) <= 0.45 * 4) by nra. lra.
Qed.
Lemma last_sign x C : isfin C = true -> isfin x = true -> Rabs (val x) <= 4 -> Rabs (val C) <= 0.45 -> val x <> 0 ->
  sgn (fadd n (fmul n C x) x) = sgn x.
Proof.
  intros FC Fx Bx BC NZ. destruct (last_pos x C FC Fx Bx BC NZ) as (FT & LT). destruct (fadd_fin n (fmul n C x) x FT Fx) as (_ & _ & S).
  - apply last_fin; assumption.
  - rewrite S. set (t := fmul n C x) in *. pose proof (sgn_val_gen x Fx) as V. apply Rabs_lt_inv in LT. pose proof (Rabs_pos_lt _ NZ) as PX. destruct (sgn x).
    + rewrite Rcompare_Lt by lra. reflexivity.
    + rewrite Rcompare_Gt by lra. reflexivity.
Qed.
Lemma last_odd x C : isfin C = true -> isfin x = true -> Rabs (val x) <= 4 -> Rabs (val C) <= 0.45 -> val x <> 0 ->
  fadd n (fmul n C (fneg x)) (fneg x) = fneg (fadd n (fmul n C x) x).
Proof.
  intros FC Fx Bx BC NZ.
  assert (Fx' : isfin (fneg x) = true) by (rewrite isfin_fneg; exact Fx).
  assert (Bx' : Rabs (val (fneg x)) <= 4) by (rewrite val_fneg, Rabs_Ropp; exact Bx).
  assert (NZ' : val (fneg x) <> 0) by (rewrite val_fneg; lra).
  destruct (last_pos x C FC Fx Bx BC NZ) as (FT & _). destruct (last_pos _ C FC Fx' Bx' BC NZ') as (FT' & _).
  assert (VT : val (fmul n C (fneg x)) = - val (fmul n C x)).
  { assert (B16 : Rabs (val C * val x) <= bpow radix2 4).
    { rewrite Rabs_mult. change (bpow radix2 4) with 16. pose proof (Rabs_pos (val C)). pose proof (Rabs_pos (val x)). nra. }
    assert (L : forall r, Rabs r <= bpow radix2 4 -> Rabs (rnd F32 r) < bpow radix2 (emax F32)).
    { intros r Hr. eapply Rle_lt_trans; [apply (rnd_le_bpow 4); [lia|exact Hr]|apply bpow_lt; reflexivity]. }
    destruct (fmul_fin n C x FC Fx (L _ B16)) as (_ & V & _). destruct (fmul_fin n C (fneg x) FC Fx') as (_ & V' & _).
    { apply L. rewrite val_fneg, Ropp_mult_distr_r_reverse, Rabs_Ropp. exact B16. }
    rewrite V, V', val_fneg, Ropp_mult_distr_r_reverse. apply rnd_opp. }
  destruct (fadd_fin n _ _ FT Fx (last_fin x C FC Fx Bx BC)) as (A & B & _).
  destruct (fadd_fin n _ _ FT' Fx' (last_fin _ C FC Fx' Bx' BC)) as (A' & B' & _).
  apply fin_eq; [exact A'|rewrite isfin_fneg; exact A| |].
  - rewrite B', VT, !val_fneg, B, <- rnd_opp. f_equal. ring.
  - rewrite sgn_fneg, !last_sign by assumption. apply sgn_fneg.
Qed.
End L.
