(** Concrete data for the examples of Prop_Estimate.v.  Not part of the model. *)
From Coq Require Import ZArith Reals List Lia Lra Bool.
From Flocq Require Import Core IEEE754.Binary IEEE754.Bits.
From Verif Require Import Base Mem Backend Args Lanes Float LaneOps Spec SpecLane SpecMath SpecEst ExData ExFloat ExLane FloatFacts FloatRound RoundMore VecMore2 ErrFacts NearFacts MathMore RecipFacts ExMath.
Import ListNotations.
Local Open Scope R_scope.

(** Estimates that meet the promises of the Altivec manual: correctly rounded
    division, ... *)
Definition good_re (x : F F32) : F F32 := fdiv (n0 F32) (f_ofZ F32 1) x.
(** ... and division by the correctly rounded square root. *)
Definition good_rsqrte (x : F F32) : F F32 := fdiv (n0 F32) (f_ofZ F32 1) (fsqrt (n0 F32) x).

Lemma eta_126 : eta = / 8388608 * bpow radix2 (-126).
Proof. unfold eta. change (/ 8388608) with (bpow radix2 (-23)). rewrite <- bpow_plus. reflexivity. Qed.
(** Division of 1 by a number whose reciprocal is near [/ y]. *)
Lemma inv_close (x : F F32) (y e : R) : isfin x = true -> 0 < Rabs y <= bpow radix2 126 -> bpow radix2 (-126) <= Rabs y -> Rabs (val x - y) <= e * Rabs y -> 0 <= e <= / 1000000 ->
  close (e + / 1000000) (fdiv (n0 F32) (f_ofZ F32 1) x) (/ y).
Proof.
  intros Fx Y1 Y2 H E. destruct one_ok as (F1 & V1 & _). assert (Y0 : y <> 0) by (intros Z; rewrite Z, Rabs_R0 in Y1; lra).
  set (d := (val x - y) / y). assert (XV : val x = y * (1 + d)) by (unfold d; field; exact Y0).
  assert (D : Rabs d <= e). { unfold d, Rdiv. rewrite Rabs_mult, Rabs_inv. apply Rmult_le_reg_r with (Rabs y); [lra|]. rewrite Rmult_assoc, Rinv_l by lra. lra. }
  clearbody d. apply Rabs_le_inv in D. assert (X0 : val x <> 0) by (rewrite XV; apply Rmult_integral_contrapositive_currified; [exact Y0|lra]).
  set (q := / (1 + d) - 1). assert (Q : Rabs q <= 1.000002 * e).
  { unfold q. replace (/ (1 + d) - 1) with (- d * / (1 + d)) by (field; lra). rewrite Rabs_mult, Rabs_Ropp, Rmult_comm. apply Rmult_le_compat; try apply Rabs_pos; [|apply Rabs_le; lra].
    rewrite Rabs_pos_eq by (apply Rlt_le, Rinv_0_lt_compat; lra). apply Rmult_le_reg_r with (1 + d); [lra|]. rewrite Rinv_l by lra. lra. }
  assert (IV : 1 / val x = / y * (1 + q)) by (unfold q; rewrite XV; field; split; [lra|exact Y0]). clearbody q.
  assert (IY : Rabs (/ y) = / Rabs y) by apply Rabs_inv.
  assert (IB : / Rabs y <= bpow radix2 126).
  { replace (bpow radix2 126) with (/ bpow radix2 (-126)) by (symmetry; apply (bpow_opp radix2 (-126))). apply Rinv_le; [apply bpow_gt_0|exact Y2]. }
  assert (IL : bpow radix2 (-126) <= / Rabs y) by (change (-126)%Z with (- (126))%Z; rewrite bpow_opp; apply Rinv_le; lra).
  assert (QB : Rabs (/ y * (1 + q)) <= 1.00001 * / Rabs y).
  { rewrite Rabs_mult, IY, Rmult_comm. apply Rmult_le_compat_r; [apply Rlt_le, Rinv_0_lt_compat; lra|]. apply Rabs_le_inv in Q. apply Rabs_le. lra. }
  assert (P' : bpow radix2 127 = 2 * bpow radix2 126) by (change 2 with (bpow radix2 1); rewrite <- bpow_plus; reflexivity).
  pose proof (bpow_gt_0 radix2 126) as PP.
  destruct (fdiv_fin (n0 F32) (f_ofZ F32 1) x F1 X0) as (A & V & _); [rewrite V1, IV; eapply b126; [exact QB|lra]|].
  split; [exact A|]. rewrite V1, IV in V. pose proof (rnd_eta (/ y * (1 + q))) as R. rewrite <- V in R. set (v := val (fdiv (n0 F32) (f_ofZ F32 1) x)) in *. clearbody v.
  replace (v - / y) with ((v - / y * (1 + q)) + / y * q) by ring. eapply Rle_trans; [apply Rabs_triang|]. rewrite (Rabs_mult (/ y) q), IY.
  assert (IP : 0 < / Rabs y) by (apply Rinv_0_lt_compat; lra).
  assert (T : / Rabs y * Rabs q <= / Rabs y * (1.000002 * e)) by (apply Rmult_le_compat_l; [lra|exact Q]).
  pose proof eta_126. set (i := / Rabs y) in *. assert (eta <= / 8388608 * i) by (rewrite H0; apply Rmult_le_compat_l; lra).
  assert (i * e <= i * / 1000000) by (apply Rmult_le_compat_l; lra). lra.
Qed.
Lemma zero_form (y : F F32) : isfin y = true -> val y = 0 -> exists s, y = B754_zero 24 128 s.
Proof. intros Fy V. destruct y as [s|s|s pl H|s m e H]; try discriminate Fy; [eauto|]. exfalso. revert V. unfold val, B2R. intros V. apply (F2R_neq_0 radix2) in V; [exact V|]. destruct s; discriminate. Qed.
Lemma good_re_ok : re_spec good_re.
Proof.
  constructor.
  - intros x (Fx & B1 & B2). destruct (inv_close x (val x) 0 Fx) as [A B]; try assumption.
    + split; [pose proof (bpow_gt_0 radix2 (-126)); lra|]. eapply Rle_trans; [exact B2|apply bpow_le; lia].
    + rewrite Rminus_diag_eq, Rabs_R0 by reflexivity. lra.
    + lra.
    + split; [exact A|]. eapply Rle_trans; [exact B|]. apply Rmult_le_compat_r; [apply Rabs_pos|lra].
  - intros x [Fx V]. destruct (zero_form x Fx V) as (s & ->). destruct s; split; reflexivity.
  - intros x [Fx V]. destruct x; try discriminate Fx; try discriminate V. destruct s; split; reflexivity.
Qed.
Lemma good_rsqrte_ok : rsqrte_spec good_rsqrte.
Proof.
  constructor.
  - intros x (Fx & B). pose proof (bpow_gt_0 radix2 (-126)) as PM. destruct (fsqrt_fin (n0 F32) x Fx ltac:(left; lra)) as (A & V & _).
    set (s := sqrt (val x)) in *.
    assert (SL : bpow radix2 (-63) <= s).
    { unfold s. replace (bpow radix2 (-63)) with (sqrt (bpow radix2 (-126))); [apply sqrt_le_1_alt; lra|].
      replace (bpow radix2 (-126)) with (bpow radix2 (-63) * bpow radix2 (-63)) by (rewrite <- bpow_plus; reflexivity). apply sqrt_square. apply bpow_ge_0. }
    assert (SB : s <= bpow radix2 64).
    { unfold s. replace (bpow radix2 64) with (sqrt (bpow radix2 128)); [apply sqrt_le_1_alt; pose proof (val_lt_emax x) as VL; rewrite Rabs_pos_eq in VL by lra; change (bpow radix2 (emax F32)) with (bpow radix2 128) in VL; lra|].
      replace (bpow radix2 128) with (bpow radix2 64 * bpow radix2 64) by (rewrite <- bpow_plus; reflexivity). apply sqrt_square. apply bpow_ge_0. }
    clearbody s. pose proof (bpow_gt_0 radix2 (-63)). assert (S0 : 0 < s) by lra.
    destruct (inv_close (fsqrt (n0 F32) x) s (/ 1000000) A) as [C D].
    + rewrite Rabs_pos_eq by lra. split; [lra|]. eapply Rle_trans; [exact SB|apply bpow_le; lia].
    + rewrite Rabs_pos_eq by lra. eapply Rle_trans; [|exact SL]. apply bpow_le; lia.
    + rewrite V. pose proof (rnd_eta s) as Q. rewrite (Rabs_pos_eq s) in * by lra.
      assert (eta <= / 8388608 * s) by (rewrite eta_126; apply Rmult_le_compat_l; [lra|]; eapply Rle_trans; [|exact SL]; apply bpow_le; lia). lra.
    + lra.
    + split; [exact C|]. eapply Rle_trans; [exact D|]. apply Rmult_le_compat_r; [apply Rabs_pos|lra].
  - intros x [Fx V]. destruct (zero_form x Fx V) as (s & ->). destruct s; split; reflexivity.
  - intros x [Fx V] S. destruct x; try discriminate Fx; try discriminate V. cbn in S. subst s. split; reflexivity.
Qed.
Lemma b20 : bpow radix2 (-125) <= / 1000000 /\ 1000000 <= bpow radix2 125 /\ 1000000 <= bpow radix2 126.
Proof.
  split; [|split].
  - apply Rle_trans with (bpow radix2 (-20)); [apply bpow_le; lia|]. change (bpow radix2 (-20)) with (/ 1048576). lra.
  - apply Rle_trans with (bpow radix2 20); [|apply bpow_le; lia]. change (bpow radix2 20) with 1048576. lra.
  - apply Rle_trans with (bpow radix2 20); [|apply bpow_le; lia]. change (bpow radix2 20) with 1048576. lra.
Qed.
Lemma tiny_b140 : 5 * bpow radix2 (-140) < bpow radix2 (-126).
Proof. apply Rlt_le_trans with (bpow radix2 3 * bpow radix2 (-140)); [apply Rmult_lt_compat_r; [apply bpow_gt_0|change (bpow radix2 3) with 8; lra]|]. rewrite <- bpow_plus. apply bpow_le. lia. Qed.
Lemma ofz_lit k : f_ofZ F32 k = f_lit F32 k 0.
Proof. reflexivity. Qed.
Ltac fite := pose proof b20; pose proof tinyb; pose proof tiny_b140; unfold safe_quotient, safe_divisor, tiny;
  repeat match goal with |- _ /\ _ => split end;
  lazymatch goal with
  | |- re_spec _ => exact good_re_ok
  | |- isfin _ = _ => vm_compute; reflexivity
  | |- isnan _ = _ => vm_compute; reflexivity
  | |- _ => rewrite ?ofz_lit; try (let L := fresh in intros [_ L]; revert L);
      repeat match goal with |- context [val (f_lit F32 ?m ?e)] => rewrite (proj2 (lit32 m e ltac:(lia) ltac:(lia))) end;
      try change (bpow radix2 0) with 1; try change (bpow radix2 (-1)) with (/ 2); try change (bpow radix2 (-3)) with (/ 8); try change (bpow radix2 (-8)) with (/ 256);
      pose proof (bpow_gt_0 radix2 (-140)); unfold Rabs; repeat destruct Rcase_abs; intros; lra
  end.
