(** Accuracy and monotonicity of softclip. *)
From Coq Require Import ZArith Reals Bool List Lia Lra Psatz.
From Flocq Require Import Core IEEE754.Binary IEEE754.Bits.
From Verif Require Import Base Mem Backend Args Lanes Float LaneOps FloatOps ScalarMath VecMath SpecReduce SpecLane
  FloatFacts FloatRound ErrFacts VecMore SumErr SpecDrift ExpErr.
Import ListNotations.
Local Open Scope R_scope.

Section Soft.
Context {t : fmt} (n : nans t).
Local Notation u := (unit_roundoff t).

Lemma quarter_format a : fmtR t a -> / 2 <= a <= quarter_limit t -> fmtR t (a - / 4).
Proof.
  intros Fa (H1 & H2). destruct (Rle_lt_or_eq_dec _ _ H2) as [L|E].
  - assert (Hc : (Generic_fmt.cexp radix2 (FLT_exp (emin t) (prec t)) a <= -2)%Z).
    { unfold Generic_fmt.cexp, FLT_exp. assert (Hm : (Raux.mag radix2 a <= prec t - 2)%Z).
      { apply mag_le_bpow; [lra|]. rewrite Rabs_pos_eq by lra. eapply Rlt_le_trans; [exact L|]. apply bpow_le. destruct t; cbv; discriminate. }
      apply Z.max_lub; [lia|]. destruct t; cbv; discriminate. }
    assert (He : (emin t <= Generic_fmt.cexp radix2 (FLT_exp (emin t) (prec t)) a)%Z) by (unfold Generic_fmt.cexp, FLT_exp; apply Z.le_max_r).
    assert (Hm : Rabs a < bpow radix2 (prec t + Generic_fmt.cexp radix2 (FLT_exp (emin t) (prec t)) a)).
    { assert (Hp : Prec_gt_0 (prec t)) by (destruct t; reflexivity).
      eapply Rlt_le_trans; [apply bpow_mag_gt|]. apply bpow_le. unfold Generic_fmt.cexp, FLT_exp. lia. }
    red in Fa. unfold generic_format in Fa. change (fexp t) with (FLT_exp (emin t) (prec t)) in Fa.
    set (e := Generic_fmt.cexp radix2 (FLT_exp (emin t) (prec t)) a) in *. set (k := Ztrunc (scaled_mantissa radix2 (FLT_exp (emin t) (prec t)) a)) in *.
    unfold F2R in Fa. cbn [Fnum Fexp] in Fa. clearbody e k.
    assert (Q : / 4 = IZR (2 ^ (-2 - e)) * bpow radix2 e).
    { change 2%Z with (radix_val radix2) at 1. rewrite IZR_Zpower by lia. rewrite <- bpow_plus. replace (-2 - e + e)%Z with (-2)%Z by lia. reflexivity. }
    rewrite Fa, Q, <- Rmult_minus_distr_r, <- minus_IZR. apply dyadic_format; [|exact He].
    assert (P0 : (0 < 2 ^ (-2 - e))%Z) by (apply Z.pow_pos_nonneg; lia).
    assert (P1 : (2 ^ (-2 - e) <= k)%Z).
    { apply le_IZR. apply Rmult_le_reg_r with (bpow radix2 e); [apply bpow_gt_0|]. rewrite <- Q, <- Fa. lra. }
    assert (P2 : (k < 2 ^ prec t)%Z).
    { apply lt_IZR. change 2%Z with (radix_val radix2). rewrite IZR_Zpower by (destruct t; cbv; discriminate).
      apply Rmult_lt_reg_r with (bpow radix2 e); [apply bpow_gt_0|]. rewrite <- bpow_plus, <- Fa. rewrite Rabs_pos_eq in Hm by lra. exact Hm. }
    lia.
  - rewrite E. replace (quarter_limit t - / 4) with (IZR (2 ^ prec t - 1) * bpow radix2 (-2)).
    + apply dyadic_format; [destruct t; cbv; discriminate|destruct t; cbv; discriminate].
    + rewrite minus_IZR, Rmult_minus_distr_r, Rmult_1_l. f_equal. destruct t; cbn; lra.
Qed.

Lemma soft_value x : isfin x = true -> / 2 <= val x <= quarter_limit t -> val (s_softclip n x) = rnd t (1 - / (4 * val x)).
Proof.
  intros Fx (H1 & H2). rewrite softclip_out by (auto; rewrite Rabs_pos_eq; lra).
  destruct (softclip_outer n x Fx) as (_ & A2 & _); [rewrite Rabs_pos_eq; lra|].
  rewrite A2, Rabs_pos_eq by lra. rewrite (rnd_id (val x - / 4)) by (apply quarter_format; [apply val_format|lra]).
  f_equal. field. lra.
Qed.

Lemma soft_outer_pos x : isfin x = true -> / 2 <= val x -> / 2 <= val (s_softclip n x) <= 1.
Proof.
  intros Fx H1. rewrite softclip_out by (auto; rewrite Rabs_pos_eq; lra).
  destruct (softclip_outer n x Fx) as (B1 & B2 & B3 & B4); [rewrite Rabs_pos_eq; lra|].
  assert (0 <= val (fdiv n (fsub n (fabs x) (f_lit t 1 (-2))) x)); [|rewrite Rabs_pos_eq in B4 by assumption; exact B4].
  rewrite B2. rewrite <- (rnd_0 (t := t)). apply rnd_le. apply Rmult_le_pos; [|apply Rlt_le, Rinv_0_lt_compat; lra].
  rewrite <- (rnd_0 (t := t)). apply rnd_le. rewrite Rabs_pos_eq; lra.
Qed.

Lemma soft_mono_pos x y : isfin x = true -> isfin y = true -> 0 <= val x -> val x <= val y -> val y <= quarter_limit t ->
  val (s_softclip n x) <= val (s_softclip n y).
Proof.
  intros Fx Fy P L Q. destruct (Rlt_le_dec (val y) (/ 2)) as [Hy|Hy].
  - rewrite !softclip_inner; auto; rewrite Rabs_pos_eq; lra.
  - destruct (Rlt_le_dec (val x) (/ 2)) as [Hx|Hx].
    + rewrite (softclip_inner n x Fx) by (rewrite Rabs_pos_eq; lra). pose proof (soft_outer_pos y Fy Hy). lra.
    + rewrite (soft_value x Fx), (soft_value y Fy) by lra. apply rnd_le.
      assert (/ (4 * val y) <= / (4 * val x)) by (apply Rinv_le; lra). lra.
Qed.

Lemma soft_nonneg x : isfin x = true -> 0 <= val x -> 0 <= val (s_softclip n x).
Proof.
  intros Fx P. destruct (Rlt_le_dec (val x) (/ 2)) as [Hx|Hx].
  - rewrite softclip_inner; auto. rewrite Rabs_pos_eq; lra.
  - pose proof (soft_outer_pos x Fx Hx). lra.
Qed.

Lemma soft_neg x : isfin x = true -> val (s_softclip n x) = - val (s_softclip n (fneg x)).
Proof. intros Fx. rewrite softclip_odd by exact Fx. rewrite val_fneg. ring. Qed.

Lemma soft_mono x y : isfin x = true -> isfin y = true -> val x <= val y -> Rabs (val x) <= quarter_limit t -> Rabs (val y) <= quarter_limit t ->
  val (s_softclip n x) <= val (s_softclip n y).
Proof.
  intros Fx Fy L Qx Qy. destruct (Rle_lt_dec 0 (val x)) as [Px|Nx].
  - apply soft_mono_pos; auto. rewrite Rabs_pos_eq in Qy by lra. exact Qy.
  - assert (Fnx : isfin (fneg x) = true) by (rewrite isfin_fneg; exact Fx). rewrite (soft_neg x Fx).
    destruct (Rle_lt_dec 0 (val y)) as [Py|Ny].
    + pose proof (soft_nonneg y Fy Py). assert (0 <= val (s_softclip n (fneg x))) by (apply soft_nonneg; [exact Fnx|rewrite val_fneg; lra]). lra.
    + assert (Fny : isfin (fneg y) = true) by (rewrite isfin_fneg; exact Fy). rewrite (soft_neg y Fy).
      apply Ropp_le_contravar. apply soft_mono_pos; auto; rewrite ?val_fneg; try lra. rewrite Rabs_left in Qx by lra. exact Qx.
Qed.

Lemma soft_err x : isfin x = true -> Rabs (val (s_softclip n x) - real_softclip (val x)) <= 2 * u.
Proof.
  intros Fx. assert (U0 : 0 < u) by (unfold unit_roundoff; apply bpow_gt_0). unfold real_softclip.
  destruct (Rlt_dec (Rabs (val x)) (/ 2)) as [H|H].
  - rewrite softclip_inner by assumption. rewrite Rminus_diag_eq, Rabs_R0 by reflexivity. lra.
  - apply Rnot_lt_le in H. rewrite softclip_out by assumption. destruct (softclip_outer n x Fx H) as (_ & A2 & _). rewrite A2.
    assert (Fa : fmtR t (Rabs (val x))) by (apply generic_format_abs; apply val_format).
    assert (F4 : fmtR t (- / 4)).
    { apply generic_format_opp. change (/ 4) with (bpow radix2 (-2)). apply bpow_format. destruct t; vm_compute; discriminate. }
    pose proof (rnd_plus t (Rabs (val x)) (- / 4) Fa F4) as E1. change (Rabs (val x) + - / 4) with (Rabs (val x) - / 4) in E1.
    rewrite (Rabs_pos_eq (Rabs (val x) - / 4)) in E1 by lra.
    assert (B1 : 0 <= rnd t (Rabs (val x) - / 4) <= Rabs (val x)).
    { split; [rewrite <- (rnd_0 (t := t)); apply rnd_le; lra|apply rnd_le_format; [exact Fa|lra]]. }
    assert (Hx0 : val x <> 0) by (intros E; rewrite E, Rabs_R0 in H; lra).
    set (a := rnd t (Rabs (val x) - / 4)) in *. set (q := a / val x).
    assert (Pa : 0 < Rabs (val x)) by lra.
    assert (Hq : Rabs q <= 1).
    { unfold q, Rdiv. rewrite Rabs_mult, Rabs_inv, (Rabs_pos_eq a) by lra.
      apply Rmult_le_reg_r with (Rabs (val x)); [exact Pa|]. rewrite Rmult_assoc, Rinv_l by lra. lra. }
    assert (E2 : Rabs (q - (Rabs (val x) - / 4) / val x) <= u).
    { unfold q, Rdiv. rewrite <- Rmult_minus_distr_r, Rabs_mult, Rabs_inv.
      apply Rmult_le_reg_r with (Rabs (val x)); [exact Pa|]. rewrite Rmult_assoc, Rinv_l by lra. rewrite Rmult_1_r.
      eapply Rle_trans; [exact E1|]. apply Rmult_le_compat_l; lra. }
    assert (E3 : Rabs (rnd t q - q) <= u).
    { assert (B2 : Rabs (val x) / 2 <= a) by (apply rnd_ge_format; [apply (half_abs_format n); exact H|lra]).
      assert (Hq2 : / 2 <= Rabs q).
      { unfold q, Rdiv. rewrite Rabs_mult, Rabs_inv, (Rabs_pos_eq a) by lra.
        apply Rmult_le_reg_r with (Rabs (val x)); [exact Pa|]. rewrite Rmult_assoc, Rinv_l by lra. lra. }
      eapply Rle_trans; [apply (rnd_normal n)|].
      - eapply Rle_trans; [|exact Hq2]. change (/ 2) with (bpow radix2 (-1)). apply bpow_le. destruct t; cbv; discriminate.
      - rewrite <- (Rmult_1_r u) at 2. apply Rmult_le_compat_l; lra. }
    replace (rnd t q - (Rabs (val x) - / 4) / val x) with ((rnd t q - q) + (q - (Rabs (val x) - / 4) / val x)) by ring.
    eapply Rle_trans; [apply Rabs_triang|]. lra.
Qed.
End Soft.
