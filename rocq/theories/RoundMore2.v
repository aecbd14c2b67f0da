(** Fractional part and truncation. *)

From Coq Require Import ZArith Reals List Lia Lra Bool.
From Flocq Require Import Core IEEE754.Binary IEEE754.Bits.
From Verif Require Import Base Mem Backend Lanes Float LaneOps ScalarMath VecMath SpecLane SpecRound FloatFacts FloatRound LaneFacts VecFacts VecMore ReduceMore RoundFacts RoundMore.
Local Open Scope R_scope.

Section Frac.
Context {t : fmt}.
Implicit Types x y : F t.
Lemma one_bpow : 1 < bpow radix2 (emax t).
Proof. change 1 with (bpow radix2 0). apply bpow_lt. destruct t; reflexivity. Qed.
Lemma fmt01 : fmtR t 0 /\ fmtR t 1.
Proof. split; [apply (int_fmt 0)|apply (int_fmt 1)]; destruct t; cbv; discriminate. Qed.
Lemma floor_diff r : 0 <= r - IZR (Zfloor r) < 1.
Proof. destruct (floor_of_Zfloor r). lra. Qed.
Lemma s_frac_fin (n : nans t) x : isfin x = true ->
  isfin (s_frac n x) = true /\ val (s_frac n x) = rnd t (val x - IZR (Zfloor (val x))) /\ 0 <= val (s_frac n x) <= 1.
Proof.
  intros Hx. destruct (ffloor_fin n x Hx) as (A & B & C). pose proof (floor_diff (val x)) as D. destruct fmt01 as [F0 F1].
  assert (R : 0 <= rnd t (val x - IZR (Zfloor (val x))) <= 1).
  { split; [apply rnd_ge_format; [exact F0|lra]|apply rnd_le_format; [exact F1|lra]]. }
  destruct (fsub_fin n x (ffloor n x) Hx A) as (P & Q & S).
  - rewrite B, Rabs_pos_eq by lra. pose proof one_bpow. lra.
  - rewrite B in Q. unfold s_frac, s_floor. rewrite Q. auto.
Qed.
(** The value as an integer multiple of a power of two. *)
Lemma val_dyadic x : isfin x = true -> exists m e, val x = IZR m * bpow radix2 e /\ (Z.abs m <= 2 ^ prec t)%Z /\ (emin t <= e)%Z /\
  (/ 2 <= Rabs (val x) -> (- prec t <= e)%Z).
Proof.
  intros Hx. pose proof (val_format x) as G. unfold fmtR in G. unfold generic_format in G.
  set (e := cexp radix2 (fexp t) (val x)) in *. set (m := Ztrunc (scaled_mantissa radix2 (fexp t) (val x))) in *.
  assert (He : (emin t <= e)%Z) by (unfold e, cexp; rewrite fexp_FLT; unfold FLT_exp; lia).
  assert (Hm : (Z.abs m <= 2 ^ prec t)%Z).
  { apply le_IZR. rewrite abs_IZR. unfold m. rewrite <- scaled_mantissa_generic by (apply (val_format x)).
    unfold scaled_mantissa. rewrite Rabs_mult, (Rabs_pos_eq (bpow radix2 _)) by apply bpow_ge_0.
    fold e. change 2%Z with (radix_val radix2). rewrite IZR_Zpower by (destruct t; discriminate).
    apply Rmult_le_reg_r with (bpow radix2 e); [apply bpow_gt_0|].
    rewrite Rmult_assoc, <- bpow_plus. replace (- e + e)%Z with 0%Z by lia. cbn [bpow]. rewrite Rmult_1_r, <- bpow_plus.
    destruct (Req_dec (val x) 0) as [Z|Z]; [rewrite Z, Rabs_R0; apply bpow_ge_0|].
    eapply Rle_trans; [apply Rlt_le, bpow_mag_gt|]. apply bpow_le. unfold e, cexp. rewrite fexp_FLT. unfold FLT_exp. lia. }
  exists m, e. split; [exact G|]. split; [exact Hm|]. split; [exact He|].
  intros Hh. unfold e, cexp. rewrite fexp_FLT. unfold FLT_exp.
  assert (0 <= Raux.mag radix2 (val x))%Z; [|lia].
  apply (mag_ge_bpow radix2 (val x) 0). change (bpow radix2 (0 - 1)) with (/ 2). exact Hh.
Qed.
Lemma frac_format x : isfin x = true -> 0 <= val x \/ val x <= - / 2 -> fmtR t (val x - IZR (Zfloor (val x))).
Proof.
  intros Hx Hr. destruct (val_dyadic x Hx) as (m & e & V & Hm & He & Hh). destruct (floor_of_Zfloor (val x)) as [L U].
  destruct (Z_le_dec 0 e) as [E|E].
  - assert (W : val x = IZR (m * 2 ^ e)).
    { rewrite mult_IZR. change 2%Z with (radix_val radix2). rewrite IZR_Zpower by exact E. exact V. }
    rewrite W, Zfloor_IZR, Rminus_diag_eq by reflexivity. apply fmt01.
  - set (q := (2 ^ (- e))%Z). assert (Q : IZR q = bpow radix2 (- e)).
    { unfold q. change 2%Z with (radix_val radix2). apply IZR_Zpower. lia. }
    assert (Qe : IZR q * bpow radix2 e = 1) by (rewrite Q, <- bpow_plus; replace (- e + e)%Z with 0%Z by lia; reflexivity).
    set (k := Zfloor (val x)) in *.
    assert (W : val x - IZR k = IZR (m - k * q) * bpow radix2 e).
    { rewrite minus_IZR, mult_IZR, Rmult_minus_distr_r, <- V. rewrite Rmult_assoc, Qe. ring. }
    rewrite W. apply dyadic_format; [|exact He].
    pose proof (bpow_gt_0 radix2 e) as Be.
    assert (P0 : (0 <= m - k * q)%Z).
    { apply le_IZR. apply Rmult_le_reg_r with (bpow radix2 e); [exact Be|]. rewrite <- W. lra. }
    assert (P1 : (m - k * q <= q)%Z).
    { apply le_IZR. apply Rmult_le_reg_r with (bpow radix2 e); [exact Be|]. rewrite <- W, Qe. lra. }
    destruct Hr as [Hr|Hr].
    + assert (0 <= k)%Z by (apply Zfloor_lub; exact Hr). assert (0 <= q)%Z by (unfold q; lia). nia.
    + assert (Hq : (q <= 2 ^ prec t)%Z).
      { unfold q. apply Z.pow_le_mono_r; [lia|]. assert (/ 2 <= Rabs (val x)) by (rewrite Rabs_left1 by lra; lra). specialize (Hh H). lia. }
      lia.
Qed.
Lemma s_frac_exact (n : nans t) x : isfin x = true -> 0 <= val x \/ val x <= - / 2 ->
  val (s_frac n x) = val x - IZR (Zfloor (val x)).
Proof.
  intros Hx Hr. destruct (s_frac_fin n x Hx) as (A & B & C). rewrite B. apply rnd_id. apply frac_format; assumption.
Qed.
(** Just below 1 rounds to 1. *)
Lemma rnd_below_one : rnd t (1 - bpow radix2 (- prec t - 1)) = 1.
Proof.
  assert (H : forall n : nans t, rnd t (1 - bpow radix2 (- prec t - 1)) = val (fsub n (f_ofZ t 1) (f_lit t 1 (- prec t - 1)))).
  { intros n. destruct (ofZ_exact (t := t) 1) as (A & B & _); [destruct t; cbv; discriminate|].
    destruct (f_lit_exact (t := t) 1 (- prec t - 1)) as (C & D & _); [destruct t; cbv; discriminate..|destruct t; reflexivity|].
    assert (Dv : val (f_ofZ t 1) - val (f_lit t 1 (- prec t - 1)) = 1 - bpow radix2 (- prec t - 1)) by (rewrite B, D; lra).
    destruct fmt01 as [F0 F1]. assert (L : bpow radix2 (- prec t - 1) <= 1) by (change 1 with (bpow radix2 0); apply bpow_le; destruct t; cbv; discriminate).
    pose proof (bpow_gt_0 radix2 (- prec t - 1)) as G.
    destruct (fsub_fin n _ _ A C) as (P & Q & S).
    - rewrite Dv, Rabs_pos_eq by (apply rnd_ge_format; [exact F0|lra]).
      apply Rle_lt_trans with 1; [apply rnd_le_format; [exact F1|lra]|apply one_bpow].
    - rewrite Q, Dv. reflexivity. }
  assert (q : {x : F t | isnan x = true}).
  { exists (of_bits t (2 ^ (mw t + ew t) - 1)). destruct t; vm_compute; reflexivity. }
  assert (q32 : {x : F F32 | isnan x = true}).
  { exists (of_bits F32 (2 ^ (mw F32 + ew F32) - 1)). vm_compute; reflexivity. }
  set (n := Build_nans t (fun _ _ => q) (fun _ _ => q) (fun _ _ => q) (fun _ _ => q) (fun _ => q)
    (fun _ _ _ => q) (fun _ => q) (fun _ _ => q) (fun _ => q32) (fun _ => q)).
  rewrite (H n). replace (fsub n (f_ofZ t 1) (f_lit t 1 (- prec t - 1))) with (f_ofZ t 1).
  - apply ofZ_exact. destruct t; cbv; discriminate.
  - apply bits_inj. clearbody n. clear. destruct t; vm_compute; reflexivity.
Qed.
Lemma s_frac_tiny (n : nans t) x : isfin x = true -> - bpow radix2 (- prec t - 1) <= val x < 0 -> val (s_frac n x) = 1.
Proof.
  intros Hx Hv. destruct (s_frac_fin n x Hx) as (A & B & C). rewrite B.
  assert (L : bpow radix2 (- prec t - 1) <= 1) by (change 1 with (bpow radix2 0); apply bpow_le; destruct t; cbv; discriminate).
  assert (K : Zfloor (val x) = (-1)%Z) by (apply Zfloor_imp; cbn; lra). rewrite K.
  apply Rle_antisym; [rewrite B, K in C; apply C|]. rewrite <- rnd_below_one at 1. apply rnd_le. lra.
Qed.
End Frac.

Section Trunc.
Context {t : fmt}.
Implicit Types x y : F t.
(** Conversion of an integer that the format contains. *)
Lemma ofZ_fmt k : fmtR t (IZR k) -> Rabs (IZR k) < bpow radix2 (emax t) -> is_int (f_ofZ t k) k.
Proof.
  intros Hf Hb.
  pose proof (binary_normalize_correct (prec t) (emax t) (Hprec t) (Hmax t) BinarySingleNaN.mode_NE k 0 false) as H.
  assert (E : F2R (Float radix2 k 0) = IZR k) by (unfold F2R; cbn [Fnum Fexp bpow]; ring).
  cbv zeta in H. rewrite E in H.
  assert (R : round radix2 (SpecFloat.fexp (prec t) (emax t)) (BinarySingleNaN.round_mode BinarySingleNaN.mode_NE) (IZR k) = IZR k) by (apply (rnd_id (t := t)); exact Hf).
  rewrite R, Rlt_bool_true in H by exact Hb. destruct H as (H1 & H2 & _). split; [exact H2|exact H1].
Qed.
Lemma Btrunc_val x : Btrunc (prec t) (emax t) x = Ztrunc (val x).
Proof.
  apply eq_IZR. rewrite (Btrunc_correct (prec t) (emax t) (Hmax t)). apply round_FIX0. typeclasses eauto.
Qed.
Lemma trunc_format (n : nans t) x : isfin x = true -> fmtR t (IZR (Ztrunc (val x))) /\ Rabs (IZR (Ztrunc (val x))) < bpow radix2 (emax t).
Proof.
  intros Hx. destruct (fround_zero_fin n x Hx) as (A & B & C). rewrite <- B. split; [apply val_format|apply val_lt_emax].
Qed.
Lemma s_trunc_ok (n : nans t) x : isfin x = true -> (- 2 ^ 63 <= Ztrunc (val x) < 2 ^ 63)%Z ->
  exists y, s_trunc x = Ok y /\ is_int y (Ztrunc (val x)).
Proof.
  intros Hx Hr. exists (f_ofZ t (Ztrunc (val x))). split.
  - unfold s_trunc, to_long. rewrite Btrunc_val, Hx.
    replace (- 2 ^ 63 <=? Ztrunc (val x))%Z with true by (symmetry; apply Z.leb_le; lia).
    replace (Ztrunc (val x) <? 2 ^ 63)%Z with true by (symmetry; apply Z.ltb_lt; lia). reflexivity.
  - apply ofZ_fmt; apply (trunc_format n x Hx).
Qed.
Lemma s_trunc_fault x : isfin x = false \/ (Ztrunc (val x) < - 2 ^ 63)%Z \/ (2 ^ 63 <= Ztrunc (val x))%Z ->
  s_trunc x = Fault BadConversion.
Proof.
  intros H. unfold s_trunc, to_long. rewrite Btrunc_val.
  destruct H as [H|[H|H]].
  - rewrite H. reflexivity.
  - replace (- 2 ^ 63 <=? Ztrunc (val x))%Z with false by (symmetry; apply Z.leb_gt; lia).
    rewrite andb_false_r. reflexivity.
  - replace (Ztrunc (val x) <? 2 ^ 63)%Z with false by (symmetry; apply Z.ltb_ge; lia).
    rewrite andb_false_r. reflexivity.
Qed.
End Trunc.
Lemma altivec_trunc_neg (x : F F32) : flt x (f_ofZ F32 0) = true -> bits (altivec_trunc x) = 0%Z.
Proof.
  intros H. apply flt_iff in H. destruct H as (Hn & _ & Ho). rewrite ord_zero in Ho.
  unfold altivec_trunc. rewrite Hn, Btrunc_val. destruct (isfin x) eqn:Hf.
  - assert (V : val x < 0).
    { destruct zero_ok as (A & B & C). rewrite <- B. apply ord_lt_val; [exact Hf|exact A|]. rewrite ord_zero. exact Ho. }
    assert (T : (Ztrunc (val x) <= 0)%Z).
    { rewrite Ztrunc_ceil by lra. apply Zceil_glb. lra. }
    replace (Z.max 0 (Z.min (2 ^ 32 - 1) (Ztrunc (val x)))) with 0%Z by lia. apply (bits_zero (t := F32)).
  - rewrite (ord_sgn x Ho). apply (bits_zero (t := F32)).
Qed.
Lemma altivec_trunc_pos (n : nans F32) (x : F F32) : isfin x = true -> 0 <= val x < IZR (2 ^ 32) -> is_int (altivec_trunc x) (Ztrunc (val x)).
Proof.
  intros Hx [H1 H2]. unfold altivec_trunc. rewrite (isfin_isnan x Hx), Hx, Btrunc_val.
  assert (T : (0 <= Ztrunc (val x) < 2 ^ 32)%Z).
  { rewrite Ztrunc_floor by exact H1. split; [apply Zfloor_lub; exact H1|]. apply lt_IZR. eapply Rle_lt_trans; [apply Zfloor_lb|exact H2]. }
  replace (Z.max 0 (Z.min (2 ^ 32 - 1) (Ztrunc (val x)))) with (Ztrunc (val x)) by lia.
  apply ofZ_fmt; apply (trunc_format n x Hx).
Qed.
Lemma altivec_trunc_big (x : F F32) : isfin x = true -> IZR (2 ^ 32) <= val x -> altivec_trunc x = f_ofZ F32 (2 ^ 32 - 1).
Proof.
  intros Hx H. unfold altivec_trunc. rewrite (isfin_isnan x Hx), Hx, Btrunc_val.
  assert (T : (2 ^ 32 <= Ztrunc (val x))%Z).
  { rewrite Ztrunc_floor by (apply Rle_trans with (IZR (2 ^ 32)); [apply IZR_le; lia|exact H]). apply Zfloor_lub. exact H. }
  f_equal. lia.
Qed.
Lemma trunc_of_eq r k : trunc_of r k -> k = Ztrunc r.
Proof.
  intros [K1 K2]. destruct (trunc_of_Ztrunc r) as [T1 T2]. destruct (Rle_dec 0 r) as [H|H].
  - rewrite (floor_of_unique _ _ (K1 H)). symmetry. apply floor_of_unique. apply T1. exact H.
  - assert (G : r <= 0) by lra. rewrite (ceil_of_unique _ _ (K2 G)). symmetry. apply ceil_of_unique. apply T2. exact G.
Qed.
