(** Correct rounding of the float operations, in terms of [val]. *)
From Coq Require Import ZArith Reals Bool List Lia Lra.
From Flocq Require Import Core IEEE754.Binary IEEE754.Bits.
From Verif Require Import Float FloatFacts.
Local Open Scope R_scope.

Notation fexp t := (SpecFloat.fexp (prec t) (emax t)).
Notation emin t := (SpecFloat.emin (prec t) (emax t)).
Notation fmtR t := (generic_format radix2 (fexp t)).

(** Rounding to nearest even in format [t]. *)
Definition rnd (t : fmt) (x : R) : R := round radix2 (fexp t) ZnearestE x.

Lemma fexp_FLT t : fexp t = FLT_exp (emin t) (prec t). Proof. reflexivity. Qed.
#[global] Instance fexp_valid t : Valid_exp (fexp t).
Proof. destruct t; apply (FLT_exp_valid _ _). Qed.
#[global] Instance fexp_mono t : Monotone_exp (fexp t).
Proof. destruct t; apply FLT_exp_monotone. Qed.

Lemma prec_pos t : (0 < prec t)%Z. Proof. destruct t; reflexivity. Qed.
Lemma emin_prec t : (emin t + prec t <= 0)%Z. Proof. destruct t; cbv; discriminate. Qed.

Section R.
Context {t : fmt}.

Lemma val_format (x : F t) : fmtR t (val x).
Proof. apply generic_format_B2R. Qed.
Lemma rnd_id x : fmtR t x -> rnd t x = x.
Proof. intros H. apply round_generic; [apply valid_rnd_N|exact H]. Qed.
Lemma rnd_format x : fmtR t (rnd t x).
Proof. apply generic_format_round; typeclasses eauto. Qed.
Lemma rnd_le x y : x <= y -> rnd t x <= rnd t y.
Proof. intros. apply round_le; typeclasses eauto || assumption. Qed.
Lemma rnd_0 : rnd t 0 = 0.
Proof. apply round_0. typeclasses eauto. Qed.
Lemma rnd_opp x : rnd t (- x) = - rnd t x.
Proof. apply round_NE_opp. Qed.
Lemma rnd_abs x : rnd t (Rabs x) = Rabs (rnd t x).
Proof. apply round_NE_abs. typeclasses eauto. Qed.
Lemma rnd_ge_format x y : fmtR t x -> x <= y -> x <= rnd t y.
Proof. intros H L. rewrite <- (rnd_id x H). apply rnd_le. exact L. Qed.
Lemma rnd_le_format x y : fmtR t y -> x <= y -> rnd t x <= y.
Proof. intros H L. rewrite <- (rnd_id y H). apply rnd_le. exact L. Qed.
Lemma rnd_abs_le x y : fmtR t y -> Rabs x <= y -> Rabs (rnd t x) <= y.
Proof. intros H L. rewrite <- rnd_abs. apply rnd_le_format; assumption. Qed.
Lemma rnd_abs_ge x y : fmtR t y -> y <= Rabs x -> y <= Rabs (rnd t x).
Proof. intros H L. rewrite <- rnd_abs. apply rnd_ge_format; assumption. Qed.

Lemma val_lt_emax (x : F t) : Rabs (val x) < bpow radix2 (emax t).
Proof. apply abs_B2R_lt_emax. Qed.

(** Dyadic numbers are representable. *)
Lemma dyadic_format k e : (Z.abs k <= 2 ^ prec t)%Z -> (emin t <= e)%Z -> fmtR t (IZR k * bpow radix2 e).
Proof.
  intros Hk He. apply generic_format_FLT.
  destruct (Z.eq_dec (Z.abs k) (2 ^ prec t)) as [E|E].
  - assert (HS : exists s, (k = s * 2 ^ prec t /\ Z.abs s = 1)%Z).
    { destruct (Z.abs_spec k) as [[_ K]|[_ K]]; [exists 1%Z|exists (-1)%Z]; lia. }
    destruct HS as (s & -> & Hs). exists (Float radix2 s (prec t + e)).
    + unfold F2R. cbn [Fnum Fexp]. rewrite mult_IZR, bpow_plus, Rmult_assoc. f_equal. f_equal.
      rewrite <- IZR_Zpower by (destruct t; discriminate). reflexivity.
    + cbn [Fnum]. rewrite Hs. destruct t; reflexivity.
    + cbn [Fexp]. pose proof (prec_pos t). lia.
  - exists (Float radix2 k e); [reflexivity| |exact He].
    cbn [Fnum]. change (radix_val radix2) with 2%Z. lia.
Qed.
Lemma bpow_format e : (emin t <= e)%Z -> fmtR t (bpow radix2 e).
Proof.
  intros H. rewrite <- (Rmult_1_l (bpow radix2 e)). apply (dyadic_format 1 e); [|exact H].
  destruct t; cbv; discriminate.
Qed.
Lemma dyadic_lt k e : (Z.abs k <= 2 ^ prec t)%Z -> (e + prec t < emax t)%Z -> Rabs (IZR k * bpow radix2 e) < bpow radix2 (emax t).
Proof.
  intros Hk He. rewrite Rabs_mult, <- abs_IZR, (Rabs_pos_eq (bpow _ _)) by apply bpow_ge_0.
  apply Rle_lt_trans with (bpow radix2 (prec t) * bpow radix2 e).
  - apply Rmult_le_compat_r; [apply bpow_ge_0|]. rewrite <- IZR_Zpower by (destruct t; discriminate). apply IZR_le. exact Hk.
  - rewrite <- bpow_plus. apply bpow_lt. lia.
Qed.

Lemma f_lit_exact m e : (Z.abs m <= 2 ^ prec t)%Z -> (emin t <= e)%Z -> (e + prec t < emax t)%Z ->
  isfin (f_lit t m e) = true /\ val (f_lit t m e) = IZR m * bpow radix2 e /\
  sgn (f_lit t m e) = (m <? 0)%Z.
Proof.
  intros H1 H2 H3.
  pose proof (binary_normalize_correct (prec t) (emax t) (Hprec t) (Hmax t) BinarySingleNaN.mode_NE m e false) as H.
  change (F2R {| Fnum := m; Fexp := e |}) with (IZR m * bpow radix2 e) in H.
  rewrite round_generic in H; [|apply BinarySingleNaN.valid_rnd_round_mode|apply dyadic_format; assumption].
  rewrite Rlt_bool_true in H by (apply dyadic_lt; assumption).
  destruct H as (V & Fi & S). split; [exact Fi|]. split; [exact V|].
  unfold sgn, f_lit. rewrite S. pose proof (bpow_gt_0 radix2 e) as Hp.
  destruct (Z.ltb_spec m 0) as [L|L].
  - rewrite Rcompare_Lt; [reflexivity|]. apply IZR_lt in L. nra.
  - destruct (Z.eq_dec m 0) as [->|N].
    + rewrite Rmult_0_l, Rcompare_Eq; reflexivity.
    + rewrite Rcompare_Gt; [reflexivity|]. assert (0 < m)%Z by lia. apply IZR_lt in H. nra.
Qed.

Lemma fin_eq (x y : F t) : isfin x = true -> isfin y = true -> val x = val y -> sgn x = sgn y -> x = y.
Proof. apply B2R_Bsign_inj. Qed.

Context (n : nans t).
Local Notation big := (bpow radix2 (emax t)).

Lemma fadd_fin (x y : F t) : isfin x = true -> isfin y = true -> Rabs (rnd t (val x + val y)) < big ->
  isfin (fadd n x y) = true /\ val (fadd n x y) = rnd t (val x + val y) /\
  sgn (fadd n x y) = match Rcompare (val x + val y) 0 with Eq => sgn x && sgn y | Lt => true | Gt => false end.
Proof.
  intros Hx Hy Hb.
  pose proof (Bplus_correct (prec t) (emax t) (Hprec t) (Hmax t) (nan_add n) BinarySingleNaN.mode_NE x y Hx Hy) as H.
  rewrite Rlt_bool_true in H by exact Hb. destruct H as (H1 & H2 & H3). auto.
Qed.
Lemma fsub_fin (x y : F t) : isfin x = true -> isfin y = true -> Rabs (rnd t (val x - val y)) < big ->
  isfin (fsub n x y) = true /\ val (fsub n x y) = rnd t (val x - val y) /\
  sgn (fsub n x y) = match Rcompare (val x - val y) 0 with Eq => sgn x && negb (sgn y) | Lt => true | Gt => false end.
Proof.
  intros Hx Hy Hb.
  pose proof (Bminus_correct (prec t) (emax t) (Hprec t) (Hmax t) (nan_sub n) BinarySingleNaN.mode_NE x y Hx Hy) as H.
  rewrite Rlt_bool_true in H by exact Hb. destruct H as (H1 & H2 & H3). auto.
Qed.
Lemma isfin_isnan (x : F t) : isfin x = true -> isnan x = false.
Proof. apply fin_not_nan. Qed.
Lemma fmul_fin (x y : F t) : isfin x = true -> isfin y = true -> Rabs (rnd t (val x * val y)) < big ->
  isfin (fmul n x y) = true /\ val (fmul n x y) = rnd t (val x * val y) /\
  sgn (fmul n x y) = xorb (sgn x) (sgn y).
Proof.
  intros Hx Hy Hb.
  pose proof (Bmult_correct (prec t) (emax t) (Hprec t) (Hmax t) (nan_mul n) BinarySingleNaN.mode_NE x y) as H.
  rewrite Rlt_bool_true in H by exact Hb. destruct H as (H1 & H2 & H3).
  unfold isfin in Hx, Hy. rewrite Hx, Hy in H2.
  split; [exact H2|]. split; [exact H1|]. apply H3. apply (isfin_isnan (fmul n x y)). exact H2.
Qed.
Lemma fdiv_fin (x y : F t) : isfin x = true -> val y <> 0 -> Rabs (rnd t (val x / val y)) < big ->
  isfin (fdiv n x y) = true /\ val (fdiv n x y) = rnd t (val x / val y) /\
  sgn (fdiv n x y) = xorb (sgn x) (sgn y).
Proof.
  intros Hx Hy Hb.
  pose proof (Bdiv_correct (prec t) (emax t) (Hprec t) (Hmax t) (nan_div n) BinarySingleNaN.mode_NE x y Hy) as H.
  rewrite Rlt_bool_true in H by exact Hb. destruct H as (H1 & H2 & H3).
  unfold isfin in Hx. rewrite Hx in H2.
  split; [exact H2|]. split; [exact H1|]. apply H3. apply (isfin_isnan (fdiv n x y)). exact H2.
Qed.
Lemma ffma_fin (x y z : F t) : isfin x = true -> isfin y = true -> isfin z = true ->
  Rabs (rnd t (val x * val y + val z)) < big ->
  isfin (ffma n x y z) = true /\ val (ffma n x y z) = rnd t (val x * val y + val z).
Proof.
  intros Hx Hy Hz Hb.
  pose proof (Bfma_correct (prec t) (emax t) (Hprec t) (Hmax t) (nan_fma n) BinarySingleNaN.mode_NE x y z Hx Hy Hz) as H.
  cbv zeta in H. rewrite Rlt_bool_true in H by exact Hb. destruct H as (H1 & H2 & H3). auto.
Qed.
Lemma fsqrt_fin (x : F t) : isfin x = true -> 0 < val x \/ val x = 0 ->
  isfin (fsqrt n x) = true /\ val (fsqrt n x) = rnd t (sqrt (val x)) /\ sgn (fsqrt n x) = sgn x.
Proof.
  intros Hx Hp.
  pose proof (Bsqrt_correct (prec t) (emax t) (Hprec t) (Hmax t) (nan_sqrt n) BinarySingleNaN.mode_NE x) as (H1 & H2 & H3).
  assert (HF : isfin (fsqrt n x) = true).
  { unfold isfin, fsqrt. rewrite H2. destruct x as [s|s|s pl H|s m e H]; try reflexivity; try discriminate.
    destruct s; [|reflexivity]. exfalso. cbn in Hp.
    assert (F2R (Float radix2 (Z.neg m) e) < 0) by (apply F2R_lt_0; reflexivity).
    unfold val, B2R in Hp. cbn in *. lra. }
  split; [exact HF|]. split; [exact H1|]. apply H3. apply (isfin_isnan (fsqrt n x)). exact HF.
Qed.
End R.
