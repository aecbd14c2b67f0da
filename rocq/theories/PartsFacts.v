(** Samples taken apart and put together again. *)
From Coq Require Import ZArith Reals List Lia Lra Bool.
From Flocq Require Import Core IEEE754.Binary IEEE754.Bits.
From Flocq Require Import Sterbenz.
From Verif Require Import Base Mem Loop Backend Args Drivers Functors Lanes Float LaneOps FloatOps ScalarMath VecMath FloatFuns Spec SpecLane SpecAgree SpecAlike SpecNeutral SpecSwap SpecChain SpecGain SpecRound SpecKeep SpecParts
  FloatFacts LaneFacts FloatRound VecFacts VecMore VecMore2 RoundFacts RoundMore RoundMore2 MathMore SumErr KeepFacts NeutralFacts AlikeFacts DriverClaims2 AgreeFacts ReduceMore LaneClaims RoundClaims ExData ExMath SwapFacts GainFacts ChainFacts.
Import ListNotations.
Local Open Scope Z_scope.

Section T.
Context {t : fmt} (n : nans t).
Implicit Types x y z : F t.
Local Notation Zs := (B754_zero (prec t) (emax t)).

(** ** sgn and abs *)
Lemma minus_one_eq : f_ofZ t (-1) = fneg (f_ofZ t 1).
Proof. clear n. apply bits_inj. destruct t; vm_compute; reflexivity. Qed.
Lemma vmul_one_l I x : isnan x = false -> ~ a_zero_of x -> vmul I n (f_ofZ t 1) x = x.
Proof.
  intros N Z. destruct (vmul_some n I x) as (K & _). pose proof (bits_inj _ _ (K N Z)) as E.
  apply (same_eq (vmul I n (f_ofZ t 1) x) x).
  - destruct (isnan (vmul I n (f_ofZ t 1) x)) eqn:D; [|reflexivity]. pose proof (same_nan _ _ D (vmul_comm n I _ _)) as D2. change (f_ofZ t 1) with (one t) in D2. congruence.
  - eapply same_trans; [apply vmul_comm|]. change (f_ofZ t 1) with (one t). rewrite E. apply same_refl.
Qed.
Lemma sgn_abs c I x : isnan x = false -> feq (vmul I n (vsign c I x) (vabs c I x)) x = true.
Proof.
  intros N. rewrite vabs_fabs. destruct (C32_sign_lane_lemma t c I x) as (P & Q & R).
  destruct (zero_dec x) as [Z|Z].
  - destruct R as [R _]; [change (f_ofZ t 0) with (zero t); rewrite zero_eq; apply a_zero_cases in Z; destruct Z as [s ->]; reflexivity|].
    apply a_zero_cases in Z. destruct Z as [s ->].
    change (f_ofZ t 0) with (zero t) in R. rewrite zero_eq in R.
    assert (Fs : isfin (vsign c I (Zs s)) = true) by (destruct (vsign c I (Zs s)) as [q|q|q pl H|q mm e H]; try reflexivity; destruct q; discriminate R).
    cbn [fabs]. destruct (vmul_zero n I (vsign c I (Zs s)) false Fs) as [s' ->]. reflexivity.
  - destruct (sgn x) eqn:S.
    + assert (L : flt x (f_ofZ t 0) = true).
      { change (f_ofZ t 0) with (zero t). rewrite zero_eq. destruct x as [q|q|q pl H|q mm e H]; try discriminate; cbn in S; subst; try reflexivity. exfalso. apply Z. apply a_zero_cases. exists true. reflexivity. }
      destruct (Q L) as [-> _]. rewrite minus_one_eq.
      assert (E : fabs x = fneg x) by (destruct x as [q|q|q pl H|q mm e H]; try discriminate; cbn in S; subst; reflexivity).
      rewrite E. assert (W : vmul I n (f_ofZ t 1) (fneg x) = fneg x).
      { apply vmul_one_l; [rewrite isnan_fneg; exact N|]. intros K. apply Z. apply a_zero_cases in K. destruct K as [s K]. apply a_zero_cases. exists (negb s). destruct x; discriminate. }
      destruct (opposite_vmul n I (f_ofZ t 1) (fneg x)) as [[D _]|D]; rewrite W in D; [rewrite isnan_fneg in D; congruence|].
      rewrite fneg_fneg in D. exact D.
    + assert (L : flt (f_ofZ t 0) x = true).
      { change (f_ofZ t 0) with (zero t). rewrite zero_eq. destruct x as [q|q|q pl H|q mm e H]; try discriminate; cbn in S; subst; try reflexivity. exfalso. apply Z. apply a_zero_cases. exists false. reflexivity. }
      destruct (P L) as [-> _].
      assert (E : fabs x = x) by (destruct x as [q|q|q pl H|q mm e H]; try discriminate; cbn in S; subst; reflexivity).
      rewrite E, vmul_one_l by assumption. apply feq_iff. auto.
Qed.

(** ** floor and frac *)
Lemma floor_frac x : not_slightly_negative x -> feq (fadd n (s_floor n x) (s_frac n x)) x = true.
Proof.
  intros [Fx Hx]. destruct (C40_frac_is_exact_lemma t n x Fx Hx) as (k & K1 & K2).
  destruct (C39_scalar_floor_and_ceil_lemma t n x Fx) as ((k' & (I1 & I2) & K' & _) & _).
  assert (k' = k) as -> by (unfold floor_of in *; assert (IZR k < IZR k' + 1 /\ IZR k' < IZR k + 1)%R as [G1 G2] by lra; rewrite <- plus_IZR in G1, G2; apply lt_IZR in G1; apply lt_IZR in G2; lia).
  destruct (C40_frac_lies_between_0_and_1_lemma t n x Fx) as (F1 & _).
  assert (E : (val (s_floor n x) + val (s_frac n x))%R = val x) by (rewrite I2, K2; ring).
  destruct (fadd_fin n (s_floor n x) (s_frac n x)) as (A1 & A2 & _); auto.
  { rewrite E, rnd_val. apply val_lt_emax. }
  apply feq_val; auto. rewrite A2, E. apply rnd_val.
Qed.
Lemma neg_zero_sub x : isfin x = true -> isfin (fsub n (f_ofZ t 0) x) = true /\ val (fsub n (f_ofZ t 0) x) = (- val x)%R.
Proof. apply zero_sub. Qed.
Lemma ceil_floor x : isnan x = false -> feq (s_ceil n x) (fsub n (f_ofZ t 0) (s_floor n (fsub n (f_ofZ t 0) x))) = true.
Proof.
  intros N. destruct (isfin x) eqn:Fx.
  - destruct (zero_sub n x Fx) as [Z1 Z2]. destruct (C39_scalar_floor_and_ceil_lemma t n x Fx) as (_ & (k & (I1 & I2) & K & _)).
    destruct (C39_scalar_floor_and_ceil_lemma t n _ Z1) as ((k' & (I1' & I2') & K' & _) & _). rewrite Z2 in K'.
    destruct (zero_sub n _ I1') as [Z3 Z4]. apply feq_val; [assumption..|]. rewrite I2, Z4, I2', <- opp_IZR. f_equal.
    unfold floor_of, ceil_of in *. assert (IZR k - 1 < - IZR k' /\ - IZR k' - 1 < IZR k)%R as [G1 G2] by lra. rewrite <- opp_IZR, <- minus_IZR in G1, G2. apply lt_IZR in G1. apply lt_IZR in G2. lia.
  - destruct x as [s|s|s pl H|s mm e H]; try discriminate. clear. destruct t; destruct s; vm_compute; reflexivity.
Qed.

(** ** min and max *)
Lemma min_plus_max I x y : isfin x = true -> isfin y = true -> feq (fadd n x y) (fadd n (vmin I n x y) (vmax I n x y)) = true.
Proof.
  intros Fx Fy. destruct (min_fin n I x y Fx Fy) as [A1 A2]. destruct (max_fin n I x y Fx Fy) as [B1 B2].
  destruct (fadd_x n x y Fx Fy) as [N1 V1]. destruct (fadd_x n _ _ A1 B1) as [N2 V2].
  apply feq_x; auto. rewrite V1, V2, A2, B2. f_equal. f_equal. unfold Rmin, Rmax. destruct (Rle_dec (val x) (val y)); ring.
Qed.

(** ** Differences of neighbours *)
Lemma sterbenz_back x y : isfin x = true -> isfin y = true ->
  ((val y / 2 <= val x <= 2 * val y)%R \/ (2 * val y <= val x <= val y / 2)%R) ->
  feq x (fadd n (fsub n x y) y) = true.
Proof.
  intros Fx Fy H.
  assert (G : fmtR t (val x - val y)).
  { destruct H as [H|H].
    - apply sterbenz; try apply generic_format_B2R; try exact (fexp_valid t); try typeclasses eauto. exact H.
    - replace (val x - val y)%R with (- (- val x - - val y))%R by ring. apply generic_format_opp.
      apply sterbenz; try (apply generic_format_opp; apply generic_format_B2R); try exact (fexp_valid t); try typeclasses eauto. lra. }
  assert (E : rnd t (val x - val y) = (val x - val y)%R) by (apply round_generic; [typeclasses eauto|exact G]).
  destruct (fsub_fin n x y Fx Fy) as (A1 & A2 & _).
  { rewrite E. pose proof (val_lt_emax x) as V. pose proof (val_lt_emax y) as V'. apply Rabs_def2 in V. apply Rabs_def2 in V'. apply Rabs_def1; lra. }
  rewrite E in A2. assert (E2 : (val (fsub n x y) + val y)%R = val x) by (rewrite A2; ring).
  destruct (fadd_fin n _ y A1 Fy) as (B1 & B2 & _); [rewrite E2, rnd_val; apply val_lt_emax|].
  apply feq_val; auto. rewrite B2, E2, rnd_val. reflexivity.
Qed.
Lemma sub_self x : isfin x = true -> fsub n x x = f_ofZ t 0.
Proof.
  intros Fx. destruct (fsub_fin n x x Fx Fx) as (A1 & A2 & A3).
  { replace (val x - val x)%R with 0%R by ring. rewrite rnd_0, Rabs_R0. apply bpow_gt_0. }
  replace (val x - val x)%R with 0%R in A2, A3 by ring. rewrite Rcompare_Eq in A3 by reflexivity. rewrite rnd_0 in A2.
  destruct (zero_val (t := t)) as (O1 & O2 & O3). apply fin_eq; [exact A1|exact O1|rewrite A2, O2; reflexivity|rewrite A3, O3; destruct (sgn x); reflexivity].
Qed.
Lemma div_self x : isfin x = true -> val x <> 0%R -> fdiv n x x = f_ofZ t 1.
Proof.
  intros Fx Nz. destruct (one_fin (t := t)) as (O1 & O2 & O3). change (one t) with (f_ofZ t 1) in *.
  assert (E : rnd t (val x / val x) = 1%R) by (replace (val x / val x)%R with (val (f_ofZ t 1)) by (rewrite O2; field; exact Nz); rewrite rnd_val; exact O2).
  destruct (fdiv_fin n x x Fx Nz) as (A1 & A2 & A3).
  { rewrite E. rewrite <- O2. apply val_lt_emax. }
  apply fin_eq; [exact A1|exact O1|rewrite A2, E, O2; reflexivity|rewrite A3, O3; destruct (sgn x); reflexivity].
Qed.

(** ** The square root of the square *)
Lemma ulp_square (r : R) (k : Z) : (0 < r)%R -> (bpow radix2 k <= r < bpow radix2 (k + 1))%R -> (smallest_normal t <= r * r)%R ->
  (Rabs (rnd t (r * r) - r * r) <= bpow radix2 k * bpow radix2 (k + 1 - prec t))%R /\ ulp radix2 (fexp t) r = bpow radix2 (k + 1 - prec t).
Proof.
  intros Hr Hk Hn.
  assert (M1 : Raux.mag radix2 r = (k + 1)%Z :> Z) by (apply mag_unique_pos; replace (k + 1 - 1)%Z with k by lia; exact Hk).
  assert (S : (0 < r * r)%R) by nra.
  assert (U : (r * r < bpow radix2 (2 * k + 2))%R).
  { replace (2 * k + 2)%Z with ((k + 1) + (k + 1))%Z by lia. rewrite bpow_plus. pose proof (bpow_gt_0 radix2 k). nra. }
  assert (M2 : (Raux.mag radix2 (r * r) <= 2 * k + 2)%Z) by (apply mag_le_bpow; [lra|rewrite Rabs_pos_eq by lra; exact U]).
  assert (M3 : (2 - emax t < Raux.mag radix2 (r * r))%Z) by (apply mag_gt_bpow; rewrite Rabs_pos_eq by lra; exact Hn).
  split.
  - apply Rle_trans with (/ 2 * ulp radix2 (fexp t) (r * r))%R; [apply error_le_half_ulp; typeclasses eauto|].
    rewrite ulp_neq_0 by lra. unfold cexp. rewrite fexp_FLT. unfold FLT_exp.
    rewrite <- bpow_plus. replace (/ 2)%R with (bpow radix2 (-1)) by (cbn; lra). rewrite <- bpow_plus. apply bpow_le.
    pose proof (normal_exp (t := t)) as NE. lia.
  - rewrite ulp_neq_0 by lra. unfold cexp. rewrite fexp_FLT, M1. unfold FLT_exp. f_equal.
    pose proof (normal_exp (t := t)) as NE. assert (2 - emax t <= 0)%Z by (clear; destruct t; vm_compute; discriminate). lia.
Qed.
Lemma sqrt_square_back (r : R) : fmtR t r -> (0 < r)%R -> (smallest_normal t <= r * r)%R -> rnd t (sqrt (rnd t (r * r))) = r.
Proof.
  intros Hf Hr Hn. destruct (Raux.mag radix2 r) as [e He]. assert (Hk : (bpow radix2 (e - 1) <= r < bpow radix2 e)%R) by (specialize (He ltac:(lra)); rewrite Rabs_pos_eq in He by lra; exact He).
  clear He. set (k := (e - 1)%Z) in *. replace e with (k + 1)%Z in Hk by (unfold k; lia).
  destruct (ulp_square r k Hr Hk Hn) as [E1 E2]. set (w := bpow radix2 (k + 1 - prec t)) in *.
  assert (W : (0 < w)%R) by apply bpow_gt_0. pose proof (bpow_gt_0 radix2 k) as B. set (b := bpow radix2 k) in *.
  apply Rabs_le_inv in E1. set (y := rnd t (r * r)) in *.
  destruct (Req_dec r b) as [Q|Q].
  - assert (Y : y = (r * r)%R).
    { unfold y. apply round_generic; [typeclasses eauto|]. rewrite Q. unfold b. rewrite <- bpow_plus. apply generic_format_bpow. rewrite fexp_FLT. unfold FLT_exp.
      pose proof (normal_exp (t := t)) as NE. rewrite Q in Hn. unfold b, smallest_normal in Hn. rewrite <- bpow_plus in Hn. apply le_bpow in Hn.
      assert (0 < prec t)%Z by (clear; destruct t; reflexivity). lia. }
    rewrite Y, sqrt_square by lra. apply round_generic; [typeclasses eauto|exact Hf].
  - assert (Gb : (b < r)%R) by lra.
    assert (Pr : pred radix2 (fexp t) r = (r - w)%R).
    { rewrite pred_eq_pos by lra. unfold pred_pos. assert (M1 : Raux.mag radix2 r = (k + 1)%Z :> Z) by (apply mag_unique_pos; replace (k + 1 - 1)%Z with k by lia; exact Hk).
      rewrite M1. replace (k + 1 - 1)%Z with k by lia. fold b. rewrite Req_bool_false by exact Q. rewrite E2. reflexivity. }
    assert (Su : succ radix2 (fexp t) r = (r + w)%R) by (rewrite succ_eq_pos by lra; rewrite E2; reflexivity).
    assert (Low : (b + w <= r)%R).
    { assert (Fb : fmtR t b). { unfold b. apply generic_format_bpow. rewrite fexp_FLT. unfold FLT_exp.
        pose proof (normal_exp (t := t)) as NE. assert (0 < prec t)%Z by (clear; destruct t; reflexivity).
        assert (2 - emax t < 2 * k + 2)%Z. { apply lt_bpow with radix2. apply Rle_lt_trans with (1 := Hn). replace (2 * k + 2)%Z with ((k + 1) + (k + 1))%Z by lia. rewrite bpow_plus. nra. }
        assert (2 - emax t <= 0)%Z by (clear; destruct t; vm_compute; discriminate). lia. }
      pose proof (pred_ge_gt radix2 (fexp t) b r Fb Hf Gb) as PG. rewrite Pr in PG. lra. }
    assert (Y0 : (0 < y)%R) by nra.
    apply Rle_antisym.
    + apply round_N_le_midp; [typeclasses eauto|exact Hf|]. rewrite Su. apply Rlt_le_trans with (sqrt ((r + w / 2) * (r + w / 2))).
      * apply sqrt_lt_1_alt. split; [lra|]. nra.
      * rewrite sqrt_square by lra. lra.
    + apply round_N_ge_midp; [typeclasses eauto|exact Hf|]. rewrite Pr. apply Rle_lt_trans with (sqrt ((r - w / 2) * (r - w / 2))).
      * rewrite sqrt_square by lra. lra.
      * apply sqrt_lt_1_alt. split; [nra|]. nra.
Qed.
Lemma vmul_x I x y : isfin x = true -> isfin y = true -> isnan (vmul I n x y) = false /\ xval (vmul I n x y) = sat (t := t) (rnd t (val x * val y)).
Proof.
  intros Fx Fy. unfold vmul. destruct I; try apply (fmul_x n x y Fx Fy).
  destruct (zero_val (t := t)) as (O1 & O2 & O3). destruct (ffma_x n x y (f_ofZ t 0) Fx Fy O1) as [A B]. rewrite O2, Rplus_0_r in B. auto.
Qed.
Lemma square_fin I x : squarable x -> val x <> 0%R -> isfin (vmul I n x x) = true /\ val (vmul I n x x) = rnd t (Rabs (val x) * Rabs (val x)) /\
  rnd t (sqrt (val (vmul I n x x))) = Rabs (val x) /\ (0 < val (vmul I n x x))%R.
Proof.
  intros (Fx & Hn & Hb) Nz. set (r := Rabs (val x)) in *. assert (Hr : (0 < r)%R) by (apply Rabs_pos_lt; exact Nz).
  assert (Sq : (val x * val x = r * r)%R) by (unfold r; rewrite <- Rabs_mult, Rabs_pos_eq; [reflexivity|nra]).
  assert (Hn' : (smallest_normal t <= r * r)%R) by (destruct Hn as [Hn|Hn]; rewrite Sq in Hn; [nra|rewrite Rabs_pos_eq in Hn by nra; exact Hn]).
  assert (Fr : fmtR t r) by (apply generic_format_abs; apply generic_format_B2R).
  pose proof (sqrt_square_back r Fr Hr Hn') as Back.
  assert (Y0 : (0 <= rnd t (r * r))%R) by (rewrite <- (rnd_0 (t := t)); apply round_le; [typeclasses eauto..|nra]).
  assert (Yb : (rnd t (r * r) < bpow radix2 (emax t))%R).
  { destruct (Rlt_or_le (rnd t (r * r)) (bpow radix2 (emax t))) as [G|G]; [exact G|exfalso]. apply (Rlt_not_le _ _ Hb). rewrite <- Back.
    assert (E : emax t = 2 * (emax t / 2)) by (clear; destruct t; reflexivity).
    apply sqrt_le_1_alt in G. rewrite E, sqrt_power in G. apply (round_le radix2 (fexp t) ZnearestE) in G. rewrite (round_generic radix2 (fexp t) ZnearestE (bpow radix2 (emax t / 2))) in G; [exact G|].
    apply generic_format_bpow. rewrite fexp_FLT. clear. destruct t; vm_compute; discriminate. }
  destruct (vmul_x I x x Fx Fx) as [N V]. rewrite Sq in V. rewrite sat_id in V by (rewrite Rabs_pos_eq by exact Y0; lra).
  assert (Fy : isfin (vmul I n x x) = true).
  { destruct (isfin (vmul I n x x)) eqn:D; [reflexivity|exfalso]. rewrite (xval_inf _ D) in V. pose proof (bpow_gt_0 radix2 (emax t)). destruct (sgn (vmul I n x x)); lra. }
  assert (Vy : val (vmul I n x x) = rnd t (r * r)) by (apply sat_fin; [exact Fy|rewrite sat_id by (rewrite Rabs_pos_eq by exact Y0; lra); exact V]).
  rewrite Vy. repeat split; auto. destruct Y0 as [Y0|Y0]; [exact Y0|exfalso]. rewrite <- Y0, sqrt_0, rnd_0 in Back. lra.
Qed.
Lemma sqrt_of_square I x : squarable x -> isnan (vmul I n x x) = false /\ bits (fabs x) = bits (s_signed_sqrt n (vmul I n x x)).
Proof.
  intros Sx. destruct (Req_dec (val x) 0) as [Z|Nz].
  - destruct Sx as (Fx & _). assert (exists s, x = Zs s) as [s ->].
    { destruct x as [s|s|s pl H|s mm e H]; try discriminate; [exists s; reflexivity|exfalso]. revert Z. unfold val. cbn [B2R]. apply F2R_neq_0. destruct s; discriminate. }
    clear. destruct t; destruct I; destruct s; split; vm_compute; reflexivity.
  - destruct (square_fin I x Sx Nz) as (Fy & Vy & Back & Pos). split; [apply fin_not_nan; exact Fy|f_equal].
    destruct (C37_signed_sqrt_value_lemma t n _ Fy) as (A1 & A2 & A3). rewrite (Rabs_pos_eq (val (vmul I n x x))) in A3 by lra. rewrite Back in A3.
    assert (S : sgn (vmul I n x x) = false) by (pose proof (sgn_val_gen _ Fy) as G; destruct (sgn (vmul I n x x)); [|reflexivity]; rewrite Rabs_pos_eq in G by lra; lra).
    rewrite S in A2. apply fin_eq; [rewrite isfin_fabs; apply Sx|exact A1| |rewrite sgn_fabs, A2; reflexivity].
    rewrite val_fabs, <- A3. pose proof (sgn_val_gen _ A1) as G. rewrite A2 in G. pose proof (Rabs_pos (val (s_signed_sqrt n (vmul I n x x)))). lra.
Qed.
End T.

(** The SIMD forms. *)
Lemma floor_frac_simd c B (n : nans (fmt_of B)) (x : F (fmt_of B)) : not_slightly_negative x -> (magic_floor c B -> within_2_23 x) ->
  feq (fadd n (vfloor c (isa_of B) n x) (vfrac c (isa_of B) n x)) x = true.
Proof. intros H W. unfold vfrac. rewrite vfloor_hw by exact W. exact (floor_frac n x H). Qed.
Lemma ceil_floor_simd c B (n : nans (fmt_of B)) (x : F (fmt_of B)) : roundable (magic_floor c B) x ->
  feq (vceil c (isa_of B) n x) (fsub n (f_ofZ (fmt_of B) 0) (vfloor c (isa_of B) n (fsub n (f_ofZ (fmt_of B) 0) x))) = true.
Proof.
  intros [N W]. assert (W' : magic_floor c B -> within_2_23 (fsub n (f_ofZ (fmt_of B) 0) x)).
  { intros M. destruct (W M) as [W1 W2]. destruct (zero_sub n x W1) as [Z1 Z2]. split; [exact Z1|]. rewrite Z2, Rabs_Ropp. exact W2. }
  rewrite (vfloor_hw c B n _ W'). pose proof (ceil_floor n x N) as E.
  assert (K : feq (vceil c (isa_of B) n x) (s_ceil n x) = true).
  { assert (D : magic_floor c B \/ vceil c (isa_of B) n x = s_ceil n x).
    { unfold magic_floor. destruct B; cbn [fmt_of isa_of] in *; unfold vceil; cbn [fmt_of]; try (destruct (has_sse41 c)); auto. }
    destruct D as [D|D]; [rewrite feq_sym; apply C39_ceil_forms_agree_lemma; exact (W D)|]. rewrite D. apply feq_iff in E. destruct E as (E1 & _). apply feq_iff. auto. }
  apply feq_iff in E. apply feq_iff in K. apply feq_iff. unfold s_floor in E. destruct E as (E1 & E2 & E3), K as (K1 & K2 & K3). repeat split; auto; congruence.
Qed.

(** ** Calls in turn *)
Section M.
Context {A : Type} (ar : arith A).
Lemma turn_cons (m : mem A) call rest tmp len v : leaves m (call m) tmp len v -> exists m1, left_by m m1 tmp len v /\ in_turn (call :: rest) m = in_turn rest m1.
Proof. intros (m1 & E & W1 & W2). exists m1. split; [split; assumption|]. cbn [in_turn]. rewrite E. reflexivity. Qed.
Lemma gives_last (P : A -> A -> Prop) m a calls out len m1 call v : in_turn calls m = in_turn [call] m1 -> leaves m1 (call m1) out len v ->
  (forall i, 0 <= i < len -> v i <> None -> exists u w, sample ar m a i = Some u /\ v i = Some w /\ P u w) -> gives_back P ar m a calls out len.
Proof.
  intros E (m2 & E2 & W & _) H. exists m2. split; [rewrite E; cbn [in_turn]; rewrite E2; reflexivity|]. intros i Hi. destruct (W i Hi) as [W1 W2].
  destruct (H i Hi W2) as (u & w & H1 & H2 & H3). exists u, w. rewrite W1. auto.
Qed.
Lemma same_last (P : A -> A -> Prop) m one calls out len m1 call v v1 : leaves m one out len v1 -> in_turn calls m = in_turn [call] m1 -> leaves m1 (call m1) out len v ->
  (forall i u w, 0 <= i < len -> v1 i = Some u -> v i = Some w -> P u w) -> same_in_turn P m one calls out len.
Proof.
  intros (m0 & E0 & W0 & _) E (m2 & E2 & W & _) H. exists m0, m2. split; [exact E0|]. split; [rewrite E; cbn [in_turn]; rewrite E2; reflexivity|].
  intros i Hi. destruct (W i Hi) as [W1 W2], (W0 i Hi) as [V1 V2]. destruct (v1 i) as [u|] eqn:D1; [|congruence]. destruct (v i) as [w|] eqn:D2; [|congruence].
  exists u, w. repeat split; try congruence. exact (H i u w Hi D1 D2).
Qed.
End M.

(** What a call reads after two others. *)
Ltac rd n L1 L2 i :=
  match type of L1 with left_by _ ?m1 ?q1 _ _ => match type of L2 with left_by m1 ?m2 ?q2 _ _ =>
  repeat (cbv beta; match goal with
  | |- context [?mm (?q + i)] => is_var mm; change (mm (q + i)) with (sample (farith n) mm (APtr q) i)
  | |- context [sample ?ar m2 (APtr q2) i] => rewrite (left_tmp ar _ _ _ _ _ i L2) by assumption
  | |- context [sample ?ar m2 ?a i] => rewrite (left_sample ar _ _ _ _ _ a i L2) by first [assumption|exact Logic.I|cbn [clear_of] in *; lia]
  | |- context [sample ?ar m1 (APtr q1) i] => rewrite (left_tmp ar _ _ _ _ _ i L1) by assumption
  | |- context [sample ?ar m1 ?a i] => rewrite (left_sample ar _ _ _ _ _ a i L1) by first [assumption|exact Logic.I|cbn [clear_of] in *; lia]
  end) end end;
  cbn [o_zero o_one o_add o_sub o_mul o_div o_max o_min o_madd fops fops_scalar];
  repeat (match goal with |- context [sample ?ar ?m (AScal ?k) i] => change (sample ar m (AScal k) i) with (Some k) end);
  repeat (match goal with |- context [sample ?ar ?m ?a i] =>
    let s := fresh "s" in let E := fresh "E" in destruct (sample ar m a i) as [s|] eqn:E end);
  cbn [lift1 lift2 lift3 lift4];
  repeat match goal with H : samples _ _ _ ?a _, Hi : 0 <= i < _, E1 : sample _ _ ?a i = Some ?x |- _ =>
    let K := fresh "K" in pose proof (H i x Hi E1) as K; clear H end;
  try match goal with H : neighbours _ _ ?a ?b _, Hi : 0 <= i < _, E1 : sample _ _ ?a i = Some ?x, E2 : sample _ _ ?b i = Some ?y |- _ =>
    let K := fresh "K" in pose proof (H i x y Hi E1 E2) as K; clear H end.
(** The end of a proof of [gives_back], and of one of [same_in_turn]. *)
Ltac back n L1 L2 := let i := fresh "i" in let Hi := fresh "Hi" in let V := fresh "V" in
  intros i Hi; rd n L1 L2 i; intros V; try (exfalso; apply V; reflexivity); eexists; eexists; split; [reflexivity|]; split; [reflexivity|].
(** See [back]. *)
Ltac turns n L1 L2 := let i := fresh "i" in let Hi := fresh "Hi" in let U := fresh "U" in let V := fresh "V" in
  intros i ? ? Hi; rd n L1 L2 i; intros U V; try discriminate U; try discriminate V; injection U as <-; injection V as <-.
(** Buffers apart from one another. *)
Ltac apart := first [split; [assumption|cbn [overlap_ok clear_of] in *; lia] | split; [assumption|split; [cbn [overlap_ok clear_of] in *; lia|assumption]]].

(** Example data. *)
Lemma polar_16 n p i x : 0 <= p -> p <= 48 -> 0 <= i < 16 -> sample (farith n) polar (APtr p) i = Some x -> isfin x = true /\ (1 / 8 <= val x <= 10)%R.
Proof.
  intros H1 H2 Hi E. rewrite (polar_pos n p i) in E by lia. assert (x = f_lit F32 (p + i + 1) (-3)) as -> by congruence.
  destruct (lit32 (p + i + 1) (-3)) as [A V]; [lia|lia|]. split; [exact A|]. rewrite V. change (bpow radix2 (-3)) with (/ 8)%R.
  assert (1 <= p + i + 1 <= 80) as [B1 B2] by lia. apply IZR_le in B1. apply IZR_le in B2. lra.
Qed.
Lemma polar_have n (P : F F32 -> Prop) p : 0 <= p -> p <= 48 -> (forall x, isfin x = true -> (1 / 8 <= val x <= 10)%R -> P x) -> samples (farith n) P polar (APtr p) 16.
Proof. intros H1 H2 H i x Hi E. destruct (polar_16 n p i x H1 H2 Hi E) as [A V]. exact (H x A V). Qed.
Lemma mid_squarable (x : F F32) : isfin x = true -> (1 / 8 <= val x <= 10)%R -> squarable x.
Proof.
  intros A V. split; [exact A|]. split; [apply normal_small; nra|]. rewrite Rabs_pos_eq by lra. change (emax F32 / 2) with 64.
  apply Rle_lt_trans with (bpow radix2 4); [cbn; lra|apply bpow_lt; lia].
Qed.
Lemma mid_roundable (M : Prop) (x : F F32) : isfin x = true -> (1 / 8 <= val x <= 10)%R -> roundable M x.
Proof. intros A V. split; [apply isfin_isnan; exact A|intros _]. split; [exact A|]. rewrite Rabs_pos_eq by lra. change (2 ^ 23) with 8388608. lra. Qed.
Lemma mid_above (x : F F32) : isfin x = true -> (1 / 8 <= val x <= 10)%R -> not_slightly_negative x.
Proof. intros A V. split; [exact A|left; lra]. Qed.
Lemma polar_neighbours n : neighbours (farith n) polar (APtr 32) (AScal (f_lit F32 5 0)) 16.
Proof.
  intros i x y Hi E1 E2. cbn [sample] in E2. assert (y = f_lit F32 5 0) as -> by congruence. rewrite (polar_pos n 32 i) in E1 by lia.
  assert (x = f_lit F32 (32 + i + 1) (-3)) as -> by congruence. destruct (lit32 (32 + i + 1) (-3)) as [A V]; [lia|lia|]. destruct (lit32 5 0) as [A' V']; [lia|lia|].
  split; [exact A|]. split; [exact A'|]. left. rewrite V, V'. change (bpow radix2 (-3)) with (/ 8)%R. change (bpow radix2 0) with 1%R.
  assert (33 <= 32 + i + 1 <= 48) as [B1 B2] by lia. apply IZR_le in B1. apply IZR_le in B2. lra.
Qed.
Ltac parts_tac := unfold call_fits, simd_call_fits;
  repeat match goal with |- _ /\ _ => split | |- Forall _ _ => constructor end;
  lazymatch goal with
  | |- samples _ _ _ (APtr _) _ => apply polar_have; [lia|lia|]; let x := fresh "x" in let A := fresh "A" in let V := fresh "V" in intros x A V;
      first [exact A | apply isfin_isnan; exact A | apply mid_squarable; assumption | apply mid_roundable; assumption | apply mid_above; assumption
            | split; [exact A|lra] | split; [apply mid_above; assumption|intros _; apply (mid_roundable True x A V); exact Logic.I] ]
  | |- samples _ _ _ (AScal _) _ => apply const_samples; reflexivity
  | |- neighbours _ _ _ _ _ => apply polar_neighbours
  | |- _ => chain_tac
  end.
