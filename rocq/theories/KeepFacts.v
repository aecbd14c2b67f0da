(** Order and idempotence of the functions on single numbers. *)
From Coq Require Import ZArith Reals List Lia Lra Bool.
From Flocq Require Import Core IEEE754.Binary IEEE754.Bits.
From Verif Require Import Base Mem Backend Args Drivers Functors Lanes Float LaneOps FloatOps ScalarMath VecMath FloatFuns
  Spec SpecLane SpecRound SpecTrunc SpecKeep FloatFacts FloatRound LaneFacts VecFacts VecMore VecMore2 RoundFacts RoundMore RoundMore2 MathMore ReduceMore.
Local Open Scope R_scope.

Section T.
Context {t : fmt} (n : nans t).
Local Notation big := (bpow radix2 (emax t)).
Implicit Types x y a b : F t.

Lemma big_pos : 0 < big. Proof. apply bpow_gt_0. Qed.
Lemma xval_inf x : isfin x = false -> xval x = if sgn x then - big else big.
Proof. clear n. intros H. unfold xval. rewrite H. replace (match t with F32 => 128 | F64 => 1024 end)%Z with (emax t) by (destruct t; reflexivity). reflexivity. Qed.
Lemma xval_bound x : - big <= xval x <= big.
Proof.
  destruct (isfin x) eqn:E.
  - rewrite xval_fin by exact E. pose proof (val_lt_emax x) as H. apply Rabs_def2 in H. lra.
  - rewrite xval_inf by exact E. pose proof big_pos. destruct (sgn x); lra.
Qed.
Lemma fle_x x y : isnan x = false -> isnan y = false -> (fle x y = true <-> xval x <= xval y).
Proof. intros Hx Hy. exact (srel_xval LE x y Hx Hy). Qed.
Lemma fle_num x y : fle x y = true -> isnan x = false /\ isnan y = false.
Proof. intros H. apply fle_iff in H. tauto. Qed.
Lemma xval_fneg x : xval (fneg x) = - xval x.
Proof.
  destruct (isfin x) eqn:E.
  - rewrite !xval_fin by (rewrite ?isfin_fneg; exact E). apply val_fneg.
  - rewrite !xval_inf by (rewrite ?isfin_fneg; exact E). rewrite sgn_fneg. destruct (sgn x); cbn [negb]; lra.
Qed.

(** Rounding with overflow to the infinities. *)
Definition sat (r : R) : R := Rmax (- big) (Rmin r big).
Lemma sat_le r s : r <= s -> sat r <= sat s.
Proof. intros H. unfold sat. apply Rle_max_compat_l. apply Rle_min_compat_r. exact H. Qed.
Lemma sat_id r : Rabs r <= big -> sat r = r.
Proof. intros H. apply Rabs_le_inv in H. unfold sat. rewrite Rmin_left by lra. apply Rmax_right. lra. Qed.
Lemma sat_hi r : big <= r -> sat r = big.
Proof. intros H. pose proof big_pos. unfold sat. rewrite Rmin_right by lra. apply Rmax_right. lra. Qed.
Lemma sat_lo r : r <= - big -> sat r = - big.
Proof. intros H. pose proof big_pos. unfold sat. rewrite Rmin_left by lra. apply Rmax_left. lra. Qed.

Lemma over_x x s : B2FF (prec t) (emax t) x = binary_overflow (prec t) (emax t) BinarySingleNaN.mode_NE s ->
  isnan x = false /\ xval x = if s then - big else big.
Proof.
  intros H. destruct x as [s'|s'|s' pl E|s' m e E]; try discriminate H.
  assert (s' = s) as -> by (cbn in H; congruence). split; [reflexivity|]. rewrite xval_inf by reflexivity. reflexivity.
Qed.
Lemma fadd_x x y : isfin x = true -> isfin y = true ->
  isnan (fadd n x y) = false /\ xval (fadd n x y) = sat (rnd t (val x + val y)).
Proof.
  intros Hx Hy. pose proof (Bplus_correct (prec t) (emax t) (Hprec t) (Hmax t) (nan_add n) BinarySingleNaN.mode_NE x y Hx Hy) as H.
  destruct (Rlt_bool_spec (Rabs (rnd t (val x + val y))) big) as [L|L].
  - destruct (fadd_fin n x y Hx Hy L) as (A1 & A2 & _). split; [apply isfin_isnan; exact A1|]. rewrite xval_fin, A2, sat_id by (exact A1 || lra). reflexivity.
  - rewrite Rlt_bool_false in H by exact L. destruct H as [H1 H2]. apply over_x in H1. destruct H1 as [H1 E]. split; [exact H1|].
    etransitivity; [exact E|].
    assert (S : forall z : F t, isfin z = true -> (sgn z = true -> val z <= 0) /\ (sgn z = false -> 0 <= val z)).
    { intros z Hz. pose proof (sgn_val_gen z Hz) as Q. pose proof (Rabs_pos (val z)). split; intros G; rewrite G in Q; lra. }
    destruct (S x Hx) as [X1 X2], (S y Hy) as [Y1 Y2].
    pose proof (rnd_0 (t := t)) as R0. change (Bsign (prec t) (emax t) x) with (sgn x) in *. change (Bsign (prec t) (emax t) y) with (sgn y) in *.
    destruct (sgn x) eqn:Sx; rewrite <- H2 in Y1, Y2; specialize (X1 eq_refl) || specialize (X2 eq_refl); specialize (Y1 eq_refl) || specialize (Y2 eq_refl).
    + assert (rnd t (val x + val y) <= 0) by (rewrite <- R0; apply rnd_le; lra). rewrite Rabs_left1 in L by lra. symmetry. apply sat_lo. lra.
    + assert (0 <= rnd t (val x + val y)) by (rewrite <- R0; apply rnd_le; lra). rewrite Rabs_pos_eq in L by lra. symmetry. apply sat_hi. lra.
Qed.
Lemma fsub_x x y : isfin x = true -> isfin y = true ->
  isnan (fsub n x y) = false /\ xval (fsub n x y) = sat (rnd t (val x - val y)).
Proof.
  intros Hx Hy. pose proof (Bminus_correct (prec t) (emax t) (Hprec t) (Hmax t) (nan_sub n) BinarySingleNaN.mode_NE x y Hx Hy) as H.
  destruct (Rlt_bool_spec (Rabs (rnd t (val x - val y))) big) as [L|L].
  - destruct (fsub_fin n x y Hx Hy L) as (A1 & A2 & _). split; [apply isfin_isnan; exact A1|]. rewrite xval_fin, A2, sat_id by (exact A1 || lra). reflexivity.
  - rewrite Rlt_bool_false in H by exact L. destruct H as [H1 H2]. apply over_x in H1. destruct H1 as [H1 E]. split; [exact H1|].
    etransitivity; [exact E|].
    assert (S : forall z : F t, isfin z = true -> (sgn z = true -> val z <= 0) /\ (sgn z = false -> 0 <= val z)).
    { intros z Hz. pose proof (sgn_val_gen z Hz) as Q. pose proof (Rabs_pos (val z)). split; intros G; rewrite G in Q; lra. }
    destruct (S x Hx) as [X1 X2], (S y Hy) as [Y1 Y2].
    pose proof (rnd_0 (t := t)) as R0. change (Bsign (prec t) (emax t) x) with (sgn x) in *. change (Bsign (prec t) (emax t) y) with (sgn y) in *.
    destruct (sgn x) eqn:Sx, (sgn y) eqn:Sy; try discriminate H2; specialize (X1 eq_refl) || specialize (X2 eq_refl); specialize (Y1 eq_refl) || specialize (Y2 eq_refl).
    + assert (rnd t (val x - val y) <= 0) by (rewrite <- R0; apply rnd_le; lra). rewrite Rabs_left1 in L by lra. symmetry. apply sat_lo. lra.
    + assert (0 <= rnd t (val x - val y)) by (rewrite <- R0; apply rnd_le; lra). rewrite Rabs_pos_eq in L by lra. symmetry. apply sat_hi. lra.
Qed.
Lemma fmul_x x y : isfin x = true -> isfin y = true ->
  isnan (fmul n x y) = false /\ xval (fmul n x y) = sat (rnd t (val x * val y)).
Proof.
  intros Hx Hy. pose proof (Bmult_correct (prec t) (emax t) (Hprec t) (Hmax t) (nan_mul n) BinarySingleNaN.mode_NE x y) as H.
  destruct (Rlt_bool_spec (Rabs (rnd t (val x * val y))) big) as [L|L].
  - destruct (fmul_fin n x y Hx Hy L) as (A1 & A2 & _). split; [apply isfin_isnan; exact A1|]. rewrite xval_fin, A2, sat_id by (exact A1 || lra). reflexivity.
  - rewrite Rlt_bool_false in H by exact L. apply over_x in H. destruct H as [H1 E]. split; [exact H1|].
    etransitivity; [exact E|].
    assert (S : forall z : F t, isfin z = true -> (sgn z = true -> val z <= 0) /\ (sgn z = false -> 0 <= val z)).
    { intros z Hz. pose proof (sgn_val_gen z Hz) as Q. pose proof (Rabs_pos (val z)). split; intros G; rewrite G in Q; lra. }
    destruct (S x Hx) as [X1 X2], (S y Hy) as [Y1 Y2].
    pose proof (rnd_0 (t := t)) as R0. change (Bsign (prec t) (emax t) x) with (sgn x) in *. change (Bsign (prec t) (emax t) y) with (sgn y) in *.
    destruct (sgn x) eqn:Sx, (sgn y) eqn:Sy; specialize (X1 eq_refl) || specialize (X2 eq_refl); specialize (Y1 eq_refl) || specialize (Y2 eq_refl); cbn [xorb].
    1,4: assert (0 <= rnd t (val x * val y)) by (rewrite <- R0; apply rnd_le; nra); rewrite Rabs_pos_eq in L by lra; symmetry; apply sat_hi; lra.
    all: assert (rnd t (val x * val y) <= 0) by (rewrite <- R0; apply rnd_le; nra); rewrite Rabs_left1 in L by lra; symmetry; apply sat_lo; lra.
Qed.
Lemma ffma_x x y z : isfin x = true -> isfin y = true -> isfin z = true ->
  isnan (ffma n x y z) = false /\ xval (ffma n x y z) = sat (rnd t (val x * val y + val z)).
Proof.
  intros Hx Hy Hz. pose proof (Bfma_correct (prec t) (emax t) (Hprec t) (Hmax t) (nan_fma n) BinarySingleNaN.mode_NE x y z Hx Hy Hz) as H. cbv zeta in H.
  destruct (Rlt_bool_spec (Rabs (rnd t (val x * val y + val z))) big) as [L|L].
  - destruct (ffma_fin n x y z Hx Hy Hz L) as (A1 & A2). split; [apply isfin_isnan; exact A1|]. rewrite xval_fin, A2, sat_id by (exact A1 || lra). reflexivity.
  - rewrite Rlt_bool_false in H by exact L. apply over_x in H. destruct H as [H1 E]. split; [exact H1|].
    etransitivity; [exact E|]. pose proof (rnd_0 (t := t)) as R0. change (B2R (prec t) (emax t) x) with (val x) in *. change (B2R (prec t) (emax t) y) with (val y) in *. change (B2R (prec t) (emax t) z) with (val z) in *.
    destruct (Rlt_bool_spec (val x * val y + val z) 0) as [M|M].
    + assert (rnd t (val x * val y + val z) <= 0) by (rewrite <- R0; apply rnd_le; lra). rewrite Rabs_left1 in L by lra. symmetry. apply sat_lo. lra.
    + assert (0 <= rnd t (val x * val y + val z)) by (rewrite <- R0; apply rnd_le; lra). rewrite Rabs_pos_eq in L by lra. symmetry. apply sat_hi. lra.
Qed.

(** Infinities with a finite operand. *)
Lemma fadd_inf x y : isfin x = false -> isnan x = false -> isfin y = true -> fadd n x y = x.
Proof. intros H1 H2 H3. destruct x; try discriminate; destruct y; try discriminate; reflexivity. Qed.
Lemma fsub_inf x y : isfin x = false -> isnan x = false -> isfin y = true -> fsub n x y = x.
Proof. intros H1 H2 H3. destruct x; try discriminate; destruct y; try discriminate; reflexivity. Qed.

(** ** Arithmetic with a constant *)
(** Proof auxiliary: [f] keeps the order of numbers. *)
Definition mono (f : F t -> F t) : Prop :=
  forall x y, isnan x = false -> isnan y = false -> xval x <= xval y -> isnan (f x) = false /\ isnan (f y) = false /\ xval (f x) <= xval (f y).
(** Proof auxiliary: the same, from a function on the reals that describes [f]. *)
Lemma mono_intro (f : F t -> F t) (g : R -> R) :
  (forall x, isfin x = true -> isnan (f x) = false /\ xval (f x) = sat (g (val x))) ->
  (forall x, isfin x = false -> isnan x = false -> isnan (f x) = false /\ xval (f x) = xval x) ->
  (forall r s, r <= s -> g r <= g s) -> mono f.
Proof.
  intros H1 H2 G x y Nx Ny L.
  assert (K : forall z : F t, isnan z = false -> isnan (f z) = false).
  { intros z Nz. destruct (isfin z) eqn:E; [apply H1|apply H2]; assumption. }
  split; [apply K; exact Nx|]. split; [apply K; exact Ny|].
  pose proof (xval_bound (f x)) as Bx. pose proof (xval_bound (f y)) as By.
  destruct (isfin x) eqn:Fx, (isfin y) eqn:Fy.
  - rewrite !xval_fin in L by assumption. rewrite (proj2 (H1 x Fx)), (proj2 (H1 y Fy)). apply sat_le, G, L.
  - rewrite (proj2 (H2 y Fy Ny)). rewrite (xval_inf y Fy) in *. destruct (sgn y); [|lra].
    rewrite (xval_fin x Fx) in L. pose proof (val_lt_emax x) as V. apply Rabs_def2 in V. lra.
  - rewrite (proj2 (H2 x Fx Nx)). rewrite (xval_inf x Fx) in *. destruct (sgn x); [lra|].
    rewrite (xval_fin y Fy) in L. pose proof (val_lt_emax y) as V. apply Rabs_def2 in V. lra.
  - rewrite (proj2 (H2 y Fy Ny)), (proj2 (H2 x Fx Nx)). exact L.
Qed.
Lemma add_mono k : isfin k = true -> mono (fun x => fadd n x k).
Proof.
  intros Hk. apply (mono_intro _ (fun r => rnd t (r + val k))).
  - intros x Hx. apply fadd_x; assumption.
  - intros x Hx Nx. rewrite fadd_inf by assumption. auto.
  - intros r s H. apply rnd_le. lra.
Qed.
Lemma sub_mono k : isfin k = true -> mono (fun x => fsub n x k).
Proof.
  intros Hk. apply (mono_intro _ (fun r => rnd t (r - val k))).
  - intros x Hx. apply fsub_x; assumption.
  - intros x Hx Nx. rewrite fsub_inf by assumption. auto.
  - intros r s H. apply rnd_le. lra.
Qed.
Lemma pos_case k : isfin k = true -> 0 < val k -> exists m e H, k = B754_finite (prec t) (emax t) false m e H.
Proof.
  intros Fk Pk. destruct k as [s|s|s pl E|s m e E]; try discriminate.
  - cbn in Pk. lra.
  - destruct s; [|eauto]. exfalso. assert (F2R (Float radix2 (Z.neg m) e) < 0) by (apply F2R_lt_0; reflexivity). unfold val, B2R in Pk. cbn in *. lra.
Qed.
Lemma mul_mono k : isfin k = true -> 0 < val k -> mono (fun x => fmul n x k).
Proof.
  intros Hk Pk. apply (mono_intro _ (fun r => rnd t (r * val k))).
  - intros x Hx. apply fmul_x; assumption.
  - intros x Hx Nx. destruct (pos_case k Hk Pk) as (m & e & H & ->). destruct x as [s|s|s pl E|s m' e' E]; try discriminate. destruct s; split; reflexivity.
  - intros r s H. apply rnd_le. nra.
Qed.
Lemma zero_val : isfin (f_ofZ t 0) = true /\ val (f_ofZ t 0) = 0 /\ sgn (f_ofZ t 0) = false.
Proof. clear n. destruct t; repeat split; reflexivity. Qed.
Lemma fma_mono k l : isfin k = true -> 0 < val k -> isfin l = true -> mono (fun x => ffma n x k l).
Proof.
  intros Hk Pk Hl. apply (mono_intro _ (fun r => rnd t (r * val k + val l))).
  - intros x Hx. apply ffma_x; assumption.
  - intros x Hx Nx. destruct (pos_case k Hk Pk) as (m & e & H & ->). destruct x as [s|s|s pl E|s m' e' E]; try discriminate. destruct l; try discriminate; destruct s; split; reflexivity.
  - intros r s H. apply rnd_le. nra.
Qed.
Lemma div_mono k : isfin k = true -> 0 < val k -> mono (fun x => fdiv n x k).
Proof.
  intros Hk Pk. assert (Nz : val k <> 0) by lra. apply (mono_intro _ (fun r => rnd t (r / val k))).
  - intros x Hx. pose proof (Bdiv_correct (prec t) (emax t) (Hprec t) (Hmax t) (nan_div n) BinarySingleNaN.mode_NE x k Nz) as H.
    destruct (Rlt_bool_spec (Rabs (rnd t (val x / val k))) big) as [L|L].
    + destruct (fdiv_fin n x k Hx Nz L) as (A1 & A2 & _). split; [apply isfin_isnan; exact A1|]. rewrite xval_fin, A2, sat_id by (exact A1 || lra). reflexivity.
    + rewrite Rlt_bool_false in H by exact L. apply over_x in H. destruct H as [H1 E]. split; [exact H1|].
      etransitivity; [exact E|]. pose proof (sgn_val_gen x Hx) as X. pose proof (rnd_0 (t := t)) as R0. change (Bsign (prec t) (emax t) x) with (sgn x).
      assert (Sk : Bsign (prec t) (emax t) k = false) by (destruct (pos_case k Hk Pk) as (m & e & H & ->); reflexivity). rewrite Sk, xorb_false_r.
      pose proof (Rabs_pos (val x)) as AX. assert (Ik : 0 < / val k) by (apply Rinv_0_lt_compat; exact Pk).
      destruct (sgn x).
      * assert (rnd t (val x / val k) <= 0) by (rewrite <- R0; apply rnd_le; unfold Rdiv; nra). rewrite Rabs_left1 in L by lra. symmetry. apply sat_lo. lra.
      * assert (0 <= rnd t (val x / val k)) by (rewrite <- R0; apply rnd_le; unfold Rdiv; nra). rewrite Rabs_pos_eq in L by lra. symmetry. apply sat_hi. lra.
  - intros x Hx Nx. destruct (pos_case k Hk Pk) as (m & e & H & ->). destruct x as [s|s|s pl E|s m' e' E]; try discriminate. destruct s; split; reflexivity.
  - intros r s H. apply rnd_le. unfold Rdiv. assert (Ik : 0 < / val k) by (apply Rinv_0_lt_compat; exact Pk). nra.
Qed.
Lemma vmul_mono I k : isfin k = true -> 0 < val k -> mono (fun x => VecMath.vmul I n x k).
Proof.
  intros Hk Pk. unfold VecMath.vmul. destruct I; try (apply mul_mono; assumption). apply fma_mono; [assumption|assumption|apply zero_val].
Qed.
Lemma mono_comp f g : mono f -> mono g -> mono (fun x => g (f x)).
Proof. intros Hf Hg x y Nx Ny L. destruct (Hf x y Nx Ny L) as (A & B & C). apply Hg; assumption. Qed.
Lemma muladd_mono k l : isfin k = true -> 0 < val k -> isfin l = true -> mono (fun x => fadd n (fmul n x k) l).
Proof. intros Hk Pk Hl. apply (mono_comp (fun x => fmul n x k) (fun x => fadd n x l)); [apply mul_mono|apply add_mono]; assumption. Qed.
Lemma madd_mono c I k l : isfin k = true -> 0 < val k -> isfin l = true -> mono (fun x => madd c I n x k l).
Proof. intros Hk Pk Hl. unfold madd. destruct I; try (destruct (has_fma c)); (apply muladd_mono || apply fma_mono); assumption. Qed.

(** ** Rounding to integers *)
Lemma nearby_mono md : mono (fun x => Bnearbyint (prec t) (emax t) (Hmax t) (nan_int n) md x : F t).
Proof.
  apply (mono_intro _ (fun r => IZR (BinarySingleNaN.round_mode md r))).
  - intros x Hx. destruct (nearby_fin n md x Hx) as (A1 & A2 & _). split; [apply isfin_isnan; exact A1|].
    rewrite xval_fin by exact A1. rewrite A2. symmetry. apply sat_id. rewrite <- A2. apply Rlt_le, val_lt_emax.
  - intros x Hx Nx. rewrite (nearby_inf n md x Hx Nx). auto.
  - intros r s H. apply IZR_le. assert (V : Valid_rnd (BinarySingleNaN.round_mode md)) by (destruct md; typeclasses eauto). apply V. exact H.
Qed.
Lemma nearby_once md x : isnan x = false ->
  let f := fun x => Bnearbyint (prec t) (emax t) (Hmax t) (nan_int n) md x : F t in f (f x) = f x.
Proof.
  intros N f. destruct (isfin x) eqn:Fx.
  - destruct (nearby_fin n md x Fx) as (A1 & A2 & A3). fold (f x) in A1, A2, A3. destruct (nearby_fin n md (f x) A1) as (B1 & B2 & B3). fold (f (f x)) in B1, B2, B3.
    apply fin_eq; [exact B1|exact A1| |exact B3]. rewrite B2, A2. f_equal.
    assert (V : Valid_rnd (BinarySingleNaN.round_mode md)) by (destruct md; typeclasses eauto). apply V.
  - unfold f. rewrite !(nearby_inf n md x Fx N). reflexivity.
Qed.

(** ** Signs, subnormals, limits *)
Lemma ord_x x y : isnan x = false -> isnan y = false -> (xval x <= xval y <-> (ord x <= ord y)%Z).
Proof. intros Hx Hy. rewrite <- (fle_x x y Hx Hy), fle_ord by assumption. apply Z.leb_le. Qed.
Lemma mono_ord f : (forall x y, isnan x = false -> isnan y = false -> (ord x <= ord y)%Z -> isnan (f x) = false /\ isnan (f y) = false /\ (ord (f x) <= ord (f y))%Z) -> mono f.
Proof. intros H x y Nx Ny L. apply (ord_x x y Nx Ny) in L. destruct (H x y Nx Ny L) as (A & B & C). split; [exact A|]. split; [exact B|]. apply ord_x; assumption. Qed.
Lemma ord_ofs : ord (f_ofZ t 0) = 0%Z /\ (ord (f_ofZ t (-1)) < 0 < ord (f_ofZ t 1))%Z /\ isnan (f_ofZ t 0) = false /\ isnan (f_ofZ t 1) = false /\ isnan (f_ofZ t (-1)) = false.
Proof. clear n. destruct t; vm_compute; auto. Qed.
Lemma s_sign_mono : mono s_sign.
Proof.
  apply mono_ord. intros x y Nx Ny L. rewrite !s_sign_num by assumption. destruct ord_ofs as (O1 & O2 & O3 & O4 & O5).
  destruct (Z.ltb_spec 0 (ord x)), (Z.ltb_spec 0 (ord y)), (Z.eqb_spec (ord x) 0), (Z.eqb_spec (ord y) 0); repeat split; auto; lia.
Qed.
Lemma vsign_mono c I : mono (vsign c I).
Proof.
  apply mono_ord. intros x y Nx Ny L. rewrite !vsign_num by assumption. destruct ord_ofs as (O1 & O2 & O3 & O4 & O5).
  destruct (Z.ltb_spec 0 (ord x)), (Z.ltb_spec 0 (ord y)), (Z.eqb_spec (ord x) 0), (Z.eqb_spec (ord y) 0), I; repeat split; auto; lia.
Qed.
Lemma s_sign_once x : isnan x = false -> s_sign (s_sign x) = s_sign x.
Proof.
  intros N. rewrite (s_sign_num x N). destruct ord_ofs as (O1 & O2 & O3 & O4 & O5).
  destruct (Z.ltb_spec 0 (ord x)); [|destruct (Z.eqb_spec (ord x) 0)]; rewrite s_sign_num by assumption.
  - rewrite (proj2 (Z.ltb_lt _ _)) by lia. reflexivity.
  - rewrite O1. reflexivity.
  - rewrite (proj2 (Z.ltb_ge _ _)), (proj2 (Z.eqb_neq _ _)) by lia. reflexivity.
Qed.
Lemma vsign_once c I x : isnan x = false -> vsign c I (vsign c I x) = vsign c I x.
Proof.
  intros N. rewrite (vsign_num c I x N). destruct ord_ofs as (O1 & O2 & O3 & O4 & O5).
  destruct (Z.ltb_spec 0 (ord x)); [|destruct (Z.eqb_spec (ord x) 0)].
  - rewrite vsign_num, (proj2 (Z.ltb_lt _ _)) by (assumption || lia). reflexivity.
  - destruct I; rewrite vsign_num by assumption; rewrite ?O1, ?e; reflexivity.
  - rewrite vsign_num, (proj2 (Z.ltb_ge _ _)), (proj2 (Z.eqb_neq _ _)) by (assumption || lia). reflexivity.
Qed.
Lemma und_mono : mono s_undenormalize.
Proof.
  apply mono_ord. intros x y Nx Ny L. rewrite !s_undenormalize_eq, !mag_abs_ord. destruct ord_ofs as (O1 & _ & O3 & _).
  assert (P : (0 < 2 ^ mw t)%Z) by (clear n; destruct t; reflexivity).
  destruct (Z.ltb_spec (Z.abs (ord x)) (2 ^ mw t)), (Z.ltb_spec (Z.abs (ord y)) (2 ^ mw t)); repeat split; auto; rewrite ?O1; lia.
Qed.
Lemma und_once x : s_undenormalize (s_undenormalize x) = s_undenormalize x.
Proof.
  rewrite (s_undenormalize_eq x). destruct (Z.ltb_spec (mag x) (2 ^ mw t)) as [L|L].
  - rewrite s_undenormalize_eq. destruct (mag _ <? _)%Z; reflexivity.
  - rewrite s_undenormalize_eq, (proj2 (Z.ltb_ge _ _) L). reflexivity.
Qed.
Lemma smax_mono k : isnan k = false -> mono (fun x => smax x k).
Proof.
  intros Nk. apply mono_ord. intros x y Nx Ny L. destruct (smax_rep x k _ _ (rep_self x Nx) (rep_self k Nk)) as [A1 A2], (smax_rep y k _ _ (rep_self y Ny) (rep_self k Nk)) as [B1 B2].
  repeat split; auto. lia.
Qed.
Lemma smin_mono k : isnan k = false -> mono (fun x => smin x k).
Proof.
  intros Nk. apply mono_ord. intros x y Nx Ny L. destruct (smin_rep x k _ _ (rep_self x Nx) (rep_self k Nk)) as [A1 A2], (smin_rep y k _ _ (rep_self y Ny) (rep_self k Nk)) as [B1 B2].
  repeat split; auto. lia.
Qed.
Lemma vmax_mono I k : isnan k = false -> mono (fun x => vmax I n x k).
Proof.
  intros Nk. apply mono_ord. intros x y Nx Ny L. destruct (vmax_rep I n x k _ _ (rep_self x Nx) (rep_self k Nk)) as [A1 A2], (vmax_rep I n y k _ _ (rep_self y Ny) (rep_self k Nk)) as [B1 B2].
  repeat split; auto. lia.
Qed.
Lemma vmin_mono I k : isnan k = false -> mono (fun x => vmin I n x k).
Proof.
  intros Nk. apply mono_ord. intros x y Nx Ny L. destruct (vmin_rep I n x k _ _ (rep_self x Nx) (rep_self k Nk)) as [A1 A2], (vmin_rep I n y k _ _ (rep_self y Ny) (rep_self k Nk)) as [B1 B2].
  repeat split; auto. lia.
Qed.

(** ** Square, cube and square root *)
(** Proof auxiliary: the product of numbers that are not negative, in the order of the reals. *)
Lemma vmul_pos I a b : isnan a = false -> isnan b = false -> 0 <= xval a -> 0 <= xval b -> (isfin a = false -> 0 < xval b) -> (isfin b = false -> 0 < xval a) ->
  isnan (VecMath.vmul I n a b) = false /\
  xval (VecMath.vmul I n a b) = if isfin a && isfin b then sat (rnd t (val a * val b)) else big.
Proof.
  intros Na Nb Pa Pb Ha Hb. destruct zero_val as (Z1 & Z2 & Z3). destruct (isfin a) eqn:Fa, (isfin b) eqn:Fb; cbn [andb].
  - unfold VecMath.vmul. destruct I; try (apply fmul_x; assumption). rewrite <- (Rplus_0_r (val a * val b)), <- Z2. apply ffma_x; assumption.
  - specialize (Hb eq_refl). rewrite (xval_fin a Fa) in Hb. destruct (pos_case a Fa Hb) as (m & e & H & ->).
    destruct b as [s|s|s pl E|s m' e' E]; try discriminate. rewrite (xval_inf (B754_infinity _ _ s)) in Pb by reflexivity. pose proof big_pos. destruct s; [cbn in Pb; lra|].
    unfold VecMath.vmul. destruct I; try (split; [reflexivity|]; apply (xval_inf (B754_infinity (prec t) (emax t) false)); reflexivity).
  - specialize (Ha eq_refl). rewrite (xval_fin b Fb) in Ha. destruct (pos_case b Fb Ha) as (m & e & H & ->).
    destruct a as [s|s|s pl E|s m' e' E]; try discriminate. rewrite (xval_inf (B754_infinity _ _ s)) in Pa by reflexivity. pose proof big_pos. destruct s; [cbn in Pa; lra|].
    unfold VecMath.vmul. destruct I; try (split; [reflexivity|]; apply (xval_inf (B754_infinity (prec t) (emax t) false)); reflexivity).
  - destruct a as [s|s|s pl E|s m e E]; try discriminate. destruct b as [s'|s'|s' pl E|s' m e E]; try discriminate.
    rewrite (xval_inf (B754_infinity _ _ s)) in Pa by reflexivity. rewrite (xval_inf (B754_infinity _ _ s')) in Pb by reflexivity. pose proof big_pos.
    destruct s; [cbn in Pa; lra|]. destruct s'; [cbn in Pb; lra|].
    unfold VecMath.vmul. destruct I; try (split; [reflexivity|]; apply (xval_inf (B754_infinity (prec t) (emax t) false)); reflexivity).
Qed.
Lemma inf_pos x : isfin x = false -> 0 <= xval x -> xval x = big.
Proof. intros H P. rewrite xval_inf in * by exact H. pose proof big_pos. destruct (sgn x); lra. Qed.
Lemma vmul_pos_le I a b a' b' : isnan a = false -> isnan b = false -> isnan a' = false -> isnan b' = false ->
  0 <= xval a <= xval a' -> 0 <= xval b <= xval b' ->
  (isfin a = false -> 0 < xval b) -> (isfin b = false -> 0 < xval a) -> (isfin a' = false -> 0 < xval b') -> (isfin b' = false -> 0 < xval a') ->
  0 <= xval (VecMath.vmul I n a b) <= xval (VecMath.vmul I n a' b').
Proof.
  intros Na Nb Na' Nb' La Lb H1 H2 H3 H4.
  assert (Pa' : 0 <= xval a') by lra. assert (Pb' : 0 <= xval b') by lra.
  destruct (vmul_pos I a b Na Nb (proj1 La) (proj1 Lb) H1 H2) as [_ E]. destruct (vmul_pos I a' b' Na' Nb' Pa' Pb' H3 H4) as [_ E'].
  pose proof big_pos as BP.
  assert (P : 0 <= xval (VecMath.vmul I n a b)).
  { rewrite E. destruct (isfin a) eqn:Fa, (isfin b) eqn:Fb; cbn [andb]; try lra. rewrite (xval_fin a Fa) in La. rewrite (xval_fin b Fb) in Lb.
    rewrite <- (sat_id 0) by (rewrite Rabs_R0; lra). apply sat_le. rewrite <- (rnd_0 (t := t)). apply rnd_le. apply Rmult_le_pos; lra. }
  split; [exact P|]. rewrite E'. destruct (isfin a' && isfin b') eqn:Q; [|apply xval_bound].
  apply andb_true_iff in Q. destruct Q as [Fa' Fb'].
  assert (K : forall u v : F t, isnan u = false -> isfin v = true -> 0 <= xval u <= xval v -> isfin u = true).
  { intros u v Nu Fv Lu. destruct (isfin u) eqn:Fu; [reflexivity|]. rewrite (inf_pos u Fu) in Lu by lra. rewrite (xval_fin v Fv) in Lu. pose proof (val_lt_emax v) as V. apply Rabs_def2 in V. lra. }
  pose proof (K a a' Na Fa' La) as Fa. pose proof (K b b' Nb Fb' Lb) as Fb. rewrite E, Fa, Fb. cbn [andb].
  rewrite !xval_fin in * by assumption. apply sat_le, rnd_le. apply Rmult_le_compat; lra.
Qed.
Lemma square_order I x y : isnan x = false -> isnan y = false -> 0 <= xval x <= xval y ->
  isnan (vsquare I n x) = false /\ 0 <= xval (vsquare I n x) <= xval (vsquare I n y).
Proof.
  intros Nx Ny L. pose proof big_pos. assert (K : forall z : F t, 0 <= xval z -> isfin z = false -> 0 < xval z) by (intros z P H0; rewrite (inf_pos z H0 P); lra).
  split.
  - apply (vmul_pos I x x); auto; try lra; intros; apply K; auto; lra.
  - apply vmul_pos_le; auto; intros; apply K; auto; lra.
Qed.

(** Odd extensions. *)
Lemma xval_fabs x : xval (fabs x) = if sgn x then - xval x else xval x.
Proof. rewrite fabs_cond. destruct (sgn x); [apply xval_fneg|reflexivity]. Qed.
Lemma sgn_xval x : (sgn x = true -> xval x <= 0) /\ (sgn x = false -> 0 <= xval x).
Proof.
  pose proof big_pos. destruct (isfin x) eqn:E.
  - rewrite xval_fin by exact E. pose proof (sgn_val_gen x E) as Q. pose proof (Rabs_pos (val x)). split; intros G; rewrite G in Q; lra.
  - rewrite xval_inf by exact E. split; intros ->; lra.
Qed.
(** Proof auxiliary: [h] keeps the order of the numbers that are not negative, and their sign. *)
Definition mono_pos (h : F t -> F t) : Prop :=
  forall x y, isnan x = false -> isnan y = false -> 0 <= xval x <= xval y -> isnan (h x) = false /\ 0 <= xval (h x) <= xval (h y).
Lemma odd_mono (f h : F t -> F t) : mono_pos h -> (forall x, isfin x = true -> val x = 0 -> xval (h x) = 0) ->
  (forall x, isnan x = false -> isnan (f x) = isnan (h (fabs x)) /\ xval (f x) = if sgn x then - xval (h (fabs x)) else xval (h (fabs x))) ->
  mono f.
Proof.
  intros M M0 E x y Nx Ny L. destruct (E x Nx) as [E1 E2], (E y Ny) as [E3 E4].
  pose proof (sgn_xval x) as [X1 X2]. pose proof (sgn_xval y) as [Y1 Y2].
  assert (Nx' : isnan (fabs x) = false) by (rewrite isnan_fabs; exact Nx). assert (Ny' : isnan (fabs y) = false) by (rewrite isnan_fabs; exact Ny).
  pose proof (xval_fabs x) as Ax. pose proof (xval_fabs y) as Ay.
  assert (Px : 0 <= xval (fabs x) <= xval (fabs x)). { rewrite Ax. destruct (sgn x); [specialize (X1 eq_refl)|specialize (X2 eq_refl)]; lra. }
  assert (Py : 0 <= xval (fabs y) <= xval (fabs y)). { rewrite Ay. destruct (sgn y); [specialize (Y1 eq_refl)|specialize (Y2 eq_refl)]; lra. }
  destruct (M _ _ Nx' Nx' Px) as [M1 M2], (M _ _ Ny' Ny' Py) as [M3 M4].
  split; [congruence|]. split; [congruence|]. rewrite E2, E4.
  destruct (sgn x), (sgn y); try (specialize (X1 eq_refl)); try (specialize (X2 eq_refl)); try (specialize (Y1 eq_refl)); try (specialize (Y2 eq_refl)).
  - destruct (M (fabs y) (fabs x) Ny' Nx') as [_ Q]; lra.
  - lra.
  - assert (X0 : xval x = 0) by lra. assert (Y0 : xval y = 0) by lra.
    assert (Z : forall z, isnan z = false -> xval z = 0 -> xval (h (fabs z)) = 0).
    { intros z Nz Vz. pose proof big_pos. assert (Fz : isfin z = true). { destruct (isfin z) eqn:G; [reflexivity|]. rewrite xval_inf in Vz by exact G. destruct (sgn z); lra. }
      rewrite xval_fin in Vz by exact Fz. apply M0; [rewrite isfin_fabs; exact Fz|]. rewrite val_fabs, Vz. apply Rabs_R0. }
    rewrite (Z x Nx X0), (Z y Ny Y0). lra.
  - destruct (M (fabs x) (fabs y) Nx' Ny') as [_ Q]; lra.
Qed.
Lemma sat_opp r : sat (- r) = - sat r.
Proof.
  pose proof big_pos. destruct (Rle_or_lt big r); [|destruct (Rle_or_lt r (- big))].
  - rewrite (sat_hi r), sat_lo by lra. reflexivity.
  - rewrite (sat_lo r), sat_hi by lra. lra.
  - rewrite !sat_id by (apply Rabs_le; lra). reflexivity.
Qed.
Lemma vmul_x I a b : isfin a = true -> isfin b = true ->
  isnan (VecMath.vmul I n a b) = false /\ xval (VecMath.vmul I n a b) = sat (rnd t (val a * val b)).
Proof.
  intros Fa Fb. destruct zero_val as (Z1 & Z2 & Z3). unfold VecMath.vmul.
  destruct I; try (apply fmul_x; assumption). rewrite <- (Rplus_0_r (val a * val b)), <- Z2. apply ffma_x; assumption.
Qed.
Lemma vmul_neg I a b : isnan a = false -> isnan b = false -> 0 <= xval a -> 0 <= xval b -> (isfin a = false -> 0 < xval b) -> (isfin b = false -> 0 < xval a) ->
  (isnan (VecMath.vmul I n (fneg a) b) = false /\ xval (VecMath.vmul I n (fneg a) b) = - xval (VecMath.vmul I n a b)) /\
  (isnan (VecMath.vmul I n a (fneg b)) = false /\ xval (VecMath.vmul I n a (fneg b)) = - xval (VecMath.vmul I n a b)) /\
  (isnan (VecMath.vmul I n (fneg a) (fneg b)) = false /\ xval (VecMath.vmul I n (fneg a) (fneg b)) = xval (VecMath.vmul I n a b)).
Proof.
  intros Na Nb Pa Pb Ha Hb. destruct (isfin a) eqn:Fa, (isfin b) eqn:Fb.
  - assert (Fa' : isfin (fneg a) = true) by (rewrite isfin_fneg; exact Fa). assert (Fb' : isfin (fneg b) = true) by (rewrite isfin_fneg; exact Fb).
    destruct (vmul_x I a b Fa Fb) as [A1 A2], (vmul_x I _ b Fa' Fb) as [B1 B2], (vmul_x I a _ Fa Fb') as [C1 C2], (vmul_x I _ _ Fa' Fb') as [D1 D2].
    rewrite val_fneg in *. rewrite val_fneg in *. rewrite A2, B2, C2, D2, <- sat_opp, <- rnd_opp. repeat split; auto; [apply (f_equal (fun r => sat (rnd t r))); ring..].
  - specialize (Hb eq_refl). rewrite (xval_fin a Fa) in Hb. destruct (pos_case a Fa Hb) as (m & e & H & ->).
    destruct b as [s|s|s pl E|s m' e' E]; try discriminate. rewrite (xval_inf (B754_infinity _ _ s)) in Pb by reflexivity. pose proof big_pos. destruct s; [cbn in Pb; lra|].
    rewrite <- !xval_fneg. unfold VecMath.vmul. destruct I; repeat split; reflexivity.
  - specialize (Ha eq_refl). rewrite (xval_fin b Fb) in Ha. destruct (pos_case b Fb Ha) as (m & e & H & ->).
    destruct a as [s|s|s pl E|s m' e' E]; try discriminate. rewrite (xval_inf (B754_infinity _ _ s)) in Pa by reflexivity. pose proof big_pos. destruct s; [cbn in Pa; lra|].
    rewrite <- !xval_fneg. unfold VecMath.vmul. destruct I; repeat split; reflexivity.
  - destruct a as [s|s|s pl E|s m e E]; try discriminate. destruct b as [s'|s'|s' pl E|s' m e E]; try discriminate.
    rewrite (xval_inf (B754_infinity _ _ s)) in Pa by reflexivity. rewrite (xval_inf (B754_infinity _ _ s')) in Pb by reflexivity. pose proof big_pos.
    destruct s; [cbn in Pa; lra|]. destruct s'; [cbn in Pb; lra|].
    rewrite <- !xval_fneg. unfold VecMath.vmul. destruct I; repeat split; reflexivity.
Qed.
Lemma square_zero I x : isnan x = false -> 0 <= xval x -> isfin (vsquare I n x) = false -> 0 < xval x.
Proof.
  intros Nx [L|L] H; [exact L|]. exfalso. pose proof big_pos.
  assert (Fx : isfin x = true). { destruct (isfin x) eqn:E; [reflexivity|]. rewrite (inf_pos x E) in L by lra. lra. }
  destruct (vmul_x I x x Fx Fx) as [A1 A2]. rewrite xval_fin in L by exact Fx. rewrite <- L, Rmult_0_l, (rnd_0 (t := t)), sat_id in A2 by (rewrite Rabs_R0; lra).
  fold (vsquare I n x) in A2. rewrite xval_inf in A2 by exact H. destruct (sgn (vsquare I n x)); lra.
Qed.
Lemma inf_pos' x : 0 <= xval x -> isfin x = false -> 0 < xval x.
Proof. intros P H. rewrite (inf_pos x H P). apply big_pos. Qed.
(** Proof auxiliary: the cube with the square taken of another number that has the same square. *)
Lemma cube_pos I : mono_pos (fun x => VecMath.vmul I n (vsquare I n x) x) /\ mono_pos (fun x => VecMath.vmul I n x (vsquare I n x)).
Proof.
  assert (H : forall x y, isnan x = false -> isnan y = false -> 0 <= xval x <= xval y ->
    isnan (vsquare I n x) = false /\ isnan (vsquare I n y) = false /\ 0 <= xval (vsquare I n x) <= xval (vsquare I n y) /\
    (isfin (vsquare I n x) = false -> 0 < xval x) /\ (isfin (vsquare I n y) = false -> 0 < xval y) /\
    (isfin x = false -> 0 < xval (vsquare I n x)) /\ (isfin y = false -> 0 < xval (vsquare I n y))).
  { intros x y Nx Ny L. destruct (square_order I x y Nx Ny L) as [A1 A2]. destruct (square_order I y y Ny Ny) as [B1 B2]; [lra|].
    assert (Px : 0 <= xval x) by lra. assert (Py : 0 <= xval y) by lra.
    split; [exact A1|]. split; [exact B1|]. split; [exact A2|]. split; [intros; apply (square_zero I); assumption|]. split; [intros; apply (square_zero I); assumption|].
    assert (Q : forall z, isnan z = false -> 0 <= xval z -> isfin z = false -> 0 < xval (vsquare I n z)).
    { intros z Nz Pz Fz. destruct (vmul_pos I z z Nz Nz Pz Pz (inf_pos' z Pz) (inf_pos' z Pz)) as [_ E]. unfold vsquare. rewrite E, Fz. apply big_pos. }
    split; apply Q; assumption. }
  split; intros x y Nx Ny L; destruct (H x y Nx Ny L) as (A1 & A2 & A3 & A4 & A5 & A6 & A7); (split; [apply vmul_pos; auto; lra|apply vmul_pos_le; auto]).
Qed.
Lemma xval_isfin x y : isnan x = false -> isnan y = false -> xval x = xval y -> isfin x = isfin y.
Proof.
  assert (K : forall u v : F t, isfin u = true -> isfin v = false -> xval u = xval v -> False).
  { intros u v Fu Fv L. rewrite (xval_fin u Fu), (xval_inf v Fv) in L. pose proof (val_lt_emax u) as V. apply Rabs_def2 in V. destruct (sgn v); lra. }
  intros Nx Ny E. destruct (isfin x) eqn:Fx, (isfin y) eqn:Fy; try reflexivity; exfalso; [apply (K x y)|apply (K y x)]; auto.
Qed.
Lemma square_fneg I x : isnan x = false -> 0 <= xval x -> isnan (vsquare I n (fneg x)) = false /\ xval (vsquare I n (fneg x)) = xval (vsquare I n x).
Proof. intros Nx Px. apply (vmul_neg I x x); auto; intros; apply inf_pos'; assumption. Qed.
Lemma fneg_fabs_or x : x = if sgn x then fneg (fabs x) else fabs x.
Proof. rewrite fabs_cond. destruct (sgn x); [rewrite fneg_fneg|]; reflexivity. Qed.
Lemma cube_odd I x : isnan x = false ->
  (let f := fun x => VecMath.vmul I n (vsquare I n x) x in isnan (f x) = isnan (f (fabs x)) /\ xval (f x) = if sgn x then - xval (f (fabs x)) else xval (f (fabs x))) /\
  (let f := fun x => VecMath.vmul I n x (vsquare I n x) in isnan (f x) = isnan (f (fabs x)) /\ xval (f x) = if sgn x then - xval (f (fabs x)) else xval (f (fabs x))).
Proof.
  intros Nx. cbv zeta. destruct (sgn x) eqn:S.
  - set (z := fabs x). assert (Nz : isnan z = false) by (unfold z; rewrite isnan_fabs; exact Nx).
    assert (Pz : 0 <= xval z). { unfold z. apply sgn_xval, sgn_fabs. }
    assert (Ez : x = fneg z) by (unfold z; pose proof (fneg_fabs_or x) as Q; rewrite S in Q; exact Q). rewrite Ez.
    destruct (square_fneg I z Nz Pz) as [Nq Q]. set (q := vsquare I n (fneg z)) in *.
    destruct (square_order I z z Nz Nz ltac:(lra)) as [A1 [A2 _]].
    assert (A3 : isfin (vsquare I n z) = false -> 0 < xval z) by (apply square_zero; assumption).
    assert (A4 : isfin z = false -> 0 < xval (vsquare I n z)).
    { intros Fz. destruct (vmul_pos I z z Nz Nz Pz Pz (inf_pos' z Pz) (inf_pos' z Pz)) as [_ E]. unfold vsquare. rewrite E, Fz. apply big_pos. }
    pose proof (xval_isfin q _ Nq A1 Q) as Fq.
    assert (Q1 : 0 <= xval q) by lra. assert (Q2 : isfin q = false -> 0 < xval z) by (rewrite Fq; exact A3). assert (Q3 : isfin z = false -> 0 < xval q) by (rewrite Q; exact A4).
    destruct (vmul_neg I q z Nq Nz Q1 Pz Q2 Q3) as (_ & [B1 B2] & _).
    destruct (vmul_neg I z q Nz Nq Pz Q1 Q3 Q2) as ([C1 C2] & _ & _).
    destruct (vmul_pos I (vsquare I n z) z A1 Nz A2 Pz A3 A4) as [D1 E1]. destruct (vmul_pos I z (vsquare I n z) Nz A1 Pz A2 A4 A3) as [D2 E2].
    destruct (vmul_pos I q z Nq Nz Q1 Pz Q2 Q3) as [_ G1]. destruct (vmul_pos I z q Nz Nq Pz Q1 Q3 Q2) as [_ G2].
    assert (V : isfin q = true -> val q = val (vsquare I n z)). { intros H. rewrite !xval_fin in Q by congruence. exact Q. }
    rewrite B1, C1, D1, D2, B2, C2, E1, E2, G1, G2, <- Fq. split; (split; [reflexivity|]); f_equal.
    + destruct (isfin q); [rewrite V by reflexivity|]; reflexivity.
    + destruct (isfin z), (isfin q); cbn [andb]; [rewrite V by reflexivity|..]; reflexivity.
  - replace (fabs x) with x; [auto|]. pose proof (fneg_fabs_or x) as Q. rewrite S in Q. exact Q.
Qed.
Lemma cube_mono I : mono (fun x => VecMath.vmul I n (vsquare I n x) x) /\ mono (fun x => VecMath.vmul I n x (vsquare I n x)).
Proof.
  assert (Z : forall x, isfin x = true -> val x = 0 -> isfin (vsquare I n x) = true /\ val (vsquare I n x) = 0 /\ sat (rnd t (0 * 0)) = 0).
  { intros x Fx Vx. pose proof big_pos. assert (S0 : sat (rnd t (0 * 0)) = 0) by (rewrite Rmult_0_l, (rnd_0 (t := t)); apply sat_id; rewrite Rabs_R0; lra).
    destruct (vmul_x I x x Fx Fx) as [A1 A2]. fold (vsquare I n x) in A1, A2. rewrite Vx, S0 in A2.
    assert (G : isfin (vsquare I n x) = true). { destruct (isfin (vsquare I n x)) eqn:G; [reflexivity|]. rewrite xval_inf in A2 by exact G. destruct (sgn (vsquare I n x)); lra. }
    rewrite xval_fin in A2 by exact G. auto. }
  split; [apply (odd_mono _ _ (proj1 (cube_pos I))); [|intros x Nx; exact (proj1 (cube_odd I x Nx))]|apply (odd_mono _ _ (proj2 (cube_pos I))); [|intros x Nx; exact (proj2 (cube_odd I x Nx))]];
    intros x Fx Vx; destruct (Z x Fx Vx) as (A1 & A2 & A3); cbv beta.
  - rewrite (proj2 (vmul_x I (vsquare I n x) x A1 Fx)), A2, Vx. exact A3.
  - rewrite (proj2 (vmul_x I x (vsquare I n x) Fx A1)), A2, Vx. exact A3.
Qed.
Lemma s_cube_mono : mono (s_cube n).
Proof. exact (proj1 (cube_mono SSE)). Qed.

(** ** signed_sqrt *)
Lemma ssqrt_mono : mono (s_signed_sqrt n).
Proof.
  apply (odd_mono _ (fsqrt n)).
  - assert (E : forall z, isnan z = false -> 0 <= xval z -> isnan (fsqrt n z) = false /\ (isfin z = true -> xval (fsqrt n z) = rnd t (sqrt (val z))) /\ (isfin z = false -> xval (fsqrt n z) = big)).
    { intros z Nz Pz. destruct (isfin z) eqn:Fz.
      - rewrite (xval_fin z Fz) in Pz. destruct (fsqrt_fin n z Fz) as (A1 & A2 & _).
        { destruct Pz as [Pz|Pz]; [left; exact Pz|right; symmetry; exact Pz]. }
        split; [apply isfin_isnan; exact A1|]. split; [|discriminate]. intros _. rewrite xval_fin by exact A1. exact A2.
      - destruct z as [s|s|s pl E|s m e E]; try discriminate. rewrite xval_inf in Pz by reflexivity. pose proof big_pos. destruct s; [cbn in Pz; lra|].
        split; [reflexivity|]. split; [discriminate|]. intros _. apply (xval_inf (B754_infinity (prec t) (emax t) false)). reflexivity. }
    intros x y Nx Ny L. destruct (E x Nx) as (A1 & A2 & A3); [lra|]. destruct (E y Ny) as (B1 & B2 & B3); [lra|]. split; [exact A1|].
    assert (P : 0 <= xval (fsqrt n x)).
    { destruct (isfin x) eqn:Fx; [rewrite A2 by reflexivity; rewrite <- (rnd_0 (t := t)); apply rnd_le, sqrt_pos|rewrite A3 by reflexivity; apply Rlt_le, big_pos]. }
    split; [exact P|]. destruct (isfin y) eqn:Fy; [|rewrite B3 by reflexivity; apply xval_bound].
    destruct (isfin x) eqn:Fx.
    + rewrite A2, B2 by reflexivity. rewrite !xval_fin in L by assumption. apply rnd_le, sqrt_le_1; lra.
    + rewrite (inf_pos x Fx) in L by lra. rewrite (xval_fin y Fy) in L. pose proof (val_lt_emax y) as V. apply Rabs_def2 in V. lra.
  - intros x Fx Vx. destruct (fsqrt_fin n x Fx) as (A1 & A2 & _); [right; exact Vx|]. rewrite xval_fin, A2, Vx, sqrt_0 by exact A1. apply rnd_0.
  - intros x Nx. rewrite s_signed_sqrt_eq by exact Nx. destruct (sgn x); [rewrite isnan_fneg, xval_fneg|]; auto.
Qed.
End T.
Lemma vcube_mono t (n : nans t) I : mono (vcube I n).
Proof. pose proof (cube_mono n I) as [A1 A2]. destruct I, t; assumption. Qed.

(** ** Rounding with the magic number *)
Section Magic.
Context (n : nans F32).
Implicit Types x y : F F32.
Local Notation M := (f_ofZ F32 (2 ^ 23)).
Local Notation big := (bpow radix2 (emax F32)).
Lemma magic_const : isfin M = true /\ val M = bpow radix2 23.
Proof. destruct (ofZ_exact (t := F32) (2 ^ 23)) as (A & B & C); [cbv; discriminate|]. split; [exact A|]. rewrite B. reflexivity. Qed.
(** Proof auxiliary: an integer, as a real. *)
Definition isint (r : R) : Prop := exists k, r = IZR k.
Lemma fmt_isint r : fmtR F32 r -> bpow radix2 23 <= Rabs r -> isint r.
Proof.
  intros G L. unfold fmtR in G. unfold generic_format, scaled_mantissa, cexp, F2R in G. cbn [Fnum Fexp] in G.
  set (e := SpecFloat.fexp (prec F32) (emax F32) (Raux.mag radix2 r)) in *.
  assert (He : (0 <= e)%Z).
  { assert (H : (24 <= Raux.mag radix2 r)%Z) by (apply mag_ge_bpow; exact L). unfold e. unfold SpecFloat.fexp, SpecFloat.emin. change (emax F32) with 128%Z. change (prec F32) with 24%Z. lia. }
  rewrite G. exists (Ztrunc (r * bpow radix2 (- e)) * 2 ^ e)%Z. rewrite mult_IZR. f_equal. symmetry. exact (IZR_Zpower radix2 e He).
Qed.
Lemma rnd_isint k : isint (rnd F32 (IZR k)).
Proof.
  destruct (Z_le_gt_dec (Z.abs k) (2 ^ 24)) as [H|H].
  - exists k. apply rnd_id, (int_fmt (t := F32)). exact H.
  - apply fmt_isint; [apply rnd_format|]. rewrite <- rnd_abs, <- abs_IZR. apply Rle_trans with (IZR (2 ^ 24)).
    + apply IZR_le. cbv. discriminate.
    + rewrite <- (rnd_id (t := F32) (IZR (2 ^ 24))) by (apply (int_fmt (t := F32)); cbv; discriminate). apply rnd_le, IZR_le. lia.
Qed.
Lemma big_isint : isint big. Proof. exists (2 ^ 128)%Z. reflexivity. Qed.
Lemma isint_opp r : isint r -> isint (- r). Proof. intros [k ->]. exists (- k)%Z. symmetry. apply opp_IZR. Qed.
Lemma sat_isint r : isint r -> isint (sat (t := F32) r).
Proof.
  intros H. pose proof (big_pos (t := F32)) as P. destruct (Rle_or_lt big r) as [L|L]; [|destruct (Rle_or_lt r (- big)) as [L'|L']].
  - rewrite sat_hi by exact L. apply big_isint.
  - rewrite sat_lo by exact L'. apply isint_opp, big_isint.
  - rewrite sat_id by (apply Rabs_le; lra). exact H.
Qed.
Local Notation R0 x := (fsub n (fadd n x M) M).
Lemma R0_mono : mono (fun x => R0 x).
Proof. apply (mono_comp (fun x => fadd n x M) (fun x => fsub n x M)); [apply add_mono|apply sub_mono]; apply magic_const. Qed.
Lemma R0_zero x : isfin x = true -> val x = 0 -> xval (R0 x) = 0.
Proof.
  intros Fx Vx. destruct magic_const as [M1 M2]. assert (RM : rnd F32 (bpow radix2 23) = bpow radix2 23) by (apply rnd_id; rewrite <- M2; apply val_format).
  assert (L : bpow radix2 23 < big) by (apply bpow_lt; reflexivity). pose proof (bpow_gt_0 radix2 23) as P.
  destruct (fadd_fin n x M Fx M1) as (A1 & A2 & _); [rewrite Vx, Rplus_0_l, M2, RM, Rabs_pos_eq by lra; exact L|]. rewrite Vx, Rplus_0_l, M2, RM in A2.
  destruct (fsub_x n (fadd n x M) M A1 M1) as [_ E]. rewrite E, A2, M2, Rminus_diag_eq, (rnd_0 (t := F32)) by reflexivity. apply sat_id. rewrite Rabs_R0. lra.
Qed.
Lemma R0_int x : isnan x = false -> 0 <= xval x -> isint (xval (R0 x)).
Proof.
  intros Nx Px. destruct magic_const as [M1 M2]. destruct (isfin x) eqn:Fx.
  - destruct (fadd_x n x M Fx M1) as [A1 A2]. set (v := fadd n x M) in *. destruct (isfin v) eqn:Fv.
    + destruct (fsub_x n v M Fv M1) as [_ E]. rewrite E. apply sat_isint.
      assert (V : isint (val v)).
      { apply fmt_isint; [apply val_format|]. rewrite xval_fin in A2, Px by assumption. rewrite A2.
        pose proof (big_pos (t := F32)) as P. assert (L : bpow radix2 23 <= big) by (apply bpow_le; discriminate). pose proof (bpow_gt_0 radix2 23) as Q.
        rewrite Rabs_pos_eq.
        - rewrite <- (sat_id (t := F32) (bpow radix2 23)) at 1 by (rewrite Rabs_pos_eq; lra). apply sat_le.
          rewrite <- (rnd_id (t := F32) (bpow radix2 23)) at 1 by (rewrite <- M2; apply val_format). apply rnd_le. rewrite M2. lra.
        - rewrite <- (sat_id (t := F32) 0) by (rewrite Rabs_R0; lra). apply sat_le. rewrite <- (rnd_0 (t := F32)). apply rnd_le. rewrite M2. lra. }
      destruct V as [k Vk]. rewrite M2, Vk. change (bpow radix2 23) with (IZR (2 ^ 23)). rewrite <- minus_IZR. apply rnd_isint.
    + rewrite fsub_inf by (assumption || apply magic_const). rewrite xval_inf by exact Fv. destruct (sgn v); [apply isint_opp|]; apply big_isint.
  - rewrite fadd_inf by assumption. rewrite fsub_inf by assumption. rewrite xval_inf by exact Fx. destruct (sgn x); [apply isint_opp|]; apply big_isint.
Qed.
Lemma magic_round_mono c I : mono (vec_round_float c I n).
Proof.
  apply (odd_mono _ (fun x => R0 x)).
  - intros x y Nx Ny L. destruct (R0_mono x y Nx Ny) as (A1 & A2 & A3); [lra|]. split; [exact A1|]. split; [|exact A3].
    destruct (R0_mono (f_ofZ F32 0) x) as (_ & _ & Z); [reflexivity|exact Nx|rewrite xval_fin by reflexivity; exact (proj1 L)|].
    rewrite <- (R0_zero (f_ofZ F32 0)) by reflexivity. exact Z.
  - apply R0_zero.
  - intros x Nx. rewrite vec_round_float_abs. cbv zeta. destruct (sgn x); [rewrite isnan_fneg, xval_fneg|]; auto.
Qed.
Lemma magic_round_int c I x : isnan x = false -> isint (xval (vec_round_float c I n x)).
Proof.
  intros Nx. rewrite vec_round_float_abs. cbv zeta. assert (H : isint (xval (R0 (fabs x)))).
  { apply R0_int; [rewrite isnan_fabs; exact Nx|]. apply sgn_xval, sgn_fabs. }
  destruct (sgn x); [rewrite xval_fneg; apply isint_opp|]; exact H.
Qed.
Lemma int_gap r s : isint r -> isint s -> r < s -> r <= s - 1.
Proof. intros [k ->] [l ->] H. apply lt_IZR in H. rewrite <- minus_IZR. apply IZR_le. lia. Qed.
Lemma gt_x x y : isnan x = false -> isnan y = false -> (srel GT x y = true <-> xval y < xval x).
Proof. intros Nx Ny. exact (srel_xval GT x y Nx Ny). Qed.
Lemma lt_x x y : isnan x = false -> isnan y = false -> (srel LT x y = true <-> xval x < xval y).
Proof. intros Nx Ny. exact (srel_xval LT x y Nx Ny). Qed.
(** Proof auxiliary: the mask and gen_one. *)
Definition step (b : bool) : F F32 := if b then f_ofZ F32 1 else f_ofZ F32 0.
Lemma step_ok b : isfin (step b) = true /\ val (step b) = if b then 1 else 0.
Proof. destruct b; [destruct one_ok as (A & B & _)|destruct zero_ok as (A & B & _)]; auto. Qed.
Lemma fsub_step x b : isnan x = false -> isnan (fsub n x (step b)) = false /\
  xval (fsub n x (step b)) = if isfin x then sat (t := F32) (rnd F32 (val x - if b then 1 else 0)) else xval x.
Proof.
  intros Nx. destruct (step_ok b) as [S1 S2]. destruct (isfin x) eqn:Fx.
  - rewrite <- S2. apply fsub_x; assumption.
  - rewrite fsub_inf by assumption. auto.
Qed.
Lemma fadd_step x b : isnan x = false -> isnan (fadd n x (step b)) = false /\
  xval (fadd n x (step b)) = if isfin x then sat (t := F32) (rnd F32 (val x + if b then 1 else 0)) else xval x.
Proof.
  intros Nx. destruct (step_ok b) as [S1 S2]. destruct (isfin x) eqn:Fx.
  - rewrite <- S2. apply fadd_x; assumption.
  - rewrite fadd_inf by assumption. auto.
Qed.
Lemma rnd_val x : isfin x = true -> sat (t := F32) (rnd F32 (val x)) = xval x.
Proof. intros Fx. rewrite (rnd_id (t := F32)) by apply val_format. rewrite xval_fin by exact Fx. apply sat_id, Rlt_le, val_lt_emax. Qed.
Lemma magic_floor_mono c I : mono (vec_floor_float c I n).
Proof.
  intros x y Nx Ny L. destruct (magic_round_mono c I x y Nx Ny L) as (A1 & A2 & A3).
  pose proof (magic_round_int c I x Nx) as Ix. pose proof (magic_round_int c I y Ny) as Iy.
  unfold vec_floor_float. rewrite !vmask_one by assumption. set (r := vec_round_float c I n x) in *. set (s := vec_round_float c I n y) in *.
  fold (step (srel GT r x)). fold (step (srel GT s y)).
  destruct (fsub_step r (srel GT r x) A1) as [B1 B2], (fsub_step s (srel GT s y) A2) as [C1 C2]. split; [exact B1|]. split; [exact C1|].
  pose proof (xval_bound (t := F32) r) as Br. pose proof (xval_bound (t := F32) s) as Bs.
  destruct A3 as [A3|A3].
  - pose proof (int_gap _ _ Ix Iy A3) as G.
    destruct (isfin r) eqn:Fr; [|rewrite B2; rewrite (xval_inf r Fr) in *; destruct (sgn r); [apply xval_bound|lra]].
    destruct (isfin s) eqn:Fs; [|rewrite C2; rewrite (xval_inf s Fs) in *; destruct (sgn s); [lra|apply xval_bound]].
    rewrite B2, C2. apply Rle_trans with (xval r).
    + rewrite <- (rnd_val r Fr). apply sat_le, rnd_le. destruct (srel GT r x); lra.
    + rewrite <- (rnd_val r Fr). apply sat_le, rnd_le. rewrite (xval_fin r Fr), (xval_fin s Fs) in G. destruct (srel GT s y); lra.
  - rewrite B2, C2, (xval_isfin r s A1 A2 A3). destruct (isfin s) eqn:Fs; [|lra].
    assert (Fr : isfin r = true) by (rewrite (xval_isfin r s A1 A2 A3); exact Fs). apply sat_le, rnd_le.
    pose proof A3 as V. rewrite (xval_fin r Fr), (xval_fin s Fs) in V. rewrite V.
    destruct (srel GT s y) eqn:Es; [|destruct (srel GT r x); lra]. apply gt_x in Es; [|assumption..].
    rewrite (proj2 (gt_x r x A1 Nx)) by lra. lra.
Qed.
Lemma magic_ceil_mono c I : mono (vec_ceil_float c I n).
Proof.
  intros x y Nx Ny L. destruct (magic_round_mono c I x y Nx Ny L) as (A1 & A2 & A3).
  pose proof (magic_round_int c I x Nx) as Ix. pose proof (magic_round_int c I y Ny) as Iy.
  unfold vec_ceil_float. rewrite !vmask_one by assumption. set (r := vec_round_float c I n x) in *. set (s := vec_round_float c I n y) in *.
  fold (step (srel LT r x)). fold (step (srel LT s y)).
  destruct (fadd_step r (srel LT r x) A1) as [B1 B2], (fadd_step s (srel LT s y) A2) as [C1 C2]. split; [exact B1|]. split; [exact C1|].
  pose proof (xval_bound (t := F32) r) as Br. pose proof (xval_bound (t := F32) s) as Bs.
  destruct A3 as [A3|A3].
  - pose proof (int_gap _ _ Ix Iy A3) as G.
    destruct (isfin r) eqn:Fr; [|rewrite B2; rewrite (xval_inf r Fr) in *; destruct (sgn r); [apply xval_bound|lra]].
    destruct (isfin s) eqn:Fs; [|rewrite C2; rewrite (xval_inf s Fs) in *; destruct (sgn s); [lra|apply xval_bound]].
    rewrite B2, C2. apply Rle_trans with (xval s).
    + rewrite <- (rnd_val s Fs). apply sat_le, rnd_le. rewrite (xval_fin r Fr), (xval_fin s Fs) in G. destruct (srel LT r x); lra.
    + rewrite <- (rnd_val s Fs). apply sat_le, rnd_le. destruct (srel LT s y); lra.
  - rewrite B2, C2, (xval_isfin r s A1 A2 A3). destruct (isfin s) eqn:Fs; [|lra].
    assert (Fr : isfin r = true) by (rewrite (xval_isfin r s A1 A2 A3); exact Fs). apply sat_le, rnd_le.
    pose proof A3 as V. rewrite (xval_fin r Fr), (xval_fin s Fs) in V. rewrite V.
    destruct (srel LT r x) eqn:Es; [|destruct (srel LT s y); lra]. apply lt_x in Es; [|assumption..].
    rewrite (proj2 (lt_x s y A2 Ny)) by lra. lra.
Qed.
(** Once is enough within 2^23. *)
Lemma magic_round_once c I x : within_2_23 x -> vec_round_float c I n (vec_round_float c I n x) = vec_round_float c I n x.
Proof.
  intros W. destruct (vec_round_float_fin n c I x W) as (A1 & A2 & A3). pose proof (round_small x W) as S.
  assert (W2 : within_2_23 (vec_round_float c I n x)).
  { split; [exact A1|]. rewrite A2, <- abs_IZR. change (bpow radix2 23) with (IZR (2 ^ 23)). apply IZR_le. exact S. }
  rewrite (vec_round_float_even n c I _ W2), (vec_round_float_even n c I x W). apply (nearby_once n BinarySingleNaN.mode_NE). apply isfin_isnan, W.
Qed.
Lemma small_within x (f : R -> Z) : within_2_23 x -> (f = Zfloor \/ f = Zceil) -> Rabs (IZR (f (val x))) <= bpow radix2 23.
Proof.
  intros [_ W] H. change (bpow radix2 23) with (IZR (2 ^ 23)) in *. rewrite <- abs_IZR. apply IZR_le. apply Rabs_le_inv in W. rewrite <- opp_IZR in W.
  destruct H as [-> | ->].
  - pose proof (Zfloor_le _ _ (proj1 W)). pose proof (Zfloor_le _ _ (proj2 W)). rewrite !Zfloor_IZR in *. lia.
  - pose proof (Zceil_le _ _ (proj1 W)). pose proof (Zceil_le _ _ (proj2 W)). rewrite !Zceil_IZR in *. lia.
Qed.
Lemma magic_floor_once c I x : within_2_23 x -> vec_floor_float c I n (vec_floor_float c I n x) = vec_floor_float c I n x.
Proof.
  intros W. rewrite (vec_floor_float_eq n c I x W). destruct (ffloor_fin n x (proj1 W)) as (A1 & A2 & A3).
  rewrite vec_floor_float_eq.
  - apply (nearby_once n BinarySingleNaN.mode_DN). apply isfin_isnan, W.
  - split; [exact A1|]. rewrite A2. apply (small_within x Zfloor W). auto.
Qed.
Lemma magic_ceil_once c I x : within_2_23 x -> vec_ceil_float c I n (vec_ceil_float c I n x) = vec_ceil_float c I n x.
Proof.
  intros W. destruct (vec_ceil_float_fin n c I x W) as (A1 & A2 & A3). set (y := vec_ceil_float c I n x) in *.
  assert (W2 : within_2_23 y). { split; [exact A1|]. rewrite A2. apply (small_within x Zceil W). auto. }
  destruct (vec_ceil_float_fin n c I y W2) as (B1 & B2 & B3).
  assert (V : val (vec_ceil_float c I n y) = val y) by (rewrite B2, A2, Zceil_IZR; reflexivity).
  apply fin_eq0; [exact B1|exact A1|exact V|]. intros Z. rewrite (B3 Z). symmetry. apply A3. congruence.
Qed.
End Magic.

(** ** The vector forms *)
Lemma vround_mono c B (n : nans (fmt_of B)) : mono (vround c (isa_of B) n).
Proof.
  destruct B; cbn [fmt_of isa_of] in *; unfold vround; cbn [fmt_of]; try (destruct (has_sse41 c)); try apply magic_round_mono;
    first [exact (nearby_mono n BinarySingleNaN.mode_NE)|exact (nearby_mono n BinarySingleNaN.mode_NA)].
Qed.
Lemma vfloor_mono c B (n : nans (fmt_of B)) : mono (vfloor c (isa_of B) n).
Proof.
  destruct B; cbn [fmt_of isa_of] in *; unfold vfloor; cbn [fmt_of]; try (destruct (has_sse41 c)); try apply magic_floor_mono; exact (nearby_mono n BinarySingleNaN.mode_DN).
Qed.
Lemma vceil_mono c B (n : nans (fmt_of B)) : mono (vceil c (isa_of B) n).
Proof.
  destruct B; cbn [fmt_of isa_of] in *; unfold vceil; cbn [fmt_of]; try (destruct (has_sse41 c)); try apply magic_ceil_mono; exact (nearby_mono n BinarySingleNaN.mode_UP).
Qed.

Lemma vround_once c B (n : nans (fmt_of B)) x : roundable (magic_round c B) x ->
  vround c (isa_of B) n (vround c (isa_of B) n x) = vround c (isa_of B) n x.
Proof.
  intros [N W]. unfold magic_round, magic_floor in W.
  destruct B; cbn [fmt_of isa_of] in *; unfold vround; cbn [fmt_of]; try (destruct (has_sse41 c)); try (apply magic_round_once; apply W; tauto);
    first [exact (nearby_once n BinarySingleNaN.mode_NE x N)|exact (nearby_once n BinarySingleNaN.mode_NA x N)].
Qed.
Lemma vfloor_once c B (n : nans (fmt_of B)) x : roundable (magic_floor c B) x ->
  vfloor c (isa_of B) n (vfloor c (isa_of B) n x) = vfloor c (isa_of B) n x.
Proof.
  intros [N W]. unfold magic_floor in W.
  destruct B; cbn [fmt_of isa_of] in *; unfold vfloor; cbn [fmt_of]; try (destruct (has_sse41 c)); try (apply magic_floor_once; apply W; tauto); exact (nearby_once n BinarySingleNaN.mode_DN x N).
Qed.
Lemma vceil_once c B (n : nans (fmt_of B)) x : roundable (magic_floor c B) x ->
  vceil c (isa_of B) n (vceil c (isa_of B) n x) = vceil c (isa_of B) n x.
Proof.
  intros [N W]. unfold magic_floor in W.
  destruct B; cbn [fmt_of isa_of] in *; unfold vceil; cbn [fmt_of]; try (destruct (has_sse41 c)); try (apply magic_ceil_once; apply W; tauto); exact (nearby_once n BinarySingleNaN.mode_UP x N).
Qed.

(** ** frac *)
Lemma s_frac_zero {t} (n : nans t) (x : F t) : isfin x = true -> val (s_frac n x) = 0 -> sgn (s_frac n x) = false.
Proof.
  intros Fx V. destruct (s_frac_fin n x Fx) as (A & B & C). destruct (ffloor_fin n x Fx) as (D1 & D2 & D3). unfold s_frac, s_floor in *.
  assert (Q : Rabs (rnd t (val x - val (ffloor n x))) < bpow radix2 (emax t)).
  { rewrite D2, <- B, V, Rabs_R0. apply bpow_gt_0. }
  destruct (fsub_fin n x (ffloor n x) Fx D1 Q) as (E1 & E2 & E3). rewrite E3.
  assert (H : val x - val (ffloor n x) = 0 \/ 0 < val x - val (ffloor n x)).
  { rewrite D2. pose proof (Zfloor_lb (val x)). lra. }
  destruct H as [H|H].
  - rewrite H, Rcompare_Eq by reflexivity. rewrite D3. destruct (sgn x); reflexivity.
  - rewrite Rcompare_Gt by exact H. reflexivity.
Qed.
Lemma s_frac_once {t} (n : nans t) (x : F t) : not_slightly_negative x -> s_frac n (s_frac n x) = s_frac n x.
Proof.
  intros [Fx Hx]. destruct (s_frac_fin n x Fx) as (A & B & C). pose proof (s_frac_exact n x Fx Hx) as V.
  pose proof (Zfloor_lb (val x)) as L. pose proof (Zfloor_ub (val x)) as U.
  assert (K : Zfloor (val (s_frac n x)) = 0%Z) by (rewrite V; apply Zfloor_imp; cbn; lra).
  assert (P : 0 <= val (s_frac n x)) by lra.
  pose proof (s_frac_exact n (s_frac n x) A (or_introl P)) as V2. rewrite K, Rminus_0_r in V2.
  destruct (s_frac_fin n (s_frac n x) A) as (A' & _). apply fin_eq0; [exact A'|exact A|exact V2|].
  intros Z. rewrite s_frac_zero by (exact A || exact Z). symmetry. apply s_frac_zero; [exact Fx|congruence].
Qed.
Lemma vfloor_hw c B (n : nans (fmt_of B)) x : (magic_floor c B -> within_2_23 x) -> vfloor c (isa_of B) n x = ffloor n x.
Proof.
  intros W. unfold magic_floor in W. destruct B; cbn [fmt_of isa_of] in *; unfold vfloor; cbn [fmt_of]; try (destruct (has_sse41 c)); try reflexivity; apply vec_floor_float_eq; apply W; tauto.
Qed.
Lemma vfrac_once c B (n : nans (fmt_of B)) x : not_slightly_negative x -> (magic_floor c B -> within_2_23 x) ->
  vfrac c (isa_of B) n (vfrac c (isa_of B) n x) = vfrac c (isa_of B) n x.
Proof.
  intros [Fx Hx] W.
  assert (E : vfrac c (isa_of B) n x = s_frac n x) by (unfold vfrac; rewrite vfloor_hw by exact W; reflexivity). rewrite E.
  destruct (s_frac_fin n x Fx) as (A & _ & C).
  assert (W2 : within_2_23 (s_frac n x)).
  { split; [exact A|]. rewrite Rabs_pos_eq by apply C. apply Rle_trans with 1; [apply C|]. apply IZR_le. discriminate. }
  unfold vfrac. rewrite vfloor_hw by auto. apply (s_frac_once n x). split; assumption.
Qed.

(** ** floor, round and ceil in order *)
Lemma nearby_order {t} (n : nans t) md (x : F t) : isnan x = false -> (md = BinarySingleNaN.mode_NE \/ md = BinarySingleNaN.mode_NA) ->
  fle (ffloor n x) (Bnearbyint (prec t) (emax t) (Hmax t) (nan_int n) md x) = true /\
  fle (Bnearbyint (prec t) (emax t) (Hmax t) (nan_int n) md x) (fceil n x) = true.
Proof.
  intros N H. destruct (isfin x) eqn:Fx.
  - destruct (nearby_fin n md x Fx) as (A1 & A2 & _), (ffloor_fin n x Fx) as (B1 & B2 & _), (fceil_fin n x Fx) as (C1 & C2 & _).
    assert (V : Valid_rnd (BinarySingleNaN.round_mode md)) by (destruct md; typeclasses eauto).
    split; (apply fle_x; [apply isfin_isnan; assumption..|]); rewrite !xval_fin by assumption; rewrite ?A2, ?B2, ?C2; apply IZR_le.
    + rewrite <- (@Zrnd_IZR _ V (Zfloor (val x))). apply (@Zrnd_le _ V). apply Zfloor_lb.
    + rewrite <- (@Zrnd_IZR _ V (Zceil (val x))). apply (@Zrnd_le _ V). apply Zceil_ub.
  - unfold ffloor, fceil. rewrite !(nearby_inf n _ x Fx N). split; apply fle_x; auto; lra.
Qed.
Lemma magic_order (n : nans F32) c I (x : F F32) : isnan x = false ->
  fle (vec_floor_float c I n x) (vec_round_float c I n x) = true /\ fle (vec_round_float c I n x) (vec_ceil_float c I n x) = true.
Proof.
  intros N. destruct (magic_round_mono n c I x x N N) as (A1 & _ & _); [lra|].
  unfold vec_floor_float, vec_ceil_float. rewrite !vmask_one by assumption. set (r := vec_round_float c I n x) in *.
  fold (step (srel GT r x)). fold (step (srel LT r x)).
  destruct (fsub_step n r (srel GT r x) A1) as [B1 B2], (fadd_step n r (srel LT r x) A1) as [C1 C2].
  split; (apply fle_x; [assumption..|]); rewrite ?B2, ?C2; (destruct (isfin r) eqn:Fr; [|lra]); rewrite <- (rnd_val r Fr); apply sat_le, rnd_le.
  - destruct (srel GT r x); lra.
  - destruct (srel LT r x); lra.
Qed.
Lemma v_order c B (n : nans (fmt_of B)) x : B <> ALTIVEC32 -> isnan x = false ->
  fle (vfloor c (isa_of B) n x) (vround c (isa_of B) n x) = true /\ fle (vround c (isa_of B) n x) (vceil c (isa_of B) n x) = true.
Proof.
  intros HB N. destruct B; try congruence; cbn [fmt_of isa_of] in *; unfold vround, vfloor, vceil; cbn [fmt_of]; try (destruct (has_sse41 c)); try (apply magic_order; exact N);
    first [exact (nearby_order n BinarySingleNaN.mode_NE x N (or_introl eq_refl))|exact (nearby_order n BinarySingleNaN.mode_NA x N (or_intror eq_refl))].
Qed.

(** ** Limits, applied twice *)
Lemma rep_feq {t} (x y : F t) a : rep x a -> rep y a -> feq x y = true.
Proof. intros [N1 E1] [N2 E2]. apply feq_iff. repeat split; auto. congruence. Qed.

Lemma zero_sub_num {t} (n : nans t) (k : F t) : isnan k = false -> isnan (fsub n (f_ofZ t 0) k) = false.
Proof. clear. intros H. destruct k as [s|s|s pl E|s m e E]; try discriminate; destruct t; destruct s; reflexivity. Qed.
Section Twice.
Context {t : fmt} (n : nans t).
Local Open Scope Z_scope.
Lemma smin_twice (k x : F t) : isnan k = false -> isnan x = false -> feq (smin x k) (smin (smin x k) k) = true.
Proof.
  intros Nk Nx. pose proof (smin_rep x k _ _ (rep_self x Nx) (rep_self k Nk)) as A. eapply rep_feq; [exact A|].
  pose proof (smin_rep _ k _ _ A (rep_self k Nk)) as B. rewrite <- Z.min_assoc, Z.min_id in B. exact B.
Qed.
Lemma smax_twice (k x : F t) : isnan k = false -> isnan x = false -> feq (smax x k) (smax (smax x k) k) = true.
Proof.
  intros Nk Nx. pose proof (smax_rep x k _ _ (rep_self x Nx) (rep_self k Nk)) as A. eapply rep_feq; [exact A|].
  pose proof (smax_rep _ k _ _ A (rep_self k Nk)) as B. rewrite <- Z.max_assoc, Z.max_id in B. exact B.
Qed.
Lemma vmin_twice I (k x : F t) : isnan k = false -> isnan x = false -> feq (vmin I n x k) (vmin I n (vmin I n x k) k) = true.
Proof.
  intros Nk Nx. pose proof (vmin_rep I n x k _ _ (rep_self x Nx) (rep_self k Nk)) as A. eapply rep_feq; [exact A|].
  pose proof (vmin_rep I n _ k _ _ A (rep_self k Nk)) as B. rewrite <- Z.min_assoc, Z.min_id in B. exact B.
Qed.
Lemma vmax_twice I (k x : F t) : isnan k = false -> isnan x = false -> feq (vmax I n x k) (vmax I n (vmax I n x k) k) = true.
Proof.
  intros Nk Nx. pose proof (vmax_rep I n x k _ _ (rep_self x Nx) (rep_self k Nk)) as A. eapply rep_feq; [exact A|].
  pose proof (vmax_rep I n _ k _ _ A (rep_self k Nk)) as B. rewrite <- Z.max_assoc, Z.max_id in B. exact B.
Qed.
(** Proof auxiliary: a limiter that behaves as max (min x high) low. *)
Lemma limit_twice (f : F t -> F t) lo hi : (forall x a, rep x a -> rep (f x) (Z.max (Z.min a hi) lo)) ->
  forall x, isnan x = false -> feq (f x) (f (f x)) = true.
Proof.
  intros H x Nx. pose proof (H x _ (rep_self x Nx)) as A. eapply rep_feq; [exact A|]. pose proof (H _ _ A) as B.
  replace (Z.max (Z.min (Z.max (Z.min (ord x) hi) lo) hi) lo) with (Z.max (Z.min (ord x) hi) lo) in B by lia. exact B.
Qed.
Lemma sclip_rep (lo hi : F t) : isnan lo = false -> isnan hi = false -> forall x a, rep x a -> rep (smax (smin x hi) lo) (Z.max (Z.min a (ord hi)) (ord lo)).
Proof. intros Nl Nh x a A. apply smax_rep; [apply smin_rep; [exact A|]|]; apply rep_self; assumption. Qed.
Lemma vclip_rep I (lo hi : F t) : isnan lo = false -> isnan hi = false -> forall x a, rep x a -> rep (vmax I n (vmin I n x hi) lo) (Z.max (Z.min a (ord hi)) (ord lo)).
Proof. intros Nl Nh x a A. apply vmax_rep; [apply vmin_rep; [exact A|]|]; apply rep_self; assumption. Qed.
Lemma sclip2_rep (lo hi : F t) : isnan lo = false -> isnan hi = false -> forall x a, rep x a -> rep (smax lo (smin x hi)) (Z.max (Z.min a (ord hi)) (ord lo)).
Proof. intros Nl Nh x a A. rewrite Z.max_comm. apply smax_rep; [|apply smin_rep; [exact A|]]; apply rep_self; assumption. Qed.
Lemma vclip2_rep I (lo hi : F t) : isnan lo = false -> isnan hi = false -> forall x a, rep x a -> rep (vmax I n lo (vmin I n x hi)) (Z.max (Z.min a (ord hi)) (ord lo)).
Proof. intros Nl Nh x a A. rewrite Z.max_comm. apply vmax_rep; [|apply vmin_rep; [exact A|]]; apply rep_self; assumption. Qed.
Lemma limit_mono (f : F t -> F t) lo hi : (forall x a, rep x a -> rep (f x) (Z.max (Z.min a hi) lo)) -> mono f.
Proof.
  intros H. apply mono_ord. intros x y Nx Ny L. destruct (H x _ (rep_self x Nx)) as [A1 A2], (H y _ (rep_self y Ny)) as [B1 B2]. repeat split; auto. lia.
Qed.
End Twice.

(** ** Buffers *)
Section Buf.
Local Open Scope Z_scope.
Lemma order_of_leaves {t} (f : F t -> F t) m r out inp len : mono f ->
  leaves m r out len (fun i => lift1 f (m (inp + i))) -> order_kept m r out inp len.
Proof.
  intros M (m' & E & W1 & W2). exists m'. split; [exact E|]. split; [exact W2|]. intros i j x y Hi Hj X Y L.
  destruct (fle_num x y L) as [Nx Ny]. apply (fle_x x y Nx Ny) in L. destruct (M x y Nx Ny L) as (A & B & C).
  exists (f x), (f y). split; [rewrite (proj1 (W1 i Hi)), X; reflexivity|]. split; [rewrite (proj1 (W1 j Hj)), Y; reflexivity|]. apply fle_x; assumption.
Qed.
Lemma in_order_of_leaves {t} (f g h : F t -> F t) m r1 r2 r3 out inp len :
  (forall x, isnan x = false -> fle (f x) (g x) = true /\ fle (g x) (h x) = true) ->
  leaves m r1 out len (fun i => lift1 f (m (inp + i))) -> leaves m r2 out len (fun i => lift1 g (m (inp + i))) ->
  leaves m r3 out len (fun i => lift1 h (m (inp + i))) -> in_order m r1 r2 r3 out inp len.
Proof.
  intros O (m1 & E1 & W1 & _) (m2 & E2 & W2 & _) (m3 & E3 & W3 & _). exists m1, m2, m3. split; [exact E1|]. split; [exact E2|]. split; [exact E3|].
  intros i x Hi X N. destruct (O x N) as [O1 O2]. exists (f x), (g x), (h x). rewrite (proj1 (W1 i Hi)), (proj1 (W2 i Hi)), (proj1 (W3 i Hi)), X. auto.
Qed.
Lemma order_of_leaves_pos {t} (f : F t -> F t) m r out inp len : mono_pos f -> each not_negative m inp len ->
  leaves m r out len (fun i => lift1 f (m (inp + i))) -> order_kept m r out inp len.
Proof.
  intros M P (m' & E & W1 & W2). exists m'. split; [exact E|]. split; [exact W2|]. intros i j x y Hi Hj X Y L.
  destruct (fle_num x y L) as [Nx Ny]. apply (fle_x x y Nx Ny) in L.
  assert (Q : forall i z, 0 <= i < len -> m (inp + i) = Some z -> isnan z = false -> (0 <= xval z)%R).
  { intros k z Hk Z Nz. pose proof (P k z Hk Z) as [G|G]; [congruence|]. apply (fle_x _ z) in G; [|apply isnan_zero|exact Nz]. rewrite xval_fin, (proj1 (proj2 (zero_val (t := t)))) in G by apply zero_val. exact G. }
  pose proof (Q i x Hi X Nx) as Px. pose proof (Q j y Hj Y Ny) as Py.
  destruct (M x y Nx Ny (conj Px L)) as [A C]. destruct (M y y Ny Ny (conj Py (Rle_refl _))) as [B _].
  exists (f x), (f y). split; [rewrite (proj1 (W1 i Hi)), X; reflexivity|]. split; [rewrite (proj1 (W1 j Hj)), Y; reflexivity|]. apply fle_x; [exact A|exact B|apply C].
Qed.
Lemma again_scalar {A} (m m' : mem A) out inp len : scalar_fit m out inp len -> accessible m' out len -> scalar_fit m' out out len.
Proof. intros (H1 & H2 & H3) H. split; [exact H1|]. split; [exact H|]. split; [exact H|]. cbn. lia. Qed.
Lemma again_simd {A} B (m m' : mem A) out inp len : buffers_fit B m out inp len -> accessible m' out len -> buffers_fit B m' out out len.
Proof. intros (H1 & H2 & H3 & H4) H. split; [exact H1|]. split; [exact H2|]. split; [exact H|]. split; [exact H|]. split; [cbn; lia|exact H2]. Qed.
Lemma once_of_leaves {A} (Fit : mem A -> Z -> Prop) (call : mem A -> Z -> Z -> Z -> res (mem A)) (f : A -> A) m out inp len :
  (forall m inp, Fit m inp -> leaves m (call m out inp len) out len (fun i => lift1 f (m (inp + i)))) ->
  (forall m', accessible m' out len -> Fit m' out) -> Fit m inp -> each (fun x => f (f x) = f x) m inp len -> once_is_enough call m out inp len.
Proof.
  intros L G FT P. destruct (L m inp FT) as (m1 & E1 & W1 & W2).
  assert (X : forall i, 0 <= i < len -> exists x, m1 (out + i) = Some (f x) /\ f (f x) = f x).
  { intros i Hi. destruct (W1 i Hi) as [V1 V2]. destruct (m (inp + i)) as [x|] eqn:Ex; [|contradiction]. exists x. split; [exact V1|]. apply (P i x Hi Ex). }
  assert (AC : accessible m1 out len). { intros i Hi. destruct (X i Hi) as (x & -> & _). eauto. }
  exists m1. split; [exact E1|]. destruct (L m1 out (G m1 AC)) as (m2 & E2 & U1 & U2). exists m1, m2. split; [exact E1|]. split; [exact E2|].
  intros a. destruct (Z_lt_le_dec a out) as [H|H]; [symmetry; apply U2; lia|]. destruct (Z_lt_le_dec a (out + len)) as [H'|H']; [|symmetry; apply U2; lia].
  destruct (X (a - out) ltac:(lia)) as (x & Y1 & Y2). destruct (U1 (a - out) ltac:(lia)) as [U3 _]. replace (out + (a - out)) with a in * by lia.
  rewrite U3, Y1. cbn [lift1]. rewrite Y2. reflexivity.
Qed.
Lemma once_numbers_of_leaves {t} (Fit : mem (F t) -> Z -> Prop) (call : mem (F t) -> Z -> Z -> Z -> res (mem (F t))) (f : F t -> F t) m out inp len :
  (forall m inp, Fit m inp -> leaves m (call m out inp len) out len (fun i => lift1 f (m (inp + i)))) ->
  (forall m', accessible m' out len -> Fit m' out) -> Fit m inp -> each (fun x => feq (f x) (f (f x)) = true) m inp len -> once_is_enough_numbers call m out inp len.
Proof.
  intros L G FT P. destruct (L m inp FT) as (m1 & E1 & W1 & W2).
  assert (X : forall i, 0 <= i < len -> exists x, m1 (out + i) = Some (f x) /\ feq (f x) (f (f x)) = true).
  { intros i Hi. destruct (W1 i Hi) as [V1 V2]. destruct (m (inp + i)) as [x|] eqn:Ex; [|contradiction]. exists x. split; [exact V1|]. apply (P i x Hi Ex). }
  assert (AC : accessible m1 out len). { intros i Hi. destruct (X i Hi) as (x & -> & _). eauto. }
  exists m1. split; [exact E1|]. destruct (L m1 out (G m1 AC)) as (m2 & E2 & U1 & U2). exists m1, m2. split; [exact E1|]. split; [exact E2|].
  split; [|intros a H; symmetry; apply U2; exact H].
  intros i Hi. destruct (X i Hi) as (x & Y1 & Y2). exists (f x), (f (f x)). split; [exact Y1|]. split; [|exact Y2]. rewrite (proj1 (U1 i Hi)), Y1. reflexivity.
Qed.
End Buf.

(** For the examples: halves. *)
Lemma lit_half k : (Z.abs k <= 1000)%Z -> isfin (f_lit F32 k (-1)) = true /\ val (f_lit F32 k (-1)) = IZR k / 2 /\ within_2_23 (f_lit F32 k (-1)).
Proof.
  intros H. destruct (f_lit_exact (t := F32) k (-1)) as (A1 & A2 & _); [change (2 ^ prec F32)%Z with 16777216%Z; lia|cbv; discriminate|reflexivity|].
  change (bpow radix2 (-1)) with (/ 2) in A2. split; [exact A1|]. split; [exact A2|]. split; [exact A1|]. rewrite A2.
  assert (- 1000 <= IZR k <= 1000) by (split; apply IZR_le; lia). apply Rabs_le. change (IZR (2 ^ 23)) with 8388608. lra.
Qed.
