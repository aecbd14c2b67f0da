(** Exchanged arguments and inverted polarity. *)
From Coq Require Import ZArith Reals List Lia Lra Bool.
From Flocq Require Import Core IEEE754.Binary IEEE754.Bits.
From Verif Require Import Base Mem Loop Backend Args Drivers Functors Lanes Float LaneOps FloatOps VecMath FloatFuns Spec SpecLane SpecAgree SpecAlike SpecNeutral SpecSwap
  FloatFacts LaneFacts FloatRound VecFacts VecMore VecMore2 RoundFacts RoundMore RoundMore2 MathMore KeepFacts NeutralFacts AlikeFacts DriverClaims2 AgreeFacts ReduceMore ExData ExMath.
Import ListNotations.
Local Open Scope Z_scope.

Section T.
Context {t : fmt} (n : nans t).
Implicit Types x y z a b : F t.
Local Notation big := (bpow radix2 (emax t)).
Local Notation P := (prec t).
Local Notation E := (emax t).

(** ** Exchanged operands *)
Lemma same_refl x : same_or_nan x x. Proof. left. reflexivity. Qed.
Lemma same_eq x y : isnan x = false -> same_or_nan x y -> x = y.
Proof. intros N [H|[H _]]; [exact (bits_inj _ _ H)|congruence]. Qed.
Lemma same_nan x y : isnan x = true -> same_or_nan x y -> isnan y = true.
Proof. intros N [H|[_ H]]; [|exact H]. apply bits_inj in H. congruence. Qed.
Lemma fin_inj x y : B2FF P E x = B2FF P E y -> x = y.
Proof. apply B2FF_inj. Qed.
Lemma fadd_comm x y : same_or_nan (fadd n x y) (fadd n y x).
Proof.
  destruct (isnan x) eqn:Nx; [right; split; apply nan_fadd; auto|]. destruct (isnan y) eqn:Ny; [right; split; apply nan_fadd; auto|].
  destruct (isfin x) eqn:Fx, (isfin y) eqn:Fy.
  - left. f_equal. pose proof (Bplus_correct P E (Hprec t) (Hmax t) (nan_add n) BinarySingleNaN.mode_NE x y Fx Fy) as H.
    pose proof (Bplus_correct P E (Hprec t) (Hmax t) (nan_add n) BinarySingleNaN.mode_NE y x Fy Fx) as K.
    rewrite (Rplus_comm (B2R P E y)) in K. destruct (Rlt_bool _ _) in H, K.
    + destruct H as (H1 & H2 & H3), K as (K1 & K2 & K3). apply B2R_Bsign_inj; try assumption; unfold fadd; [congruence|]. 
      rewrite H3, K3, (andb_comm (Bsign P E y)). reflexivity.
    + destruct H as (H1 & H2), K as (K1 & K2). apply fin_inj. unfold fadd. rewrite H1, K1, H2. reflexivity.
  - rewrite fadd_inf_r, fadd_inf by assumption. apply same_refl.
  - rewrite fadd_inf, fadd_inf_r by assumption. apply same_refl.
  - pose proof (fadd_inf_inf n x y Fx Nx Fy Ny) as A. pose proof (fadd_inf_inf n y x Fy Ny Fx Nx) as B.
    rewrite eqb_sym in B. destruct (Bool.eqb (sgn x) (sgn y)) eqn:S; [|right; split; assumption].
    rewrite A, B. left. apply eqb_prop in S. f_equal. destruct x, y; try discriminate; cbn in S; subst; reflexivity.
Qed.
Lemma fmul_comm x y : same_or_nan (fmul n x y) (fmul n y x).
Proof.
  destruct (isnan x) eqn:Nx; [right; split; apply nan_fmul; auto|]. destruct (isnan y) eqn:Ny; [right; split; apply nan_fmul; auto|].
  destruct (isfin x) eqn:Fx, (isfin y) eqn:Fy.
  - left. f_equal. pose proof (Bmult_correct P E (Hprec t) (Hmax t) (nan_mul n) BinarySingleNaN.mode_NE x y) as H.
    pose proof (Bmult_correct P E (Hprec t) (Hmax t) (nan_mul n) BinarySingleNaN.mode_NE y x) as K.
    destruct (fmul_x n x y Fx Fy) as [N1 _], (fmul_x n y x Fy Fx) as [N2 _].
    change (is_finite P E x) with (isfin x) in H, K. change (is_finite P E y) with (isfin y) in H, K. rewrite Fx, Fy in H, K.
    rewrite (Rmult_comm (B2R P E y)) in K. destruct (Rlt_bool _ _) in H, K.
    + destruct H as (H1 & H2 & H3), K as (K1 & K2 & K3). apply B2R_Bsign_inj; try assumption; unfold fmul; [congruence|].
      rewrite H3, K3 by assumption. apply xorb_comm.
    + apply fin_inj. unfold fmul. rewrite H, K, xorb_comm. reflexivity.
  - destruct x, y; try discriminate; cbn; try (rewrite xorb_comm; apply same_refl); right; split; first [reflexivity|apply pn].
  - destruct x, y; try discriminate; cbn; try (rewrite xorb_comm; apply same_refl); right; split; first [reflexivity|apply pn].
  - destruct x, y; try discriminate; cbn; try (rewrite xorb_comm; apply same_refl); right; split; first [reflexivity|apply pn].
Qed.
Lemma ffma_comm x y z : same_or_nan (ffma n x y z) (ffma n y x z).
Proof.
  destruct (isfin x && isfin y && isfin z) eqn:F.
  - apply andb_prop in F. destruct F as [F Fz]. apply andb_prop in F. destruct F as [Fx Fy].
    left. f_equal. pose proof (Bfma_correct P E (Hprec t) (Hmax t) (nan_fma n) BinarySingleNaN.mode_NE x y z Fx Fy Fz) as H.
    pose proof (Bfma_correct P E (Hprec t) (Hmax t) (nan_fma n) BinarySingleNaN.mode_NE y x z Fy Fx Fz) as K. cbv zeta in H, K.
    rewrite (Rmult_comm (B2R P E y)) in K. destruct (Rlt_bool (Rabs _) _) in H, K.
    + destruct H as (H1 & H2 & H3), K as (K1 & K2 & K3). apply B2R_Bsign_inj; try assumption; unfold ffma; [congruence|].
      rewrite H3, K3. unfold Bfma_szero, BinarySingleNaN.Bfma_szero. rewrite !Bsign_B2BSN by (apply fin_not_nan; assumption). rewrite (xorb_comm (Bsign P E y)). reflexivity.
    + apply fin_inj. unfold ffma. rewrite H, K. reflexivity.
  - destruct x as [sx|sx|sx px ex|sx mx ex hx], y as [sy|sy|sy py ey|sy my ey hy], z as [sz|sz|sz pz ez|sz mz ez hz]; try discriminate F;
    destruct sx, sy, sz; cbn; first [apply same_refl|right; split; first [reflexivity|apply pn]].
Qed.
Lemma same_add x x' y y' : same_or_nan x x' -> same_or_nan y y' -> same_or_nan (fadd n x y) (fadd n x' y').
Proof.
  intros Hx Hy. destruct (isnan x) eqn:Nx; [right; split; apply nan_fadd; left; [exact Nx|exact (same_nan _ _ Nx Hx)]|].
  destruct (isnan y) eqn:Ny; [right; split; apply nan_fadd; right; [exact Ny|exact (same_nan _ _ Ny Hy)]|].
  rewrite <- (same_eq _ _ Nx Hx), <- (same_eq _ _ Ny Hy). apply same_refl.
Qed.
Lemma same_trans x y z : same_or_nan x y -> same_or_nan y z -> same_or_nan x z.
Proof.
  intros H K. destruct (isnan x) eqn:N.
  - right. split; [exact N|]. exact (same_nan _ _ (same_nan _ _ N H) K).
  - rewrite (same_eq _ _ N H). exact K.
Qed.
Lemma vmul_comm I x y : same_or_nan (vmul I n x y) (vmul I n y x).
Proof. destruct I; cbn [vmul]; first [apply fmul_comm|apply ffma_comm]. Qed.
Lemma same_vmul I x y y' : same_or_nan y y' -> same_or_nan (vmul I n x y) (vmul I n x y').
Proof.
  intros H. destruct (isnan y) eqn:N; [|rewrite <- (same_eq _ _ N H); apply same_refl].
  right. split; apply nan_vmul; right; [exact N|exact (same_nan _ _ N H)].
Qed.
Lemma same_fmul x y y' : same_or_nan y y' -> same_or_nan (fmul n x y) (fmul n x y').
Proof. exact (same_vmul GEN x y y'). Qed.
Lemma madd_comm c I x y z : same_or_nan (madd c I n x y z) (madd c I n y x z).
Proof.
  destruct I; cbn [madd]; try destruct (has_fma c); first [apply ffma_comm|apply same_add; [apply fmul_comm|apply same_refl]].
Qed.

(** ** Inverted operands *)
Lemma opposite_sym x y : opposite x y -> opposite y x.
Proof.
  destruct (isnan x) eqn:N; intros H.
  - left. destruct H as [[_ H]|H]; [split; assumption|]. apply feq_nn in H. rewrite nan_fneg in H. destruct H. congruence.
  - destruct (opposite_num x y N H) as [M V]. apply opposite_intro; [exact M|exact N|]. rewrite V. lra.
Qed.
(** Proof auxiliary: a difference is a sum, up to the payload of a NaN. *)
Lemma fsub_add x y : same_or_nan (fsub n x y) (fadd n x (fneg y)).
Proof.
  destruct (isnan x) eqn:Nx; [right; split; [apply nan_fsub|apply nan_fadd]; auto|].
  destruct (isnan y) eqn:Ny; [right; split; [|apply nan_fadd; rewrite nan_fneg; auto]; destruct x, y; try discriminate; cbn; first [reflexivity|apply pn]|].
  destruct (isfin x) eqn:Fx, (isfin y) eqn:Fy.
  - left. f_equal. pose proof (Bminus_correct P E (Hprec t) (Hmax t) (nan_sub n) BinarySingleNaN.mode_NE x y Fx Fy) as H.
    assert (Fy' : is_finite P E (fneg y) = true) by (rewrite <- Fy; apply isfin_fneg).
    pose proof (Bplus_correct P E (Hprec t) (Hmax t) (nan_add n) BinarySingleNaN.mode_NE x (fneg y) Fx Fy') as K.
    change (B2R P E (fneg y)) with (val (fneg y)) in K. rewrite val_fneg in K. change (B2R P E y) with (val y) in H. unfold Rminus in H.
    change (Bsign P E (fneg y)) with (sgn (fneg y)) in K. rewrite sgn_fneg in K. change (Bsign P E y) with (sgn y) in H.
    destruct (Rlt_bool _ _) in H, K.
    + destruct H as (H1 & H2 & H3), K as (K1 & K2 & K3). apply B2R_Bsign_inj; try assumption; unfold fadd, fsub; [congruence|].
      rewrite H3, K3. reflexivity.
    + destruct H as (H1 & H2), K as (K1 & K2). apply fin_inj. unfold fadd, fsub. rewrite H1, K1. reflexivity.
  - destruct x, y; try discriminate; cbn; apply same_refl.
  - destruct x, y; try discriminate; cbn; apply same_refl.
  - destruct x as [|sx| |], y as [|sy| |]; try discriminate; destruct sx, sy; cbn; first [apply same_refl|right; split; first [reflexivity|apply pn]].
Qed.
Lemma opposite_same x x' y y' : same_or_nan x x' -> same_or_nan y y' -> opposite x' y' -> opposite x y.
Proof.
  intros Hx Hy H. destruct (isnan x) eqn:N.
  - left. split; [exact N|]. pose proof (same_nan _ _ N Hx) as N'.
    assert (M : isnan y' = true). { destruct H as [[_ H]|H]; [exact H|]. apply feq_nn in H. rewrite nan_fneg in H. destruct H. congruence. }
    destruct Hy as [Hy|[Hy _]]; [|exact Hy]. apply bits_inj in Hy. rewrite Hy. exact M.
  - rewrite <- (same_eq _ _ N Hx) in H. destruct (opposite_num _ _ N H) as [M V].
    assert (y = y') as ->; [|exact H]. destruct Hy as [Hy|[_ Hy]]; [exact (bits_inj _ _ Hy)|congruence].
Qed.
Lemma opposite_fneg x y : opposite x y -> opposite (fneg x) (fneg y).
Proof.
  intros [[H K]|H]; [left; rewrite !nan_fneg; auto|]. destruct (feq_nn _ _ H) as [N1 N2]. rewrite nan_fneg in N2.
  apply feq_x in H; [|exact N1|rewrite nan_fneg; exact N2]. rewrite xval_fneg in H. apply opposite_intro; rewrite ?nan_fneg, ?xval_fneg; auto. rewrite H. reflexivity.
Qed.
Lemma opposite_sub x x' y y' : opposite x x' -> opposite y y' -> opposite (fsub n x y) (fsub n x' y').
Proof. intros Hx Hy. eapply opposite_same; [apply fsub_add|apply fsub_add|]. apply opposite_add; [exact Hx|apply opposite_fneg; exact Hy]. Qed.
Lemma opposite_sub_swap x y : opposite (fsub n x y) (fsub n y x).
Proof.
  eapply opposite_same; [apply fsub_add|eapply same_trans; [apply fsub_add|apply fadd_comm]|].
  apply opposite_add; [apply opposite_neg|]. apply opposite_sym, opposite_neg.
Qed.
Lemma opposite_mul x y : opposite (fmul n x y) (fmul n (fneg x) y).
Proof.
  destruct (isnan x) eqn:Nx; [left; split; apply nan_fmul; rewrite ?nan_fneg; auto|]. destruct (isnan y) eqn:Ny; [left; split; apply nan_fmul; auto|].
  destruct (isfin x && isfin y) eqn:F.
  - apply andb_prop in F. destruct F as [Fx Fy]. assert (Fx' : isfin (fneg x) = true) by (rewrite isfin_fneg; exact Fx).
    destruct (fmul_x n x y Fx Fy) as [A1 A2], (fmul_x n (fneg x) y Fx' Fy) as [B1 B2].
    apply opposite_intro; [exact A1|exact B1|]. rewrite A2, B2, val_fneg, <- sat_opp, <- rnd_opp. do 2 f_equal. lra.
  - destruct x as [sx|sx|sx px ex|sx mx ex hx], y as [sy|sy|sy py ey|sy my ey hy]; try discriminate; destruct sx, sy; cbn;
    first [left; split; first [reflexivity|apply pn]|right; reflexivity].
Qed.
Lemma opposite_mul_r x y : opposite (fmul n x y) (fmul n x (fneg y)).
Proof. eapply opposite_same; [apply fmul_comm|apply fmul_comm|apply opposite_mul]. Qed.
Lemma opposite_fma x y z z' : z' = fneg z \/ (a_zero_of z /\ z' = z) -> opposite (ffma n x y z) (ffma n (fneg x) y z').
Proof.
  intros Hz.
  destruct (isfin x && isfin y && isfin z) eqn:F.
  - apply andb_prop in F. destruct F as [F Fz]. apply andb_prop in F. destruct F as [Fx Fy]. assert (Fx' : isfin (fneg x) = true) by (rewrite isfin_fneg; exact Fx).
    assert (Z' : isfin z' = true /\ val z' = (- val z)%R).
    { destruct Hz as [->|[[_ V] ->]]; [rewrite isfin_fneg, val_fneg; auto|]. split; [exact Fz|]. rewrite V. lra. }
    destruct Z' as [Fz' V].
    destruct (ffma_x n x y z Fx Fy Fz) as [A1 A2], (ffma_x n (fneg x) y z' Fx' Fy Fz') as [B1 B2].
    apply opposite_intro; [exact A1|exact B1|]. rewrite A2, B2, val_fneg, V, <- sat_opp, <- rnd_opp. do 2 f_equal. lra.
  - destruct Hz as [->|[Z0 ->]].
    + destruct x as [sx|sx|sx px ex|sx mx ex hx], y as [sy|sy|sy py ey|sy my ey hy], z as [sz|sz|sz pz ez|sz mz ez hz]; try discriminate F;
      try destruct sx; try destruct sy; try destruct sz; cbn; first [left; split; first [reflexivity|apply pn]|right; reflexivity].
    + apply a_zero_cases in Z0. destruct Z0 as [s ->].
      destruct x as [sx|sx|sx px ex|sx mx ex hx], y as [sy|sy|sy py ey|sy my ey hy]; try discriminate F;
      try destruct sx; try destruct sy; cbn; first [left; split; first [reflexivity|apply pn]|right; reflexivity].
Qed.
Lemma opposite_vmul I x y : opposite (vmul I n x y) (vmul I n (fneg x) y).
Proof.
  destruct I; cbn [vmul]; try apply opposite_mul. apply opposite_fma. right. split; [|reflexivity]. clear. destruct t; split; vm_compute; reflexivity.
Qed.
Lemma opposite_vmul_r I x y : opposite (vmul I n x y) (vmul I n x (fneg y)).
Proof. eapply opposite_same; [apply vmul_comm|apply vmul_comm|apply opposite_vmul]. Qed.
Lemma opposite_madd c I x y z : opposite (madd c I n x y z) (madd c I n (fneg x) y (fneg z)).
Proof.
  destruct I; cbn [madd]; try destruct (has_fma c); first [apply opposite_fma; left; reflexivity|apply opposite_add; [apply opposite_mul|apply opposite_neg]].
Qed.
Lemma fdiv_x x y : isfin x = true -> isfin y = true -> val y <> 0%R ->
  isnan (fdiv n x y) = false /\ xval (fdiv n x y) = sat (t := t) (rnd t (val x / val y)).
Proof.
  intros Hx Hy Y0. pose proof (Bdiv_correct P E (Hprec t) (Hmax t) (nan_div n) BinarySingleNaN.mode_NE x y Y0) as H.
  destruct (Rlt_bool_spec (Rabs (rnd t (val x / val y))) big) as [L|L].
  - destruct (fdiv_fin n x y Hx Y0 L) as (A1 & A2 & _). split; [apply isfin_isnan; exact A1|]. rewrite xval_fin, A2, sat_id by (exact A1 || lra). reflexivity.
  - rewrite Rlt_bool_false in H by exact L. apply over_x in H. destruct H as [H1 H2]. split; [exact H1|].
    etransitivity; [exact H2|].
    assert (S : forall z : F t, isfin z = true -> (sgn z = true -> val z <= 0)%R /\ (sgn z = false -> 0 <= val z)%R).
    { intros z Hz. pose proof (sgn_val_gen z Hz) as Q. pose proof (Rabs_pos (val z)). split; intros G; rewrite G in Q; lra. }
    destruct (S x Hx) as [X1 X2], (S y Hy) as [Y1 Y2].
    pose proof (rnd_0 (t := t)) as R0. change (Bsign P E x) with (sgn x) in *. change (Bsign P E y) with (sgn y) in *.
    assert (I1 : (0 < val y -> 0 < / val y)%R) by apply Rinv_0_lt_compat.
    assert (I2 : (val y < 0 -> / val y < 0)%R) by apply Rinv_lt_0_compat.
    destruct (sgn x) eqn:Sx, (sgn y) eqn:Sy; specialize (X1 eq_refl) || specialize (X2 eq_refl); specialize (Y1 eq_refl) || specialize (Y2 eq_refl); cbn [xorb].
    1,4: assert (0 <= rnd t (val x / val y))%R by (rewrite <- R0; apply rnd_le; unfold Rdiv; nra); rewrite Rabs_pos_eq in L by lra; symmetry; apply sat_hi; lra.
    all: assert (rnd t (val x / val y) <= 0)%R by (rewrite <- R0; apply rnd_le; unfold Rdiv; nra); rewrite Rabs_left1 in L by lra; symmetry; apply sat_lo; lra.
Qed.
Lemma opposite_div x y : opposite (fdiv n x y) (fdiv n (fneg x) y) /\ opposite (fdiv n x y) (fdiv n x (fneg y)).
Proof.
  destruct (isfin x && isfin y && negb (Req_bool (val y) 0)) eqn:F.
  - apply andb_prop in F. destruct F as [F Y0]. apply andb_prop in F. destruct F as [Fx Fy]. assert (Fx' : isfin (fneg x) = true) by (rewrite isfin_fneg; exact Fx).
    assert (Fy' : isfin (fneg y) = true) by (rewrite isfin_fneg; exact Fy).
    destruct (Req_bool_spec (val y) 0) as [|V]; [discriminate|]. clear Y0. assert (V' : val (fneg y) <> 0%R) by (rewrite val_fneg; lra).
    destruct (fdiv_x x y Fx Fy V) as [A1 A2], (fdiv_x (fneg x) y Fx' Fy V) as [B1 B2], (fdiv_x x (fneg y) Fx Fy' V') as [C1 C2].
    split; (apply opposite_intro; [assumption|assumption|]); rewrite A2, ?B2, ?C2, val_fneg, <- sat_opp, <- rnd_opp; do 2 f_equal; field; exact V.
  - destruct x as [sx|sx|sx px ex|sx mx ex hx], y as [sy|sy|sy py ey|sy my ey hy]; 
    try (split; (try destruct sx; try destruct sy; cbn; first [left; split; first [reflexivity|apply pn]|right; reflexivity]));
    exfalso; cbn [isfin is_finite andb] in F; (destruct (Req_bool_spec (val (B754_finite P E sy my ey hy)) 0) as [V|V]; [|discriminate F]);
    revert V; apply F2R_neq_0; destruct sy; discriminate.
Qed.

(** ** Minimum, maximum and limits *)
Lemma smin_swap x y : isnan x = false -> isnan y = false -> equal_numbers (smin x y) (smin y x).
Proof.
  intros Nx Ny. eapply rep_feq; [apply smin_rep; apply rep_self; assumption|]. rewrite Z.min_comm. apply smin_rep; apply rep_self; assumption.
Qed.
Lemma smax_swap x y : isnan x = false -> isnan y = false -> equal_numbers (smax x y) (smax y x).
Proof.
  intros Nx Ny. eapply rep_feq; [apply smax_rep; apply rep_self; assumption|]. rewrite Z.max_comm. apply smax_rep; apply rep_self; assumption.
Qed.
Lemma vmin_swap I x y : isnan x = false -> isnan y = false -> equal_numbers (vmin I n x y) (vmin I n y x).
Proof.
  intros Nx Ny. eapply rep_feq; [apply vmin_rep; apply rep_self; assumption|]. rewrite Z.min_comm. apply vmin_rep; apply rep_self; assumption.
Qed.
Lemma vmax_swap I x y : isnan x = false -> isnan y = false -> equal_numbers (vmax I n x y) (vmax I n y x).
Proof.
  intros Nx Ny. eapply rep_feq; [apply vmax_rep; apply rep_self; assumption|]. rewrite Z.max_comm. apply vmax_rep; apply rep_self; assumption.
Qed.
Lemma rep_neg x (a : Z) : rep x a -> rep (fneg x) (- a).
Proof. intros [N <-]. split; [rewrite nan_fneg; exact N|apply ord_fneg]. Qed.
Lemma rep_opposite x y (a : Z) : rep x a -> rep y (- a) -> opposite x y.
Proof. intros Hx Hy. right. eapply rep_feq; [exact Hy|apply rep_neg; exact Hx]. Qed.
Lemma smin_smax x y : isnan x = false -> isnan y = false -> opposite (smin x y) (smax (fneg x) (fneg y)).
Proof.
  intros Nx Ny. eapply rep_opposite; [apply smin_rep; apply rep_self; assumption|]. rewrite Z.opp_min_distr. apply smax_rep; apply rep_neg, rep_self; assumption.
Qed.
Lemma vmin_vmax I x y : isnan x = false -> isnan y = false -> opposite (vmin I n x y) (vmax I n (fneg x) (fneg y)).
Proof.
  intros Nx Ny. eapply rep_opposite; [apply vmin_rep; apply rep_self; assumption|]. rewrite Z.opp_min_distr. apply vmax_rep; apply rep_neg, rep_self; assumption.
Qed.
Lemma fle_rep x y : fle x y = true -> isnan x = false /\ isnan y = false /\ ord x <= ord y.
Proof.
  intros H. assert (N : isnan x = false /\ isnan y = false).
  { destruct (isnan x) eqn:Nx; [|destruct (isnan y) eqn:Ny; [|auto]]; exfalso; unfold fle in H; rewrite compare_nan in H by auto; discriminate H. }
  destruct N as [Nx Ny]. rewrite fle_ord in H by assumption. apply Z.leb_le in H. auto.
Qed.
Lemma sclip_opposite x lo hi : isnan x = false -> fle lo hi = true ->
  opposite (smax (smin x hi) lo) (smax (smin (fneg x) (fneg lo)) (fneg hi)).
Proof.
  intros Nx L. destruct (fle_rep _ _ L) as (Nl & Nh & O). eapply rep_opposite; [apply sclip_rep; [exact Nl|exact Nh|apply rep_self; exact Nx]|].
  replace (- Z.max (Z.min (ord x) (ord hi)) (ord lo)) with (Z.max (Z.min (- ord x) (ord (fneg lo))) (ord (fneg hi))) by (rewrite !ord_fneg; lia).
  apply sclip_rep; rewrite ?nan_fneg; auto. apply rep_neg, rep_self. exact Nx.
Qed.
Lemma vclip_opposite I x lo hi : isnan x = false -> fle lo hi = true ->
  opposite (vmax I n (vmin I n x hi) lo) (vmax I n (vmin I n (fneg x) (fneg lo)) (fneg hi)).
Proof.
  intros Nx L. destruct (fle_rep _ _ L) as (Nl & Nh & O). eapply rep_opposite; [apply vclip_rep; [exact Nl|exact Nh|apply rep_self; exact Nx]|].
  replace (- Z.max (Z.min (ord x) (ord hi)) (ord lo)) with (Z.max (Z.min (- ord x) (ord (fneg lo))) (ord (fneg hi))) by (rewrite !ord_fneg; lia).
  apply vclip_rep; rewrite ?nan_fneg; auto. apply rep_neg, rep_self. exact Nx.
Qed.
Lemma zero_sub_rep k : isnan k = false -> isnan (fsub n (f_ofZ t 0) k) = false /\ ord (fsub n (f_ofZ t 0) k) = - ord k.
Proof.
  intros N. pose proof (zero_sub_num n k N) as M. split; [exact M|].
  pose proof (same_eq _ _ M (fsub_add (f_ofZ t 0) k)) as S. rewrite S.
  assert (H : same_or_nan (fadd n (f_ofZ t 0) (fneg k)) (fadd n (fneg k) (f_ofZ t 0))) by apply fadd_comm.
  rewrite <- S in H. apply same_eq in H; [|exact M]. rewrite <- S, H. change (f_ofZ t 0) with (zero t). 
  destruct (add_kept n (fneg k)) as (K1 & K2 & _). destruct (zero_dec (fneg k)) as [Z0|Z0].
  - assert (ord k = 0) as ->. { apply a_zero_cases in Z0. destruct Z0 as [s Z0]. rewrite <- (fneg_fneg k), Z0. clear. destruct t, s; vm_compute; reflexivity. }
    specialize (K2 Z0). rewrite <- (zero_bits (t := t)) in K2. apply bits_inj in K2. rewrite K2. clear. destruct t; vm_compute; reflexivity.
  - assert (bits (fadd n (fneg k) (zero t)) = bits (fneg k)) as Q by (apply K1; [rewrite nan_fneg; exact N|exact Z0]).
    apply bits_inj in Q. rewrite Q. apply ord_fneg.
Qed.
Lemma sclip2_opposite x k : isnan x = false -> fle (f_ofZ t 0) k = true ->
  opposite (smax (fsub n (f_ofZ t 0) k) (smin x k)) (smax (fsub n (f_ofZ t 0) k) (smin (fneg x) k)).
Proof.
  intros Nx L. destruct (fle_rep _ _ L) as (_ & Nk & O). destruct (zero_sub_rep k Nk) as [Nl Ol].
  assert (Z0 : ord (f_ofZ t 0) = 0) by (clear; destruct t; vm_compute; reflexivity). rewrite Z0 in O.
  eapply rep_opposite; [apply sclip2_rep; [exact Nl|exact Nk|apply rep_self; exact Nx]|].
  replace (- Z.max (Z.min (ord x) (ord k)) (ord (fsub n (f_ofZ t 0) k))) with (Z.max (Z.min (- ord x) (ord k)) (ord (fsub n (f_ofZ t 0) k))) by (rewrite Ol; lia).
  apply sclip2_rep; auto. apply rep_neg, rep_self. exact Nx.
Qed.
Lemma vclip2_opposite I x k : isnan x = false -> fle (f_ofZ t 0) k = true ->
  opposite (vmax I n (fsub n (f_ofZ t 0) k) (vmin I n x k)) (vmax I n (fsub n (f_ofZ t 0) k) (vmin I n (fneg x) k)).
Proof.
  intros Nx L. destruct (fle_rep _ _ L) as (_ & Nk & O). destruct (zero_sub_rep k Nk) as [Nl Ol].
  assert (Z0 : ord (f_ofZ t 0) = 0) by (clear; destruct t; vm_compute; reflexivity). rewrite Z0 in O.
  eapply rep_opposite; [apply vclip2_rep; [exact Nl|exact Nk|apply rep_self; exact Nx]|].
  replace (- Z.max (Z.min (ord x) (ord k)) (ord (fsub n (f_ofZ t 0) k))) with (Z.max (Z.min (- ord x) (ord k)) (ord (fsub n (f_ofZ t 0) k))) by (rewrite Ol; lia).
  apply vclip2_rep; auto. apply rep_neg, rep_self. exact Nx.
Qed.

(** ** Comparisons *)
Lemma feq_sym x y : feq x y = feq y x.
Proof.
  destruct (isnan x) eqn:Nx; [|destruct (isnan y) eqn:Ny].
  1,2: unfold feq; rewrite !compare_nan by auto; reflexivity.
  rewrite !feq_ord by assumption. apply Z.eqb_sym.
Qed.
Lemma srel_mirror r x y : srel (mirrored r) y x = srel r x y.
Proof.
  destruct r; cbn [mirrored srel]; rewrite ?fgt_swap, ?fge_swap; try reflexivity; [apply feq_sym|].
  unfold fne. rewrite (feq_sym y x). reflexivity.
Qed.
Lemma srel_negated r x y : isnan x = false -> isnan y = false -> srel (negated r) x y = negb (srel r x y).
Proof.
  intros Nx Ny. destruct r; cbn [negated srel]; unfold fne; rewrite ?fgt_swap, ?fge_swap, ?flt_ord, ?fle_ord, ?feq_ord, ?negb_involutive by assumption; try reflexivity;
  rewrite ?(Z.leb_antisym (ord x)), ?(Z.leb_antisym (ord y)), ?negb_involutive; reflexivity.
Qed.
Lemma srel_equal r x y : r = EQ \/ r = NE -> srel (negated r) x y = negb (srel r x y).
Proof. intros [-> | ->]; cbn [negated srel]; unfold fne; rewrite ?negb_involutive; reflexivity. Qed.
Lemma o_rel_scalar r x y : o_rel (fops_scalar n) r x y = of_bool t (srel r x y).
Proof. destruct r; reflexivity. Qed.
Lemma of_bool_contrary (b b' : bool) : b' = negb b -> contrary (of_bool t b) (of_bool t b').
Proof. intros ->. destruct b; cbn; [left|right]; split; reflexivity. Qed.
Lemma vrel_mirror I r x y : (isnan x = false /\ isnan y = false) \/ I <> AVX -> vrel I (mirrored r) y x = vrel I r x y.
Proof.
  intros H. rewrite !vrel_srel, srel_mirror. f_equal. unfold avx_hole. destruct I; try reflexivity.
  destruct H as [[-> ->]|H]; [|congruence]. destruct r; reflexivity.
Qed.
Lemma vrel_negated I r x y : (isnan x = false /\ isnan y = false) \/ r = EQ \/ r = NE \/ I = AVX -> vrel I (negated r) x y = negb (vrel I r x y).
Proof.
  intros [[Nx Ny]|[H|[H| ->]]].
  - rewrite !vrel_srel, srel_negated by assumption. unfold avx_hole. rewrite Nx, Ny. destruct I, r; cbn; rewrite ?orb_false_r; reflexivity.
  - subst r. destruct I; cbn; unfold fne; reflexivity.
  - subst r. destruct I; cbn; unfold fne; rewrite ?negb_involutive; reflexivity.
  - destruct r; cbn; rewrite ?negb_involutive; reflexivity.
Qed.
End T.

(** ** Buffers *)
Lemma o_rel_vec c B (n : nans (fmt_of B)) r : o_rel (vops B (fops c B n)) r = map2 (oprel c (isa_of B) r).
Proof. destruct r; reflexivity. Qed.
(** What is left of two calls once their effects are known: a fact about samples. *)
Ltac lanes :=
  let i := fresh "i" in let Hi := fresh "Hi" in let U := fresh "U" in let V := fresh "V" in
  intros i ? ? Hi; cbv beta; cbn [o_zero o_one o_add o_sub o_mul o_div o_max o_min o_madd fops fops_scalar];
  repeat (match goal with |- context [sample ?ar ?m ?a i] =>
    let s := fresh "s" in let E := fresh "E" in destruct (sample ar m a i) as [s|] eqn:E end);
  cbn [lift2 lift3 lift4]; intros U V; try discriminate U; try discriminate V; injection U as <-; injection V as <-;
  repeat match goal with H : inverts _ _ ?a ?b _, E1 : sample _ _ ?a i = Some ?x, E2 : sample _ _ ?b i = Some ?y |- _ =>
    let K := fresh "K" in assert (K : y = fneg x) by (generalize (H i x Hi E1); congruence); subst y; clear H end;
  repeat match goal with H : samples _ _ _ ?a _, E1 : sample _ _ ?a i = Some ?x |- _ =>
    let K := fresh "K" in pose proof (H i x Hi E1) as K; clear H end;
  repeat match goal with H : below _ _ ?a ?b _, E1 : sample _ _ ?a i = Some ?x, E2 : sample _ _ ?b i = Some ?y |- _ =>
    let K := fresh "K" in pose proof (H i x y Hi E1 E2) as K; clear H end.
Ltac fits H := destruct H as (? & ? & H); rewrite ?Forall_cons_iff in H.
Ltac fits_simd H := destruct H as (? & ? & ? & H); rewrite ?Forall_cons_iff in H.

(** Example data: positive samples, and the same samples negated 64 elements on. *)
Definition polar : mem (F F32) :=
  block 0 160 (fun a => if a <? 80 then f_lit F32 (a + 1) (-3) else fneg (f_lit F32 (a - 63) (-3))).
Lemma polar_pos n p i : 0 <= p -> 0 <= i -> p + i < 80 -> sample (farith n) polar (APtr p) i = Some (f_lit F32 (p + i + 1) (-3)).
Proof. intros. cbn [sample]. unfold polar. rewrite block_in by lia. destruct (Z.ltb_spec (p + i) 80); [reflexivity|lia]. Qed.
Lemma polar_inverts n p : 16 <= p -> p <= 48 -> inverts (farith n) polar (APtr p) (APtr (p + 64)) 32.
Proof.
  intros H1 H2 i x Hi Q. rewrite polar_pos in Q by lia. assert (x = f_lit F32 (p + i + 1) (-3)) as -> by congruence.
  cbn [sample]. unfold polar. rewrite block_in by lia. destruct (Z.ltb_spec (p + 64 + i) 80); [lia|]. do 3 f_equal. lia.
Qed.
Lemma polar_number n p : 0 <= p -> p <= 48 -> samples (farith n) number polar (APtr p) 32.
Proof.
  intros H1 H2 i x Hi Q. rewrite polar_pos in Q by lia. assert (x = f_lit F32 (p + i + 1) (-3)) as -> by congruence.
  apply isfin_isnan. apply lit32; lia.
Qed.
Lemma const_inverts {t} n m (x : F t) len : inverts (farith n) m (AScal x) (AScal (fneg x)) len.
Proof. intros i y Hi Q. cbn [sample] in *. congruence. Qed.
Lemma const_samples {t} n (P : F t -> Prop) m (x : F t) len : P x -> samples (farith n) P m (AScal x) len.
Proof. intros H i y Hi Q. cbn [sample] in *. congruence. Qed.
Lemma const_below {t} n m (x y : F t) len : fle x y = true -> below (farith n) m (AScal x) (AScal y) len.
Proof. intros H i u v Hi Q R. cbn [sample] in *. congruence. Qed.
Ltac polar_tac := unfold call_fits, simd_call_fits;
  repeat match goal with |- _ /\ _ => split | |- Forall _ _ => constructor end;
  lazymatch goal with
  | |- inverts _ _ (APtr ?p) _ _ => apply (polar_inverts _ p); lia
  | |- inverts _ _ (AScal _) _ _ => apply const_inverts
  | |- samples _ number _ (APtr _) _ => apply polar_number; lia
  | |- samples _ _ _ (AScal _) _ => apply const_samples; vm_compute; reflexivity
  | |- below _ _ _ _ _ => apply const_below; vm_compute; reflexivity
  | |- arg_fit _ _ _ _ => split; [first [exact Logic.I|apply accessible_block; vm_compute; congruence]|first [exact Logic.I|cbn; lia]]
  | |- simd_fit _ _ _ _ _ => split; [first [exact Logic.I|apply accessible_block; vm_compute; congruence]|split; [first [exact Logic.I|cbn; lia]|first [exact Logic.I|apply Z.mod_divide; [discriminate|reflexivity]]]]
  | |- plain _ => exact Logic.I
  | |- accessible _ _ _ => apply accessible_block; vm_compute; congruence
  | |- legal_simd_length _ _ => split; [split; reflexivity|apply Z.mod_divide; [discriminate|reflexivity]]
  | |- aligned _ _ => apply Z.mod_divide; [discriminate|reflexivity]
  | |- _ => first [reflexivity|lia|discriminate]
  end.
