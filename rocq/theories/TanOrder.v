(** Tangent rises on every branch. *)
From Coq Require Import ZArith Reals List Lia Lra Bool Psatz.
From Flocq Require Import Core IEEE754.Binary IEEE754.Bits.
From Verif Require Import Base Backend Lanes Float LaneOps ScalarMath VecMath IntVec TransMath SpecLane SpecInt
  FloatFacts FloatRound LaneFacts VecFacts VecMore VecMore2 RoundFacts RoundMore RoundMore2 IntFacts LdexpFacts TransConst ErrFacts ErrTac LastStep NearFacts TransFacts RealTanh TanhFacts RealTrig LogFacts ExpFacts TrigFacts SinFacts OddFacts TanFacts TrigMore MonoFacts SpecOrder TrigOrder RealOrder SinOrder.
Import ListNotations.
Local Open Scope R_scope.
#[local] Opaque litf litd.

Lemma fdiv_fin_val (n : nans F32) (x y : F F32) : isfin x = true -> val y <> 0 -> isfin (fdiv n x y) = true -> val (fdiv n x y) = rnd F32 (val x / val y).
Proof.
  intros Fx Ny Fs. destruct (Rlt_dec (Rabs (rnd F32 (val x / val y))) (bpow radix2 (emax F32))) as [L|L]; [apply fdiv_fin; assumption|exfalso].
  pose proof (Bdiv_correct (prec F32) (emax F32) (Hprec F32) (Hmax F32) (nan_div n) BinarySingleNaN.mode_NE x y Ny) as H.
  rewrite Rlt_bool_false in H by (apply Rnot_lt_le; exact L). 
  fold (fdiv n x y) in H. destruct (fdiv n x y) as [s|s|s p q|s m e q]; discriminate H || discriminate Fs.
Qed.
Section T.
Context (n : nans F32).
Lemma tan_P_up x y : upto_ x y 806 -> upto_ (tan_P n x) (tan_P n y) 600.
Proof.
  intros H. assert (H2 : upto_ (fmul n x x) (fmul n y y) 640) by (apply (upto_mul n x y 806 x y 806); assumption || lia).
  unfold tan_P.
  destruct litd_3333315551280975341796875_25 as (F0 & _ & _). pose proof val_litd_3333315551280975341796875_25 as V0.
  destruct litd_1333882510662078857421875_25 as (F1 & _ & _). pose proof val_litd_1333882510662078857421875_25 as V1.
  destruct litd_53409568965435028076171875_27 as (F2 & _ & _). pose proof val_litd_53409568965435028076171875_27 as V2.
  destruct litd_2443529665470123291015625_26 as (F3 & _ & _). pose proof val_litd_2443529665470123291015625_26 as V3.
  destruct litd_31127030961215496063232421875_31 as (F4 & _ & _). pose proof val_litd_31127030961215496063232421875_31 as V4.
  destruct litd_93892104923725128173828125_28 as (F5 & _ & _). pose proof val_litd_93892104923725128173828125_28 as V5.
  pose proof (upto_const _ 360 F0 ltac:(rewrite V0; lra)) as K0. pose proof (upto_const _ 140 F1 ltac:(rewrite V1; lra)) as K1. pose proof (upto_const _ 60 F2 ltac:(rewrite V2; lra)) as K2.
  pose proof (upto_const _ 40 F3 ltac:(rewrite V3; lra)) as K3. pose proof (upto_const _ 10 F4 ltac:(rewrite V4; lra)) as K4. pose proof (upto_const _ 20 F5 ltac:(rewrite V5; lra)) as K5.
  apply (upto_add n _ _ 360 _ _ 240); [exact K0| |lia|lia|lia]. apply (upto_mul n _ _ 640 _ _ 300); [exact H2| |lia|lia|lia|lia].
  apply (upto_add n _ _ 140 _ _ 160); [exact K1| |lia|lia|lia]. apply (upto_mul n _ _ 640 _ _ 200); [exact H2| |lia|lia|lia|lia].
  apply (upto_add n _ _ 60 _ _ 100); [exact K2| |lia|lia|lia]. apply (upto_mul n _ _ 640 _ _ 140); [exact H2| |lia|lia|lia|lia].
  apply (upto_add n _ _ 40 _ _ 60); [exact K3| |lia|lia|lia]. apply (upto_mul n _ _ 640 _ _ 60); [exact H2| |lia|lia|lia|lia].
  apply (upto_add n _ _ 10 _ _ 50); [exact K4| |lia|lia|lia]. apply (upto_mul n _ _ 640 _ _ 20); [exact H2|exact K5|lia|lia|lia|lia].
Qed.
Lemma tan_q_up x y : upto_ x y 806 -> upto_ (fmul n (cube_of n x) (tan_P n x)) (fmul n (cube_of n y) (tan_P n y)) 600.
Proof.
  intros H. apply (upto_mul n _ _ 520 _ _ 600); [|apply tan_P_up; exact H|lia|lia|lia|lia]. unfold cube_of. apply (upto_mul n x y 806 _ _ 640); [exact H| |lia|lia|lia|lia].
  apply (upto_mul n x y 806 x y 806); assumption || lia.
Qed.
Lemma trig_tan_up x y : isfin x = true -> isfin y = true -> 0 <= val x <= val y -> val y <= 0.7867 -> upto_ (trig_tan n x) (trig_tan n y) 1500.
Proof.
  intros Fx Fy H B. assert (U : upto_ x y 806) by (split; [exact Fx|split; [exact Fy|lra]]). unfold trig_tan.
  apply (upto_add n x y 806 _ _ 600); [exact U|apply tan_q_up; exact U|lia|lia|lia].
Qed.
Lemma trig_tan_ge b : isfin b = true -> 0 <= val b <= 0.7867 -> val b <= val (trig_tan n b).
Proof.
  intros Fb Bb. assert (U : upto_ b b 806) by (split; [exact Fb|split; [exact Fb|lra]]). destruct (tan_q_up b b U) as (FQ & _ & Q0 & _ & Q1).
  unfold trig_tan. destruct (fadd_fin n b _ Fb FQ) as (_ & V & _); [apply small_fin; apply Rabs_le; lra|]. rewrite V. rewrite <- (rnd_id (t := F32) (val b)) at 1 by apply val_format. apply rnd_le. lra.
Qed.
Lemma trig_tan_neg b : isfin b = true -> Rabs (val b) <= 0.7867 -> isfin (trig_tan n b) = true /\ val (trig_tan n (fneg b)) = - val (trig_tan n b).
Proof.
  intros Fb Bb. assert (Fb' : isfin (fneg b) = true) by (rewrite isfin_fneg; exact Fb).
  assert (PN : tan_P n (fneg b) = tan_P n b) by (unfold tan_P; rewrite !square_neg by (assumption || lra); reflexivity).
  assert (A1 : Rabs (val b) <= 1) by lra. pose proof (Rabs_pos (val b)) as P0. set (a := Rabs (val b)) in *.
  destruct (fmul_fin n b b Fb Fb) as (F2 & V2 & _); [apply small_fin; rewrite Rabs_mult; fold a; nra|].
  assert (B2 : Rabs (val (fmul n b b)) <= 1). { rewrite V2. apply (rnd_le_bpow 0); [lia|]. change (bpow radix2 0) with 1. rewrite Rabs_mult. fold a. nra. }
  destruct (fmul_fin n b _ Fb F2) as (F3 & V3 & _); [apply small_fin; rewrite Rabs_mult; fold a; pose proof (Rabs_pos (val (fmul n b b))); nra|].
  destruct (fmul_fin n (fneg b) _ Fb' F2) as (F3' & V3' & _); [apply small_fin; rewrite Rabs_mult, val_fneg, Rabs_Ropp; fold a; pose proof (Rabs_pos (val (fmul n b b))); nra|].
  assert (B3 : Rabs (val (fmul n b (fmul n b b))) <= 1). { rewrite V3. apply (rnd_le_bpow 0); [lia|]. change (bpow radix2 0) with 1. rewrite Rabs_mult. fold a. pose proof (Rabs_pos (val (fmul n b b))). nra. }
  assert (C3 : val (cube_of n (fneg b)) = - val (cube_of n b)) by (unfold cube_of; rewrite square_neg, V3, V3', val_fneg, Ropp_mult_distr_l_reverse by assumption; apply rnd_opp).
  assert (FC : isfin (cube_of n b) = true) by exact F3. assert (FC' : isfin (cube_of n (fneg b)) = true) by (unfold cube_of; rewrite square_neg by assumption; exact F3').
  destruct (tan_P_near n b Fb Bb) as [FP MP EP RP]. assert (BP : Rabs (val (tan_P n b)) <= 1).
  { replace (val (tan_P n b)) with (tan_q (val b * val b) + (val (tan_P n b) - tan_q (val b * val b))) by ring. eapply Rle_trans; [apply Rabs_triang|]. pose proof eta_small. lra. }
  change (cube_of n b) with (fmul n b (fmul n b b)) in FC, C3. fold (cube_of n b) in F3, B3, FC, C3. pose proof (Rabs_pos (val (cube_of n b))) as P3. pose proof (Rabs_pos (val (tan_P n b))) as PP.
  destruct (fmul_fin n (cube_of n b) (tan_P n b) FC FP) as (F4 & V4 & _); [apply small_fin; rewrite Rabs_mult; nra|].
  destruct (fmul_fin n (cube_of n (fneg b)) (tan_P n b) FC' FP) as (F4' & V4' & _); [apply small_fin; rewrite C3, Rabs_mult, Rabs_Ropp; nra|].
  assert (B4 : Rabs (val (fmul n (cube_of n b) (tan_P n b))) <= 1). { rewrite V4. apply (rnd_le_bpow 0); [lia|]. change (bpow radix2 0) with 1. rewrite Rabs_mult. nra. }
  assert (E4 : val (fmul n (cube_of n (fneg b)) (tan_P n b)) = - val (fmul n (cube_of n b) (tan_P n b))) by (rewrite V4, V4', C3, Ropp_mult_distr_l_reverse; apply rnd_opp).
  unfold trig_tan. rewrite PN. 
  destruct (fadd_fin n b _ Fb F4) as (F5 & V5 & _); [apply small_fin; eapply Rle_trans; [apply Rabs_triang|]; fold a; lra|].
  destruct (fadd_fin n (fneg b) _ Fb' F4') as (F5' & V5' & _); [apply small_fin; eapply Rle_trans; [apply Rabs_triang|]; rewrite val_fneg, E4, !Rabs_Ropp; fold a; lra|].
  split; [exact F5|]. rewrite V5, V5', val_fneg, E4, <- rnd_opp. f_equal. ring.
Qed.
Lemma trig_tan_rises x y : isfin x = true -> isfin y = true -> -0.7867 <= val x <= val y -> val y <= 0.7867 -> val (trig_tan n x) <= val (trig_tan n y).
Proof.
  intros Fx Fy H B. assert (Fx' : isfin (fneg x) = true) by (rewrite isfin_fneg; exact Fx). assert (Fy' : isfin (fneg y) = true) by (rewrite isfin_fneg; exact Fy).
  assert (AX : Rabs (val x) <= 0.7867) by (apply Rabs_le; lra). assert (AY : Rabs (val y) <= 0.7867) by (apply Rabs_le; lra).
  destruct (Rle_dec 0 (val x)) as [P|P]; [apply trig_tan_up; try assumption; lra|].
  destruct (trig_tan_neg x Fx AX) as [_ NX]. destruct (trig_tan_neg y Fy AY) as [_ NY].
  destruct (Rle_dec 0 (val y)) as [Q|Q].
  - pose proof (trig_tan_ge y Fy ltac:(lra)). pose proof (trig_tan_ge _ Fx' ltac:(rewrite val_fneg; lra)) as G. rewrite val_fneg in G. lra.
  - destruct (trig_tan_up _ _ Fy' Fx' ltac:(rewrite !val_fneg; lra) ltac:(rewrite val_fneg; lra)) as (_ & _ & _ & U & _). lra.
Qed.
Lemma trig_tan_sign b : isfin b = true -> Rabs (val b) <= 0.7867 -> (0 < val b -> 0 < val (trig_tan n b)) /\ (val b < 0 -> val (trig_tan n b) < 0).
Proof.
  intros Fb Bb. destruct (trig_tan_neg b Fb Bb) as [_ N]. assert (Fb' : isfin (fneg b) = true) by (rewrite isfin_fneg; exact Fb). apply Rabs_le_inv in Bb. split; intros H.
  - pose proof (trig_tan_ge b Fb ltac:(lra)). lra.
  - pose proof (trig_tan_ge _ Fb' ltac:(rewrite val_fneg; lra)) as G. rewrite val_fneg in G. lra.
Qed.
End T.

(** Proof auxiliary: the reciprocal of the tangent series. *)
Definition trig_cot (n : nans F32) (b : F F32) : F F32 := fdiv n (fneg (litd 10 1)) (trig_tan n b).
(** Proof auxiliary: the last float of quarter wave k and the first of the next,
    with the values there in order. *)
Definition joint_t (I : isa) (n : nans F32) (k m e : Z) : bool :=
  let L := f_lit F32 m e in let R := f_lit F32 (m + 1) e in
  (red_j I n L =? 2 * k)%Z && (red_j I n R =? 2 * k + 2)%Z &&
  (if Z.even k then fle (trig_tan n (base_of I n L)) (trig_cot n (base_of I n R)) else fle (trig_cot n (base_of I n L)) (trig_tan n (base_of I n R))).

Section J.
Context (c : cfg) (I : isa) (n : nans F32) (HI : x86 I).
Lemma joints_t : joint_t I n 0 13176794 (-24) = true /\ joint_t I n 1 9882595 (-22) = true /\ joint_t I n 2 16470993 (-22) = true /\ joint_t I n 3 11529695 (-21) = true /\ joint_t I n 4 14823893 (-21) = true.
Proof. destruct HI as [-> | ->]; refine (conj _ (conj _ (conj _ (conj _ _)))); vm_compute; reflexivity. Qed.

(** Away from the zero of the quarter the reciprocal is finite. *)
Lemma base_far a : isfin a = true -> 0 <= val a <= 8192 -> (1 <= key (val a))%Z -> 
  4e-9 <= Rabs (val (base_of I n a)) /\ 4.1e-9 <= Rabs (val a - IZR (key (val a)) * (PI / 2)).
Proof.
  intros Fa Ba K. destruct (red_all I n HI a Fa Ba) as (RK & _ & FB & TB & BB & EB & _). pose proof (far_from a (key (val a)) Fa ltac:(lia) TB) as FR. split; [|exact FR].
  set (t := val a - IZR (key (val a)) * (PI / 2)) in *. set (b := val (base_of I n a)) in *. 
  pose proof (Rabs_triang_inv t (t - b)) as T. replace (t - (t - b)) with b in T by ring. rewrite (Rabs_minus_sym t b) in T. lra.
Qed.
Lemma cot_ok a : isfin a = true -> 0 <= val a <= 8192 -> (1 <= key (val a))%Z ->
  isfin (trig_cot n (base_of I n a)) = true /\ val (trig_cot n (base_of I n a)) = rnd F32 (-1 / val (trig_tan n (base_of I n a))) /\
  (0 < val (base_of I n a) -> 0 < val (trig_tan n (base_of I n a))) /\ (val (base_of I n a) < 0 -> val (trig_tan n (base_of I n a)) < 0).
Proof.
  intros Fa Ba K. destruct (red_all I n HI a Fa Ba) as (_ & _ & FB & _ & BB & _). destruct (base_far a Fa Ba K) as [FR _]. destruct (trig_tan_sign n _ FB BB) as [SP SN].
  destruct litd_10_1 as (F1 & _ & _). pose proof val_litd_10_1 as V1.
  assert (F1' : isfin (fneg (litd 10 1)) = true) by (rewrite isfin_fneg; exact F1).
  assert (V1' : val (fneg (litd 10 1)) = -1) by (rewrite val_fneg, V1; lra).
  set (b := base_of I n a) in *. clearbody b.
  assert (TB : 4e-9 <= Rabs (val (trig_tan n b))).
  { destruct (Rle_dec 0 (val b)) as [P|P].
    - apply Rabs_le_inv in BB. pose proof (trig_tan_ge n b FB ltac:(lra)). rewrite (Rabs_pos_eq (val b)) in FR by lra. rewrite Rabs_pos_eq by lra. lra.
    - destruct (trig_tan_neg n b FB BB) as [_ N]. apply Rabs_le_inv in BB. assert (FB' : isfin (fneg b) = true) by (rewrite isfin_fneg; exact FB).
      pose proof (trig_tan_ge n _ FB' ltac:(rewrite val_fneg; lra)) as G. rewrite val_fneg in G. rewrite (Rabs_left1 (val b)) in FR by lra. rewrite Rabs_left1 by lra. lra. }
  assert (TN : val (trig_tan n b) <> 0) by (intros Z; rewrite Z, Rabs_R0 in TB; lra).
  destruct (fdiv_fin n (fneg (litd 10 1)) (trig_tan n b) F1' TN) as (FQ & VQ & _).
  { rewrite V1'. eapply Rle_lt_trans; [apply (rnd_le_bpow 30); [lia|change (bpow radix2 30) with 1073741824]|apply bpow_lt; reflexivity].
    unfold Rdiv. rewrite Rabs_mult, Rabs_inv, (Rabs_left (-1)) by lra. assert (/ Rabs (val (trig_tan n b)) <= 2.5e8); [|lra].
    apply Rmult_le_reg_r with (Rabs (val (trig_tan n b))); [lra|]. rewrite Rinv_l by lra. lra. }
  rewrite V1' in VQ. exact (conj FQ (conj VQ (conj SP SN))).
Qed.
Lemma neg_inv_le u v : 0 < u <= v \/ u <= v < 0 -> -1 / u <= -1 / v.
Proof.
  intros H. assert (P : 0 < u * v) by nra. apply Rmult_le_reg_r with (u * v); [exact P|].
  replace (-1 / u * (u * v)) with (- v) by (field; nra). replace (-1 / v * (u * v)) with (- u) by (field; nra). lra.
Qed.
Lemma cot_up x y : isfin x = true -> isfin y = true -> 0 <= val x <= val y -> val y <= 8192 -> key (val x) = key (val y) -> (1 <= key (val x))%Z ->
  0 <= val (base_of I n x) \/ val (base_of I n y) <= 0 -> val (trig_cot n (base_of I n x)) <= val (trig_cot n (base_of I n y)).
Proof.
  intros Fx Fy H B E K SG. destruct (red_all I n HI x Fx ltac:(lra)) as (_ & _ & FBX & _ & BBX & _). destruct (red_all I n HI y Fy ltac:(lra)) as (_ & _ & FBY & _ & BBY & _).
  pose proof (base_up I n HI x y Fx Fy H B E) as BU. destruct (base_far x Fx ltac:(lra) K) as [RX _]. destruct (base_far y Fy ltac:(lra) ltac:(lia)) as [RY _].
  destruct (cot_ok x Fx ltac:(lra) K) as (_ & VX & PX & NX). destruct (cot_ok y Fy ltac:(lra) ltac:(lia)) as (_ & VY & PY & NY). rewrite VX, VY. apply rnd_le. clear VX VY.
  set (bx := base_of I n x) in *. set (by_ := base_of I n y) in *. clearbody bx by_. pose proof (Rabs_le_inv _ _ BBX). pose proof (Rabs_le_inv _ _ BBY).
  pose proof (trig_tan_rises n bx by_ FBX FBY ltac:(lra) ltac:(lra)) as T. apply neg_inv_le. unfold Rabs in RX, RY. destruct SG as [S|S].
  - destruct (Rcase_abs (val bx)); [lra|]. left. specialize (PX ltac:(lra)). lra.
  - destruct (Rcase_abs (val by_)); [|lra]. right. specialize (NY ltac:(lra)). lra.
Qed.

(** Proof auxiliary: the value order at a joint. *)
Definition joined_t (x y : F F32) (k : Z) : Prop :=
  if Z.even k then val y - IZR (k + 1) * (PI / 2) <= 0 -> val (trig_tan n (base_of I n x)) <= val (trig_cot n (base_of I n y))
  else 0 <= val x - IZR k * (PI / 2) -> val (trig_cot n (base_of I n x)) <= val (trig_tan n (base_of I n y)).
Lemma joint_small_t k m e x y : joint_t I n k m e = true -> (0 <= k)%Z -> (2 ^ 23 <= m < 2 ^ 24)%Z -> (-24 <= e)%Z -> IZR (m + 1) * bpow radix2 e <= 8 -> isfin x = true -> isfin y = true -> 0 <= val x <= 8 -> 0 <= val y <= 8 ->
  key (val x) = k -> key (val y) = (k + 1)%Z -> joined_t x y k.
Proof.
  intros J K0 M E R8 Fx Fy Bx By KX KY. 
  assert (E100 : (e <= 100)%Z).
  { destruct (Z_le_dec e 100) as [|G]; [assumption|exfalso]. assert (1 <= IZR (m + 1)) by (apply IZR_le; lia). pose proof (bpow_le radix2 100 e ltac:(lia)) as BE.
    assert (16 <= bpow radix2 100) by (change 16 with (bpow radix2 4); apply bpow_le; lia). pose proof (bpow_ge_0 radix2 e). nra. }
  destruct (lit_range m e ltac:(lia) ltac:(lia)) as [FL VL]. destruct (lit_range (m + 1) e ltac:(lia) ltac:(lia)) as [FR VR]. unfold joint_t in J. cbv zeta in J.
  set (L := f_lit F32 m e) in *. set (R := f_lit F32 (m + 1) e) in *. rewrite !andb_true_iff, !Z.eqb_eq in J. destruct J as ((JL & JR) & JA).
  rewrite plus_IZR, Rmult_plus_distr_r, Rmult_1_l, <- VL in VR. rewrite plus_IZR, Rmult_plus_distr_r, Rmult_1_l, <- VL in R8. pose proof (bpow_gt_0 radix2 e) as PE.
  assert (L0 : bpow radix2 (e + 23) <= val L).
  { rewrite VL, bpow_plus, Rmult_comm. apply Rmult_le_compat_r; [lra|]. change (bpow radix2 23) with (IZR (2 ^ 23)). apply IZR_le. lia. }
  pose proof (bpow_gt_0 radix2 (e + 23)) as PE'.
  assert (KL : key (val L) = k) by (pose proof (red_key I n HI L FL ltac:(lra)); lia). assert (KR : key (val R) = (k + 1)%Z) by (pose proof (red_key I n HI R FR ltac:(lra)); lia).
  assert (UP : forall z : F F32, isfin z = true -> val L < val z -> val R <= val z).
  { intros z Fz H. pose proof (gap_above L z (e + 23) ltac:(lia) FL Fz ltac:(lra)) as G. replace (e + 23 - 23)%Z with e in G by lia. lra. }
  assert (XL : val x <= val L). { apply Rnot_lt_le. intros H. pose proof (key_le _ _ (UP x Fx H)). lia. }
  assert (RY : val R <= val y). { apply UP; [exact Fy|]. apply Rnot_le_lt. intros H. pose proof (key_le _ _ H). lia. }
  pose proof (base_up I n HI x L Fx FL ltac:(lra) ltac:(lra) ltac:(lia)) as BX. pose proof (base_up I n HI R y FR Fy ltac:(lra) ltac:(lra) ltac:(lia)) as BY.
  destruct (red_all I n HI x Fx ltac:(lra)) as (_ & _ & FBX & _ & BBX & _ & PX & _). destruct (red_all I n HI y Fy ltac:(lra)) as (_ & _ & FBY & _ & BBY & _ & _ & NY).
  destruct (red_all I n HI L FL ltac:(lra)) as (_ & _ & FBL & _ & BBL & _). destruct (red_all I n HI R FR ltac:(lra)) as (_ & _ & FBR & _ & BBR & _).
  rewrite KX in PX. rewrite KY in NY. 
  destruct (trig_tan_neg n _ FBL BBL) as (FSL & _). destruct (trig_tan_neg n _ FBR BBR) as (FSR & _). 
  pose proof (Rabs_le_inv _ _ BBX). pose proof (Rabs_le_inv _ _ BBY). pose proof (Rabs_le_inv _ _ BBL). pose proof (Rabs_le_inv _ _ BBR).
  unfold joined_t. destruct (Z.even k) eqn:KE; intros H3.
  - destruct (cot_ok R FR ltac:(lra) ltac:(lia)) as (FCR & _). apply fle_val in JA; [|assumption|assumption]. specialize (NY H3).
    pose proof (trig_tan_rises n _ _ FBX FBL ltac:(lra) ltac:(lra)). pose proof (cot_up R y FR Fy ltac:(lra) ltac:(lra) ltac:(lia) ltac:(lia) ltac:(right; exact NY)). lra.
  - assert (K1 : (1 <= k)%Z) by (destruct (Z.eq_dec k 0) as [-> |]; [discriminate KE|lia]).
    destruct (cot_ok L FL ltac:(lra) ltac:(lia)) as (FCL & _). apply fle_val in JA; [|assumption|assumption]. specialize (PX H3).
    pose proof (trig_tan_rises n _ _ FBR FBY ltac:(lra) ltac:(lra)). pose proof (cot_up x L Fx FL ltac:(lra) ltac:(lra) ltac:(lia) ltac:(lia) ltac:(left; exact PX)). lra.
Qed.

Lemma sep_real p W S V : p + 1.8e-6 <= W -> -1.0025 <= p <= 1.0025 -> W <= 1.01 \/ 1.0091 <= W -> 0.99 <= W <= 2.5e8 ->
  S <= p + 34e-8 * Rabs p + 2e-10 -> W - (43e-8 * W + 1.82e-10 * (1 + W * W) + 1e-10) <= V -> S <= V.
Proof.
  intros D P C B E1 E2. assert (AP : Rabs p <= 1.0025) by (apply Rabs_le; lra). destruct C as [C|C]; [nra|].
  destruct (Rle_dec W 10); [nra|]. assert (W * W <= 2.5e8 * W) by nra. lra.
Qed.
Lemma tan_neg_inv t : Rabs t <= 0.7866 -> sin t <> 0 -> tan (t + PI / 2) = - / tan t.
Proof.
  intros H N. pose proof (cos_low t ltac:(lra)) as C. unfold tan. rewrite sin_plus, cos_plus, sin_PI2, cos_PI2. field. lra.
Qed.
Lemma joint_tan x y k : isfin x = true -> isfin y = true -> sgn x = false -> sgn y = false -> 0 <= val x < val y -> val y <= 8192 -> key (val x) = k -> key (val y) = (k + 1)%Z -> joined_t x y k.
Proof.
  intros Fx Fy Sx Sy H B KX KY. destruct (red_all I n HI x Fx ltac:(lra)) as (RX & JX & FBX & TX & BBX & EX & _). destruct (red_all I n HI y Fy ltac:(lra)) as (RY & JY & FBY & TY & BBY & EY & _).
  destruct (Rle_dec (val y) 8) as [C|C].
  - assert (K8 : key 8 = 5%Z) by (unfold key; replace (8 * (10680707 / 8388608)) with (IZR 10680707 * bpow radix2 (-20)) by (change (bpow radix2 (-20)) with (/ 1048576); lra);
      rewrite rnd_id by (apply dyadic_format; discriminate); change (bpow radix2 (-20)) with (/ 1048576); rewrite (Zfloor_imp 10); [reflexivity|split; simpl; lra]).
    pose proof (key_le _ _ C) as K5. rewrite KY, K8 in K5. destruct joints_t as (J0 & J1 & J2 & J3 & J4).
    assert (KK : (k = 0 \/ k = 1 \/ k = 2 \/ k = 3 \/ k = 4)%Z) by lia.
    destruct KK as [KE | [KE | [KE | [KE | KE]]]]; rewrite KE in *.
    + apply (joint_small_t _ _ _ x y J0); try assumption; try lia; try lra. change (bpow radix2 (-24)) with (/ 16777216). simpl. lra.
    + apply (joint_small_t _ _ _ x y J1); try assumption; try lia; try lra. change (bpow radix2 (-22)) with (/ 4194304). simpl. lra.
    + apply (joint_small_t _ _ _ x y J2); try assumption; try lia; try lra. change (bpow radix2 (-22)) with (/ 4194304). simpl. lra.
    + apply (joint_small_t _ _ _ x y J3); try assumption; try lia; try lra. change (bpow radix2 (-21)) with (/ 2097152). simpl. lra.
    + apply (joint_small_t _ _ _ x y J4); try assumption; try lia; try lra. change (bpow radix2 (-21)) with (/ 2097152). simpl. lra.
  - assert (D : / 1048576 <= val y - val x).
    { destruct (Rle_dec 8 (val x)) as [E|E].
      - pose proof (gap_above x y 3 ltac:(lia) Fx Fy) as G. change (bpow radix2 (3 - 23)) with (/ 1048576) in G. change (bpow radix2 3) with 8 in G. apply G. lra.
      - destruct (lit_range 8 0 ltac:(lia) ltac:(lia)) as [F8 V8]. change (8 * bpow radix2 0) with (8 * 1) in V8. rewrite Rmult_1_r in V8. 
        pose proof (gap_above _ y 3 ltac:(lia) F8 Fy) as G. rewrite V8 in G. change (bpow radix2 (3 - 23)) with (/ 1048576) in G. change (bpow radix2 3) with 8 in G. specialize (G ltac:(lra)). lra. }
    destruct (tan_part n _ _ (val x) FBX BBX TX ltac:(lra) EX) as (_ & SX). destruct (tan_part n _ _ (val y) FBY BBY TY ltac:(lra) EY) as (_ & SY).
    destruct (tan_pos c I n HI x Fx Sx ltac:(lra)) as (_ & AX). destruct (tan_pos c I n HI y Fy Sy ltac:(lra)) as (_ & AY).
    rewrite (tan_form c I n HI x Sx _ RX JX) in AX. rewrite (tan_form c I n HI y Sy _ RY JY) in AY. fold (base_of I n x) in AX. fold (base_of I n y) in AY.
    unfold trig_cot, joined_t in *. fold (trig_cot n (base_of I n x)) in *. fold (trig_cot n (base_of I n y)) in *.
    pose proof (base_far x Fx ltac:(lra)) as FARX. destruct (base_far y Fy ltac:(lra) ltac:(lia)) as [_ FARY]. pose proof eta_tiny' as ET. pose proof eta_small as ES.
    rewrite KX, KY in *. set (tx := val x - IZR k * (PI / 2)) in *. set (ty := val y - IZR (k + 1) * (PI / 2)) in *.
    assert (TT : ty + PI / 2 - tx = val y - val x) by (unfold ty, tx; rewrite plus_IZR; lra).
    apply Rabs_le_inv in TX. apply Rabs_le_inv in TY. pose proof pi_range as PR.
    assert (INV : forall t, Rabs t <= 0.7866 -> 4.1e-9 <= Rabs t -> 0 < / Rabs (tan t) <= 2.5e8 /\ tan t <> 0 /\ sin t <> 0).
    { intros t H1 H2. pose proof (tan_low t ltac:(lra)) as TL. assert (TN : 4.09e-9 <= Rabs (tan t)) by lra. assert (TZ : tan t <> 0) by (intros Z; rewrite Z, Rabs_R0 in TN; lra).
      split; [|split; [exact TZ|intros Z; apply TZ; unfold tan; rewrite Z; unfold Rdiv; apply Rmult_0_l]]. split; [apply Rinv_0_lt_compat; lra|].
      apply Rmult_le_reg_r with (Rabs (tan t)); [lra|]. rewrite Rinv_l by lra. lra. }
    destruct (Z.even k) eqn:KE; intros S.
    + assert (KE1 : Z.even (k + 1) = false) by (rewrite Z.even_add, KE; reflexivity). rewrite KE1 in AY.
      destruct (INV ty ltac:(apply Rabs_le; lra) FARY) as (IB & TZ & SZ).
      assert (TY' : tan (val y) = - / tan ty).
      { replace (val y) with (ty + IZR (k + 1) * (PI / 2)) by (unfold ty; ring). rewrite tan_quad by (lia || (apply Rabs_le; lra) || (left; exact SZ)). rewrite KE1. reflexivity. }
      assert (TU : tan (ty + PI / 2) = tan (val y)) by (rewrite tan_neg_inv, TY' by ((apply Rabs_le; lra) || exact SZ); reflexivity).
      assert (TN : ty < 0) by (unfold Rabs in FARY; destruct (Rcase_abs ty); lra).
      destruct (tan_apart tx (ty + PI / 2) ltac:(lra) ltac:(lra) ltac:(lra)) as (A1 & A2 & A3). pose proof (tan_99 (ty + PI / 2) ltac:(lra)) as A4. rewrite TU in *. pose proof (tan_1003 tx ltac:(lra)) as A5.
      assert (TWO : tan (val y) <= 2.5e8).
      { rewrite TY'. rewrite <- Rabs_inv in IB. pose proof (Rle_abs (- / tan ty)) as Q. rewrite Rabs_Ropp in Q. lra. }
      rewrite (Rabs_pos_eq (tan (val y))) in AY by lra. apply Rabs_le_inv in AY. apply Rabs_le_inv in SX. set (W := tan (val y)) in *. set (p := tan tx) in *.
      assert (YW : val y * (1 + W * W) <= 8192 * (1 + W * W)) by (apply Rmult_le_compat_r; [pose proof (Rle_0_sqr W) as WW; unfold Rsqr in WW; lra|lra]).
      apply (sep_real p W); try assumption; try lra. fold (trig_cot n (base_of I n y)) in AY. pose proof (Rle_0_sqr W) as WW; unfold Rsqr in WW. lra.
    + specialize (FARX ltac:(destruct (Z.eq_dec k 0) as [E0|]; [rewrite E0 in KE; discriminate KE|lia])). destruct FARX as [_ FARX].
      destruct (INV tx ltac:(apply Rabs_le; lra) FARX) as (IB & TZ & SZ).
      assert (TX' : tan (val x) = - / tan tx).
      { replace (val x) with (tx + IZR k * (PI / 2)) by (unfold tx; ring). rewrite tan_quad by (lia || (apply Rabs_le; lra) || (left; exact SZ)). rewrite KE. reflexivity. }
      assert (TN : 0 < tx) by (unfold Rabs in FARX; destruct (Rcase_abs tx); lra).
      destruct (INV (- tx) ltac:(rewrite Rabs_Ropp; apply Rabs_le; lra) ltac:(rewrite Rabs_Ropp; exact FARX)) as (_ & _ & SZ').
      assert (TU : tan (PI / 2 - tx) = - tan (val x)).
      { replace (PI / 2 - tx) with (- tx + PI / 2) by ring. rewrite tan_neg_inv by ((rewrite Rabs_Ropp; apply Rabs_le; lra) || exact SZ'). rewrite tan_neg, TX'. field. exact TZ. }
      destruct (tan_apart (- ty) (PI / 2 - tx) ltac:(lra) ltac:(lra) ltac:(lra)) as (A1 & A2 & A3). pose proof (tan_99 (PI / 2 - tx) ltac:(lra)) as A4. pose proof (tan_1003 (- ty) ltac:(lra)) as A5. rewrite TU, ?tan_neg in *.
      assert (TWO : - tan (val x) <= 2.5e8).
      { rewrite TX'. rewrite <- Rabs_inv in IB. pose proof (Rle_abs (/ tan tx)) as Q. lra. }
      rewrite (Rabs_left1 (tan (val x))) in AX by lra. apply Rabs_le_inv in AX. apply Rabs_le_inv in SY. set (W := tan (val x)) in *. set (p := tan ty) in *.
      assert (YW : val x * (1 + W * W) <= 8192 * (1 + W * W)) by (apply Rmult_le_compat_r; [pose proof (Rle_0_sqr W) as WW; unfold Rsqr in WW; lra|lra]).
      apply Ropp_le_cancel. apply (sep_real (- p) (- W)); try assumption; try lra.
      * rewrite Rabs_Ropp. lra.
      * fold (trig_cot n (base_of I n x)) in AX. pose proof (Rle_0_sqr W) as WW; unfold Rsqr in WW. lra.
Qed.

Lemma tan_branch_pos m x y : isfin x = true -> isfin y = true -> sgn x = false -> sgn y = false -> 0 <= val x <= val y -> val y <= 8192 ->
  Rabs (val x - IZR m * PI) <= PI / 2 -> Rabs (val y - IZR m * PI) <= PI / 2 -> val (vec_tan_float c I n x) <= val (vec_tan_float c I n y).
Proof.
  intros Fx Fy Sx Sy H B HX HY. assert (M2 : IZR m * PI = IZR (2 * m) * (PI / 2)) by (rewrite mult_IZR; lra). rewrite M2 in HX, HY. 
  pose proof (near_key I n HI (2 * m) x Fx ltac:(lra) HX) as KX. pose proof (near_key I n HI (2 * m) y Fy ltac:(lra) HY) as KY. pose proof (key_le _ _ (proj2 H)) as KL.
  destruct (red_all I n HI x Fx ltac:(lra)) as (RX & JX & FBX & TX & BBX & EX & PX & NX). destruct (red_all I n HI y Fy ltac:(lra)) as (RY & JY & FBY & TY & BBY & EY & PY & NY).
  pose proof (base_up I n HI x y Fx Fy H B) as BU. pose proof (cot_up x y Fx Fy H B) as CU. pose proof (cot_ok x Fx ltac:(lra)) as CX. pose proof (cot_ok y Fy ltac:(lra)) as CY.
  pose proof (base_far x Fx ltac:(lra)) as DX. pose proof (base_far y Fy ltac:(lra)) as DY.
  assert (JT : (key (val y) = key (val x) + 1)%Z -> joined_t x y (key (val x))).
  { intros E. apply joint_tan; try assumption; try reflexivity. destruct (Req_dec (val x) (val y)) as [Q|Q]; [rewrite Q in E; lia|lra]. }
  unfold joined_t in JT. rewrite (tan_form c I n HI x Sx _ RX JX), (tan_form c I n HI y Sy _ RY JY). fold (base_of I n x) (base_of I n y). fold (trig_cot n (base_of I n x)) (trig_cot n (base_of I n y)).
  set (bx := base_of I n x) in *. set (by_ := base_of I n y) in *. clearbody bx by_.
  pose proof (Rabs_le_inv _ _ BBX). pose proof (Rabs_le_inv _ _ BBY). apply Rabs_le_inv in HX. apply Rabs_le_inv in HY.
  assert (KQ : forall z, IZR z * (PI / 2) = IZR (2 * m) * (PI / 2) + IZR (z - 2 * m) * (PI / 2)) by (intros z; rewrite minus_IZR; ring).
  assert (TXS : (key (val x) - 2 * m = -1)%Z -> 0 <= val x - IZR (key (val x)) * (PI / 2)). { intros E. rewrite KQ, E. lra. }
  assert (TYS : (key (val y) - 2 * m = 1)%Z -> val y - IZR (key (val y)) * (PI / 2) <= 0). { intros E. rewrite KQ, E. lra. }
  assert (E0 : forall z, (z - 2 * m = 0)%Z -> Z.even z = true) by (intros z E; replace z with (2 * m)%Z by lia; rewrite Z.even_mul; reflexivity).
  assert (E1 : forall z, (z - 2 * m = 1)%Z -> Z.even z = false) by (intros z E; replace z with (2 * m + 1)%Z by lia; rewrite Z.even_add, Z.even_mul; reflexivity).
  assert (E2 : forall z, (z - 2 * m = -1)%Z -> Z.even z = false) by (intros z E; replace z with (2 * (m - 1) + 1)%Z by lia; rewrite Z.even_add, Z.even_mul; reflexivity).
  destruct KX as [KX | [KX | KX]], KY as [KY | [KY | KY]]; try lia; rewrite ?(E0 _ KX), ?(E0 _ KY), ?(E1 _ KX), ?(E1 _ KY), ?(E2 _ KX), ?(E2 _ KY) in *.
  - apply CU; [lia|lia|left; apply PX; apply TXS; exact KX].
  - apply (JT ltac:(lia)). apply TXS. exact KX.
  - destruct (CX ltac:(lia)) as (_ & VX & P & _). destruct (CY ltac:(lia)) as (_ & VY & _ & N). destruct (DX ltac:(lia)) as [FX _]. destruct (DY ltac:(lia)) as [FY _].
    specialize (PX (TXS KX)). specialize (NY (TYS KY)). rewrite VX, VY. apply rnd_le. unfold Rabs in FX, FY. destruct (Rcase_abs (val bx)), (Rcase_abs (val by_)); try lra.
    specialize (P ltac:(lra)). specialize (N ltac:(lra)). unfold Rdiv. pose proof (Rinv_0_lt_compat _ P). pose proof (Rinv_lt_0_compat _ N). lra.
  - apply trig_tan_rises; try assumption; try lra. split; [lra|]. apply BU. lia.
  - apply (JT ltac:(lia)). replace (key (val x) + 1)%Z with (key (val y)) by lia. apply TYS. exact KY.
  - apply CU; [lia|lia|right; apply NY; apply TYS; exact KY].
Qed.
Lemma tan_zero x : isfin x = true -> val x = 0 -> val (vec_tan_float c I n x) = 0.
Proof.
  intros Fx Zx. set (a := fabs x). assert (Fa : isfin a = true) by (unfold a; rewrite isfin_fabs; exact Fx). assert (Va : val a = 0) by (unfold a; rewrite val_fabs, Zx; apply Rabs_R0).
  assert (K0 : key 0 = 0%Z) by (unfold key; rewrite Rmult_0_l, rnd_0, (Zfloor_imp 0); [reflexivity|simpl; lra]).
  destruct (red_all I n HI a Fa ltac:(lra)) as (RK & EJ & FB & _ & BB & _ & P & N). rewrite Va, K0, Rmult_0_l, Rminus_0_r in P, N. specialize (P ltac:(lra)). specialize (N ltac:(lra)).
  pose proof (tan_form c I n HI a (sgn_fabs x) _ RK EJ) as V. rewrite Va, K0 in V. cbn [Z.even] in V. fold (base_of I n a) in V. set (b := base_of I n a) in *.
  assert (Z : val (trig_tan n b) = 0).
  { assert (FB' : isfin (fneg b) = true) by (rewrite isfin_fneg; exact FB). pose proof (trig_tan_ge n b FB ltac:(lra)) as G1. destruct (trig_tan_neg n b FB BB) as [_ NB].
    pose proof (trig_tan_ge n (fneg b) FB' ltac:(rewrite val_fneg; lra)) as G2. rewrite val_fneg in G2. lra. }
  rewrite (tan_signed c I n x). fold a. rewrite V. destruct (sgn x); rewrite ?val_fneg, Z; lra.
Qed.
Lemma tan_minus x : isfin x = true -> val (vec_tan_float c I n (fneg x)) = - val (vec_tan_float c I n x).
Proof.
  intros Fx. rewrite (tan_signed c I n x), (tan_signed c I n (fneg x)). rewrite sgn_fneg. replace (fabs (fneg x)) with (fabs x) by (destruct x; reflexivity).
  destruct (sgn x); cbn [negb]; rewrite ?val_fneg; lra.
Qed.
Lemma tan_nonneg_abs x : isfin x = true -> 0 <= val x -> val (vec_tan_float c I n x) = val (vec_tan_float c I n (fabs x)).
Proof.
  intros Fx H. destruct (Req_dec (val x) 0) as [Z|Z].
  - rewrite !tan_zero; try reflexivity; rewrite ?isfin_fabs, ?val_fabs, ?Z, ?Rabs_R0; auto.
  - rewrite (tan_signed c I n x). pose proof (sgn_val_gen x Fx) as S. destruct (sgn x); [|reflexivity]. pose proof (Rabs_pos (val x)). lra.
Qed.
Lemma tan_half_pos m x y : isfin x = true -> isfin y = true -> 0 <= val x <= val y -> val y <= 8192 ->
  Rabs (val x - IZR m * PI) <= PI / 2 -> Rabs (val y - IZR m * PI) <= PI / 2 -> val (vec_tan_float c I n x) <= val (vec_tan_float c I n y).
Proof.
  intros Fx Fy H B HX HY. rewrite (tan_nonneg_abs x Fx) by lra. rewrite (tan_nonneg_abs y Fy) by lra.
  assert (VX : val (fabs x) = val x) by (rewrite val_fabs; apply Rabs_pos_eq; lra). assert (VY : val (fabs y) = val y) by (rewrite val_fabs; apply Rabs_pos_eq; lra).
  apply (tan_branch_pos m); rewrite ?isfin_fabs, ?VX, ?VY; try assumption; apply sgn_fabs.
Qed.
Lemma tan_half m x y : isfin x = true -> isfin y = true -> val x <= val y -> Rabs (val x) <= 8192 -> Rabs (val y) <= 8192 ->
  Rabs (val x - IZR m * PI) <= PI / 2 -> Rabs (val y - IZR m * PI) <= PI / 2 -> val (vec_tan_float c I n x) <= val (vec_tan_float c I n y).
Proof.
  intros Fx Fy H BX BY HX HY. pose proof pi_range as PR. apply Rabs_le_inv in BX. apply Rabs_le_inv in BY.
  assert (NEG : forall z : F F32, Rabs (val z - IZR m * PI) <= PI / 2 -> Rabs (val (fneg z) - IZR (- m) * PI) <= PI / 2).
  { intros z Hz. rewrite val_fneg, opp_IZR. replace (- val z - - IZR m * PI) with (- (val z - IZR m * PI)) by ring. rewrite Rabs_Ropp. exact Hz. }
  destruct (Rle_dec 0 (val x)) as [P|P]; [apply (tan_half_pos m); try assumption; lra|].
  destruct (Rle_dec (val y) 0) as [Q|Q].
  - assert (FX : isfin (fneg x) = true) by (rewrite isfin_fneg; exact Fx). assert (FY : isfin (fneg y) = true) by (rewrite isfin_fneg; exact Fy).
    pose proof (tan_half_pos (- m) _ _ FY FX ltac:(rewrite !val_fneg; lra) ltac:(rewrite val_fneg; lra) (NEG y HY) (NEG x HX)) as S.
    rewrite !tan_minus in S by assumption. lra.
  - assert (M0 : m = 0%Z).
    { apply Rabs_le_inv in HX. apply Rabs_le_inv in HY. assert (IZR m < 1) by nra. assert (-1 < IZR m) by nra. 
      assert (m < 1)%Z by (apply lt_IZR; assumption). assert (-1 < m)%Z by (apply lt_IZR; assumption). lia. }
    subst m. assert (F0 : isfin (f_ofZ F32 0) = true) by reflexivity. assert (V0 : val (f_ofZ F32 0) = 0) by reflexivity.
    assert (H0 : Rabs (val (f_ofZ F32 0) - 0 * PI) <= PI / 2) by (rewrite V0, Rmult_0_l, Rminus_0_r, Rabs_R0; lra).
    pose proof (tan_half_pos 0 _ y F0 Fy ltac:(rewrite V0; lra) ltac:(lra) H0 HY) as S1. 
    assert (FX : isfin (fneg x) = true) by (rewrite isfin_fneg; exact Fx).
    pose proof (tan_half_pos 0 _ _ F0 FX ltac:(rewrite V0, val_fneg; lra) ltac:(rewrite val_fneg; lra) H0 (NEG x HX)) as S2. 
    rewrite (tan_zero _ F0 V0) in S1, S2. rewrite tan_minus in S2 by exact Fx. lra.
Qed.
End J.
