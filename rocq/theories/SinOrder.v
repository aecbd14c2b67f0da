(** Sine and cosine keep order on every half wave and stay within one. *)
From Coq Require Import ZArith Reals List Lia Lra Bool Psatz.
From Flocq Require Import Core IEEE754.Binary IEEE754.Bits.
From Verif Require Import Base Backend Lanes Float LaneOps ScalarMath VecMath IntVec TransMath SpecLane SpecInt
  FloatFacts FloatRound LaneFacts VecFacts VecMore VecMore2 RoundFacts RoundMore RoundMore2 IntFacts LdexpFacts TransConst ErrFacts ErrTac LastStep NearFacts TransFacts RealTanh TanhFacts RealTrig LogFacts ExpFacts TrigFacts SinFacts OddFacts TanFacts TrigMore MonoFacts SpecOrder TrigOrder RealOrder.
Import ListNotations.
Local Open Scope R_scope.
#[local] Opaque litf litd.

(** Proof auxiliary: the quarter wave an argument is reduced to. *)
Definition key (v : R) : Z := ((Zfloor (rnd F32 (v * (10680707 / 8388608))) + 1) / 2)%Z.
Lemma key_le u v : u <= v -> (key u <= key v)%Z.
Proof. intros H. unfold key. apply Z.div_le_mono; [lia|]. apply Z.add_le_mono_r. apply Zfloor_le. apply rnd_le. lra. Qed.

Lemma fle_val (x y : F F32) : isfin x = true -> isfin y = true -> fle x y = true -> val x <= val y.
Proof.
  intros Fx Fy H. unfold fle in H. rewrite (Bcompare_correct (prec F32) (emax F32) x y Fx Fy) in H. fold (val x) (val y) in H.
  destruct (Rcompare_spec (val x) (val y)); try discriminate H; lra.
Qed.
Lemma fsub_fin_val (n : nans F32) (x y : F F32) : isfin x = true -> isfin y = true -> isfin (fsub n x y) = true -> val (fsub n x y) = rnd F32 (val x - val y).
Proof.
  intros Fx Fy Fs. destruct (Rlt_dec (Rabs (rnd F32 (val x - val y))) (bpow radix2 (emax F32))) as [L|L]; [apply fsub_fin; assumption|exfalso].
  pose proof (Bminus_correct (prec F32) (emax F32) (Hprec F32) (Hmax F32) (nan_sub n) BinarySingleNaN.mode_NE x y Fx Fy) as H.
  rewrite Rlt_bool_false in H by (apply Rnot_lt_le; exact L). destruct H as [H _].
  fold (fsub n x y) in H. destruct (fsub n x y) as [s|s|s p q|s m e q]; discriminate H || discriminate Fs.
Qed.

Section S.
Context (c : cfg) (I : isa) (n : nans F32) (HI : x86 I).
(** Proof auxiliary: the reduced argument. *)
Definition base_of (a : F F32) : F F32 := red_base n a (iconvert I (red_j I n a)).

Lemma red_key a : isfin a = true -> 0 <= val a <= 8192 -> red_j I n a = (2 * key (val a))%Z.
Proof.
  intros Fa Ba. destruct fop_ok as [FF VF]. pose proof eta_small as ET.
  assert (E := rnd_eta (val a * (10680707 / 8388608))).
  assert (FB : Rabs (rnd F32 (val a * (10680707 / 8388608))) <= 16384).
  { apply (rnd_le_bpow 14); [lia|]. change (bpow radix2 14) with 16384. rewrite Rabs_pos_eq; nra. }
  destruct (fmul_fin n a four_over_pi Fa FF) as (FY & VY & _); [rewrite VF; eapply Rle_lt_trans; [exact FB|]; change 16384 with (bpow radix2 14); apply bpow_lt; reflexivity|].
  rewrite VF in VY. fold (red_y n a) in FY, VY. rewrite <- VY in E.
  assert (Y0 : 0 <= val (red_y n a)).
  { rewrite VY. rewrite <- (rnd_0 (t := F32)). apply rnd_le. nra. }
  rewrite (Rabs_pos_eq (val a * _)) in E by nra. unfold key. rewrite <- VY. set (y := val (red_y n a)) in *.
  assert (TF : Ztrunc y = Zfloor y) by (apply Ztrunc_floor; exact Y0).
  pose proof (Zfloor_lb y) as L1. pose proof (Zfloor_ub y) as L2. rewrite <- TF in L1, L2. rewrite <- TF. set (T := Ztrunc y) in *.
  apply Rabs_le_inv in E.
  assert (YU : y < 10431) by nra.
  assert (T0 : (0 <= T)%Z) by (rewrite TF; apply Zfloor_lub; exact Y0).
  assert (TU : (T < 10431)%Z) by (apply lt_IZR; lra).
  assert (TR : itruncate I (red_y n a) = T).
  { pose proof (itruncate_reads I (red_y n a) (x86_alt I HI) FY) as Q. fold y T in Q. specialize (Q ltac:(lia)).
    destruct Q as (P1 & P2 & P3). apply same_small in P3; [exact P3|]. unfold pattern in P1. lia. }
  unfold red_j. rewrite TR. apply even_up. lia.
Qed.
(** What the reduction gives. *)
Lemma red_all a : isfin a = true -> 0 <= val a <= 8192 ->
  let k := key (val a) in let b := base_of a in let t := val a - IZR k * (PI / 2) in
  (0 <= k <= 5215)%Z /\ red_j I n a = (2 * k)%Z /\ isfin b = true /\ Rabs t <= 0.7866 /\ Rabs (val b) <= 0.7867 /\
  Rabs (val b - t) <= / 16777216 * Rabs t + 1e-14 * val a /\ (0 <= t -> 0 <= val b) /\ (t <= 0 -> val b <= 0).
Proof.
  intros Fa Ba k b t. destruct (red_ok I n HI a Fa Ba) as (k' & Bk & EJ & FB & TB & BB & EB & K0).
  assert (EK : k' = k) by (pose proof (red_key a Fa Ba); unfold k; lia). subst k'. fold t in TB, EB. fold (base_of a) in *. fold b in FB, BB, EB, K0.
  repeat (split; [assumption|]).
  destruct (Z.eq_dec k 0) as [Z|Z].
  - specialize (K0 Z). rewrite K0. unfold t. rewrite Z, Rmult_0_l, Rminus_0_r. lra.
  - pose proof (far_from a k Fa ltac:(lia) TB) as FR. fold t in FR. apply Rabs_le_inv in EB. unfold Rabs in FR, EB. destruct (Rcase_abs t); split; intros; lra.
Qed.
Lemma base_up x y : isfin x = true -> isfin y = true -> 0 <= val x <= val y -> val y <= 8192 -> key (val x) = key (val y) -> val (base_of x) <= val (base_of y).
Proof.
  intros Fx Fy H B E. unfold base_of. 
  destruct (red_int I n HI x Fx ltac:(lra)) as (k & Bk & EJ & EC & FY & VY & HJ). destruct (red_int I n HI y Fy ltac:(lra)) as (k' & Bk' & EJ' & EC' & FY' & VY' & HJ').
  pose proof (red_key x Fx ltac:(lra)) as KX. pose proof (red_key y Fy ltac:(lra)) as KY. assert (k' = k) by lia. subst k'. rewrite EJ, EJ', EC.
  destruct (red_exact n x k Fx ltac:(lra) Bk HJ FY VY) as (FV & VV & _). destruct (red_exact n y k Fy ltac:(lra) Bk HJ' FY VY) as (FV' & VV' & _). 
  destruct (red_ok I n HI x Fx ltac:(lra)) as (kx & _ & EJx & FBx & _ & BBx & _). destruct (red_ok I n HI y Fy ltac:(lra)) as (ky & _ & EJy & FBy & _ & BBy & _).
  rewrite EJ, EC in FBx, BBx. rewrite EJ', EC in FBy, BBy. unfold red_base in *. destruct dp3_ok as [F3 V3].
  set (w := fmul n (f_ofZ F32 (2 * k)) DP3) in *. set (v := fsub n (fsub n x _) _) in *. set (v' := fsub n (fsub n y _) _) in *.
  assert (FW : isfin w = true).
  { assert (KB : 0 <= IZR (2 * k) <= 10430) by (split; apply IZR_le; lia). destruct (fmul_fin n (f_ofZ F32 (2 * k)) DP3 FY F3) as (FW & _); [|exact FW].
    rewrite VY, V3. apply small_fin. rewrite Rabs_pos_eq; lra. }
  assert (SV : forall u, isfin u = true -> isfin (fsub n u w) = true -> val (fsub n u w) = rnd F32 (val u - val w)).
  { intros u Fu Fs. apply fsub_fin_val; assumption. }
  rewrite !SV by assumption. apply rnd_le. lra.
Qed.
End S.

(** Proof auxiliary: the last float of quarter wave k and the first of the next,
    with the values there in order. *)
Definition joint_ok (I : isa) (n : nans F32) (k m e : Z) : bool :=
  let L := f_lit F32 m e in let R := f_lit F32 (m + 1) e in
  (red_j I n L =? 2 * k)%Z && (red_j I n R =? 2 * k + 2)%Z &&
  fle (trig_sin n (base_of I n L)) (trig_cos n (base_of I n R)) && fle (fneg (trig_sin n (base_of I n R))) (trig_cos n (base_of I n L)).
Section J.
Context (c : cfg) (I : isa) (n : nans F32) (HI : x86 I).
#[local] Transparent litf litd.
Lemma joints : joint_ok I n 0 13176794 (-24) = true /\ joint_ok I n 1 9882595 (-22) = true /\ joint_ok I n 2 16470993 (-22) = true /\ joint_ok I n 3 11529695 (-21) = true /\ joint_ok I n 4 14823893 (-21) = true.
Proof. destruct HI as [-> | ->]; refine (conj _ (conj _ (conj _ (conj _ _)))); vm_compute; reflexivity. Qed.
#[local] Opaque litf litd.
(** Proof auxiliary: the two orders at a joint. *)
Definition joined (x y : F F32) (k : Z) : Prop :=
  (val y - IZR (k + 1) * (PI / 2) <= 0 -> val (trig_sin n (base_of I n x)) <= val (trig_cos n (base_of I n y))) /\
  (0 <= val x - IZR k * (PI / 2) -> - val (trig_sin n (base_of I n y)) <= val (trig_cos n (base_of I n x))).
Lemma joint_small k m e x y : joint_ok I n k m e = true -> (2 ^ 23 <= m < 2 ^ 24)%Z -> (-24 <= e)%Z -> IZR (m + 1) * bpow radix2 e <= 8 -> isfin x = true -> isfin y = true -> 0 <= val x <= 8 -> 0 <= val y <= 8 ->
  key (val x) = k -> key (val y) = (k + 1)%Z -> joined x y k.
Proof.
  intros J M E R8 Fx Fy Bx By KX KY. 
  assert (E100 : (e <= 100)%Z).
  { destruct (Z_le_dec e 100) as [|G]; [assumption|exfalso]. assert (1 <= IZR (m + 1)) by (apply IZR_le; lia). pose proof (bpow_le radix2 100 e ltac:(lia)) as BE.
    assert (16 <= bpow radix2 100) by (change 16 with (bpow radix2 4); apply bpow_le; lia). pose proof (bpow_ge_0 radix2 e). nra. }
  destruct (lit_range m e ltac:(lia) ltac:(lia)) as [FL VL]. destruct (lit_range (m + 1) e ltac:(lia) ltac:(lia)) as [FR VR]. unfold joint_ok in J. cbv zeta in J.
  set (L := f_lit F32 m e) in *. set (R := f_lit F32 (m + 1) e) in *. rewrite !andb_true_iff, !Z.eqb_eq in J. destruct J as (((JL & JR) & JA) & JB).
  rewrite plus_IZR, Rmult_plus_distr_r, Rmult_1_l, <- VL in VR. rewrite plus_IZR, Rmult_plus_distr_r, Rmult_1_l, <- VL in R8. pose proof (bpow_gt_0 radix2 e) as PE.
  assert (L0 : bpow radix2 (e + 23) <= val L).
  { rewrite VL, bpow_plus, Rmult_comm. apply Rmult_le_compat_r; [lra|]. change (bpow radix2 23) with (IZR (2 ^ 23)). apply IZR_le. lia. }
  pose proof (bpow_gt_0 radix2 (e + 23)) as PE'.
  assert (KL : key (val L) = k) by (pose proof (red_key I n HI L FL ltac:(lra)); lia). assert (KR : key (val R) = (k + 1)%Z) by (pose proof (red_key I n HI R FR ltac:(lra)); lia).
  assert (UP : forall z : F F32, isfin z = true -> val L < val z -> val R <= val z).
  { intros z Fz H. pose proof (gap_above L z (e + 23) ltac:(lia) FL Fz ltac:(lra)) as G. replace (e + 23 - 23)%Z with e in G by lia. lra. }
  assert (XL : val x <= val L). { apply Rnot_lt_le. intros H. pose proof (key_le _ _ (UP x Fx H)). lia. }
  assert (RY : val R <= val y). { apply UP; [exact Fy|]. apply Rnot_le_lt. intros H. pose proof (key_le _ _ H). lia. }
  pose proof (base_up I n HI x L Fx FL ltac:(lra) ltac:(lra) ltac:(lia)) as BX. pose proof (base_up I n HI R y FR Fy ltac:(lra) ltac:(lra) ltac:(lia)) as BY.
  destruct (red_all I n HI x Fx ltac:(lra)) as (_ & _ & FBX & _ & BBX & _ & PX & _). destruct (red_all I n HI y Fy ltac:(lra)) as (_ & _ & FBY & _ & BBY & _ & _ & NY).
  destruct (red_all I n HI L FL ltac:(lra)) as (_ & _ & FBL & _ & BBL & _). destruct (red_all I n HI R FR ltac:(lra)) as (_ & _ & FBR & _ & BBR & _).
  unfold joined. rewrite KX in PX. rewrite KY in NY. set (bx := base_of I n x) in *. set (by_ := base_of I n y) in *. set (bl := base_of I n L) in *. set (br := base_of I n R) in *. clearbody bx by_ bl br.
  destruct (trig_sin_eq n bl FBL BBL) as (FSL & _). destruct (trig_sin_eq n br FBR BBR) as (FSR & _). destruct (trig_cos_val n bl FBL BBL) as (FCL & _). destruct (trig_cos_val n br FBR BBR) as (FCR & _).
  apply fle_val in JA; [|assumption|assumption]. apply fle_val in JB; [|rewrite isfin_fneg; assumption|assumption]. rewrite val_fneg in JB.
  pose proof (Rabs_le_inv _ _ BBX). pose proof (Rabs_le_inv _ _ BBY). pose proof (Rabs_le_inv _ _ BBL). pose proof (Rabs_le_inv _ _ BBR).
  split; intros H3.
  - specialize (NY H3). pose proof (trig_sin_rises n bx bl FBX FBL ltac:(lra) ltac:(lra)). pose proof (trig_cos_falls n by_ br FBY FBR ltac:(rewrite (Rabs_left1 (val by_)), (Rabs_left1 (val br)) by lra; lra) BBR). lra.
  - specialize (PX H3). pose proof (trig_sin_rises n br by_ FBR FBY ltac:(lra) ltac:(lra)). pose proof (trig_cos_falls n bx bl FBX FBL ltac:(rewrite (Rabs_pos_eq (val bx)), (Rabs_pos_eq (val bl)) by lra; lra) BBL). lra.
Qed.
Lemma joint x y k : isfin x = true -> isfin y = true -> 0 <= val x < val y -> val y <= 8192 -> key (val x) = k -> key (val y) = (k + 1)%Z -> joined x y k.
Proof.
  intros Fx Fy H B KX KY. destruct (red_all I n HI x Fx ltac:(lra)) as (RX & _ & FBX & TX & BBX & EX & _). destruct (red_all I n HI y Fy ltac:(lra)) as (RY & _ & FBY & TY & BBY & EY & _).
  rewrite KX in *. rewrite KY in *. pose proof tail_pos as TP. 
  destruct (Rle_dec (val y) 8) as [C|C].
  - assert (K8 : key 8 = 5%Z) by (unfold key; replace (8 * (10680707 / 8388608)) with (IZR 10680707 * bpow radix2 (-20)) by (change (bpow radix2 (-20)) with (/ 1048576); lra);
      rewrite rnd_id by (apply dyadic_format; discriminate); change (bpow radix2 (-20)) with (/ 1048576); rewrite (Zfloor_imp 10); [reflexivity|split; simpl; lra]).
    pose proof (key_le _ _ C) as K5. rewrite KY, K8 in K5. destruct joints as (J0 & J1 & J2 & J3 & J4).
    assert (KK : (k = 0 \/ k = 1 \/ k = 2 \/ k = 3 \/ k = 4)%Z) by lia.
    destruct KK as [-> | [-> | [-> | [-> | ->]]]].
    + apply (joint_small _ _ _ x y J0); try assumption; try lia; try lra. change (bpow radix2 (-24)) with (/ 16777216). simpl. lra.
    + apply (joint_small _ _ _ x y J1); try assumption; try lia; try lra. change (bpow radix2 (-22)) with (/ 4194304). simpl. lra.
    + apply (joint_small _ _ _ x y J2); try assumption; try lia; try lra. change (bpow radix2 (-22)) with (/ 4194304). simpl. lra.
    + apply (joint_small _ _ _ x y J3); try assumption; try lia; try lra. change (bpow radix2 (-21)) with (/ 2097152). simpl. lra.
    + apply (joint_small _ _ _ x y J4); try assumption; try lia; try lra. change (bpow radix2 (-21)) with (/ 2097152). simpl. lra.
  - assert (D : / 1048576 <= val y - val x).
    { destruct (Rle_dec 8 (val x)) as [E|E].
      - pose proof (gap_above x y 3 ltac:(lia) Fx Fy) as G. change (bpow radix2 (3 - 23)) with (/ 1048576) in G. change (bpow radix2 3) with 8 in G. apply G. lra.
      - destruct (lit_range 8 0 ltac:(lia) ltac:(lia)) as [F8 V8]. change (8 * bpow radix2 0) with (8 * 1) in V8. rewrite Rmult_1_r in V8. 
        pose proof (gap_above _ y 3 ltac:(lia) F8 Fy) as G. rewrite V8 in G. change (bpow radix2 (3 - 23)) with (/ 1048576) in G. change (bpow radix2 3) with 8 in G. specialize (G ltac:(lra)). lra. }
    destruct (sin_part n _ _ (val x) FBX BBX TX ltac:(lra) EX) as (_ & SX). destruct (sin_part n _ _ (val y) FBY BBY TY ltac:(lra) EY) as (_ & SY).
    destruct (cos_part n _ _ (val x) FBX BBX TX ltac:(lra) EX) as (_ & CX). destruct (cos_part n _ _ (val y) FBY BBY TY ltac:(lra) EY) as (_ & CY).
    unfold joined. set (tx := val x - IZR k * (PI / 2)) in *. set (ty := val y - IZR (k + 1) * (PI / 2)) in *.
    assert (TT : ty + PI / 2 - tx = val y - val x) by (unfold ty, tx; rewrite plus_IZR; lra).
    assert (TS : tail148 <= 1e-9).
    { unfold tail148. apply Rle_trans with (bpow radix2 (-30)); [apply bpow_le; lia|]. change (bpow radix2 (-30)) with (/ 1073741824). lra. }
    set (sx := val (trig_sin n (base_of I n x))) in *. set (sy := val (trig_sin n (base_of I n y))) in *. set (cx := val (trig_cos n (base_of I n x))) in *. set (cy := val (trig_cos n (base_of I n y))) in *.
    apply Rabs_le_inv in TX. apply Rabs_le_inv in TY. pose proof pi_range as PR.
    assert (SB : forall t, -0.7866 <= t <= 0.7866 -> Rabs (sin t) <= 0.71) by (intros t Ht; pose proof (sin_710 t Ht); apply Rabs_le; lra).
    pose proof (SB tx ltac:(lra)) as BX'. pose proof (SB ty ltac:(lra)) as BY'. apply Rabs_le_inv in SX. apply Rabs_le_inv in SY. apply Rabs_le_inv in CX. apply Rabs_le_inv in CY.
    split; intros S.
    + pose proof (sin_apart tx (ty + PI / 2) ltac:(lra) ltac:(lra) ltac:(lra)) as A. rewrite sin_plus, sin_PI2, cos_PI2, Rmult_0_r, Rplus_0_l, Rmult_1_r in A.
      pose proof (cos_low ty ltac:(apply Rabs_le; lra)) as CL. rewrite (Rabs_pos_eq (cos ty)) in CY by lra. pose proof (COS_bound ty). lra.
    + pose proof (sin_apart (- ty) (PI / 2 - tx) ltac:(lra) ltac:(lra) ltac:(lra)) as A. rewrite sin_shift, sin_neg in A.
      pose proof (cos_low tx ltac:(apply Rabs_le; lra)) as CL. rewrite (Rabs_pos_eq (cos tx)) in CX by lra. pose proof (COS_bound tx). lra.
Qed.

(** Proof auxiliary: the value on the quarter before, at and after the middle of a
    rising half wave. *)
Definition quarter (d : Z) (b : F F32) : R :=
  if (d <? 0)%Z then - val (trig_cos n b) else if (0 <? d)%Z then val (trig_cos n b) else val (trig_sin n b).
Lemma near_key m (a : F F32) : isfin a = true -> 0 <= val a <= 8192 -> Rabs (val a - IZR m * (PI / 2)) <= PI / 2 -> (key (val a) - m = -1 \/ key (val a) - m = 0 \/ key (val a) - m = 1)%Z.
Proof.
  intros Fa Ba H. destruct (red_all I n HI a Fa Ba) as (_ & _ & _ & TB & _). set (k := key (val a)) in *. pose proof pi_range as PR.
  apply Rabs_le_inv in H. apply Rabs_le_inv in TB.
  assert (D : Rabs (IZR (k - m)) < 2). { rewrite minus_IZR. apply Rabs_lt. split; nra. }
  rewrite <- abs_IZR in D. apply lt_IZR in D. lia.
Qed.
Lemma trig_cos_pos b : isfin b = true -> Rabs (val b) <= 0.7867 -> 0 <= val (trig_cos n b).
Proof.
  intros Fb Bb. destruct (trig_cos_val n b Fb Bb) as [_ E]. pose proof (cos_poly (val b) ltac:(lra)) as P. pose proof (cos_low (val b) ltac:(lra)). apply Rabs_le_inv in E. apply Rabs_le_inv in P. lra.
Qed.
Lemma wave_up m (x y : F F32) : isfin x = true -> isfin y = true -> 0 <= val x <= val y -> val y <= 8192 ->
  Rabs (val x - IZR m * (PI / 2)) <= PI / 2 -> Rabs (val y - IZR m * (PI / 2)) <= PI / 2 ->
  quarter (key (val x) - m) (base_of I n x) <= quarter (key (val y) - m) (base_of I n y).
Proof.
  intros Fx Fy H B HX HY. pose proof (near_key m x Fx ltac:(lra) HX) as KX. pose proof (near_key m y Fy ltac:(lra) HY) as KY. pose proof (key_le _ _ (proj2 H)) as KL.
  destruct (red_all I n HI x Fx ltac:(lra)) as (_ & _ & FBX & TX & BBX & EX & PX & NX). destruct (red_all I n HI y Fy ltac:(lra)) as (_ & _ & FBY & TY & BBY & EY & PY & NY).
  pose proof (base_up I n HI x y Fx Fy H B) as BU. 
  assert (JT : (key (val y) = key (val x) + 1)%Z -> joined x y (key (val x))).
  { intros E. apply joint; try assumption; try reflexivity. destruct (Req_dec (val x) (val y)) as [Q|Q]; [rewrite Q in E; lia|lra]. }
  unfold joined in JT. pose proof (trig_cos_pos _ FBX BBX) as CX. pose proof (trig_cos_pos _ FBY BBY) as CY. set (bx := base_of I n x) in *. set (by_ := base_of I n y) in *. clearbody bx by_.
  pose proof (Rabs_le_inv _ _ BBX). pose proof (Rabs_le_inv _ _ BBY). apply Rabs_le_inv in HX. apply Rabs_le_inv in HY.
  assert (KQ : forall z, IZR z * (PI / 2) = IZR m * (PI / 2) + IZR (z - m) * (PI / 2)) by (intros z; rewrite minus_IZR; ring).
  assert (SX : (key (val x) - m = -1)%Z -> 0 <= val bx). { intros E. apply PX. rewrite KQ, E. lra. }
  assert (SY : (key (val y) - m = 1)%Z -> val by_ <= 0). { intros E. apply NY. rewrite KQ, E. lra. }
  unfold quarter. destruct KX as [KX | [KX | KX]], KY as [KY | [KY | KY]]; try lia; rewrite KX, KY; cbn [Z.ltb Z.compare].
  - specialize (SX KX). pose proof (BU ltac:(lia)). pose proof (trig_cos_falls n bx by_ FBX FBY ltac:(rewrite (Rabs_pos_eq (val bx)), (Rabs_pos_eq (val by_)) by lra; lra) BBY). lra.
  - destruct (JT ltac:(lia)) as [_ J]. specialize (J ltac:(rewrite KQ, KX; lra)). lra.
  - lra.
  - apply trig_sin_rises; try assumption; try lra. split; [lra|]. apply BU. lia.
  - destruct (JT ltac:(lia)) as [J _]. apply J. rewrite KQ. replace (key (val x) + 1 - m)%Z with 1%Z by lia. lra.
  - specialize (SY KY). pose proof (BU ltac:(lia)). pose proof (trig_cos_falls n by_ bx FBY FBX ltac:(rewrite (Rabs_left1 (val bx)), (Rabs_left1 (val by_)) by lra; lra) BBX). lra.
Qed.
Lemma quarter_one d b : isfin b = true -> Rabs (val b) <= 0.7867 -> Rabs (quarter d b) <= 1.
Proof.
  intros Fb Bb. unfold quarter. pose proof (trig_cos_pos b Fb Bb). pose proof (trig_cos_le1 n b Fb Bb).
  assert (S : Rabs (val (trig_sin n b)) <= 1).
  { destruct (trig_C_val n b Fb Bb) as (FC & EC & BC). destruct (last_step n b (trig_C n b) (sin_q (val b * val b)) 3e-8 0.11 FC Fb ltac:(lra) EC BC ltac:(lra)) as [_ E]. fold (trig_sin n b) in E.
    pose proof (sin_poly (val b) ltac:(lra)) as P. pose proof (SIN_bound (val b)) as SB. pose proof (lip_sin (val b) 0) as L. rewrite sin_0, !Rminus_0_r in L.
    assert (T : bpow radix2 (-148) <= 1e-9).
    { apply Rle_trans with (bpow radix2 (-30)); [apply bpow_le; lia|]. change (bpow radix2 (-30)) with (/ 1073741824). lra. }
    set (r := val b * (1 + sin_q (val b * val b))) in *. set (w := Rabs (val b)) in *. apply Rabs_le_inv in E. apply Rabs_le_inv in P. apply Rabs_le_inv in L. apply Rabs_le. lra. }
  destruct (d <? 0)%Z; [rewrite Rabs_Ropp; apply Rabs_le; lra|]. destruct (0 <? d)%Z; [apply Rabs_le; lra|exact S].
Qed.
Lemma sin_quarter a m : isfin a = true -> sgn a = false -> 0 <= val a <= 8192 -> (key (val a) - 2 * m = -1 \/ key (val a) - 2 * m = 0 \/ key (val a) - 2 * m = 1)%Z ->
  isfin (vec_sin_float c I n a) = true /\
  val (vec_sin_float c I n a) = if Z.odd m then - quarter (key (val a) - 2 * m) (base_of I n a) else quarter (key (val a) - 2 * m) (base_of I n a).
Proof.
  intros Fa Sa Ba K. split; [apply (sin_pos c I n HI a Fa Sa Ba)|]. destruct (red_all I n HI a Fa Ba) as (RK & EJ & _).
  rewrite (sin_form c I n HI a Sa _ RK EJ). fold (base_of I n a). cbv zeta. unfold quarter. set (k := key (val a)) in *. set (b := base_of I n a). clearbody b.
  assert (O1 : Z.odd (m - 1) = negb (Z.odd m)) by (rewrite Z.odd_sub; destruct (Z.odd m); reflexivity).
  destruct K as [K | [K | K]]; rewrite K; cbn [Z.ltb Z.compare].
  - assert (E : Z.even k = false) by (replace k with (2 * (m - 1) + 1)%Z by lia; rewrite Z.even_add, Z.even_mul; reflexivity).
    assert (H : (k / 2 = m - 1)%Z) by (symmetry; apply (Z.div_unique k 2 (m - 1) 1); lia). rewrite E, H, O1. destruct (Z.odd m); cbn [negb]; rewrite ?val_fneg; lra.
  - assert (E : Z.even k = true) by (replace k with (2 * m)%Z by lia; rewrite Z.even_mul; reflexivity).
    assert (H : (k / 2 = m)%Z) by (symmetry; apply (Z.div_unique k 2 m 0); lia). rewrite E, H. destruct (Z.odd m); rewrite ?val_fneg; lra.
  - assert (E : Z.even k = false) by (replace k with (2 * m + 1)%Z by lia; rewrite Z.even_add, Z.even_mul; reflexivity).
    assert (H : (k / 2 = m)%Z) by (symmetry; apply (Z.div_unique k 2 m 1); lia). rewrite E, H. destruct (Z.odd m); rewrite ?val_fneg; lra.
Qed.
(** The half wave around 2 m + 1 quarters: cosine falls where sine rises around 2 m. *)
Lemma cos_quarter a m : isfin a = true -> sgn a = false -> 0 <= val a <= 8192 -> (key (val a) - (2 * m + 1) = -1 \/ key (val a) - (2 * m + 1) = 0 \/ key (val a) - (2 * m + 1) = 1)%Z ->
  isfin (vec_cos_float c I n a) = true /\
  val (vec_cos_float c I n a) = if Z.odd m then quarter (key (val a) - (2 * m + 1)) (base_of I n a) else - quarter (key (val a) - (2 * m + 1)) (base_of I n a).
Proof.
  intros Fa Sa Ba K. split; [apply (cos_pos c I n HI a Fa Sa Ba)|]. destruct (red_all I n HI a Fa Ba) as (RK & EJ & _).
  rewrite (cos_form c I n HI a Sa _ RK EJ). fold (base_of I n a). cbv zeta. unfold quarter. set (k := key (val a)) in *. set (b := base_of I n a). clearbody b.
  assert (O1 : Z.odd (m + 1) = negb (Z.odd m)) by (rewrite Z.odd_add; destruct (Z.odd m); reflexivity).
  destruct K as [K | [K | K]]; rewrite K; cbn [Z.ltb Z.compare].
  - assert (E : Z.odd k = false) by (replace k with (2 * m)%Z by lia; rewrite Z.odd_mul; reflexivity).
    assert (H : ((k + 1) / 2 = m)%Z) by (symmetry; apply (Z.div_unique _ 2 m 1); lia). rewrite E, H. destruct (Z.odd m); rewrite ?val_fneg; lra.
  - assert (E : Z.odd k = true) by (replace k with (2 * m + 1)%Z by lia; rewrite Z.odd_add, Z.odd_mul; reflexivity).
    assert (H : ((k + 1) / 2 = m + 1)%Z) by (symmetry; apply (Z.div_unique _ 2 (m + 1) 0); lia). rewrite E, H, O1. destruct (Z.odd m); cbn [negb]; rewrite ?val_fneg; lra.
  - assert (E : Z.odd k = false) by (replace k with (2 * (m + 1))%Z by lia; rewrite Z.odd_mul; reflexivity).
    assert (H : ((k + 1) / 2 = m + 1)%Z) by (symmetry; apply (Z.div_unique _ 2 (m + 1) 1); lia). rewrite E, H, O1. destruct (Z.odd m); cbn [negb]; rewrite ?val_fneg; lra.
Qed.
Lemma sin_key (a : F F32) : isfin a = true -> 0 <= val a <= 8192 -> exists m, (key (val a) - 2 * m = -1 \/ key (val a) - 2 * m = 0 \/ key (val a) - 2 * m = 1)%Z.
Proof. intros _ _. exists (key (val a) / 2)%Z. pose proof (Z.div_mod (key (val a)) 2 ltac:(lia)). pose proof (Z.mod_pos_bound (key (val a)) 2 ltac:(lia)). lia. Qed.
Lemma sin_within x : isfin x = true -> Rabs (val x) <= 8192 -> isfin (vec_sin_float c I n x) = true /\ -1 <= val (vec_sin_float c I n x) <= 1.
Proof.
  intros Fx Bx. set (a := fabs x). assert (Fa : isfin a = true) by (unfold a; rewrite isfin_fabs; exact Fx). assert (Ba : 0 <= val a <= 8192) by (unfold a; rewrite val_fabs; pose proof (Rabs_pos (val x)); lra).
  assert (Sa : sgn a = false) by apply sgn_fabs. destruct (sin_key a Fa Ba) as (m & K). destruct (sin_quarter a m Fa Sa Ba K) as [F V].
  destruct (red_all I n HI a Fa Ba) as (_ & _ & FB & _ & BB & _). pose proof (quarter_one (key (val a) - 2 * m) _ FB BB) as Q. apply Rabs_le_inv in Q.
  rewrite (sin_signed c I n x). fold a. destruct (sgn x); rewrite ?isfin_fneg, ?val_fneg; (split; [exact F|rewrite V; destruct (Z.odd m); lra]).
Qed.
Lemma cos_within x : isfin x = true -> Rabs (val x) <= 8192 -> isfin (vec_cos_float c I n x) = true /\ -1 <= val (vec_cos_float c I n x) <= 1.
Proof.
  intros Fx Bx. set (a := fabs x). assert (Fa : isfin a = true) by (unfold a; rewrite isfin_fabs; exact Fx). assert (Ba : 0 <= val a <= 8192) by (unfold a; rewrite val_fabs; pose proof (Rabs_pos (val x)); lra).
  assert (Sa : sgn a = false) by apply sgn_fabs.
  assert (K : (key (val a) - (2 * (key (val a) / 2) + 1) = -1 \/ key (val a) - (2 * (key (val a) / 2) + 1) = 0 \/ key (val a) - (2 * (key (val a) / 2) + 1) = 1)%Z).
  { pose proof (Z.div_mod (key (val a)) 2 ltac:(lia)). pose proof (Z.mod_pos_bound (key (val a)) 2 ltac:(lia)). lia. }
  set (m := (key (val a) / 2)%Z) in *. clearbody m. destruct (cos_quarter a m Fa Sa Ba K) as [F V].
  destruct (red_all I n HI a Fa Ba) as (_ & _ & FB & _ & BB & _). pose proof (quarter_one (key (val a) - (2 * m + 1)) _ FB BB) as Q. apply Rabs_le_inv in Q.
  rewrite (cos_abs c I n x). fold a. split; [exact F|rewrite V; destruct (Z.odd m); lra].
Qed.

(** Half waves of either sign. *)
Lemma sin_zero x : isfin x = true -> val x = 0 -> val (vec_sin_float c I n x) = 0.
Proof.
  intros Fx Zx. set (a := fabs x). assert (Fa : isfin a = true) by (unfold a; rewrite isfin_fabs; exact Fx). assert (Va : val a = 0) by (unfold a; rewrite val_fabs, Zx; apply Rabs_R0).
  assert (K0 : key 0 = 0%Z) by (unfold key; rewrite Rmult_0_l, rnd_0, (Zfloor_imp 0); [reflexivity|simpl; lra]).
  destruct (sin_quarter a 0 Fa ltac:(apply sgn_fabs) ltac:(lra) ltac:(rewrite Va, K0; lia)) as [F V]. cbn [Z.odd] in V.
  rewrite Va, K0 in V. change (0 - 2 * 0)%Z with 0%Z in V. unfold quarter in V. cbn [Z.ltb Z.compare] in V.
  destruct (red_all I n HI a Fa ltac:(lra)) as (_ & _ & FB & _ & BB & _ & P & N). rewrite Va, K0, Rmult_0_l, Rminus_0_r in P, N. specialize (P ltac:(lra)). specialize (N ltac:(lra)).
  set (b := base_of I n a) in *. destruct (trig_sin_eq n b FB BB) as (_ & E & _). destruct (sin_r_low n b FB ltac:(lra)) as (_ & R). assert (VB : val b = 0) by lra.
  rewrite VB, Rmult_0_l, Rmult_0_r in R. apply Rabs_le_inv in R. rewrite VB in E. assert (Z : val (trig_sin n b) = 0) by (rewrite E; replace (_ + 0) with 0 by lra; apply rnd_0).
  rewrite (sin_signed c I n x). fold a. destruct (sgn x); rewrite ?val_fneg, V, Z; lra.
Qed.
Lemma sin_nonneg_abs x : isfin x = true -> 0 <= val x -> val (vec_sin_float c I n x) = val (vec_sin_float c I n (fabs x)).
Proof.
  intros Fx H. destruct (Req_dec (val x) 0) as [Z|Z].
  - rewrite !sin_zero; try reflexivity; rewrite ?isfin_fabs, ?val_fabs, ?Z, ?Rabs_R0; auto.
  - rewrite (sin_signed c I n x). pose proof (sgn_val_gen x Fx) as S. destruct (sgn x); [|reflexivity]. pose proof (Rabs_pos (val x)). lra.
Qed.
Lemma sin_minus x : isfin x = true -> val (vec_sin_float c I n (fneg x)) = - val (vec_sin_float c I n x).
Proof.
  intros Fx. rewrite (sin_signed c I n x), (sin_signed c I n (fneg x)). rewrite sgn_fneg. replace (fabs (fneg x)) with (fabs x) by (destruct x; reflexivity).
  destruct (sgn x); cbn [negb]; rewrite ?val_fneg; lra.
Qed.
(** Proof auxiliary: the sign of a half wave. *)
Definition sg (m : Z) (r : R) : R := if Z.odd m then - r else r.
Lemma sin_half_pos m x y : isfin x = true -> isfin y = true -> 0 <= val x <= val y -> val y <= 8192 ->
  Rabs (val x - IZR m * PI) <= PI / 2 -> Rabs (val y - IZR m * PI) <= PI / 2 -> sg m (val (vec_sin_float c I n x)) <= sg m (val (vec_sin_float c I n y)).
Proof.
  intros Fx Fy H B HX HY. rewrite (sin_nonneg_abs x Fx) by lra. rewrite (sin_nonneg_abs y Fy) by lra.
  assert (FX : isfin (fabs x) = true) by (rewrite isfin_fabs; exact Fx). assert (FY : isfin (fabs y) = true) by (rewrite isfin_fabs; exact Fy).
  assert (VX : val (fabs x) = val x) by (rewrite val_fabs; apply Rabs_pos_eq; lra). assert (VY : val (fabs y) = val y) by (rewrite val_fabs; apply Rabs_pos_eq; lra).
  assert (M2 : IZR m * PI = IZR (2 * m) * (PI / 2)) by (rewrite mult_IZR; lra). rewrite M2 in HX, HY. rewrite <- VX in HX. rewrite <- VY in HY. rewrite <- VX, <- VY in H. rewrite <- VY in B.
  destruct (sin_quarter (fabs x) m FX (sgn_fabs x) ltac:(lra)) as [_ EX]; [apply near_key; [exact FX|lra|exact HX]|].
  destruct (sin_quarter (fabs y) m FY (sgn_fabs y) ltac:(lra)) as [_ EY]; [apply near_key; [exact FY|lra|exact HY]|].
  pose proof (wave_up (2 * m) _ _ FX FY H B HX HY) as W. rewrite EX, EY. unfold sg. destruct (Z.odd m); lra.
Qed.
Lemma sin_half m x y : isfin x = true -> isfin y = true -> val x <= val y -> Rabs (val x) <= 8192 -> Rabs (val y) <= 8192 ->
  Rabs (val x - IZR m * PI) <= PI / 2 -> Rabs (val y - IZR m * PI) <= PI / 2 -> sg m (val (vec_sin_float c I n x)) <= sg m (val (vec_sin_float c I n y)).
Proof.
  intros Fx Fy H BX BY HX HY. pose proof pi_range as PR. apply Rabs_le_inv in BX. apply Rabs_le_inv in BY.
  assert (NEG : forall z : F F32, Rabs (val z - IZR m * PI) <= PI / 2 -> Rabs (val (fneg z) - IZR (- m) * PI) <= PI / 2).
  { intros z Hz. rewrite val_fneg, opp_IZR. replace (- val z - - IZR m * PI) with (- (val z - IZR m * PI)) by ring. rewrite Rabs_Ropp. exact Hz. }
  assert (SN : forall r, sg (- m) (- r) = - sg m r) by (intros r; unfold sg; rewrite Z.odd_opp; destruct (Z.odd m); lra).
  destruct (Rle_dec 0 (val x)) as [P|P]; [apply sin_half_pos; try assumption; lra|].
  destruct (Rle_dec (val y) 0) as [Q|Q].
  - assert (FX : isfin (fneg x) = true) by (rewrite isfin_fneg; exact Fx). assert (FY : isfin (fneg y) = true) by (rewrite isfin_fneg; exact Fy).
    pose proof (sin_half_pos (- m) _ _ FY FX ltac:(rewrite !val_fneg; lra) ltac:(rewrite val_fneg; lra) (NEG y HY) (NEG x HX)) as S.
    rewrite !sin_minus, !SN in S by assumption. lra.
  - assert (M0 : m = 0%Z).
    { apply Rabs_le_inv in HX. apply Rabs_le_inv in HY. assert (IZR m < 1) by nra. assert (-1 < IZR m) by nra. 
      assert (m < 1)%Z by (apply lt_IZR; assumption). assert (-1 < m)%Z by (apply lt_IZR; assumption). lia. }
    subst m. unfold sg. cbn [Z.odd]. assert (F0 : isfin (f_ofZ F32 0) = true) by reflexivity. assert (V0 : val (f_ofZ F32 0) = 0) by reflexivity.
    assert (H0 : Rabs (val (f_ofZ F32 0) - 0 * PI) <= PI / 2) by (rewrite V0, Rmult_0_l, Rminus_0_r, Rabs_R0; lra).
    pose proof (sin_half_pos 0 _ y F0 Fy ltac:(rewrite V0; lra) ltac:(lra) H0 HY) as S1. 
    assert (FX : isfin (fneg x) = true) by (rewrite isfin_fneg; exact Fx).
    pose proof (sin_half_pos 0 _ _ F0 FX ltac:(rewrite V0, val_fneg; lra) ltac:(rewrite val_fneg; lra) H0 (NEG x HX)) as S2. unfold sg in S1, S2. cbn [Z.odd] in S1, S2.
    rewrite (sin_zero _ F0 V0) in S1, S2. rewrite sin_minus in S2 by exact Fx. lra.
Qed.
Lemma cos_half_pos m x y : isfin x = true -> isfin y = true -> sgn x = false -> sgn y = false -> 0 <= val x <= val y -> val y <= 8192 ->
  IZR m * PI <= val x -> val y <= (IZR m + 1) * PI -> sg m (val (vec_cos_float c I n y)) <= sg m (val (vec_cos_float c I n x)).
Proof.
  intros Fx Fy Sx Sy H B HX HY. pose proof pi_range as PR. assert (M2 : IZR (2 * m + 1) * (PI / 2) = IZR m * PI + PI / 2) by (rewrite plus_IZR, mult_IZR; lra).
  assert (HX' : Rabs (val x - IZR (2 * m + 1) * (PI / 2)) <= PI / 2) by (rewrite M2; apply Rabs_le; lra).
  assert (HY' : Rabs (val y - IZR (2 * m + 1) * (PI / 2)) <= PI / 2) by (rewrite M2; apply Rabs_le; lra).
  destruct (cos_quarter x m Fx Sx ltac:(lra)) as [_ EX]; [apply near_key; [exact Fx|lra|exact HX']|].
  destruct (cos_quarter y m Fy Sy ltac:(lra)) as [_ EY]; [apply near_key; [exact Fy|lra|exact HY']|].
  pose proof (wave_up (2 * m + 1) x y Fx Fy H B HX' HY') as W. rewrite EX, EY. unfold sg. destruct (Z.odd m); lra.
Qed.
Lemma cos_half m x y : isfin x = true -> isfin y = true -> val x <= val y -> Rabs (val x) <= 8192 -> Rabs (val y) <= 8192 ->
  IZR m * PI <= val x -> val y <= (IZR m + 1) * PI -> sg m (val (vec_cos_float c I n y)) <= sg m (val (vec_cos_float c I n x)).
Proof.
  intros Fx Fy H BX BY HX HY. pose proof pi_range as PR. rewrite (cos_abs c I n x), (cos_abs c I n y). rewrite <- val_fabs in BX, BY.
  assert (FX : isfin (fabs x) = true) by (rewrite isfin_fabs; exact Fx). assert (FY : isfin (fabs y) = true) by (rewrite isfin_fabs; exact Fy).
  destruct (Z_le_dec 0 m) as [M|M].
  - apply IZR_le in M. assert (0 <= IZR m * PI) by nra. assert (VX : val (fabs x) = val x) by (rewrite val_fabs; apply Rabs_pos_eq; lra). assert (VY : val (fabs y) = val y) by (rewrite val_fabs; apply Rabs_pos_eq; lra).
    apply cos_half_pos; try assumption; try apply sgn_fabs; rewrite ?VX, ?VY in *; lra.
  - assert (M' : (m <= -1)%Z) by lia. apply IZR_le in M'. assert ((IZR m + 1) * PI <= 0) by nra.
    assert (VX : val (fabs x) = - val x) by (rewrite val_fabs; apply Rabs_left1; lra). assert (VY : val (fabs y) = - val y) by (rewrite val_fabs; apply Rabs_left1; lra).
    assert (SG : forall r, sg (- m - 1) r = - sg m r) by (intros r; unfold sg; rewrite Z.odd_sub, Z.odd_opp; destruct (Z.odd m); cbn; lra).
    assert (MI : IZR (- m - 1) = - IZR m - 1) by (rewrite minus_IZR, opp_IZR; reflexivity).
    pose proof (cos_half_pos (- m - 1) _ _ FY FX (sgn_fabs y) (sgn_fabs x) ltac:(rewrite VX, VY; lra) ltac:(rewrite VX in *; lra) ltac:(rewrite VY, MI; lra) ltac:(rewrite VX, MI; lra)) as S.
    rewrite !SG in S. lra.
Qed.
End J.
