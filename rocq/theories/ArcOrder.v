(** Arc sine and arc cosine keep (reverse) order exactly. *)
From Coq Require Import ZArith Reals Ratan List Lia Lra Bool.
From Flocq Require Import Core IEEE754.Binary IEEE754.Bits.
From Verif Require Import Base Backend Lanes Float LaneOps ScalarMath VecMath IntVec TransMath SpecLane SpecInt
  FloatFacts FloatRound LaneFacts VecFacts VecMore VecMore2 RoundFacts RoundMore RoundMore2 IntFacts LdexpFacts TransConst ErrFacts ErrTac LastStep NearFacts TransFacts RealTanh TanhFacts RealTrig RealArc LogFacts ExpFacts TrigFacts SinFacts OddFacts ArcFacts TrigMore MonoFacts SpecOrder.
Import ListNotations.
Local Open Scope R_scope.
#[local] Opaque litf litd.

Section S.
Context (c : cfg) (I : isa) (n : nans F32) (HI : x86 I).
Lemma arc_up x y : upto_ x y 512 -> upto_ (arc n x) (arc n y) 600.
Proof.
  intros H. assert (H2 : upto_ (fmul n x x) (fmul n y y) 256) by (apply (upto_mul n x y 512 x y 512); assumption || lia).
  unfold arc, cube_of, asin_P.
  destruct litd_166667520999908447265625_24 as (F0 & _ & _). pose proof val_litd_166667520999908447265625_24 as V0.
  destruct litd_74953101575374603271484375_27 as (F1 & _ & _). pose proof val_litd_74953101575374603271484375_27 as V1.
  destruct litd_454690195620059967041015625_28 as (F2 & _ & _). pose proof val_litd_454690195620059967041015625_28 as V2.
  destruct litd_2418550290167331695556640625_29 as (F3 & _ & _). pose proof val_litd_2418550290167331695556640625_29 as V3.
  destruct litd_421570129692554473876953125_28 as (F4 & _ & _). pose proof val_litd_421570129692554473876953125_28 as V4.
  pose proof (upto_const _ 200 F0 ltac:(rewrite V0; lra)) as K0. pose proof (upto_const _ 100 F1 ltac:(rewrite V1; lra)) as K1. pose proof (upto_const _ 60 F2 ltac:(rewrite V2; lra)) as K2.
  pose proof (upto_const _ 40 F3 ltac:(rewrite V3; lra)) as K3. pose proof (upto_const _ 60 F4 ltac:(rewrite V4; lra)) as K4.
  apply (upto_add n x y 512 _ _ 80); [exact H| |lia|lia|lia].
  apply (upto_mul n _ _ 128 _ _ 300); [|  |lia|lia|lia|lia]; [apply (upto_mul n x y 512 _ _ 256); [exact H|exact H2|lia|lia|lia|lia]|].
  apply (upto_add n _ _ 200 _ _ 100); [exact K0| |lia|lia|lia]. apply (upto_mul n _ _ 256 _ _ 200); [exact H2| |lia|lia|lia|lia].
  apply (upto_add n _ _ 100 _ _ 100); [exact K1| |lia|lia|lia]. apply (upto_mul n _ _ 256 _ _ 200); [exact H2| |lia|lia|lia|lia].
  apply (upto_add n _ _ 60 _ _ 100); [exact K2| |lia|lia|lia]. apply (upto_mul n _ _ 256 _ _ 200); [exact H2| |lia|lia|lia|lia].
  apply (upto_add n _ _ 40 _ _ 100); [exact K3| |lia|lia|lia]. apply (upto_mul n _ _ 256 _ _ 60); [exact H2|exact K4|lia|lia|lia|lia].
Qed.
Lemma arc_red_down a b : isfin a = true -> isfin b = true -> 0.5 <= val a <= val b -> val b <= 1 -> upto_ (arc_red n b) (arc_red n a) 512.
Proof.
  intros Fa Fb H B. destruct (arc_red_ok n a Fa ltac:(lra)) as (FA & RA & _). destruct (arc_red_ok n b Fb ltac:(lra)) as (FB & RB & _).
  split; [exact FB|]. split; [exact FA|]. split; [lra|]. split; [|lra].
  destruct one_ok as (F1 & V1 & _). destruct half_ok as [FH VH].
  destruct (fsub_fin n (f_ofZ F32 1) a F1 Fa) as (S1 & W1 & _); [apply small_fin; rewrite V1; apply Rabs_le; lra|].
  destruct (fsub_fin n (f_ofZ F32 1) b F1 Fb) as (S2 & W2 & _); [apply small_fin; rewrite V1; apply Rabs_le; lra|].
  rewrite V1 in W1, W2.
  assert (U : upto_ (fsub n (f_ofZ F32 1) b) (fsub n (f_ofZ F32 1) a) 1024).
  { split; [exact S2|]. split; [exact S1|]. rewrite W1, W2. split; [apply rnd_nonneg; lra|]. split; [apply rnd_le; lra|apply (rnd_grain _ 1024); [lia|lra]]. }
  assert (UH : upto_ (f_lit F32 1 (-1)) (f_lit F32 1 (-1)) 512) by (apply upto_const; [exact FH|rewrite VH; lra]).
  pose proof (upto_mul n _ _ _ _ _ _ 512 U UH ltac:(lia) ltac:(lia) ltac:(lia) ltac:(lia)) as UM.
  destruct (upto_sqrt n _ _ 512 1024 UM ltac:(lia) ltac:(lia)) as (_ & _ & _ & L & _). exact L.
Qed.

(** asin on [0, 1] *)
Lemma asin_low_up a b : isfin a = true -> isfin b = true -> sgn a = false -> sgn b = false -> 0 <= val a <= val b -> val b <= 0.5 ->
  val (vec_asin_float c I n a) <= val (vec_asin_float c I n b).
Proof.
  intros Fa Fb Sa Sb H B. rewrite !(asin_is_arc c I n HI) by (assumption || lra). 
  apply (arc_up a b). split; [exact Fa|]. split; [exact Fb|]. lra.
Qed.
Lemma asin_high_up a b : isfin a = true -> isfin b = true -> sgn a = false -> sgn b = false -> 0.5 < val a <= val b -> val b <= 1 ->
  val (vec_asin_float c I n a) <= val (vec_asin_float c I n b).
Proof.
  intros Fa Fb Sa Sb H B. destruct one_ok as (F1 & V1 & _). destruct litd_5_1 as (F5 & _ & _). pose proof val_litd_5_1 as V5.
  rewrite (asin_form c I n HI a Sa (gt_false I HI a _ Fa F1 ltac:(rewrite V1; lra))), (asin_form c I n HI b Sb (gt_false I HI b _ Fb F1 ltac:(rewrite V1; lra))).
  rewrite (gt_true I HI a _ Fa F5 ltac:(rewrite V5; lra)), (gt_true I HI b _ Fb F5 ltac:(rewrite V5; lra)).
  pose proof (arc_up _ _ (arc_red_down a b Fa Fb ltac:(lra) B)) as (FQ & FP & Q0 & QP & PM).
  set (p := arc n (arc_red n a)) in *. set (q := arc n (arc_red n b)) in *. clearbody p q.
  destruct litd_157079637050628662109375_23 as (FC & _ & _). pose proof val_litd_157079637050628662109375_23 as VC. set (C := litd 157079637050628662109375 23) in *.
  assert (CB : 1.5 <= val C <= 1.6) by (rewrite VC; lra). clear VC.
  destruct (fsub_fin n C p FC FP) as (F2 & V2 & _); [apply small_fin; apply Rabs_le; lra|]. destruct (fsub_fin n C q FC FQ) as (F3 & V3 & _); [apply small_fin; apply Rabs_le; lra|].
  assert (L : val (fsub n C p) <= val (fsub n C q)) by (rewrite V2, V3; apply rnd_le; lra).
  assert (G2 : Rabs (val (fsub n C p)) <= 2) by (rewrite V2; apply (rnd_le_bpow 1); [lia|change (bpow radix2 1) with 2; apply Rabs_le; lra]).
  assert (G3 : Rabs (val (fsub n C q)) <= 2) by (rewrite V3; apply (rnd_le_bpow 1); [lia|change (bpow radix2 1) with 2; apply Rabs_le; lra]).
  apply Rabs_le_inv in G2. apply Rabs_le_inv in G3.
  destruct (fsub_fin n (fsub n C p) p F2 FP) as (_ & V4 & _); [apply small_fin; apply Rabs_le; lra|]. destruct (fsub_fin n (fsub n C q) q F3 FQ) as (_ & V5' & _); [apply small_fin; apply Rabs_le; lra|].
  rewrite V4, V5'. apply rnd_le. lra.
Qed.
(** the joint at 1/2 *)
Lemma asin_half_bits : bits (vec_asin_float c I n (f_lit F32 1 (-1))) = bits (f_lit F32 8784530 (-24)).
Proof. destruct HI as [-> | ->]; [destruct c as [[] ? [] ?]|]; vm_compute; reflexivity. Qed.
Lemma asin_next_bits : bits (vec_asin_float c I n (f_lit F32 8388609 (-24))) = bits (f_lit F32 8784531 (-24)).
Proof. destruct HI as [-> | ->]; [destruct c as [[] ? [] ?]|]; vm_compute; reflexivity. Qed.
Lemma asin_one_bits : bits (vec_asin_float c I n (f_ofZ F32 1)) = bits (f_lit F32 13176795 (-23)).
Proof. destruct HI as [-> | ->]; [destruct c as [[] ? [] ?]|]; vm_compute; reflexivity. Qed.
Lemma asin_pos_up a b : isfin a = true -> isfin b = true -> sgn a = false -> sgn b = false -> 0 <= val a <= val b -> val b <= 1 ->
  val (vec_asin_float c I n a) <= val (vec_asin_float c I n b).
Proof.
  intros Fa Fb Sa Sb H B. destruct half_ok as [FH VH]. destruct (lit_range 8388609 (-24)) as [FN VN]; [lia|lia|].
  assert (VN' : val (f_lit F32 8388609 (-24)) = 8388609 / 16777216) by (rewrite VN; change (bpow radix2 (-24)) with (/ 16777216); lra). clear VN.
  destruct (Rle_dec (val b) 0.5) as [L|L]; [apply asin_low_up; assumption|]. destruct (Rlt_dec 0.5 (val a)) as [G|G]; [apply asin_high_up; try assumption; lra|].
  apply Rle_trans with (val (vec_asin_float c I n (f_lit F32 1 (-1)))); [apply asin_low_up; try assumption; try reflexivity; rewrite VH; lra|].
  apply Rle_trans with (val (vec_asin_float c I n (f_lit F32 8388609 (-24)))).
  - rewrite (bits_inj _ _ asin_half_bits), (bits_inj _ _ asin_next_bits). destruct (lit_range 8784530 (-24)) as [_ ->]; [lia|lia|]. destruct (lit_range 8784531 (-24)) as [_ ->]; [lia|lia|].
    apply Rmult_le_compat_r; [apply bpow_ge_0|lra].
  - apply asin_high_up; try assumption; try reflexivity; rewrite VN'; split; try lra.
    pose proof (gap_above (f_lit F32 1 (-1)) b (-1) ltac:(lia) FH Fb) as K. rewrite VH in K. change (bpow radix2 (-1)) with (/ 2) in K. change (bpow radix2 (-1 - 23)) with (/ 16777216) in K.
    specialize (K ltac:(lra)). lra.
Qed.
Lemma asin_pos_range a : isfin a = true -> sgn a = false -> 0 <= val a <= 1 -> isfin (vec_asin_float c I n a) = true /\ 0 <= val (vec_asin_float c I n a) <= 13176795 / 8388608.
Proof.
  intros Fa Sa H. destruct one_ok as (F1 & V1 & S1). destruct (asin_pos c I n HI a Fa Sa H) as [FF _]. split; [exact FF|]. split.
  - apply Rle_trans with (val (vec_asin_float c I n (f_ofZ F32 0))).
    + replace (f_ofZ F32 0) with (B754_zero 24 128 false : F F32) by reflexivity. pose proof (TrigMore.asin_zero c I n HI false) as Z. apply bits_inj in Z. rewrite Z. apply Rle_refl.
    + apply asin_pos_up; try assumption; try reflexivity; change (val (f_ofZ F32 0)) with 0; lra.
  - apply Rle_trans with (val (vec_asin_float c I n (f_ofZ F32 1))); [apply asin_pos_up; try assumption; try reflexivity; rewrite V1; lra|].
    rewrite (bits_inj _ _ asin_one_bits). destruct (lit_range 13176795 (-23)) as [_ ->]; [lia|lia|]. change (bpow radix2 (-23)) with (/ 8388608). lra.
Qed.
Lemma asin_signed_val x : isfin x = true -> Rabs (val x) <= 1 -> 
  isfin (vec_asin_float c I n x) = true /\
  (0 <= val x -> val (vec_asin_float c I n x) = val (vec_asin_float c I n (fabs x))) /\ (val x <= 0 -> val (vec_asin_float c I n x) = - val (vec_asin_float c I n (fabs x))).
Proof.
  intros Fx Bx. destruct one_ok as (F1 & V1 & _). assert (FX : isfin (fabs x) = true) by (rewrite isfin_fabs; exact Fx).
  split; [apply (asin_accurate c I n HI x Fx Bx)|].
  rewrite (asin_signed c I n HI x) by (apply (gt_false I HI); [exact FX|exact F1|rewrite val_fabs, V1; exact Bx]).
  pose proof (sgn_val_gen x Fx) as SV. pose proof (Rabs_pos (val x)) as AP.
  assert (Z : val x = 0 -> val (vec_asin_float c I n (fabs x)) = 0).
  { intros E. assert (fabs x = f_ofZ F32 0) as ->.
    { apply fin_eq; [exact FX|reflexivity| |rewrite sgn_fabs; reflexivity]. rewrite val_fabs, E, Rabs_R0. reflexivity. }
    replace (f_ofZ F32 0) with (B754_zero 24 128 false : F F32) by reflexivity. pose proof (TrigMore.asin_zero c I n HI false) as Z. apply bits_inj in Z. rewrite Z. reflexivity. }
  destruct (sgn x).
  - rewrite val_fneg. split; [|reflexivity]. intros P. rewrite Z by lra. lra.
  - split; [reflexivity|]. intros P. rewrite Z by lra. lra.
Qed.
Lemma asin_rising : rising (from_to (-1) 1) (vec_asin_float c I n).
Proof.
  intros x y Fx Fy Bx By L. unfold from_to in *. 
  destruct (asin_signed_val x Fx ltac:(apply Rabs_le; lra)) as (A1 & P1 & N1). destruct (asin_signed_val y Fy ltac:(apply Rabs_le; lra)) as (A2 & P2 & N2).
  split; [exact A1|]. split; [exact A2|].
  assert (FX : isfin (fabs x) = true) by (rewrite isfin_fabs; exact Fx). assert (FY : isfin (fabs y) = true) by (rewrite isfin_fabs; exact Fy).
  destruct (Rle_dec 0 (val x)) as [X|X].
  - rewrite P1, P2 by lra. apply asin_pos_up; try assumption; try apply sgn_fabs; rewrite !val_fabs, !Rabs_pos_eq; lra.
  - rewrite N1 by lra. destruct (asin_pos_range (fabs x) FX (sgn_fabs x) ltac:(rewrite val_fabs, Rabs_left; lra)) as [_ RX].
    destruct (Rle_dec 0 (val y)) as [Y|Y].
    + rewrite P2 by lra. destruct (asin_pos_range (fabs y) FY (sgn_fabs y) ltac:(rewrite val_fabs, Rabs_pos_eq; lra)) as [_ RY]. lra.
    + rewrite N2 by lra. apply Ropp_le_contravar. apply asin_pos_up; try assumption; try apply sgn_fabs; rewrite !val_fabs, !Rabs_left; lra.
Qed.
Lemma asin_ranges : ranges (from_to (-1) 1) (- (13176795 / 8388608)) (13176795 / 8388608) (vec_asin_float c I n).
Proof.
  intros x Fx Bx. unfold from_to in Bx. destruct (asin_signed_val x Fx ltac:(apply Rabs_le; lra)) as (A1 & P1 & N1). split; [exact A1|].
  assert (FX : isfin (fabs x) = true) by (rewrite isfin_fabs; exact Fx). 
  destruct (asin_pos_range (fabs x) FX (sgn_fabs x)) as [_ RX]. { rewrite val_fabs. pose proof (Rabs_pos (val x)). split; [lra|apply Rabs_le; lra]. }
  destruct (Rle_dec 0 (val x)); [rewrite P1 by lra|rewrite N1 by lra]; lra.
Qed.

(** ** acos *)
Lemma acos_mid x : isfin x = true -> - 0.5 < val x <= 0.5 -> vec_acos_float c I n x = fsub n (litd 157079637050628662109375 23) (vec_asin_float c I n x).
Proof.
  intros Fx B. destruct one_ok as (F1 & V1 & _). destruct half_ok as [FH VH]. destruct litd_5_1 as (F5 & _ & _). pose proof val_litd_5_1 as V5.
  assert (FX : isfin (fabs x) = true) by (rewrite isfin_fabs; exact Fx). assert (VX : val (fabs x) <= 0.5) by (rewrite val_fabs; apply Rabs_le; lra).
  assert (F5' : isfin (fneg (litd 5 1)) = true) by (rewrite isfin_fneg; exact F5). assert (V5' : val (fneg (litd 5 1)) = - 0.5) by (rewrite val_fneg, V5; lra).
  rewrite (acos_form c I n HI x (gt_false I HI (fabs x) _ FX F1 ltac:(rewrite V1; lra))). cbv zeta.
  rewrite (gt_false I HI (fabs x) _ FX FH ltac:(rewrite VH; lra)), (gt_true I HI x _ Fx F5' ltac:(rewrite V5'; lra)), (gt_false I HI x _ Fx FH ltac:(rewrite VH; lra)). reflexivity.
Qed.
Lemma acos_top x : isfin x = true -> 0.5 < val x <= 1 -> vec_acos_float c I n x = let p := arc n (arc_red n (fabs x)) in fadd n p p.
Proof.
  intros Fx B. destruct one_ok as (F1 & V1 & _). destruct half_ok as [FH VH]. destruct litd_5_1 as (F5 & _ & _). pose proof val_litd_5_1 as V5.
  assert (FX : isfin (fabs x) = true) by (rewrite isfin_fabs; exact Fx). assert (VX : val (fabs x) = val x) by (rewrite val_fabs; apply Rabs_pos_eq; lra).
  assert (F5' : isfin (fneg (litd 5 1)) = true) by (rewrite isfin_fneg; exact F5). assert (V5' : val (fneg (litd 5 1)) = - 0.5) by (rewrite val_fneg, V5; lra).
  rewrite (acos_form c I n HI x (gt_false I HI (fabs x) _ FX F1 ltac:(rewrite VX, V1; lra))). cbv zeta.
  rewrite (gt_true I HI (fabs x) _ FX FH ltac:(rewrite VX, VH; lra)), (gt_true I HI x _ Fx F5' ltac:(rewrite V5'; lra)), (gt_true I HI x _ Fx FH ltac:(rewrite VH; lra)).
  destruct (arc_red_ok n (fabs x) FX ltac:(rewrite VX; lra)) as (FR & BR & _ & _ & SR). rewrite (asin_is_arc c I n HI _ FR SR BR). reflexivity.
Qed.
Lemma acos_bottom x : isfin x = true -> -1 <= val x < - 0.5 -> vec_acos_float c I n x = let p := arc n (arc_red n (fabs x)) in fsub n (litd 31415927410125732421875 22) (fadd n p p).
Proof.
  intros Fx B. destruct one_ok as (F1 & V1 & _). destruct half_ok as [FH VH]. destruct litd_5_1 as (F5 & _ & _). pose proof val_litd_5_1 as V5.
  assert (FX : isfin (fabs x) = true) by (rewrite isfin_fabs; exact Fx). assert (VX : val (fabs x) = - val x) by (rewrite val_fabs; apply Rabs_left; lra).
  assert (F5' : isfin (fneg (litd 5 1)) = true) by (rewrite isfin_fneg; exact F5). assert (V5' : val (fneg (litd 5 1)) = - 0.5) by (rewrite val_fneg, V5; lra).
  rewrite (acos_form c I n HI x (gt_false I HI (fabs x) _ FX F1 ltac:(rewrite VX, V1; lra))). cbv zeta.
  rewrite (gt_true I HI (fabs x) _ FX FH ltac:(rewrite VX, VH; lra)), (gt_false I HI x _ Fx F5' ltac:(rewrite V5'; lra)).
  destruct (arc_red_ok n (fabs x) FX ltac:(rewrite VX; lra)) as (FR & BR & _ & _ & SR). rewrite (asin_is_arc c I n HI _ FR SR BR). reflexivity.
Qed.
Lemma twice_up p q : upto_ p q 600 -> upto_ (fadd n p p) (fadd n q q) 1200.
Proof. intros H. apply (upto_add n p q 600 p q 600); assumption || lia. Qed.
Lemma acos_mid_down x y : isfin x = true -> isfin y = true -> - 0.5 < val x <= val y -> val y <= 0.5 -> val (vec_acos_float c I n y) <= val (vec_acos_float c I n x).
Proof.
  intros Fx Fy L B. rewrite !acos_mid by (assumption || lra). destruct (asin_rising x y Fx Fy) as (A1 & A2 & A3); [unfold from_to; lra|unfold from_to; lra|lra|].
  destruct (asin_ranges x Fx ltac:(unfold from_to; lra)) as [_ R1]. destruct (asin_ranges y Fy ltac:(unfold from_to; lra)) as [_ R2].
  destruct litd_157079637050628662109375_23 as (FC & _ & _). pose proof val_litd_157079637050628662109375_23 as VC. set (C := litd 157079637050628662109375 23) in *.
  destruct (fsub_fin n C _ FC A1) as (_ & -> & _); [apply small_fin; rewrite VC; apply Rabs_le; lra|]. destruct (fsub_fin n C _ FC A2) as (_ & -> & _); [apply small_fin; rewrite VC; apply Rabs_le; lra|].
  apply rnd_le. lra.
Qed.
Lemma acos_top_down x y : isfin x = true -> isfin y = true -> 0.5 < val x <= val y -> val y <= 1 -> 0 <= val (vec_acos_float c I n y) <= val (vec_acos_float c I n x).
Proof.
  intros Fx Fy L B. rewrite !acos_top by (assumption || lra). cbv zeta.
  assert (FX : isfin (fabs x) = true) by (rewrite isfin_fabs; exact Fx). assert (FY : isfin (fabs y) = true) by (rewrite isfin_fabs; exact Fy).
  destruct (twice_up _ _ (arc_up _ _ (arc_red_down (fabs x) (fabs y) FX FY ltac:(rewrite !val_fabs, !Rabs_pos_eq; lra) ltac:(rewrite !val_fabs, !Rabs_pos_eq; lra)))) as (_ & _ & P1 & P2 & _). lra.
Qed.
Lemma acos_bottom_down x y : isfin x = true -> isfin y = true -> -1 <= val x <= val y -> val y < - 0.5 -> val (vec_acos_float c I n y) <= val (vec_acos_float c I n x) <= 13176795 / 4194304.
Proof.
  intros Fx Fy L B. rewrite !acos_bottom by (assumption || lra). cbv zeta.
  assert (FX : isfin (fabs x) = true) by (rewrite isfin_fabs; exact Fx). assert (FY : isfin (fabs y) = true) by (rewrite isfin_fabs; exact Fy).
  destruct (twice_up _ _ (arc_up _ _ (arc_red_down (fabs y) (fabs x) FY FX ltac:(rewrite !val_fabs, !Rabs_left; lra) ltac:(rewrite !val_fabs, !Rabs_left; lra)))) as (A1 & A2 & P1 & P2 & P3).
  destruct litd_31415927410125732421875_22 as (FC & _ & _). pose proof val_litd_31415927410125732421875_22 as VC. pose proof (val_format (litd 31415927410125732421875 22)) as GC. set (C := litd 31415927410125732421875 22) in *.
  destruct (fsub_fin n C _ FC A1) as (_ & -> & _); [apply small_fin; rewrite VC; apply Rabs_le; lra|]. destruct (fsub_fin n C _ FC A2) as (_ & -> & _); [apply small_fin; rewrite VC; apply Rabs_le; lra|].
  split; [apply rnd_le; lra|]. rewrite <- VC. apply rnd_le_format; [exact GC|lra].
Qed.
Lemma acos_l_bits : bits (vec_acos_float c I n (f_lit F32 (-8388609) (-24))) = bits (f_lit F32 8784530 (-22)).
Proof. destruct HI as [-> | ->]; [destruct c as [[] ? [] ?]|]; vm_compute; reflexivity. Qed.
Lemma acos_m_bits : bits (vec_acos_float c I n (f_lit F32 (-16777215) (-25))) = bits (f_lit F32 8784530 (-22)).
Proof. destruct HI as [-> | ->]; [destruct c as [[] ? [] ?]|]; vm_compute; reflexivity. Qed.
Lemma acos_h_bits : bits (vec_acos_float c I n (f_lit F32 1 (-1))) = bits (f_lit F32 8784530 (-23)).
Proof. destruct HI as [-> | ->]; [destruct c as [[] ? [] ?]|]; vm_compute; reflexivity. Qed.
Lemma acos_s_bits : bits (vec_acos_float c I n (f_lit F32 8388609 (-24))) = bits (f_lit F32 8784529 (-23)).
Proof. destruct HI as [-> | ->]; [destruct c as [[] ? [] ?]|]; vm_compute; reflexivity. Qed.
Lemma lit_val p e r : (Z.abs p <= 2 ^ 24)%Z -> (-149 <= e <= 100)%Z -> IZR p * bpow radix2 e = r -> isfin (f_lit F32 p e) = true /\ val (f_lit F32 p e) = r.
Proof. intros A B <-. apply lit_range; assumption. Qed.
Lemma above_half (y : F F32) : isfin y = true -> 0.5 < val y -> 8388609 / 16777216 <= val y.
Proof.
  intros Fy H. destruct half_ok as [FH VH]. pose proof (gap_above (f_lit F32 1 (-1)) y (-1) ltac:(lia) FH Fy) as K. rewrite VH in K. 
  change (bpow radix2 (-1)) with (/ 2) in K. change (bpow radix2 (-1 - 23)) with (/ 16777216) in K. specialize (K ltac:(lra)). lra.
Qed.
Lemma below_half (y : F F32) : isfin y = true -> - 0.5 < val y -> - 16777215 / 33554432 <= val y.
Proof.
  intros Fy H. destruct (Rle_dec (- 0.25) (val y)); [lra|]. destruct half_ok as [FH VH].
  pose proof (gap_above (fneg y) (f_lit F32 1 (-1)) (-2) ltac:(lia)) as K. rewrite VH, isfin_fneg, val_fneg in K.
  change (bpow radix2 (-2)) with (/ 4) in K. change (bpow radix2 (-2 - 23)) with (/ 33554432) in K. specialize (K Fy FH ltac:(lra)). lra.
Qed.
Lemma acos_mid_top x y : isfin x = true -> isfin y = true -> - 0.5 < val x <= 0.5 -> 0.5 < val y <= 1 -> val (vec_acos_float c I n y) <= val (vec_acos_float c I n x).
Proof.
  intros Fx Fy B1 B2. destruct half_ok as [FH VH]. destruct (lit_val 8388609 (-24) (8388609 / 16777216)) as [FS VS]; [lia|lia|change (bpow radix2 (-24)) with (/ 16777216); lra|].
  apply Rle_trans with (val (vec_acos_float c I n (f_lit F32 8388609 (-24)))); [apply acos_top_down; try assumption; rewrite ?VS; pose proof (above_half y Fy ltac:(lra)); lra|].
  apply Rle_trans with (val (vec_acos_float c I n (f_lit F32 1 (-1)))); [|apply acos_mid_down; try assumption; rewrite ?VH; lra].
  rewrite (bits_inj _ _ acos_s_bits), (bits_inj _ _ acos_h_bits). destruct (lit_range 8784529 (-23)) as [_ ->]; [lia|lia|]. destruct (lit_range 8784530 (-23)) as [_ ->]; [lia|lia|].
  apply Rmult_le_compat_r; [apply bpow_ge_0|lra].
Qed.
Lemma acos_bottom_mid x y : isfin x = true -> isfin y = true -> -1 <= val x < - 0.5 -> - 0.5 < val y <= 0.5 -> val (vec_acos_float c I n y) <= val (vec_acos_float c I n x).
Proof.
  intros Fx Fy B1 B2. 
  destruct (lit_val (-8388609) (-24) (- 8388609 / 16777216)) as [FS VS]; [lia|lia|change (bpow radix2 (-24)) with (/ 16777216); lra|].
  destruct (lit_val (-16777215) (-25) (- 16777215 / 33554432)) as [FM VM]; [lia|lia|change (bpow radix2 (-25)) with (/ 33554432); lra|].
  pose proof (above_half (fneg x) ltac:(rewrite isfin_fneg; exact Fx) ltac:(rewrite val_fneg; lra)) as G. rewrite val_fneg in G. pose proof (below_half y Fy ltac:(lra)) as G2.
  apply Rle_trans with (val (vec_acos_float c I n (f_lit F32 (-16777215) (-25)))); [apply acos_mid_down; try assumption; rewrite ?VM; lra|].
  apply Rle_trans with (val (vec_acos_float c I n (f_lit F32 (-8388609) (-24)))); [|apply acos_bottom_down; try assumption; rewrite ?VS; lra].
  rewrite (bits_inj _ _ acos_m_bits), (bits_inj _ _ acos_l_bits). apply Rle_refl.
Qed.
Lemma acos_falling : falling (fun r => -1 <= r <= 1 /\ r <> - 0.5) (vec_acos_float c I n).
Proof.
  intros x y Fx Fy [Bx Nx] [By Ny] L.
  split; [apply (acos_accurate c I n HI x Fx); [apply Rabs_le; lra|exact Nx]|]. split; [apply (acos_accurate c I n HI y Fy); [apply Rabs_le; lra|exact Ny]|].
  destruct (Rlt_dec (val x) (- 0.5)) as [X|X]; [|destruct (Rle_dec (val x) 0.5) as [X'|X']]; (destruct (Rlt_dec (val y) (- 0.5)) as [Y|Y]; [|destruct (Rle_dec (val y) 0.5) as [Y'|Y']]); try lra.
  - apply acos_bottom_down; try assumption; lra.
  - apply acos_bottom_mid; try assumption; lra.
  - destruct half_ok as [FH VH]. apply Rle_trans with (val (vec_acos_float c I n (f_lit F32 1 (-1)))); [apply acos_mid_top|apply acos_bottom_mid]; try assumption; rewrite ?VH; lra.
  - apply acos_mid_down; try assumption; lra.
  - apply acos_mid_top; try assumption; lra.
  - apply acos_top_down; try assumption; lra.
Qed.
Lemma acos_ranges : ranges (fun r => -1 <= r <= 1 /\ r <> - 0.5) 0 (13176795 / 4194304) (vec_acos_float c I n).
Proof.
  intros x Fx [Bx Nx]. split; [apply (acos_accurate c I n HI x Fx); [apply Rabs_le; lra|exact Nx]|].
  destruct one_ok as (F1 & V1 & _). destruct (lit_val (-1) 0 (-1)) as [FM VM]; [lia|lia|change (bpow radix2 0) with 1; lra|]. split.
  - apply Rle_trans with (val (vec_acos_float c I n (f_ofZ F32 1))); [|apply acos_falling; try assumption; rewrite ?V1; lra].
    apply (acos_top_down (f_ofZ F32 1) (f_ofZ F32 1) F1 F1); rewrite V1; lra.
  - apply Rle_trans with (val (vec_acos_float c I n (f_lit F32 (-1) 0))); [apply acos_falling; try assumption; rewrite ?VM; lra|].
    apply (acos_bottom_down (f_lit F32 (-1) 0) (f_lit F32 (-1) 0) FM FM); rewrite VM; lra.
Qed.
End S.
