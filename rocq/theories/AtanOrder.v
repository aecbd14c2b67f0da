(** Range of arc tangent, and its failure to be monotone. *)
From Coq Require Import ZArith Reals Ratan List Lia Lra Bool.
From Flocq Require Import Core IEEE754.Binary IEEE754.Bits.
From Verif Require Import Base Mem Backend Lanes Float LaneOps TransMath SpecLane SpecInt SpecOrder
  FloatFacts FloatRound LaneFacts VecFacts VecMore VecMore2 RoundFacts RoundMore TransConst ErrFacts NearFacts TransFacts RealTrig RealArc RealOrder LogFacts ExpFacts TrigFacts SinFacts OddFacts ArcFacts AtanFacts MonoFacts.
Local Open Scope R_scope.
#[local] Opaque litf litd.

Section S.
Context (c : cfg) (I : isa) (n : nans F32) (HI : x86 I).
Notation one := (f_ofZ F32 1).
Notation top := (13176795 / 8388608).
Lemma top_ok : isfin (f_lit F32 13176795 (-23)) = true /\ val (f_lit F32 13176795 (-23)) = top.
Proof. destruct (lit_range 13176795 (-23)) as [A V]; [lia|lia|]. split; [exact A|]. rewrite V. change (bpow radix2 (-23)) with (/ 8388608). reflexivity. Qed.
Lemma not_above (y : F F32) : isfin y = true -> val y <= top + 1e-7 -> val y <= top.
Proof.
  intros Fy H. destruct top_ok as [FT VT]. destruct (Rle_dec (val y) top) as [|N]; [assumption|].
  pose proof (gap_above _ y 0 ltac:(lia) FT Fy) as G. rewrite VT in G. change (bpow radix2 (0 - 23)) with (/ 8388608) in G. change (bpow radix2 0) with 1 in G. specialize (G ltac:(lra)). lra.
Qed.
Lemma atan_end_le x : isfin x = true -> -0.4143 <= val x <= 0 -> val (atan_end n O2 x) <= top.
Proof.
  intros Fx Bx. pose proof eta_tiny' as ET. pose proof eta_small as ES. assert (AX : Rabs (val x) = - val x) by (apply Rabs_left1; lra).
  assert (FO : isfin O2 = true) by (apply litd_157079632679489661923132169163975144209858469968754_50). pose proof val_litd_157079632679489661923132169163975144209858469968754_50 as VO.
  pose proof (tail_near n x _ _ _ _ Fx ltac:(lra) (atan_P_near n x Fx ltac:(lra)) ltac:(lra) ltac:(lra)) as [FT _ ETL _].
  rewrite AX in ETL. set (w := - val x) in *. assert (W1 : 0 <= w <= 0.4143) by (unfold w; lra). assert (W2 : 0 <= w * w <= 0.1717) by (clearbody w; nra). assert (W3 : 0 <= w * w * w <= 0.1717 * w) by (clearbody w; nra).
  assert (Z : 0 <= val x * val x <= 0.1717) by (replace (val x * val x) with (w * w) by (unfold w; ring); exact W2). pose proof (atan_q_range _ Z) as Q.
  replace (val x * val x * val x * atan_q (val x * val x)) with (w * w * w * - atan_q (val x * val x)) in ETL by (unfold w; ring).
  assert (RB : w * w * w * - atan_q (val x * val x) <= w * w * w * 0.34) by (apply Rmult_le_compat_l; lra).
  assert (RP : 0 <= w * w * w * - atan_q (val x * val x)) by (apply Rmult_le_pos; lra).
  unfold atan_end. set (T := fmul n (cube_of n x) (atan_P n x)) in *. set (r := w * w * w * - atan_q (val x * val x)) in *. apply Rabs_le_inv in ETL.
  assert (TU : val T <= 0.35 * (w * w * w) + 4e-9) by lra. assert (TL : -0.01 <= val T) by lra.
  destruct (fadd_fin n O2 x FO Fx) as (F1 & V1 & _); [apply small_fin; rewrite VO; apply Rabs_le; lra|]. set (s := fadd n O2 x) in *.
  assert (SU : val s <= top) by (rewrite V1; apply rnd_le_format; [rewrite <- (proj2 top_ok); apply val_format|rewrite VO; lra]).
  pose proof (rnd_eta (val O2 + val x)) as R1. rewrite <- V1 in R1. rewrite VO, (Rabs_pos_eq (_ + val x)) in R1 by lra. apply Rabs_le_inv in R1.
  destruct (fadd_fin n s T F1 FT) as (F2 & V2 & _); [apply small_fin; apply Rabs_le; unfold w in *; lra|].
  apply not_above; [exact F2|]. rewrite V2. pose proof (rnd_eta (val s + val T)) as R2. rewrite (Rabs_pos_eq (val s + val T)) in R2 by (unfold w in *; lra). apply Rabs_le_inv in R2.
  destruct (Rle_dec w (/ 256)) as [C|C]; [|unfold w in *; lra].
  assert (w * w * w <= / 16777216). { assert (K2 : w * w <= / 256 * / 256) by (apply Rmult_le_compat; lra). apply Rle_trans with (/ 256 * / 256 * / 256); [apply Rmult_le_compat; lra|lra]. }
  pose proof (rnd_err 1 (val s + val T) ltac:(lia)) as R3. change (bpow radix2 1) with 2 in R3. change (bpow radix2 (1 - 25)) with (/ 16777216) in R3.
  specialize (R3 ltac:(apply Rabs_le; unfold w in *; lra)). apply Rabs_le_inv in R3. lra.
Qed.
Lemma atan_pos_le a : sgn a = false -> isfin a = true -> val (vec_atan_float c I n a) <= top.
Proof.
  intros Sa Fa. pose proof (sgn_val_gen a Fa) as PA. rewrite Sa in PA. pose proof (Rabs_pos (val a)) as P0.
  destruct (Rle_dec (val a) (5062973 / 2097152)) as [L|L].
  - destruct (atan_accurate c I n HI a Fa) as [_ E]. pose proof eta_small as ES.
    assert (AU : 0 <= atan (val a) <= 1.5). { split; [apply atan_nonneg; lra|]. apply atan_5_2; lra. }
    rewrite (Rabs_pos_eq (atan _)) in E by lra. apply Rabs_le_inv in E. lra.
  - rewrite (atan_form c I n HI a Sa).
    assert (FL0 : isfin L0 = true) by (apply litd_41421356237309504880168872420969807856967187537695_50). pose proof val_litd_41421356237309504880168872420969807856967187537695_50 as VL0.
    assert (FL1 : isfin L1 = true) by (apply litd_241421356237309504880168872420969807856967187537698_50). pose proof val_litd_241421356237309504880168872420969807856967187537698_50 as VL1.
    rewrite (gt_true I HI a L0 Fa FL0) by (rewrite VL0; lra). rewrite (gt_true I HI a L1 Fa FL1) by (rewrite VL1; lra).
    destruct one_ok as (F1 & V1 & _). assert (FM : isfin (fneg one) = true) by (rewrite isfin_fneg; exact F1). assert (VM : val (fneg one) = -1) by (rewrite val_fneg, V1; ring).
    assert (IU : 0 < / val a <= 0.41422). { split; [apply Rinv_0_lt_compat; lra|]. apply Rmult_le_reg_r with (val a); [lra|]. rewrite Rinv_l by lra. lra. }
    assert (UE : -1 / val a = - / val a) by (unfold Rdiv; ring).
    destruct (fdiv_fin n (fneg one) a FM ltac:(lra)) as (FX & VX & _); [apply small_fin; rewrite VM, UE, Rabs_Ropp, Rabs_pos_eq; lra|]. rewrite VM, UE in VX.
    apply atan_end_le; [exact FX|]. rewrite VX. split; [|rewrite <- (rnd_0 (t := F32)); apply rnd_le; lra].
    pose proof (rnd_eta (- / val a)) as E. pose proof eta_small as ES. rewrite Rabs_Ropp, (Rabs_pos_eq (/ val a)) in E by lra. apply Rabs_le_inv in E. lra.
Qed.
Lemma atan_ranges : ranges (fun _ => True) (- top) top (vec_atan_float c I n).
Proof.
  intros x Fx _. destruct (atan_accurate c I n HI x Fx) as [FR _]. split; [exact FR|].
  assert (FA : isfin (fabs x) = true) by (rewrite isfin_fabs; exact Fx). pose proof (atan_pos_le (fabs x) (sgn_fabs x) FA) as U.
  destruct (atan_accurate c I n HI (fabs x) FA) as [_ E]. pose proof eta_small as ES. 
  assert (AU : 0 <= atan (val (fabs x))) by (rewrite val_fabs; apply atan_nonneg; apply Rabs_pos). rewrite (Rabs_pos_eq (atan _)) in E by lra. apply Rabs_le_inv in E.
  rewrite (atan_signed c I n x). destruct (sgn x); rewrite ?val_fneg; lra.
Qed.
Lemma atan_dip_bits : bits (vec_atan_float c I n (f_lit F32 9327150 (-24))) = bits (f_lit F32 8512647 (-24)) /\ bits (vec_atan_float c I n (f_lit F32 9327149 (-24))) = bits (f_lit F32 8512648 (-24)).
Proof. destruct HI as [-> | ->]; [destruct c as [[] ? [] ?]|]; refine (conj _ _); vm_compute; reflexivity. Qed.
End S.
