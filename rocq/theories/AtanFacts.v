(** Accuracy of arc tangent. *)
From Coq Require Import ZArith Reals Ratan List Lia Lra Bool.
From Flocq Require Import Core IEEE754.Binary IEEE754.Bits.
From Verif Require Import Base Backend Lanes Float LaneOps ScalarMath VecMath IntVec TransMath SpecLane SpecInt
  FloatFacts FloatRound LaneFacts VecFacts VecMore VecMore2 RoundFacts RoundMore RoundMore2 IntFacts LdexpFacts TransConst ErrFacts ErrTac LastStep NearFacts TransFacts RealTanh TanhFacts RealTrig RealArc LogFacts ExpFacts TrigFacts SinFacts OddFacts ArcFacts.
Import ListNotations.
Local Open Scope R_scope.
#[local] Opaque litf litd.

(** Proof auxiliary: the polynomial of vec_atan_float (vec_math.hpp) in x*x. *)
Definition atan_P (n : nans F32) (x : F F32) : F F32 :=
  fadd n (fneg (litd 333329498767852783203125 24)) (fmul n (fmul n x x) (fadd n (litd 19977732002735137939453125 26) (fmul n (fmul n x x)
  (fadd n (fneg (litd 1387787759304046630859375 25)) (fmul n (fmul n x x) (litd 8054284751415252685546875 26)))))).
(** Proof auxiliary: the last step of atan, offset plus series. *)
Definition atan_end (n : nans F32) (o x : F F32) : F F32 := fadd n (fadd n o x) (fmul n (cube_of n x) (atan_P n x)).
Notation L0 := (litd 41421356237309504880168872420969807856967187537695 50).
Notation L1 := (litd 241421356237309504880168872420969807856967187537698 50).
Notation O1 := (litd 78539816339744830961566084581987572104929234984377 50).
Notation O2 := (litd 157079632679489661923132169163975144209858469968754 50).

Section S.
Context (c : cfg) (I : isa) (n : nans F32) (HI : x86 I).
Notation one := (f_ofZ F32 1).
Lemma atan_form a : sgn a = false ->
  vec_atan_float c I n a = if vrel I GT a L0 then if vrel I GT a L1 then atan_end n O2 (fdiv n (fneg one) a) else atan_end n O1 (fdiv n (fsub n a one) (fadd n a one))
    else atan_end n (f_ofZ F32 0) a.
Proof.
  intros Sa. assert (EA : fabs a = a) by (destruct a as [[]|[]|[]|[]]; reflexivity || discriminate).
  unfold vec_atan_float. cbv zeta. rewrite !band_abs, EA, gen_one_1. rewrite !select_vmask by (apply x86_neon; exact HI). rewrite bxor_sign, Sa, vneg_fneg.
  unfold atan_end, atan_P, cube_of, gen_zero. destruct (vrel I GT a L0), (vrel I GT a L1); reflexivity.
Qed.
Lemma atan_P_near b : isfin b = true -> Rabs (val b) <= 0.4143 -> near (atan_P n b) (atan_q (val b * val b)) 0.34 4e-8 0 1.
Proof.
  intros Fb Bb. assert (HB : holds b (val b) (- 4144 * 2 ^ 80 / 10000 - 1, 4144 * 2 ^ 80 / 10000 + 1, 0)%Z).
  { apply holds_var; [exact Fb|reflexivity|]. dyz. apply Rabs_le_inv in Bb. lra. }
  let t := eval unfold atan_P in (atan_P n b) in err_bound n [b] [val b] [(- 4144 * 2 ^ 80 / 10000 - 1, 4144 * 2 ^ 80 / 10000 + 1, 0)]%Z t H.
  fold (atan_P n b) in H. autorewrite with lits in H. fold (atan_q (val b * val b)) in H.
  destruct H as (F1 & R1 & E1). rewrite !dy_lit in *. apply Rabs_le_inv in Bb.
  assert (Z : 0 <= val b * val b <= 0.1717) by nra. pose proof (atan_q_range _ Z) as Q.
  split; [exact F1|apply Rabs_le; lra|lra|lra].
Qed.
(** an offset added in front: o + x + x^3 P *)
Lemma offset_end o x u : isfin o = true -> 0.78 <= val o <= 1.58 -> isfin x = true -> Rabs u <= 0.41423 -> Rabs (val x - u) <= 1.81e-7 * Rabs u + 2 * eta ->
  isfin (atan_end n o x) = true /\ Rabs (val (atan_end n o x) - (val o + atan u)) <= 12.1e-8 * (val o + atan u) + 23e-8 * Rabs u + 12e-9.
Proof.
  intros Fo Bo Fx Bu Ex. pose proof eta_tiny' as ET. pose proof eta_small as ES.
  assert (Bx : Rabs (val x) <= Rabs u + 1.1e-7).
  { replace (val x) with (u + (val x - u)) by ring. eapply Rle_trans; [apply Rabs_triang|]. lra. }
  assert (PX : 0 <= Rabs (val x)) by apply Rabs_pos. assert (PU : 0 <= Rabs u) by apply Rabs_pos.
  pose proof (tail_near n x _ _ _ _ Fx ltac:(lra) (atan_P_near x Fx ltac:(lra)) ltac:(lra) ltac:(lra)) as [FT _ ETL _].
  pose proof (atan_poly (val x) ltac:(lra)) as EP. pose proof (lip_atan (val x) u) as EL.
  set (w := Rabs (val x)) in *. assert (W3 : 0 <= w * w * w <= 0.0712).
  { assert (w * w <= 0.1717) by nra. nra. }
  unfold atan_end. set (T := fmul n (cube_of n x) (atan_P n x)) in *. set (r := val x * val x * val x * atan_q (val x * val x)) in *.
  replace (val x * (1 + val x * val x * atan_q (val x * val x))) with (val x + r) in EP by (unfold r; ring).
  assert (AU : Rabs (atan u) <= Rabs u) by (pose proof (lip_atan u 0) as H; rewrite atan_0, !Rminus_0_r in H; exact H).
  assert (XB := Rabs_le_inv _ _ Bx). assert (UB := Rabs_le_inv _ _ Bu). apply Rabs_le_inv in AU. apply Rabs_le_inv in EP. apply Rabs_le_inv in ETL.
  assert (EL' : Rabs (atan (val x) - atan u) <= 1.81e-7 * Rabs u + 2 * eta) by lra. apply Rabs_le_inv in EL'.
  destruct (fadd_fin n o x Fo Fx) as (F1 & V1 & _); [apply small_fin; apply Rabs_le; lra|]. set (s := fadd n o x) in *.
  pose proof (rnd_eta (val o + val x)) as R1. rewrite <- V1 in R1. rewrite (Rabs_pos_eq (val o + val x)) in R1 by lra. apply Rabs_le_inv in R1.
  assert (RB : Rabs r <= 0.34 * (w * w * w)).
  { assert (Z : 0 <= val x * val x <= 0.1717) by nra. pose proof (atan_q_range _ Z) as Q.
    unfold r. rewrite !Rabs_mult. fold w. assert (Rabs (atan_q (val x * val x)) <= 0.34) by (apply Rabs_le; lra). nra. }
  apply Rabs_le_inv in RB. assert (TB : - 0.03 <= val T <= 0.03) by lra.
  destruct (fadd_fin n s T F1 FT) as (F2 & V2 & _); [apply small_fin; apply Rabs_le; lra|]. split; [exact F2|].
  pose proof (rnd_eta (val s + val T)) as R2. rewrite <- V2 in R2. set (z := val (fadd n s T)) in *.
  rewrite (Rabs_pos_eq (val s + val T)) in R2 by lra. apply Rabs_le_inv in R2. apply Rabs_le. lra.
Qed.
Lemma atan_range0 a : isfin a = true -> 0 <= val a <= 0.4143 ->
  isfin (atan_end n (f_ofZ F32 0) a) = true /\ Rabs (val (atan_end n (f_ofZ F32 0) a) - atan (val a)) <= 13e-8 * Rabs (atan (val a)) + 5 * eta.
Proof.
  intros Fa Ba. destruct zero_ok as (F0 & V0 & _).
  destruct (fadd_fin n (f_ofZ F32 0) a F0 Fa) as (FY & VY & _); [apply small_fin; rewrite V0, Rplus_0_l, Rabs_pos_eq; lra|].
  rewrite V0, Rplus_0_l, rnd_id in VY by apply val_format.
  assert (W2 : Rabs (val a) * Rabs (val a) <= 0.1717) by (rewrite Rabs_pos_eq by lra; nra).
  pose proof (odd_tail_gen n a _ _ _ _ _ 0.1717 Fa FY VY ltac:(rewrite Rabs_pos_eq; lra) W2 ltac:(lra) (atan_P_near a Fa ltac:(rewrite Rabs_pos_eq; lra)) ltac:(lra) ltac:(lra)) as NT.
  fold (atan_end n (f_ofZ F32 0) a) in NT. destruct NT as [FT _ ET _]. split; [exact FT|].
  pose proof (atan_poly (val a) ltac:(rewrite Rabs_pos_eq; lra)) as EP. pose proof (atan_low (val a) ltac:(rewrite Rabs_pos_eq; lra)) as AL.
  set (S := atan_end n (f_ofZ F32 0) a) in *. set (r := val a * (1 + val a * val a * atan_q (val a * val a))) in *.
  replace (val S - atan (val a)) with ((val S - r) + (r - atan (val a))) by ring.
  eapply Rle_trans; [apply Rabs_triang|]. pose proof (Rabs_pos (val a)). set (B := Rabs (val a)) in *. lra.
Qed.
(** the quotient (a - 1) / (a + 1) *)
Lemma quot_real d s u v : 1.4 <= s -> Rabs d <= 2 -> Rabs (u - d) <= / 16777216 * Rabs d + / 2 * eta -> Rabs (v - s) <= / 16777216 * s + / 2 * eta ->
  v <> 0 /\ Rabs (u / v) <= 2 /\ Rabs (u / v - d / s) <= 1.2e-7 * Rabs (d / s) + eta.
Proof.
  intros S D U V. pose proof eta_tiny' as ET. pose proof eta_small as ES. apply Rabs_le_inv in V. assert (V0 : 1.39 <= v) by lra. split; [lra|].
  assert (IV : 0 < / v <= 0.72). { split; [apply Rinv_0_lt_compat; lra|]. apply Rmult_le_reg_r with v; [lra|]. rewrite Rinv_l by lra. lra. }
  assert (UA : Rabs u <= 2.0001). { replace u with (d + (u - d)) by ring. eapply Rle_trans; [apply Rabs_triang|]. lra. }
  split. { unfold Rdiv. rewrite Rabs_mult, (Rabs_pos_eq (/ v)) by lra. pose proof (Rabs_pos u). nra. }
  replace (u / v - d / s) with (((u - d) + (d / s) * (s - v)) * / v) by (field; split; lra).
  rewrite Rabs_mult, (Rabs_pos_eq (/ v)) by lra.
  assert (DS : Rabs d = Rabs (d / s) * s). { unfold Rdiv. rewrite Rabs_mult, (Rabs_pos_eq (/ s)) by (left; apply Rinv_0_lt_compat; lra). field. lra. }
  set (y := Rabs (d / s)) in *. assert (Y : 0 <= y <= 2). { split; [apply Rabs_pos|]. nra. }
  assert (N : Rabs ((u - d) + (d / s) * (s - v)) <= / 16777216 * (y * s) + / 2 * eta + y * (/ 16777216 * s + / 2 * eta)).
  { eapply Rle_trans; [apply Rabs_triang|]. rewrite Rabs_mult. fold y. rewrite <- DS. apply Rplus_le_compat; [exact U|]. apply Rmult_le_compat_l; [lra|]. apply Rabs_le. lra. }
  assert (SV : s * / v <= 1.0000001). { apply Rmult_le_reg_r with v; [lra|]. rewrite Rmult_assoc, Rinv_l by lra. lra. }
  apply Rle_trans with ((/ 16777216 * (y * s) + / 2 * eta + y * (/ 16777216 * s + / 2 * eta)) * / v); [apply Rmult_le_compat_r; lra|].
  replace ((/ 16777216 * (y * s) + / 2 * eta + y * (/ 16777216 * s + / 2 * eta)) * / v) with (2 / 16777216 * y * (s * / v) + (/ 2 + / 2 * y) * eta * / v) by (field; lra).
  assert (A1 : y * (s * / v) <= y * 1.0000001) by (apply Rmult_le_compat_l; lra).
  assert (A2 : (/ 2 + / 2 * y) * eta * / v <= / 2 * 3 * eta * 0.72).
  { apply Rmult_le_compat; [nra|lra| |lra]. apply Rmult_le_compat_r; lra. }
  assert (A3 : (/ 2 + / 2 * y) * eta * / v <= (/ 2 + / 2 * y) * eta * 0.72) by (apply Rmult_le_compat_l; [nra|lra]).
  assert (A4 : y * eta <= y * 1e-44) by nra. nra.
Qed.
Lemma tan_quot u : 13898701 / 33554432 <= u <= 5062973 / 2097152 -> Rabs ((u - 1) / (u + 1)) <= 0.41422.
Proof.
  intros H. apply Rabs_le. split; (apply Rmult_le_reg_r with (u + 1); [lra|]); unfold Rdiv; rewrite ?Rmult_assoc, ?Rinv_l by lra; lra.
Qed.
Lemma atan_range1 a : isfin a = true -> 13898701 / 33554432 <= val a <= 5062973 / 2097152 ->
  let r := atan_end n O1 (fdiv n (fsub n a one) (fadd n a one)) in
  isfin r = true /\ Rabs (val r - atan (val a)) <= 5e-7 * atan (val a).
Proof.
  intros Fa Ba r. destruct one_ok as (F1 & V1 & _). pose proof eta_tiny' as ET. pose proof eta_small as ES.
  destruct (fsub_fin n a one Fa F1) as (FD & VD & _); [apply small_fin; rewrite V1; apply Rabs_le; lra|]. rewrite V1 in VD.
  destruct (fadd_fin n a one Fa F1) as (FS & VS & _); [apply small_fin; rewrite V1; apply Rabs_le; lra|]. rewrite V1 in VS.
  pose proof (rnd_eta (val a - 1)) as ED. pose proof (rnd_eta (val a + 1)) as E2. rewrite <- VD in ED. rewrite <- VS in E2. rewrite (Rabs_pos_eq (val a + 1)) in E2 by lra.
  destruct (quot_real (val a - 1) (val a + 1) _ _ ltac:(lra) ltac:(apply Rabs_le; lra) ED E2) as (V0 & BQ & EQ).
  pose proof (tan_quot (val a) Ba) as BU. set (u := (val a - 1) / (val a + 1)) in *.
  destruct (fdiv_fin n (fsub n a one) (fadd n a one) FD V0) as (FX & VX & _); [apply small_fin; lra|].
  pose proof (rnd_eta (val (fsub n a one) / val (fadd n a one))) as EX. rewrite <- VX in EX. set (x := fdiv n (fsub n a one) (fadd n a one)) in *.
  set (q := val (fsub n a one) / val (fadd n a one)) in *. 
  assert (QU : Rabs q <= Rabs u + (1.2e-7 * Rabs u + eta)) by (replace q with (u + (q - u)) by ring; eapply Rle_trans; [apply Rabs_triang|]; lra).
  assert (EU : Rabs (val x - u) <= 1.81e-7 * Rabs u + 2 * eta).
  { replace (val x - u) with ((val x - q) + (q - u)) by ring. eapply Rle_trans; [apply Rabs_triang|]. pose proof (Rabs_pos u). lra. }
  assert (FO : isfin O1 = true) by (apply litd_78539816339744830961566084581987572104929234984377_50). pose proof val_litd_78539816339744830961566084581987572104929234984377_50 as VO.
  destruct (offset_end O1 x u FO ltac:(rewrite VO; lra) FX ltac:(lra) EU) as [FR ER]. split; [exact FR|]. fold r in ER.
  pose proof (atan_quarter (val a) ltac:(lra)) as AQ. fold u in AQ. pose proof pi2_err as PE. pose proof (atan_mid (val a) ltac:(lra)) as AM. apply Rabs_le_inv in PE.
  rewrite AQ in *. set (A := atan u) in *. pose proof (Rabs_pos u). rewrite VO in ER. apply Rabs_le_inv in ER. apply Rabs_le. lra.
Qed.
Lemma atan_range2 a : isfin a = true -> 5062973 / 2097152 <= val a ->
  let r := atan_end n O2 (fdiv n (fneg one) a) in
  isfin r = true /\ Rabs (val r - atan (val a)) <= 5e-7 * atan (val a).
Proof.
  intros Fa Ba r. destruct one_ok as (F1 & V1 & _). pose proof eta_tiny' as ET. pose proof eta_small as ES.
  assert (FM : isfin (fneg one) = true) by (rewrite isfin_fneg; exact F1). assert (VM : val (fneg one) = -1) by (rewrite val_fneg, V1; ring).
  assert (IU : 0 < / val a <= 0.41422). { split; [apply Rinv_0_lt_compat; lra|]. apply Rmult_le_reg_r with (val a); [lra|]. rewrite Rinv_l by lra. lra. }
  assert (UE : -1 / val a = - / val a) by (unfold Rdiv; ring).
  destruct (fdiv_fin n (fneg one) a FM ltac:(lra)) as (FX & VX & _); [apply small_fin; rewrite VM, UE, Rabs_Ropp, Rabs_pos_eq; lra|]. rewrite VM, UE in VX.
  pose proof (rnd_eta (- / val a)) as EX. rewrite <- VX in EX. set (x := fdiv n (fneg one) a) in *. set (u := - / val a) in *.
  assert (AU : Rabs u = / val a) by (unfold u; rewrite Rabs_Ropp; apply Rabs_pos_eq; lra).
  assert (EU : Rabs (val x - u) <= 1.81e-7 * Rabs u + 2 * eta) by lra.
  assert (FO : isfin O2 = true) by (apply litd_157079632679489661923132169163975144209858469968754_50). pose proof val_litd_157079632679489661923132169163975144209858469968754_50 as VO.
  destruct (offset_end O2 x u FO ltac:(rewrite VO; lra) FX ltac:(lra) EU) as [FR ER]. split; [exact FR|]. fold r in ER.
  pose proof (atan_recip (val a) ltac:(lra)) as AQ. fold u in AQ. pose proof pi2_err as PE. pose proof (atan_big (val a) ltac:(lra)) as AM. apply Rabs_le_inv in PE.
  rewrite AQ in *. set (A := atan u) in *. rewrite VO in ER. apply Rabs_le_inv in ER. apply Rabs_le. lra.
Qed.
Lemma atan_nonneg a : 0 <= a -> 0 <= atan a.
Proof. intros [H| <-]; [|rewrite atan_0; lra]. left. rewrite <- atan_0. apply atan_increasing. exact H. Qed.
Lemma atan_accurate x : isfin x = true ->
  isfin (vec_atan_float c I n x) = true /\ Rabs (val (vec_atan_float c I n x) - atan (val x)) <= 5e-7 * Rabs (atan (val x)) + 5 * eta.
Proof.
  intros Fx. rewrite (atan_signed c I n x). pose proof eta_small as ES.
  assert (FX : isfin (fabs x) = true) by (rewrite isfin_fabs; exact Fx). pose proof (sgn_val_gen x Fx) as SV.
  assert (EA : atan (val x) = if sgn x then - atan (Rabs (val x)) else atan (Rabs (val x))) by (destruct (sgn x); rewrite SV at 1; [apply atan_opp|reflexivity]).
  rewrite EA, abs_if. pose proof (Rabs_pos (val x)) as PX. rewrite <- val_fabs in PX |- *. set (a := fabs x) in *.
  assert (Sa : sgn a = false) by apply sgn_fabs. clearbody a. clear EA SV Fx. pose proof (atan_nonneg _ PX) as AN. rewrite (Rabs_pos_eq (atan (val a))) by exact AN.
  assert (G : isfin (vec_atan_float c I n a) = true /\ Rabs (val (vec_atan_float c I n a) - atan (val a)) <= 5e-7 * atan (val a) + 5 * eta).
  { rewrite (atan_form a Sa).
    assert (FL0 : isfin L0 = true) by (apply litd_41421356237309504880168872420969807856967187537695_50). pose proof val_litd_41421356237309504880168872420969807856967187537695_50 as VL0.
    assert (FL1 : isfin L1 = true) by (apply litd_241421356237309504880168872420969807856967187537698_50). pose proof val_litd_241421356237309504880168872420969807856967187537698_50 as VL1.
    destruct (Rle_dec (val a) (val L0)) as [H0|H0].
    - rewrite (gt_false I HI a L0 FX FL0 H0). rewrite VL0 in H0. destruct (atan_range0 a FX ltac:(lra)) as [FR ER]. rewrite (Rabs_pos_eq (atan (val a))) in ER by exact AN. split; [exact FR|lra].
    - rewrite (gt_true I HI a L0 FX FL0) by lra. rewrite VL0 in H0. destruct (Rle_dec (val a) (val L1)) as [H1|H1].
      + rewrite (gt_false I HI a L1 FX FL1 H1). rewrite VL1 in H1. destruct (atan_range1 a FX ltac:(lra)) as [FR ER]. split; [exact FR|lra].
      + rewrite (gt_true I HI a L1 FX FL1) by lra. rewrite VL1 in H1. destruct (atan_range2 a FX ltac:(lra)) as [FR ER]. split; [exact FR|lra]. }
  destruct G as [G1 G2]. apply neg_err; assumption.
Qed.
End S.
