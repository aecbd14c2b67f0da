(** The hyperbolic tangent is increasing. *)
From Coq Require Import ZArith Reals List Lia Lra Bool.
From Flocq Require Import Core IEEE754.Binary IEEE754.Bits.
From Verif Require Import Base Mem Backend Lanes Float LaneOps ScalarMath VecMath IntVec TransMath SpecLane SpecRound SpecInt SpecOrder
  FloatFacts FloatRound LaneFacts VecFacts VecMore VecMore2 RoundFacts RoundMore RoundMore2 IntFacts LdexpFacts TransConst TransFacts
  ErrFacts ErrTac RealMath RealTanh RealLog ExpFacts LastStep NearFacts TanhFacts LogFacts MonoFacts RealOrder2 TrigFacts TrigOrder SinOrder ExpOrder.
Import ListNotations.
Local Open Scope R_scope.
#[local] Opaque litf litd fadd fmul fsub fdiv.

Section S.
Context (n : nans F32).
(** The factor of the polynomial below a half and above. *)
Lemma tanh_C_low a : isfin a = true -> 0 <= val a <= 0.5 ->
  isfin (tanh_C n a) = true /\ Rabs (val (tanh_C n a) - tanh_q (val a * val a) * (val a * val a)) <= 1.2e-8 /\ Rabs (val (tanh_C n a)) <= 0.1.
Proof.
  intros Fa Ba. assert (HA : holds a (val a) (0, 2 ^ 79, 0)%Z).
  { apply holds_var; [exact Fa|reflexivity|]. dyz. lra. }
  let t := eval unfold tanh_C in (tanh_C n a) in err_bound n [a] [val a] [(0, 2 ^ 79, 0)]%Z t H.
  fold (tanh_C n a) in H. autorewrite with lits in H. destruct H as (F1 & R1 & E1). fold (tanh_q (val a * val a)) in *.
  rewrite !dy_lit in *. split; [exact F1|]. split; [lra|]. apply Rabs_le_inv in E1. apply Rabs_le. lra.
Qed.
Lemma tanh_C_high a : isfin a = true -> 0.5 <= val a <= 0.625 ->
  isfin (tanh_C n a) = true /\ Rabs (val (tanh_C n a) - tanh_q (val a * val a) * (val a * val a)) <= 1.9e-8 /\ Rabs (val (tanh_C n a)) <= 0.125.
Proof.
  intros Fa Ba. assert (HA : holds a (val a) (2 ^ 79, 5 * 2 ^ 77, 0)%Z).
  { apply holds_var; [exact Fa|reflexivity|]. dyz. lra. }
  let t := eval unfold tanh_C in (tanh_C n a) in err_bound n [a] [val a] [(2 ^ 79, 5 * 2 ^ 77, 0)]%Z t H.
  fold (tanh_C n a) in H. autorewrite with lits in H. destruct H as (F1 & R1 & E1). fold (tanh_q (val a * val a)) in *.
  rewrite !dy_lit in *. split; [exact F1|]. split; [lra|]. apply Rabs_le_inv in E1. apply Rabs_le. lra.
Qed.
(** The product with the argument. *)
Lemma tanh_m_low a : isfin a = true -> 0 <= val a <= 0.5 ->
  isfin (fmul n (tanh_C n a) a) = true /\ Rabs (val (fmul n (tanh_C n a) a) - tanh_r (val a)) <= 2e-8 * val a.
Proof.
  intros Fa Ba. destruct (tanh_C_low a Fa Ba) as (FC & EC & BC). pose proof (Rabs_le_inv _ _ BC).
  destruct (fmul_fin n (tanh_C n a) a FC Fa) as (FR & VR & _); [apply small_fin; apply Rabs_le; nra|]. split; [exact FR|].
  destruct (Rle_dec (val a) 1e-30) as [T|T].
  - destruct (tiny_square n a Fa ltac:(lra)) as (FZ & VZ).
    assert (C0 : val (tanh_C n a) = 0 \/ isfin (tanh_C n a) = false).
    { unfold tanh_C. set (z := fmul n a a) in *. set (q := fadd n _ (fneg (litd 333332819422 12))) in |- *.
      destruct (isfin q) eqn:FQ.
      - left. destruct (fmul_fin n q z FQ FZ) as (_ & V & _); [rewrite VZ, Rmult_0_r; apply small_fin; rewrite Rabs_R0; lra|].
        rewrite V, VZ, Rmult_0_r. apply rnd_0.
      - right. destruct (isfin (fmul n q z)) eqn:E; [|reflexivity]. exfalso. apply fmul_fin_l in E. congruence. }
    destruct C0 as [C0|C0]; [|congruence]. rewrite VR, C0, Rmult_0_l, rnd_0. pose proof (tanh_r_small (val a) ltac:(lra)). apply Rabs_le. lra.
  - pose proof (rnd_eta (val (tanh_C n a) * val a)) as R. rewrite <- VR in R. pose proof eta_tiny' as ET.
    rewrite Rabs_mult, (Rabs_pos_eq (val a)) in R by lra. unfold tanh_r.
    set (C := val (tanh_C n a)) in *. set (q := tanh_q (val a * val a) * (val a * val a)) in *. set (r := val (fmul n (tanh_C n a) a)) in *.
    apply Rabs_le_inv in R. apply Rabs_le_inv in EC. clearbody C q r.
    assert (X : Rabs C * val a <= 0.1 * val a) by (apply Rmult_le_compat_r; lra). apply Rabs_le. split; nra.
Qed.
Lemma tanh_m_high a : isfin a = true -> 0.5 <= val a <= 0.625 ->
  isfin (fmul n (tanh_C n a) a) = true /\ Rabs (val (fmul n (tanh_C n a) a) - tanh_r (val a)) <= 1.6e-8.
Proof.
  intros Fa Ba. destruct (tanh_C_high a Fa Ba) as (FC & EC & BC). apply Rabs_le_inv in BC.
  destruct (fmul_fin n (tanh_C n a) a FC Fa) as (FR & VR & _); [apply small_fin; apply Rabs_le; nra|]. split; [exact FR|].
  assert (R : Rabs (val (fmul n (tanh_C n a) a) - val (tanh_C n a) * val a) <= bpow radix2 (-3 - 25)).
  { rewrite VR. apply rnd_err; [lia|]. change (bpow radix2 (-3)) with (/ 8). apply Rabs_le. nra. }
  change (bpow radix2 (-3 - 25)) with (/ 268435456) in R. apply Rabs_le_inv in R. apply Rabs_le_inv in EC. unfold tanh_r.
  set (C := val (tanh_C n a)) in *. set (q := tanh_q (val a * val a) * (val a * val a)) in *. set (r := val (fmul n (tanh_C n a) a)) in *. clearbody C q r.
  apply Rabs_le. split; nra.
Qed.
(** Proof auxiliary: the branch for small arguments. *)
Definition tanh_s (a : F F32) : F F32 := fadd n (fmul n (tanh_C n a) a) a.
Lemma tanh_s_eq a : isfin a = true -> 0 <= val a <= 0.625 -> isfin (tanh_s a) = true /\ val (tanh_s a) = rnd F32 (val (fmul n (tanh_C n a) a) + val a).
Proof.
  intros Fa Ba. assert (M : isfin (fmul n (tanh_C n a) a) = true /\ Rabs (val (fmul n (tanh_C n a) a)) <= 1).
  { destruct (Rle_dec (val a) 0.5) as [C|C].
    - destruct (tanh_C_low a Fa ltac:(lra)) as (FC & _ & BC). apply Rabs_le_inv in BC. destruct (tanh_m_low a Fa ltac:(lra)) as (F1 & _). split; [exact F1|].
      destruct (fmul_fin n (tanh_C n a) a FC Fa) as (_ & VR & _); [apply small_fin; apply Rabs_le; nra|]. rewrite VR. change 1 with (bpow radix2 0). apply rnd_le_bpow; [lia|]. change (bpow radix2 0) with 1. apply Rabs_le. nra.
    - destruct (tanh_C_high a Fa ltac:(lra)) as (FC & _ & BC). apply Rabs_le_inv in BC. destruct (tanh_m_high a Fa ltac:(lra)) as (F1 & _). split; [exact F1|].
      destruct (fmul_fin n (tanh_C n a) a FC Fa) as (_ & VR & _); [apply small_fin; apply Rabs_le; nra|]. rewrite VR. change 1 with (bpow radix2 0). apply rnd_le_bpow; [lia|]. change (bpow radix2 0) with 1. apply Rabs_le. nra. }
  destruct M as (FM & BM). apply Rabs_le_inv in BM. destruct (fadd_fin n _ a FM Fa) as (F1 & V1 & _); [apply small_fin; apply Rabs_le; lra|]. auto.
Qed.
Lemma tanh_s_up x y : isfin x = true -> isfin y = true -> 0 <= val x <= val y -> val y <= 0.625 -> val (tanh_s x) <= val (tanh_s y).
Proof.
  intros Fx Fy H B. destruct (tanh_s_eq x Fx ltac:(lra)) as (_ & VX). destruct (tanh_s_eq y Fy ltac:(lra)) as (_ & VY).
  destruct (Req_dec (val x) (val y)) as [E|E].
  - destruct (Req_dec (val x) 0) as [Z|Z]; [|rewrite (same_float x y Fx Fy E Z); lra].
    destruct (tanh_m_low x Fx ltac:(lra)) as (_ & RX). destruct (tanh_m_low y Fy ltac:(lra)) as (_ & RY).
    rewrite <- E, Z, Rmult_0_r in RY. rewrite Z, Rmult_0_r in RX. apply Rabs_le_inv in RX. apply Rabs_le_inv in RY.
    rewrite VX, VY. apply rnd_le. lra.
  - rewrite VX, VY. apply rnd_le. assert (H' : 0 <= val x < val y) by lra. pose proof (gap x y Fx Fy H') as G.
    destruct (Rle_dec (val y) 0.5) as [C|C].
    + destruct (tanh_m_low x Fx ltac:(lra)) as (_ & RX). destruct (tanh_m_low y Fy ltac:(lra)) as (_ & RY). apply Rabs_le_inv in RX. apply Rabs_le_inv in RY.
      pose proof (tanh_r_half (val x) (val y) H C) as S.
      set (rx := val (fmul n (tanh_C n x) x)) in *. set (ry := val (fmul n (tanh_C n y) y)) in *. clearbody rx ry. lra.
    + destruct (tanh_m_high y Fy ltac:(lra)) as (_ & RY). apply Rabs_le_inv in RY.
      assert (RX : - 1.6e-8 <= val (fmul n (tanh_C n x) x) - tanh_r (val x) <= 1.6e-8).
      { destruct (Rle_dec (val x) 0.5) as [D|D]; [destruct (tanh_m_low x Fx ltac:(lra)) as (_ & RX)|destruct (tanh_m_high x Fx ltac:(lra)) as (_ & RX)]; apply Rabs_le_inv in RX; lra. }
      pose proof (tanh_r_full (val x) (val y) H B) as S.
      assert (G2 : / 16777216 <= val y - val x).
      { destruct (Rle_dec 0.5 (val x)) as [D|D].
        - pose proof (gap_above x y (-1) ltac:(lia) Fx Fy) as GG. change (bpow radix2 (-1 - 23)) with (/ 16777216) in GG. change (bpow radix2 (-1)) with (/ 2) in GG. apply GG. lra.
        - destruct (lit_range 1 (-1) ltac:(lia) ltac:(lia)) as [FH VH]. change (1 * bpow radix2 (-1)) with (1 * / 2) in VH. pose proof (gap_above (f_lit F32 1 (-1)) y (-1) ltac:(lia) FH Fy) as GG. change (bpow radix2 (-1 - 23)) with (/ 16777216) in GG.
          rewrite VH in GG. change (bpow radix2 (-1)) with (/ 2) in GG. specialize (GG ltac:(lra)). lra. }
      set (rx := val (fmul n (tanh_C n x) x)) in *. set (ry := val (fmul n (tanh_C n y) y)) in *. clearbody rx ry. lra.
Qed.
End S.

#[local] Transparent litf litd fadd fmul fsub fdiv.
(** From the greatest small argument to the least medium one. *)
Lemma tanh_joint c I n : x86 I -> fle (tanh_s n (f_lit F32 10485759 (-24))) (tanh_med c I n (f_lit F32 10485760 (-24))) = true.
Proof. intros [-> | ->]; [destruct c as [[] ? [] ?]|]; vm_compute; reflexivity. Qed.
#[local] Opaque litf litd fadd fmul fsub fdiv.
Section R.
Context (c : cfg) (I : isa) (n : nans F32) (HI : x86 I).
Lemma tanh_med_up x y : isfin x = true -> isfin y = true -> 0.625 <= val x <= val y -> val y <= 22 -> val (tanh_med c I n x) <= val (tanh_med c I n y).
Proof.
  intros Fx Fy L B.
  destruct (double_exact n x Fx) as (FX & VX); [apply Rabs_le; lra|]. destruct (double_exact n y Fy) as (FY & VY); [apply Rabs_le; lra|].
  pose proof (exp_tanh_rises c I n HI (fadd n x x) (fadd n y y) FX FY ltac:(rewrite VX, VY; lra) ltac:(rewrite VY; lra)) as E.
  assert (G : forall a, isfin a = true -> 0.625 <= val a <= 22 -> exists e, e = val (vec_exp_tanh_float c I n (fadd n a a)) /\ 3.48 <= e /\ val (tanh_med c I n a) = rnd F32 (1 - rnd F32 (2 / rnd F32 (e + 1)))).
  { intros a Fa Ba. exists (val (vec_exp_tanh_float c I n (fadd n a a))). split; [reflexivity|].
    destruct (double_exact n a Fa) as (F2 & V2); [apply Rabs_le; lra|].
    destruct (exp_accurate_core c I n (fadd n a a) HI F2) as (FE & SE & EE); [rewrite V2; lra|]. rewrite V2 in EE.
    unfold tanh_med. set (E' := vec_exp_tanh_float c I n (fadd n a a)) in *.
    assert (W1 : 3.49 <= exp (2 * val a) <= 1.3e19).
    { split; [eapply Rle_trans; [exact exp_125|]|eapply Rle_trans; [|exact exp_44]].
      - destruct (Req_dec 1.25 (2 * val a)) as [-> |]; [lra|]. left. apply exp_increasing. lra.
      - destruct (Req_dec (2 * val a) 44) as [-> |]; [lra|]. left. apply exp_increasing. lra. }
    apply Rabs_le_inv in EE. assert (EX : 3.48 <= val E' <= 1.31e19) by lra. split; [lra|]. destruct one_ok as (F1 & V1 & S1).
    destruct (fadd_fin n E' (f_ofZ F32 1) FE F1) as (FD & VD & _).
    { rewrite V1. eapply Rle_lt_trans; [apply (rnd_le_bpow 64); [lia|]|apply bpow_lt; reflexivity].
      change (bpow radix2 64) with 18446744073709551616. rewrite Rabs_pos_eq; lra. }
    rewrite V1 in VD. set (D := fadd n E' (f_ofZ F32 1)) in *.
    assert (D2 : 4 <= val D). { rewrite VD. change 4 with (bpow radix2 2). apply rnd_ge_format; [apply bpow_format; discriminate|change (bpow radix2 2) with 4; lra]. }
    destruct litf_2_0 as (FT & _ & _). pose proof val_litf_2_0 as VT.
    assert (Q0 : 0 < 2 / val D <= 0.5).
    { split; [apply Rdiv_lt_0_compat; lra|]. apply Rmult_le_reg_r with (val D); [lra|]. unfold Rdiv. rewrite Rmult_assoc, Rinv_l by lra. lra. }
    destruct (fdiv_fin n (litf 2 0) D FT ltac:(lra)) as (FQ & VQ & _); [apply small_fin; rewrite VT; apply Rabs_le; lra|]. rewrite VT in VQ.
    assert (B2 : Rabs (2 / val D) <= bpow radix2 (-1)) by (change (bpow radix2 (-1)) with (/ 2); rewrite Rabs_pos_eq; lra).
    pose proof (rnd_le_bpow (-1) _ ltac:(lia) B2) as BQ. rewrite <- VQ in BQ. change (bpow radix2 (-1)) with (/ 2) in BQ. apply Rabs_le_inv in BQ.
    destruct (fsub_fin n (f_ofZ F32 1) _ F1 FQ) as (FM & VM & _); [apply small_fin; rewrite V1; apply Rabs_le; lra|].
    rewrite VM, V1, VQ, VD. reflexivity. }
  destruct (G x Fx ltac:(lra)) as (ex & EX & LX & WX). destruct (G y Fy ltac:(lra)) as (ey & EY & LY & WY). rewrite WX, WY. rewrite <- EX, <- EY in E.
  apply rnd_le. apply Rplus_le_compat_l, Ropp_le_contravar. apply rnd_le.
  assert (D : 4 <= rnd F32 (ex + 1)). { change 4 with (bpow radix2 2). apply rnd_ge_format; [apply bpow_format; discriminate|change (bpow radix2 2) with 4; lra]. }
  apply Rmult_le_compat_l; [lra|]. apply Rinv_le_contravar; [lra|]. apply rnd_le. lra.
Qed.
Lemma tanh_pos_up x y : isfin x = true -> isfin y = true -> sgn x = false -> sgn y = false -> val x <= val y -> val (vec_tanh_float c I n x) <= val (vec_tanh_float c I n y).
Proof.
  intros Fx Fy Sx Sy L. pose proof (sgn_val_gen x Fx) as AX. pose proof (sgn_val_gen y Fy) as AY. rewrite Sx in AX. rewrite Sy in AY. destruct one_ok as (F1 & V1 & S1).
  assert (AX' : fabs x = x) by (destruct x as [[]|[]|[]|[]]; try reflexivity; discriminate). assert (AY' : fabs y = y) by (destruct y as [[]|[]|[]|[]]; try reflexivity; discriminate).
  pose proof (Rabs_pos (val x)) as PX.
  destruct (Rlt_dec 22 (val y)) as [H|H].
  { rewrite (tanh_far c I n HI y (fin_not_nan y Fy)) by (intros _; rewrite <- AY; exact H). rewrite Sy, V1.
    destruct (tanh_bound c I n HI x (fin_not_nan x Fx)) as (_ & B). apply Rabs_le_inv in B. lra. }
  assert (SM : forall w, isfin w = true -> fabs w = w -> Rabs (val w) < 0.625 -> vec_tanh_float c I n w = tanh_s n w).
  { intros w Fw Aw Bw. rewrite (tanh_small c I n HI w Fw Bw), Aw. reflexivity. }
  assert (MD : forall w, isfin w = true -> fabs w = w -> sgn w = false -> 0.625 <= val w <= 22 -> vec_tanh_float c I n w = tanh_med c I n w).
  { intros w Fw Aw Sw Bw. rewrite (tanh_mid c I n HI w Fw), Aw, Sw; [reflexivity|]. rewrite Rabs_pos_eq; lra. }
  destruct (Rlt_dec (val y) 0.625) as [C|C].
  - rewrite (SM x), (SM y) by (try assumption; lra). apply tanh_s_up; try assumption; lra.
  - rewrite (MD y) by (try assumption; lra). destruct (Rlt_dec (val x) 0.625) as [D|D].
    + rewrite (SM x) by (try assumption; lra). destruct (lit_range 10485759 (-24) ltac:(lia) ltac:(lia)) as [FP VP]. destruct (lit_range 10485760 (-24) ltac:(lia) ltac:(lia)) as [FQ VQ].
      change (bpow radix2 (-24)) with (/ 16777216) in VP, VQ. pose proof (tanh_joint c I n HI) as J.
      assert (XP : val x <= val (f_lit F32 10485759 (-24))).
      { destruct (Rle_dec 0.5 (val x)) as [Q|Q]; [|lra]. pose proof (gap_above x (f_lit F32 10485760 (-24)) (-1) ltac:(lia) Fx FQ) as GG.
        change (bpow radix2 (-1 - 23)) with (/ 16777216) in GG. change (bpow radix2 (-1)) with (/ 2) in GG. specialize (GG ltac:(lra)). lra. }
      set (p := f_lit F32 10485759 (-24)) in *. set (q := f_lit F32 10485760 (-24)) in *.
      destruct (tanh_s_eq n p FP ltac:(lra)) as (FS & _). destruct (tanh_med_val c I n HI q FQ ltac:(lra)) as (FM & _ & _ & _). apply fle_val in J; [|exact FS|exact FM].
      eapply Rle_trans; [apply (tanh_s_up n x p); try assumption; lra|]. eapply Rle_trans; [exact J|]. apply tanh_med_up; try assumption; lra.
    + rewrite (MD x) by (try assumption; lra). apply tanh_med_up; try assumption; lra.
Qed.
Lemma tanh_zero x : val x = 0 -> isfin x = true -> val (vec_tanh_float c I n x) = 0.
Proof.
  intros V Fx. assert (E : bits (vec_tanh_float c I n x) = bits (f_ofZ F32 0)).
  { destruct x as [[]|s|s|s m e H]; try discriminate; [apply tanh_minus_zero; exact HI|apply tanh_plus_zero; exact HI|]. exfalso. unfold val in V. cbn in V. apply eq_0_F2R in V. destruct s; discriminate. }
  destruct zero_ok as (F0 & V0 & _). rewrite <- V0. f_equal. apply bits_inj. exact E.
Qed.
Lemma tanh_rises x y : isfin x = true -> isfin y = true -> val x <= val y -> val (vec_tanh_float c I n x) <= val (vec_tanh_float c I n y).
Proof.
  intros Fx Fy L. pose proof (sgn_val_gen x Fx) as AX. pose proof (sgn_val_gen y Fy) as AY. pose proof (Rabs_pos (val x)) as PX. pose proof (Rabs_pos (val y)) as PY.
  pose proof (tanh_bound c I n HI x (fin_not_nan x Fx)) as (TX & _). pose proof (tanh_bound c I n HI y (fin_not_nan y Fy)) as (TY & _).
  pose proof (sgn_val_gen _ TX) as SX. pose proof (sgn_val_gen _ TY) as SY.
  assert (POS : forall w, isfin w = true -> 0 <= val w -> 0 <= val (vec_tanh_float c I n w)).
  { intros w Fw Pw. destruct (Req_dec (val w) 0) as [Z|Z]; [rewrite tanh_zero by assumption; lra|].
    pose proof (tanh_bound c I n HI w (fin_not_nan w Fw)) as (TW & _). pose proof (tanh_sign c I n HI w (fin_not_nan w Fw) (fun _ => Z)) as S. pose proof (sgn_val_gen _ TW) as SW. pose proof (sgn_val_gen _ Fw) as SW'. rewrite S in SW.
    pose proof (Rabs_pos (val w)). pose proof (Rabs_pos (val (vec_tanh_float c I n w))). destruct (sgn w); lra. }
  assert (NEG : forall w, isfin w = true -> val w <= 0 -> val (vec_tanh_float c I n w) <= 0).
  { intros w Fw Pw. destruct (Req_dec (val w) 0) as [Z|Z]; [rewrite tanh_zero by assumption; lra|].
    pose proof (tanh_bound c I n HI w (fin_not_nan w Fw)) as (TW & _). pose proof (tanh_sign c I n HI w (fin_not_nan w Fw) (fun _ => Z)) as S. pose proof (sgn_val_gen _ TW) as SW. pose proof (sgn_val_gen _ Fw) as SW'. rewrite S in SW.
    pose proof (Rabs_pos (val w)). pose proof (Rabs_pos (val (vec_tanh_float c I n w))). destruct (sgn w); lra. }
  destruct (Rle_dec 0 (val x)) as [P|P].
  - destruct (Req_dec (val x) 0) as [Z|Z]; [rewrite (tanh_zero x) by assumption; apply POS; [exact Fy|lra]|].
    apply tanh_pos_up; try assumption; [destruct (sgn x); [lra|reflexivity]|destruct (sgn y); [lra|reflexivity]].
  - destruct (Rle_dec 0 (val y)) as [Q|Q].
    + pose proof (NEG x Fx ltac:(lra)). pose proof (POS y Fy Q). lra.
    + assert (Fx' : isfin (fneg x) = true) by (rewrite isfin_fneg; exact Fx). assert (Fy' : isfin (fneg y) = true) by (rewrite isfin_fneg; exact Fy).
      assert (ZX : val x <> 0) by lra. assert (ZY : val y <> 0) by lra.
      pose proof (tanh_odd c I n HI x (fin_not_nan x Fx) (fun _ => ZX)) as OX. pose proof (tanh_odd c I n HI y (fin_not_nan y Fy) (fun _ => ZY)) as OY.
      pose proof (tanh_pos_up (fneg y) (fneg x) Fy' Fx') as M. rewrite !sgn_fneg, !val_fneg, OX, OY, !val_fneg in M.
      assert (M' := M ltac:(destruct (sgn y); [reflexivity|lra]) ltac:(destruct (sgn x); [reflexivity|lra]) ltac:(lra)). lra.
Qed.
End R.
