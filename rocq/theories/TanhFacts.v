(** The hyperbolic tangent: cases, sign, range and accuracy. *)
From Coq Require Import ZArith Reals List Lia Lra Bool.
From Flocq Require Import Core IEEE754.Binary IEEE754.Bits Mult_error.
From Verif Require Import Base Backend Lanes Float LaneOps ScalarMath VecMath IntVec TransMath SpecLane
  FloatFacts FloatRound LaneFacts VecFacts VecMore VecMore2 RoundMore TransConst TransFacts
  ErrFacts ErrTac RealMath RealTanh ExpFacts ExpMore LastStep.
Import ListNotations.
Local Open Scope R_scope.
#[local] Opaque litf litd fadd fmul fsub fdiv.

(** Proof auxiliary: the polynomial of vec_tanh_float (vec_math.hpp). *)
Definition tanh_C (n : nans F32) (a : F F32) : F F32 :=
  fmul n (fadd n (fmul n (fadd n (fmul n (fadd n (fmul n (fadd n (fmul n (fneg (litd 570498872745 14)) (fmul n a a))
    (litd 206390887954 13)) (fmul n a a)) (fneg (litd 537397155531 13))) (fmul n a a)) (litd 133314422036 12)) (fmul n a a))
    (fneg (litd 333332819422 12))) (fmul n a a).
(** Proof auxiliary: the middle branch of tanh. *)
Definition tanh_med c I (n : nans F32) (a : F F32) : F F32 :=
  fsub n (f_ofZ F32 1) (fdiv n (litf 2 0) (fadd n (vec_exp_tanh_float c I n (fadd n a a)) (f_ofZ F32 1))).

Section T.
Context (c : cfg) (I : isa) (n : nans F32) (HI : x86 I).
Lemma tanh_form x : vec_tanh_float c I n x =
  if vrel I LT (fabs x) (litf 625 3) then fadd n (fmul n (tanh_C n (fabs x)) x) x
  else bor (band x (gen_sign_mask c I)) (if vrel I GT (fabs x) (litf 22 0) then f_ofZ F32 1 else tanh_med c I n (fabs x)).
Proof.
  unfold vec_tanh_float. cbv zeta. rewrite !select_vmask by (apply x86_neon; exact HI). rewrite gen_one_1.
  assert (E : bxor x (band x (gen_sign_mask c I)) = fabs x).
  { rewrite bxor_sign. destruct x as [[]|[]|[]|[]]; reflexivity. }
  rewrite E, bor_comm. unfold tanh_C, tanh_med. reflexivity.
Qed.

Lemma num_abs (x : F F32) : isnan x = false -> isnan (fabs x) = false. Proof. rewrite isnan_fabs. auto. Qed.
Lemma abs_fin (x : F F32) : isfin x = true -> isfin (fabs x) = true. Proof. rewrite isfin_fabs. auto. Qed.
Lemma lit625 : isfin (litf 625 3) = true /\ val (litf 625 3) = 0.625.
Proof. destruct litf_625_3 as (A & _ & _). split; [exact A|]. rewrite val_litf_625_3. lra. Qed.
Lemma lit22 : isfin (litf 22 0) = true /\ val (litf 22 0) = 22.
Proof. destruct litf_22_0 as (A & _ & _). split; [exact A|]. exact val_litf_22_0. Qed.
Lemma lt_dec_val (x y : F F32) : isfin x = true -> isfin y = true -> (vrel I LT x y = true <-> val x < val y).
Proof. intros Hx Hy. rewrite vrel_num by (try exact HI; apply fin_not_nan; assumption). apply (srel_real LT); assumption. Qed.
Lemma gt_dec_val (x y : F F32) : isfin x = true -> isfin y = true -> (vrel I GT x y = true <-> val x > val y).
Proof. intros Hx Hy. rewrite vrel_num by (try exact HI; apply fin_not_nan; assumption). apply (srel_real GT); assumption. Qed.

(** Small arguments. *)
Lemma tanh_C_val (x : F F32) : isfin x = true -> Rabs (val x) < 0.625 ->
  isfin (tanh_C n (fabs x)) = true /\
  Rabs (val (tanh_C n (fabs x)) - tanh_q (val x * val x) * (val x * val x)) <= 1e-7 /\ Rabs (val (tanh_C n (fabs x))) <= 0.14.
Proof.
  intros Fx Bx. set (a := fabs x). assert (Fa : isfin a = true) by (apply abs_fin; exact Fx).
  assert (Va : val a = Rabs (val x)) by apply val_fabs. pose proof (Rabs_pos (val x)) as P.
  assert (H0 : holds a (val a) (0, 5 * 2 ^ 77, 0)%Z).
  { split; [exact Fa|]. rewrite !dy_lit, Rminus_diag_eq, Rabs_R0 by reflexivity. rewrite Va, !mult_IZR. lra. }
  let t := eval unfold tanh_C in (tanh_C n a) in err_bound n [a] [val a] [(0, 5 * 2 ^ 77, 0)%Z] t H.
  fold (tanh_C n a) in H. destruct H as (F1 & R1 & E1). split; [exact F1|]. rewrite !dy_lit in *. autorewrite with lits in *.
  apply Rabs_le_inv in E1.
  assert (V2 : val a * val a = val x * val x). { rewrite Va. unfold Rabs. destruct (Rcase_abs (val x)); ring. }
  rewrite !V2 in *. set (s := val x * val x) in *. fold (tanh_q s) in R1, E1.
  split; [apply Rabs_le; lra|]. apply Rabs_le.
  assert (S : 0 <= s <= 0.390625). { unfold s. apply Rabs_lt_inv in Bx. nra. }
  lra.
Qed.

(** Medium arguments. *)
Lemma double_exact (a : F F32) : isfin a = true -> Rabs (val a) <= 1000 -> isfin (fadd n a a) = true /\ val (fadd n a a) = 2 * val a.
Proof.
  intros Fa Ba. assert (FM : fmtR F32 (val a + val a)).
  { replace (val a + val a) with (val a * bpow radix2 1) by (change (bpow radix2 1) with 2; ring).
    apply (mult_bpow_pos_exact_FLT radix2 (-149) 24); [apply (val_format a)|lia]. }
  destruct (fadd_fin n a a Fa Fa) as (A & B & _).
  - rewrite rnd_id by exact FM. apply Rle_lt_trans with (bpow radix2 11); [|apply bpow_lt; reflexivity]. change (bpow radix2 11) with 2048.
    apply Rabs_le_inv in Ba. apply Rabs_le. lra.
  - split; [exact A|]. rewrite B, rnd_id by exact FM. ring.
Qed.
Lemma tanh_med_val (a : F F32) : isfin a = true -> 0.625 <= val a <= 22 ->
  isfin (tanh_med c I n a) = true /\ sgn (tanh_med c I n a) = false /\ 0.5 <= val (tanh_med c I n a) <= 1 /\
  Rabs (val (tanh_med c I n a) - tanh (val a)) <= 215e-9.
Proof.
  intros Fa Ba. destruct (double_exact a Fa) as (F2 & V2); [apply Rabs_le; lra|].
  destruct (exp_accurate_core c I n (fadd n a a) HI F2) as (FE & SE & EE); [rewrite V2; lra|]. rewrite V2 in EE.
  unfold tanh_med. set (E := vec_exp_tanh_float c I n (fadd n a a)) in *.
  assert (W1 : 3.49 <= exp (2 * val a) <= 1.3e19).
  { split; [eapply Rle_trans; [exact exp_125|]|eapply Rle_trans; [|exact exp_44]].
    - destruct (Req_dec 1.25 (2 * val a)) as [-> |]; [lra|]. left. apply exp_increasing. lra.
    - destruct (Req_dec (2 * val a) 44) as [-> |]; [lra|]. left. apply exp_increasing. lra. }
  set (X := exp (2 * val a)) in *. apply Rabs_le_inv in EE.
  destruct one_ok as (F1 & V1 & S1).
  assert (EX : 3.48 <= val E <= 1.31e19) by lra.
  pose proof (rnd_rel (val E + 1)) as RD. rewrite u_val in RD. rewrite (Rabs_pos_eq (val E + 1)) in RD by lra.
  assert (H150 : bpow radix2 (-150) <= / 1000000000).
  { apply Rle_trans with (bpow radix2 (-30)); [apply bpow_le; lia|]. change (bpow radix2 (-30)) with (/ 1073741824). lra. }
  apply Rabs_le_inv in RD.
  destruct (fadd_fin n E (f_ofZ F32 1) FE F1) as (FD & VD & _).
  { rewrite V1. eapply Rle_lt_trans; [apply (rnd_le_bpow 64); [lia|]|apply bpow_lt; reflexivity].
    change (bpow radix2 64) with 18446744073709551616. rewrite Rabs_pos_eq; lra. }
  rewrite V1 in VD. rewrite <- VD in RD. set (D := fadd n E (f_ofZ F32 1)) in *. 
  assert (D1 : Rabs (val D - (X + 1)) <= 37e-8 * (X + 1)) by (apply Rabs_le; lra). apply Rabs_le_inv in D1.
  assert (D2 : 4.47 <= val D) by lra.
  destruct litf_2_0 as (FT & _ & _). pose proof val_litf_2_0 as VT. 
  assert (Q0 : 0 < 2 / val D <= 0.4475).
  { split; [apply Rdiv_lt_0_compat; lra|]. apply Rmult_le_reg_r with (val D); [lra|]. unfold Rdiv. rewrite Rmult_assoc, Rinv_l by lra. lra. }
  assert (Q1 : Rabs (2 / val D - 2 / (X + 1)) <= 166e-9).
  { replace (2 / val D - 2 / (X + 1)) with ((X + 1 - val D) / (X + 1) * (2 / val D)) by (field; lra). rewrite Rabs_mult.
    apply Rle_trans with (37e-8 * 0.4475); [|lra]. apply Rmult_le_compat; [apply Rabs_pos|apply Rabs_pos| |rewrite Rabs_pos_eq; lra].
    unfold Rdiv. rewrite Rabs_mult, (Rabs_pos_eq (/ (X + 1))) by (left; apply Rinv_0_lt_compat; lra).
    apply Rmult_le_reg_r with (X + 1); [lra|]. rewrite Rmult_assoc, Rinv_l by lra. rewrite Rmult_1_r. apply Rabs_le. lra. }
  assert (B2 : Rabs (2 / val D) <= bpow radix2 (-1)) by (change (bpow radix2 (-1)) with (/ 2); rewrite Rabs_pos_eq; lra).
  destruct (fdiv_fin n (litf 2 0) D FT ltac:(lra)) as (FQ & VQ & _).
  { rewrite VT. eapply Rle_lt_trans; [apply (rnd_le_bpow (-1)); [lia|exact B2]|apply bpow_lt; reflexivity]. }
  rewrite VT in VQ. set (q := fdiv n (litf 2 0) D) in *.
  pose proof (rnd_err (-1) _ ltac:(lia) B2) as RQ. change (bpow radix2 (-1 - 25)) with (/ 67108864) in RQ. rewrite <- VQ in RQ. apply Rabs_le_inv in RQ.
  assert (Qp : 0 <= val q <= / 2).
  { split; [rewrite VQ; apply rnd_ge_format; [apply generic_format_0|lra]|].
    rewrite VQ. change (/ 2) with (bpow radix2 (-1)). eapply Rle_trans; [apply Rle_abs|]. apply rnd_le_bpow; [lia|exact B2]. }
  assert (B3 : Rabs (1 - val q) <= bpow radix2 0) by (change (bpow radix2 0) with 1; rewrite Rabs_pos_eq; lra).
  destruct (fsub_fin n (f_ofZ F32 1) q F1 FQ) as (FM & VM & SM).
  { rewrite V1. eapply Rle_lt_trans; [apply (rnd_le_bpow 0); [lia|exact B3]|apply bpow_lt; reflexivity]. }
  rewrite V1 in VM, SM. split; [exact FM|]. split; [rewrite SM, Rcompare_Gt by lra; reflexivity|].
  pose proof (rnd_err 0 _ ltac:(lia) B3) as RM. change (bpow radix2 (0 - 25)) with (/ 33554432) in RM. rewrite <- VM in RM. apply Rabs_le_inv in RM.
  split.
  - rewrite VM. split.
    + apply rnd_ge_format; [|lra]. replace 0.5 with (bpow radix2 (-1)) by (change (bpow radix2 (-1)) with (/ 2); lra). apply bpow_format. discriminate.
    + change 1 with (bpow radix2 0) at 2. eapply Rle_trans; [apply Rle_abs|]. apply rnd_le_bpow; [lia|exact B3].
  - rewrite tanh_exp. fold X. apply Rabs_le_inv in Q1. apply Rabs_le. lra.
Qed.

(** The three cases. *)
Lemma tanh_small x : isfin x = true -> Rabs (val x) < 0.625 -> vec_tanh_float c I n x = fadd n (fmul n (tanh_C n (fabs x)) x) x.
Proof.
  intros Fx Bx. rewrite tanh_form. destruct lit625 as [F V]. rewrite (proj2 (lt_dec_val (fabs x) _ (abs_fin x Fx) F)); [reflexivity|].
  rewrite val_fabs, V. exact Bx.
Qed.
Lemma tanh_mid x : isfin x = true -> 0.625 <= Rabs (val x) <= 22 ->
  vec_tanh_float c I n x = if sgn x then fneg (tanh_med c I n (fabs x)) else tanh_med c I n (fabs x).
Proof.
  intros Fx Bx. rewrite tanh_form. destruct lit625 as [F V]. destruct lit22 as [F' V']. 
  destruct (vrel I LT (fabs x) (litf 625 3)) eqn:L.
  { apply lt_dec_val in L; [|apply abs_fin; exact Fx|exact F]. rewrite val_fabs, V in L. lra. }
  destruct (vrel I GT (fabs x) (litf 22 0)) eqn:G.
  { apply gt_dec_val in G; [|apply abs_fin; exact Fx|exact F']. rewrite val_fabs, V' in G. lra. }
  apply bor_sm. apply tanh_med_val; [apply abs_fin; exact Fx|rewrite val_fabs; exact Bx].
Qed.
Lemma tanh_far x : isnan x = false -> (isfin x = true -> 22 < Rabs (val x)) ->
  vec_tanh_float c I n x = if sgn x then fneg (f_ofZ F32 1) else f_ofZ F32 1.
Proof.
  intros Nx Bx. rewrite tanh_form. destruct lit625 as [F V]. destruct lit22 as [F' V']. 
  destruct (isfin x) eqn:Fx.
  - specialize (Bx eq_refl). destruct (vrel I LT (fabs x) (litf 625 3)) eqn:L.
    { apply lt_dec_val in L; [|apply abs_fin; exact Fx|exact F]. rewrite val_fabs, V in L. lra. }
    rewrite (proj2 (gt_dec_val (fabs x) _ (abs_fin x Fx) F')) by (rewrite val_fabs, V'; exact Bx). apply bor_sm. apply one_ok.
  - rewrite !vrel_num by (try exact HI; try (apply fin_not_nan; assumption); rewrite isnan_fabs; exact Nx).
    cbn [srel]. rewrite flt_ord, fgt_ord by (try (apply fin_not_nan; assumption); rewrite isnan_fabs; exact Nx).
    assert (M : ord (fabs x) = 2139095040%Z) by (destruct x as [s|s|s pl Hp|s m e Hm]; [discriminate|clear; destruct s; vm_compute; reflexivity|discriminate|discriminate]).
    assert (L : (ord (litf 22 0) < 2139095040)%Z) by (vm_compute; reflexivity). assert (L' : (ord (litf 625 3) < 2139095040)%Z) by (vm_compute; reflexivity).
    rewrite M. rewrite (proj2 (Z.ltb_ge 2139095040 _)) by lia. rewrite (proj2 (Z.ltb_lt _ 2139095040)) by lia. apply bor_sm. apply one_ok.
Qed.
Lemma tanh_bound x : isnan x = false -> isfin (vec_tanh_float c I n x) = true /\ Rabs (val (vec_tanh_float c I n x)) <= 1.
Proof.
  intros Nx. destruct one_ok as (F1 & V1 & _).
  assert (FAR : (isfin x = true -> 22 < Rabs (val x)) -> isfin (vec_tanh_float c I n x) = true /\ Rabs (val (vec_tanh_float c I n x)) <= 1).
  { intros H. rewrite (tanh_far x Nx H). destruct (sgn x); rewrite ?isfin_fneg, ?val_fneg, F1, V1, ?Rabs_Ropp, Rabs_R1; split; lra || reflexivity. }
  destruct (isfin x) eqn:Fx; [|apply FAR; discriminate].
  destruct (Rlt_dec 22 (Rabs (val x))) as [H|H]; [apply FAR; intros _; exact H|]. clear FAR.
  destruct (Rlt_dec (Rabs (val x)) 0.625) as [L|L].
  - rewrite tanh_small by assumption. destruct (tanh_C_val x Fx L) as (FC & EC & BC).
    destruct (last_step n x (tanh_C n (fabs x)) (tanh_q (val x * val x) * (val x * val x)) 1e-7 0.14 FC Fx ltac:(lra) EC BC ltac:(lra)) as (A & B).
    split; [exact A|]. set (r := val (fadd n (fmul n (tanh_C n (fabs x)) x) x)) in *. 
    replace r with (val x * (1 + tanh_q (val x * val x) * (val x * val x)) + (r - val x * (1 + tanh_q (val x * val x) * (val x * val x)))) by ring.
    eapply Rle_trans; [apply Rabs_triang|]. rewrite Rabs_mult.
    assert (E148 : bpow radix2 (-148) <= / 1000000).
    { apply Rle_trans with (bpow radix2 (-20)); [apply bpow_le; lia|]. change (bpow radix2 (-20)) with (/ 1048576). lra. }
    pose proof (Rabs_pos (val x)). assert (S : 0 <= val x * val x <= 0.390625). { apply Rabs_lt_inv in L. nra. }
    pose proof (tanh_q_range _ S) as Q. rewrite (Rabs_pos_eq (1 + _)) by lra. nra.
  - assert (G : 0.625 <= Rabs (val x) <= 22) by lra. rewrite tanh_mid by assumption.
    destruct (tanh_med_val (fabs x)) as (A & _ & B & _); [apply abs_fin; exact Fx|rewrite val_fabs; exact G|].
    destruct (sgn x); rewrite ?isfin_fneg, ?val_fneg, ?Rabs_Ropp; (split; [exact A|apply Rabs_le; lra]).
Qed.
Lemma tanh_sign x : isnan x = false -> (isfin x = true -> val x <> 0) -> sgn (vec_tanh_float c I n x) = sgn x.
Proof.
  intros Nx NZ. destruct one_ok as (F1 & V1 & S1).
  assert (FAR : (isfin x = true -> 22 < Rabs (val x)) -> sgn (vec_tanh_float c I n x) = sgn x).
  { intros H. rewrite (tanh_far x Nx H). destruct (sgn x); rewrite ?sgn_fneg, S1; reflexivity. }
  destruct (isfin x) eqn:Fx; [|apply FAR; discriminate].
  destruct (Rlt_dec 22 (Rabs (val x))) as [H|H]; [apply FAR; intros _; exact H|]. clear FAR.
  destruct (Rlt_dec (Rabs (val x)) 0.625) as [L|L].
  - rewrite tanh_small by assumption. destruct (tanh_C_val x Fx L) as (FC & EC & BC). apply last_sign; auto; lra.
  - assert (G : 0.625 <= Rabs (val x) <= 22) by lra. rewrite tanh_mid by assumption.
    destruct (tanh_med_val (fabs x)) as (_ & A & _ & _); [apply abs_fin; exact Fx|rewrite val_fabs; exact G|].
    destruct (sgn x); rewrite ?sgn_fneg, A; reflexivity.
Qed.
Lemma tanh_odd x : isnan x = false -> (isfin x = true -> val x <> 0) -> vec_tanh_float c I n (fneg x) = fneg (vec_tanh_float c I n x).
Proof.
  intros Nx NZ.
  assert (FAR : (isfin x = true -> 22 < Rabs (val x)) -> vec_tanh_float c I n (fneg x) = fneg (vec_tanh_float c I n x)).
  { intros H. rewrite (tanh_far x Nx H), tanh_far; [|rewrite isnan_fneg; exact Nx|rewrite isfin_fneg, val_fneg, Rabs_Ropp; exact H].
    rewrite sgn_fneg. destruct (sgn x); cbn [negb]; rewrite ?fneg_fneg; reflexivity. }
  destruct (isfin x) eqn:Fx; [|apply FAR; discriminate].
  destruct (Rlt_dec 22 (Rabs (val x))) as [H|H]; [apply FAR; intros _; exact H|]. clear FAR.
  assert (Fx' : isfin (fneg x) = true) by (rewrite isfin_fneg; exact Fx).
  assert (A' : Rabs (val (fneg x)) = Rabs (val x)) by (rewrite val_fneg; apply Rabs_Ropp).
  destruct (Rlt_dec (Rabs (val x)) 0.625) as [L|L].
  - rewrite !tanh_small by (try rewrite A'; assumption). destruct (tanh_C_val x Fx L) as (FC & EC & BC).
    rewrite fabs_fneg. apply last_odd; auto; lra.
  - assert (G : 0.625 <= Rabs (val x) <= 22) by lra. rewrite !tanh_mid by (try rewrite A'; assumption).
    rewrite fabs_fneg, sgn_fneg. destruct (sgn x); cbn [negb]; rewrite ?fneg_fneg; reflexivity.
Qed.
Lemma tanh_accurate x : isfin x = true ->
  Rabs (val (vec_tanh_float c I n x) - tanh (val x)) <= 4e-7 * Rabs (tanh (val x)) + bpow radix2 (-148).
Proof.
  intros Fx. pose proof (bpow_gt_0 radix2 (-148)) as E148. destruct one_ok as (F1 & V1 & S1).
  assert (TA : Rabs (tanh (val x)) = tanh (Rabs (val x))).
  { pose proof (sgn_val_gen x Fx). destruct (Rle_dec 0 (val x)) as [P|P].
    - rewrite (Rabs_pos_eq (val x)) by exact P. apply Rabs_pos_eq. rewrite tanh_exp. pose proof (exp_ineq1_le (2 * val x)).
      assert (2 / (exp (2 * val x) + 1) <= 1); [|lra]. apply Rmult_le_reg_r with (exp (2 * val x) + 1); [lra|]. unfold Rdiv. rewrite Rmult_assoc, Rinv_l by lra. lra.
    - rewrite (Rabs_left (val x)) by lra. rewrite tanh_opp. apply Rabs_left1. rewrite tanh_exp. 
      assert (exp (2 * val x) <= 1). { rewrite <- exp_0. left. apply exp_increasing. lra. }
      pose proof (exp_pos (2 * val x)). assert (1 <= 2 / (exp (2 * val x) + 1)); [|lra]. apply Rmult_le_reg_r with (exp (2 * val x) + 1); [lra|]. unfold Rdiv. rewrite Rmult_assoc, Rinv_l by lra. lra. }
  assert (SIGN : forall y : F F32, isfin y = true -> Rabs (val (if sgn x then fneg y else y) - tanh (val x)) = Rabs (val y - tanh (Rabs (val x)))).
  { intros y _. pose proof (sgn_val_gen x Fx) as V. destruct (sgn x).
    - rewrite val_fneg. replace (tanh (val x)) with (- tanh (Rabs (val x))) by (rewrite V, Rabs_Ropp, Rabs_Rabsolu, tanh_opp; reflexivity).
      rewrite <- (Rabs_Ropp (val y - _)). f_equal. ring.
    - rewrite V, Rabs_Rabsolu. reflexivity. }
  destruct (Rlt_dec 22 (Rabs (val x))) as [H|H].
  { rewrite (tanh_far x (fin_not_nan x Fx) (fun _ => H)), SIGN, TA, V1 by exact F1. 
    pose proof (tanh_22 (Rabs (val x)) ltac:(lra)) as B. pose proof (tanh_range (Rabs (val x))) as B'. apply Rabs_lt_inv in B'. rewrite Rabs_pos_eq; lra. }
  destruct (Rlt_dec (Rabs (val x)) 0.625) as [L|L].
  - rewrite tanh_small by assumption. destruct (tanh_C_val x Fx L) as (FC & EC & BC).
    destruct (last_step n x (tanh_C n (fabs x)) (tanh_q (val x * val x) * (val x * val x)) 1e-7 0.14 FC Fx ltac:(lra) EC BC ltac:(lra)) as (A & B).
    set (r := val (fadd n (fmul n (tanh_C n (fabs x)) x) x)) in *. pose proof (tanh_poly (val x) ltac:(lra)) as P.
    set (T := val x * (1 + tanh_q (val x * val x) * (val x * val x))) in *.
    assert (S : 0 <= val x * val x <= 0.390625). { apply Rabs_lt_inv in L. nra. }
    pose proof (tanh_q_range _ S) as Q. assert (TT : 0.86 * Rabs (val x) <= Rabs T).
    { unfold T. rewrite Rabs_mult, (Rabs_pos_eq (1 + _)) by lra. pose proof (Rabs_pos (val x)). nra. }
    assert (T2 : Rabs T <= Rabs (tanh (val x)) + 1e-8 * Rabs (val x)).
    { replace T with (tanh (val x) + (T - tanh (val x))) by ring. eapply Rle_trans; [apply Rabs_triang|]. lra. }
    replace (r - tanh (val x)) with ((r - T) + (T - tanh (val x))) by ring. eapply Rle_trans; [apply Rabs_triang|]. pose proof (Rabs_pos (val x)). lra.
  - assert (G : 0.625 <= Rabs (val x) <= 22) by lra. rewrite tanh_mid by assumption.
    destruct (tanh_med_val (fabs x)) as (A & _ & _ & B); [apply abs_fin; exact Fx|rewrite val_fabs; exact G|].
    rewrite SIGN, TA by exact A. rewrite val_fabs in B. pose proof (tanh_625 (Rabs (val x)) ltac:(lra)). lra.
Qed.
Lemma tanh_nan_avx x : I = AVX -> isnan x = true -> vec_tanh_float c I n x = if sgn x then fneg (f_ofZ F32 1) else f_ofZ F32 1.
Proof.
  intros E Nx. rewrite tanh_form. rewrite vrel_nan_lt, vrel_nan_gt by (try exact HI; left; rewrite isnan_fabs; exact Nx).
  rewrite E. apply bor_sm. apply one_ok.
Qed.
End T.
Lemma tanh_minus_zero c I n : x86 I -> bits (vec_tanh_float c I n (B754_zero 24 128 true)) = bits (f_ofZ F32 0).
Proof. intros [-> | ->]; [destruct c as [[] ? [] ?]|]; vm_compute; reflexivity. Qed.
Lemma tanh_plus_zero c I n : x86 I -> bits (vec_tanh_float c I n (B754_zero 24 128 false)) = bits (f_ofZ F32 0).
Proof. intros [-> | ->]; [destruct c as [[] ? [] ?]|]; vm_compute; reflexivity. Qed.
