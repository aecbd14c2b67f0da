(** sign, min, max, clip, softclip, undenormalize and signed_sqrt on one lane. *)
From Coq Require Import ZArith Reals Bool List Lia Lra.
From Flocq Require Import Core IEEE754.Binary IEEE754.Bits.
From Verif Require Import Base Mem Backend Args Drivers Functors Lanes Float LaneOps FloatOps ScalarMath VecMath FloatFuns
  Spec SpecLane FloatFacts LaneFacts LaneMore FloatRound ReduceMore VecFacts.
Import ListNotations.
Local Open Scope Z_scope.

Section T.
Context {t : fmt}.
Implicit Types x y a b v low high r : F t.

(** ** sign *)
Lemma vmask_ne I x : I <> GEN -> vmask I NE x gen_zero = mask (negb (feq x (f_ofZ t 0))).
Proof. intros H. destruct I; try congruence; reflexivity. Qed.
Lemma sgn_one : sgn (f_ofZ t 1) = false. Proof. destruct t; reflexivity. Qed.
Lemma isnan_one : isnan (f_ofZ t 1) = false. Proof. destruct t; reflexivity. Qed.
Lemma neg_one : f_ofZ t (-1) = fneg (f_ofZ t 1).
Proof. apply bits_inj. destruct t; vm_compute; reflexivity. Qed.
Lemma feq0_ord x : feq x (f_ofZ t 0) = true <-> isnan x = false /\ ord x = 0.
Proof. rewrite feq_iff, ord_zero. pose proof (isnan_zero (t := t)). tauto. Qed.
Lemma vec_sign_eq c I x : I <> GEN ->
  vec_sign c I x = if feq x (f_ofZ t 0) then x else if sgn x then f_ofZ t (-1) else f_ofZ t 1.
Proof.
  intros H. unfold vec_sign. rewrite vmask_ne, band_mask_l, gen_one_1 by exact H.
  destruct (feq x (f_ofZ t 0)) eqn:E; cbn [negb].
  - rewrite bor_zero_r. apply feq0_ord in E. destruct E as [_ E]. apply sm_inj; rewrite ?sgn_sm, ?mag_sm; [reflexivity|].
    symmetry. apply mag_0_ord. exact E.
  - rewrite bor_sm by apply sgn_one. rewrite neg_one. reflexivity.
Qed.
Lemma s_sign_num x : isnan x = false ->
  s_sign x = if 0 <? ord x then f_ofZ t 1 else if ord x =? 0 then f_ofZ t 0 else f_ofZ t (-1).
Proof.
  intros H. unfold s_sign. rewrite fgt_ord, feq_ord by (exact H || apply isnan_zero). rewrite ord_zero. reflexivity.
Qed.
Lemma vsign_num c I x : isnan x = false ->
  vsign c I x = if 0 <? ord x then f_ofZ t 1 else if ord x =? 0 then (match I with GEN => f_ofZ t 0 | _ => x end) else f_ofZ t (-1).
Proof.
  intros H. destruct (match I with GEN => true | _ => false end) eqn:E.
  - destruct I; try discriminate. apply s_sign_num. exact H.
  - assert (HI : I <> GEN) by (destruct I; congruence).
    transitivity (vec_sign c I x); [destruct I; congruence || reflexivity|]. rewrite vec_sign_eq by exact HI.
    rewrite feq_ord, ord_zero by (exact H || apply isnan_zero).
    destruct (Z.ltb_spec 0 (ord x)); destruct (Z.eqb_spec (ord x) 0); try lia.
    + rewrite ord_pos_sgn by assumption. reflexivity.
    + destruct I; congruence || reflexivity.
    + rewrite ord_sgn by lia. reflexivity.
Qed.
Lemma feq_refl x : isnan x = false -> feq x x = true.
Proof. intros H. apply feq_iff. auto. Qed.
Lemma vsign_feq c I x : isnan x = false -> feq (vsign c I x) (s_sign x) = true.
Proof.
  intros H. rewrite vsign_num, s_sign_num by exact H.
  destruct (Z.ltb_spec 0 (ord x)); [apply feq_refl, isnan_one|]. destruct (Z.eqb_spec (ord x) 0).
  - destruct I; [apply feq_refl, isnan_zero|..]; apply feq0_ord; auto.
  - apply feq_refl. rewrite neg_one, isnan_fneg. apply isnan_one.
Qed.
Lemma s_sign_nan x : isnan x = true -> s_sign x = f_ofZ t (-1).
Proof. intros H. unfold s_sign, fgt, feq. rewrite compare_nan by auto. reflexivity. Qed.
Lemma vsign_nan c I x : I <> GEN -> isnan x = true -> vsign c I x = if sgn x then f_ofZ t (-1) else f_ofZ t 1.
Proof.
  intros HI H. transitivity (vec_sign c I x); [destruct I; congruence || reflexivity|]. rewrite vec_sign_eq by exact HI.
  unfold feq. rewrite compare_nan by auto. reflexivity.
Qed.

(** ** clip *)
Lemma rep_self x : isnan x = false -> rep x (ord x). Proof. intros H. split; [exact H|reflexivity]. Qed.
Lemma confined_rep v low high r :
  isnan v = false -> fle low high = true -> rep r (Z.max (Z.min (ord v) (ord high)) (ord low)) -> confined v low high r.
Proof.
  intros Hv Hl [Hr1 Hr2]. apply fle_iff in Hl. destruct Hl as (Hl1 & Hh1 & Hl).
  unfold confined. rewrite !fle_iff, !flt_iff, !feq_iff, Hr2.
  repeat split; auto; try lia.
Qed.
Lemma clip_scalar_confined n v low high : isnan v = false -> fle low high = true ->
  confined v low high (clip_functor (fops_scalar n) v low high).
Proof.
  intros Hv Hl. apply confined_rep; auto. apply fle_iff in Hl. destruct Hl as (Hl1 & Hh1 & Hl).
  apply smax_rep; [apply smin_rep|]; apply rep_self; assumption.
Qed.
Lemma fsub_zero_l n x : isnan x = false -> rep (fsub n (f_ofZ t 0) x) (- ord x).
Proof.
  intros H. destruct (isfin x) eqn:Fx.
  - assert (V : val (f_ofZ t 0) = 0%R) by (destruct t; reflexivity).
    destruct (fsub_fin n (f_ofZ t 0) x) as (A1 & A2 & A3); [destruct t; reflexivity|exact Fx|..].
    + rewrite V, Rminus_0_l, rnd_opp, Rabs_Ropp, rnd_id by apply val_format. apply val_lt_emax.
    + split; [apply fin_not_nan; exact A1|]. rewrite <- ord_fneg. apply ord_eq_val; [exact A1|rewrite isfin_fneg; exact Fx|].
      rewrite A2, V, Rminus_0_l, rnd_opp, rnd_id, val_fneg by apply val_format. reflexivity.
  - rewrite <- ord_fneg.
    assert (E : fsub n (f_ofZ t 0) x = fneg x).
    { destruct x as [s|s|s pl Hp|s m e Hm]; try discriminate. destruct t; reflexivity. }
    rewrite E. split; [rewrite isnan_fneg; exact H|reflexivity].
Qed.
Lemma vmul_x86 I n x y : I <> ALTIVEC -> vmul I n x y = fmul n x y.
Proof. destruct I; try reflexivity. congruence. Qed.
End T.

Lemma clip_lane_confined c B n (v low high : F (fmt_of B)) : isnan v = false -> fle low high = true ->
  confined v low high (clip_functor (fops c B n) v low high).
Proof.
  intros Hv Hl. apply confined_rep; auto. apply fle_iff in Hl. destruct Hl as (Hl1 & Hh1 & Hl).
  apply vmax_rep; [apply vmin_rep|]; apply rep_self; assumption.
Qed.
Lemma confined2 {t} (v limit r : F t) : isnan v = false -> fle (f_ofZ t 0) limit = true ->
  rep r (Z.max (- ord limit) (Z.min (ord v) (ord limit))) -> confined v (fneg limit) limit r.
Proof.
  intros Hv Hl Hr. apply fle_iff in Hl. destruct Hl as (_ & Hl1 & Hl). rewrite ord_zero in Hl. apply confined_rep; auto.
  - apply fle_iff. rewrite isnan_fneg, ord_fneg. repeat split; auto; lia.
  - rewrite ord_fneg, Z.max_comm. exact Hr.
Qed.
Lemma clip2_scalar_confined {t} (n : nans t) v limit : isnan v = false -> fle (f_ofZ t 0) limit = true ->
  confined v (fneg limit) limit (clip2_functor (fops_scalar n) v limit).
Proof.
  intros Hv Hl. apply confined2; auto. apply fle_iff in Hl. destruct Hl as (_ & Hl1 & Hl).
  apply smax_rep; [apply fsub_zero_l; assumption|apply smin_rep; apply rep_self; assumption].
Qed.
Lemma clip2_lane_confined c B n (v limit : F (fmt_of B)) : isnan v = false -> fle (f_ofZ (fmt_of B) 0) limit = true ->
  confined v (fneg limit) limit (clip2_functor (fops c B n) v limit).
Proof.
  intros Hv Hl. apply confined2; auto. apply fle_iff in Hl. destruct Hl as (_ & Hl1 & Hl).
  apply vmax_rep; [apply fsub_zero_l; assumption|apply vmin_rep; apply rep_self; assumption].
Qed.

Section Softclip.
Context {t : fmt} (n : nans t).
Implicit Types x : F t.
Local Open Scope R_scope.

Lemma half_ok : isfin (f_lit t 1 (-1)) = true /\ val (f_lit t 1 (-1)) = / 2.
Proof. split; [destruct t; reflexivity|]. rewrite f_lit_pow by (destruct t; easy). reflexivity. Qed.
Lemma quarter_ok : isfin (f_lit t 1 (-2)) = true /\ val (f_lit t 1 (-2)) = / 4.
Proof. split; [destruct t; reflexivity|]. rewrite f_lit_pow by (destruct t; easy). reflexivity. Qed.

Lemma abs_lt_half x : isfin x = true -> (flt (fabs x) (f_lit t 1 (-1)) = true <-> Rabs (val x) < / 2).
Proof.
  intros H. rewrite flt_iff. destruct half_ok as [Hf Hv]. rewrite ord_lt_val, val_fabs, Hv by (assumption || rewrite isfin_fabs; assumption).
  rewrite isnan_fabs. pose proof (fin_not_nan x H). pose proof (fin_not_nan _ Hf). tauto.
Qed.
Lemma half_abs_format x : / 2 <= Rabs (val x) -> fmtR t (Rabs (val x) / 2).
Proof.
  intros H.
  assert (F0 : fmtR t (Rabs (val x))) by (apply generic_format_abs; apply val_format).
  apply generic_format_FLT. apply FLT_format_generic in F0; [|destruct t; reflexivity].
  destruct F0 as [g Hg1 Hg2 Hg3].
  assert (Q : exists k e, Rabs (val x) = IZR k * bpow radix2 e /\ (Z.abs k < 2 ^ prec t)%Z /\ (emin t + 1 <= e)%Z).
  { destruct (Z_le_gt_dec (emin t + 1) (Fexp g)) as [L|L].
    - exists (Fnum g), (Fexp g). split; [exact Hg1|]. split; [exact Hg2|exact L].
    - exfalso. assert (Fexp g = emin t)%Z by lia.
      assert (Rabs (val x) < / 2); [|lra]. rewrite Hg1. unfold F2R. rewrite H0.
      apply Rlt_le_trans with (bpow radix2 (prec t) * bpow radix2 (emin t)).
      + apply Rmult_lt_compat_r; [apply bpow_gt_0|]. apply Rle_lt_trans with (IZR (Z.abs (Fnum g))); [apply IZR_le; lia|].
        rewrite <- IZR_Zpower by (destruct t; discriminate). apply IZR_lt. exact Hg2.
      + rewrite <- bpow_plus. change (/ 2) with (bpow radix2 (-1)). apply bpow_le. destruct t; vm_compute; discriminate. }
  destruct Q as (k & e & E & K & L). exists (Float radix2 k (e - 1)).
  - rewrite E. unfold F2R. cbn [Fnum Fexp]. replace e with (e - 1 + 1)%Z at 1 by lia. rewrite bpow_plus.
    change (bpow radix2 1) with 2. field.
  - exact K.
  - cbn. lia.
Qed.
Lemma softclip_outer x : isfin x = true -> / 2 <= Rabs (val x) ->
  let r := fdiv n (fsub n (fabs x) (f_lit t 1 (-2))) x in
  isfin r = true /\ val r = rnd t (rnd t (Rabs (val x) - / 4) / val x) /\ sgn r = sgn x /\
  / 2 <= Rabs (val r) <= 1.
Proof.
  intros H Hx r. destruct quarter_ok as [Qf Qv].
  assert (Fa : fmtR t (Rabs (val x))) by (apply generic_format_abs; apply val_format).
  assert (B1 : Rabs (val x) / 2 <= rnd t (Rabs (val x) - / 4) <= Rabs (val x)).
  { split.
    - apply rnd_ge_format; [apply half_abs_format; exact Hx|lra].
    - apply rnd_le_format; [exact Fa|lra]. }
  destruct (fsub_fin n (fabs x) (f_lit t 1 (-2))) as (A1 & A2 & A3); [rewrite isfin_fabs; exact H|exact Qf|..].
  { rewrite val_fabs, Qv. rewrite Rabs_pos_eq by lra. apply Rle_lt_trans with (Rabs (val x)); [lra|apply val_lt_emax]. }
  rewrite val_fabs, Qv in A2, A3. rewrite Rcompare_Gt in A3 by lra.
  assert (X0 : val x <> 0) by (intros E; rewrite E, Rabs_R0 in Hx; lra).
  assert (B2 : / 2 <= Rabs (rnd t (Rabs (val x) - / 4) / val x) <= 1).
  { unfold Rdiv. rewrite Rabs_mult, Rabs_inv, (Rabs_pos_eq (rnd t _)) by lra.
    assert (0 < / Rabs (val x)) by (apply Rinv_0_lt_compat; lra).
    assert (Rabs (val x) * / Rabs (val x) = 1) by (apply Rinv_r; lra). split; nra. }
  assert (F1 : fmtR t 1) by (change 1 with (bpow radix2 0); apply bpow_format; destruct t; vm_compute; discriminate).
  assert (F2 : fmtR t (/ 2)) by (change (/ 2) with (bpow radix2 (-1)); apply bpow_format; destruct t; vm_compute; discriminate).
  assert (B3 : / 2 <= Rabs (rnd t (rnd t (Rabs (val x) - / 4) / val x)) <= 1).
  { split; [apply rnd_abs_ge; [exact F2|lra]|apply rnd_abs_le; [exact F1|lra]]. }
  destruct (fdiv_fin n (fsub n (fabs x) (f_lit t 1 (-2))) x) as (D1 & D2 & D3); [exact A1|exact X0|..].
  { rewrite A2. apply Rle_lt_trans with 1; [lra|]. change 1 with (bpow radix2 0). apply bpow_lt. destruct t; reflexivity. }
  rewrite A2 in D2. rewrite A3 in D3. fold r in D1, D2, D3. rewrite xorb_false_l in D3.
  split; [exact D1|]. split; [exact D2|]. split; [exact D3|]. change (/ 2 <= Rabs (val r) <= 1). rewrite D2. exact B3.
Qed.
Lemma softclip_inner x : isfin x = true -> Rabs (val x) < / 2 -> s_softclip n x = x.
Proof. intros H Hx. unfold s_softclip. apply abs_lt_half in Hx; [|exact H]. rewrite Hx. reflexivity. Qed.
Lemma softclip_out x : isfin x = true -> / 2 <= Rabs (val x) -> s_softclip n x = fdiv n (fsub n (fabs x) (f_lit t 1 (-2))) x.
Proof.
  intros H Hx. unfold s_softclip. destruct (flt (fabs x) (f_lit t 1 (-1))) eqn:E; [|reflexivity].
  apply abs_lt_half in E; [lra|exact H].
Qed.
Lemma softclip_half x : isfin x = true -> Rabs (val x) = / 2 -> s_softclip n x = x.
Proof.
  intros H Hx. rewrite softclip_out by (auto; lra). destruct (softclip_outer x H) as (A1 & A2 & A3 & _); [lra|].
  apply fin_eq; auto. rewrite A2, Hx.
  assert (F4 : fmtR t (/ 4)) by (change (/ 4) with (bpow radix2 (-2)); apply bpow_format; destruct t; vm_compute; discriminate).
  replace (/ 2 - / 4) with (/ 4) by lra. rewrite (rnd_id (/ 4)) by exact F4.
  replace (/ 4 / val x) with (val x); [apply rnd_id; apply val_format|].
  destruct (Rcase_abs (val x)) as [C|C]; [rewrite Rabs_left in Hx by lra; replace (val x) with (- / 2) by lra|rewrite Rabs_right in Hx by lra; rewrite Hx]; field.
Qed.
Lemma softclip_odd x : isfin x = true -> s_softclip n (fneg x) = fneg (s_softclip n x).
Proof.
  intros H. assert (H' : isfin (fneg x) = true) by (rewrite isfin_fneg; exact H).
  destruct (Rlt_le_dec (Rabs (val x)) (/ 2)) as [L|L].
  - rewrite !softclip_inner; auto. rewrite val_fneg, Rabs_Ropp. exact L.
  - assert (L' : / 2 <= Rabs (val (fneg x))) by (rewrite val_fneg, Rabs_Ropp; exact L).
    rewrite !softclip_out by assumption.
    destruct (softclip_outer x H L) as (A1 & A2 & A3 & _). destruct (softclip_outer (fneg x) H' L') as (C1 & C2 & C3 & _).
    apply fin_eq; auto; [rewrite isfin_fneg; exact A1| |rewrite sgn_fneg, A3, C3, sgn_fneg; reflexivity].
    rewrite val_fneg, A2, C2, val_fneg, Rabs_Ropp, <- rnd_opp. f_equal. field. intros E. rewrite E, Rabs_R0 in L. lra.
Qed.
Lemma softclip_inf x : isfin x = false -> isnan x = false -> isnan (s_softclip n x) = true.
Proof.
  intros H1 H2. destruct x as [s|s|s pl Hp|s m e Hm]; try discriminate.
  assert (E : s_softclip n (B754_infinity _ _ s) = fdiv n (B754_infinity _ _ false) (B754_infinity (prec t) (emax t) s)).
  { unfold s_softclip. destruct t, s; reflexivity. }
  rewrite E. unfold isnan, fdiv, Bdiv, BSN2B. cbn [B2BSN BinarySingleNaN.Bdiv]. destruct (nan_div n _ _) as [z Hz]. cbn [proj1_sig]. destruct z; try discriminate; reflexivity.
Qed.
Lemma vsoftclip_eq c I x : vsoftclip c I n x = s_softclip n x.
Proof.
  destruct I; try reflexivity; unfold vsoftclip, vec_softclip; rewrite select_vmask by discriminate;
    rewrite vabs_fabs, gen_05_half; reflexivity.
Qed.
End Softclip.
