(** Accuracy of arc sine and arc cosine. *)
From Coq Require Import ZArith Reals Ratan List Lia Lra Bool.
From Flocq Require Import Core IEEE754.Binary IEEE754.Bits.
From Verif Require Import Base Backend Lanes Float LaneOps ScalarMath VecMath IntVec TransMath SpecLane SpecInt
  FloatFacts FloatRound LaneFacts VecFacts VecMore VecMore2 RoundFacts RoundMore RoundMore2 IntFacts LdexpFacts TransConst ErrFacts ErrTac LastStep NearFacts TransFacts RealTanh TanhFacts RealTrig RealArc LogFacts ExpFacts TrigFacts SinFacts OddFacts.
Import ListNotations.
Local Open Scope R_scope.
#[local] Opaque litf litd.

(** Proof auxiliary: the polynomial of vec_asin_float (vec_math.hpp) in x*x. *)
Definition asin_P (n : nans F32) (x : F F32) : F F32 :=
  fadd n (litd 166667520999908447265625 24) (fmul n (fmul n x x) (fadd n (litd 74953101575374603271484375 27) (fmul n (fmul n x x)
  (fadd n (litd 454690195620059967041015625 28) (fmul n (fmul n x x) (fadd n (litd 2418550290167331695556640625 29)
  (fmul n (fmul n x x) (litd 421570129692554473876953125 28)))))))).
(** Proof auxiliary: the series x + x^3 P(x^2) both branches of asin share. *)
Definition arc (n : nans F32) (x : F F32) : F F32 := fadd n x (fmul n (cube_of n x) (asin_P n x)).
(** Proof auxiliary: the reduced argument sqrt((1 - a) / 2) of the outer branch.
    *)
Definition arc_red (n : nans F32) (a : F F32) : F F32 := fsqrt n (fmul n (fsub n (f_ofZ F32 1) a) (f_lit F32 1 (-1))).

Section S.
Context (c : cfg) (I : isa) (n : nans F32) (HI : x86 I).
Lemma half_ok : isfin (f_lit F32 1 (-1)) = true /\ val (f_lit F32 1 (-1)) = 1 / 2.
Proof. split; [reflexivity|]. vm_compute. lra. Qed.
Lemma asin_form a : sgn a = false -> vrel I GT a (f_ofZ F32 1) = false ->
  vec_asin_float c I n a = if vrel I GT a (litd 5 1)
    then fsub n (fsub n (litd 157079637050628662109375 23) (arc n (arc_red n a))) (arc n (arc_red n a)) else arc n a.
Proof.
  intros Sa G. assert (EA : fabs a = a) by (destruct a as [[]|[]|[]|[]]; reflexivity || discriminate).
  unfold vec_asin_float. cbv zeta. rewrite !band_abs, EA, gen_one_1, gen_05_half. rewrite !select_vmask by (apply x86_neon; exact HI). rewrite bxor_sign, Sa, G.
  unfold arc, asin_P, cube_of, arc_red. destruct (vrel I GT a (litd 5 1)); reflexivity.
Qed.
Lemma asin_P_near b : isfin b = true -> Rabs (val b) <= 0.5 -> near (asin_P n b) (asin_q (val b * val b)) 0.2 2e-8 0 1.
Proof.
  intros Fb Bb. assert (HB : holds b (val b) (- 2 ^ 79, 2 ^ 79, 0)%Z).
  { apply holds_var; [exact Fb|reflexivity|]. dyz. apply Rabs_le_inv in Bb. lra. }
  let t := eval unfold asin_P in (asin_P n b) in err_bound n [b] [val b] [(- 2 ^ 79, 2 ^ 79, 0)]%Z t H.
  fold (asin_P n b) in H. autorewrite with lits in H. fold (asin_q (val b * val b)) in H.
  destruct H as (F1 & R1 & E1). rewrite !dy_lit in *. apply Rabs_le_inv in Bb.
  assert (Z : 0 <= val b * val b <= 0.25) by nra. set (z := val b * val b) in *.
  assert (Q : 0 <= asin_q z).
  { unfold asin_q. repeat (apply Rplus_le_le_0_compat; [lra|apply Rmult_le_pos; [lra|]]). lra. }
  split; [exact F1|rewrite Rabs_pos_eq by exact Q; lra|lra|lra].
Qed.
Lemma arc_ok b : isfin b = true -> Rabs (val b) <= 0.5 ->
  isfin (arc n b) = true /\ Rabs (val (arc n b) - asin (val b)) <= 11e-8 * Rabs (val b) + 5 * eta.
Proof.
  intros Fb Bb. pose proof (asin_P_near b Fb Bb) as NP. assert (W2 : Rabs (val b) * Rabs (val b) <= 0.25) by (pose proof (Rabs_pos (val b)); nra).
  pose proof (odd_tail n b _ _ _ _ 0.25 Fb ltac:(lra) W2 ltac:(lra) NP ltac:(lra) ltac:(lra)) as NT. fold (arc n b) in NT.
  destruct NT as [FT _ ET _]. split; [exact FT|]. pose proof (asin_poly (val b) Bb) as EP.
  set (S := arc n b) in *. set (r := val b * (1 + val b * val b * asin_q (val b * val b))) in *.
  replace (val S - asin (val b)) with ((val S - r) + (r - asin (val b))) by ring.
  eapply Rle_trans; [apply Rabs_triang|]. pose proof (Rabs_pos (val b)). set (B := Rabs (val b)) in *. lra.
Qed.
Lemma sqrt_half z : 0 <= z <= 0.25 -> sqrt z <= 0.5.
Proof. intros H. replace 0.5 with (sqrt 0.25) by (replace 0.25 with (0.5 * 0.5) by lra; apply sqrt_square; lra). apply sqrt_le_1; lra. Qed.
(** the reduced argument for arguments above a half *)
Lemma arc_red_ok a : isfin a = true -> 0.5 <= val a <= 1 ->
  let s := sqrt ((1 - val a) / 2) in
  isfin (arc_red n a) = true /\ 0 <= val (arc_red n a) <= 0.5 /\ 0 <= s <= 0.5 /\ Rabs (val (arc_red n a) - s) <= / 16777216 * s + / 2 * eta /\ sgn (arc_red n a) = false.
Proof.
  intros Fa Ba s. destruct one_ok as (F1 & V1 & _). destruct half_ok as [FH VH]. 
  assert (SB : 0 <= s <= 0.5) by (split; [apply sqrt_pos|apply sqrt_half; lra]).
  assert (G1 : fmtR F32 (1 - val a)).
  { rewrite <- V1. replace (val (f_ofZ F32 1) - val a) with (- (val a - val (f_ofZ F32 1))) by ring. apply generic_format_opp. apply fmt_minus; [apply val_format|apply val_format|rewrite V1; lra]. }
  destruct (fsub_fin n (f_ofZ F32 1) a F1 Fa) as (FS & VS & SS); [apply small_fin; rewrite V1; apply Rabs_le; lra|]. rewrite V1, rnd_id in VS by exact G1. rewrite V1 in SS.
  set (d := fsub n (f_ofZ F32 1) a) in *.
  assert (G2 : fmtR F32 (val d * (1 / 2))).
  { rewrite VS. destruct (Req_dec (val a) 1) as [E|E]; [rewrite E, Rminus_diag_eq, Rmult_0_l by reflexivity; apply generic_format_0|].
    replace ((1 - val a) * (1 / 2)) with ((1 - val a) * bpow radix2 (-1)) by (change (bpow radix2 (-1)) with (/ 2); field).
    destruct (val_dyadic a Fa) as (m & e & Em & Hm & He & Hq). assert (E24 : (-24 <= e)%Z) by (apply Hq; rewrite Rabs_pos_eq; lra).
    assert (Q : 1 - val a = IZR (2 ^ 24 - m * 2 ^ (e + 24)) * bpow radix2 (-24)).
    { change (2 ^ 24)%Z with (radix_val radix2 ^ 24)%Z. change (2 ^ (e + 24))%Z with (radix_val radix2 ^ (e + 24))%Z. rewrite minus_IZR, mult_IZR, !IZR_Zpower by lia. rewrite Rmult_minus_distr_r, Rmult_assoc, <- !bpow_plus.
      replace (e + 24 + -24)%Z with e by lia. rewrite <- Em. reflexivity. }
    rewrite Q, Rmult_assoc, <- bpow_plus. apply dyadic_format; [|discriminate]. change (2 ^ prec F32)%Z with 16777216%Z. apply le_IZR. rewrite abs_IZR.
    assert (B : Rabs (1 - val a) <= 0.5) by (apply Rabs_le; lra). rewrite Q, Rabs_mult, (Rabs_pos_eq (bpow radix2 (-24))) in B by apply bpow_ge_0.
    change (bpow radix2 (-24)) with (/ 16777216) in B. lra. }
  destruct (fmul_fin n d (f_lit F32 1 (-1)) FS FH) as (FM & VM & SM); [apply small_fin; rewrite VH, VS; apply Rabs_le; lra|]. rewrite VH, rnd_id, VS in VM by exact G2.
  set (m := fmul n d (f_lit F32 1 (-1))) in *.
  assert (EM : val m = (1 - val a) / 2) by (rewrite VM; field).
  destruct (fsqrt_fin n m FM) as (FR & VR & SR); [rewrite EM; lra|]. fold m in FR, VR. rewrite EM in VR. fold s in VR. unfold arc_red. fold d. fold m.
  split; [exact FR|]. rewrite VR. split.
  - split; [rewrite <- (rnd_0 (t := F32)); apply rnd_le; lra|]. rewrite <- (rnd_id (t := F32) 0.5); [apply rnd_le; lra|].
    replace 0.5 with (bpow radix2 (-1)) by (change (bpow radix2 (-1)) with (/ 2); lra). apply bpow_format. discriminate.
  - split; [exact SB|]. split; [pose proof (rnd_eta s) as H; rewrite (Rabs_pos_eq s) in H by lra; exact H|].
    rewrite SR, SM. change (sgn (f_lit F32 1 (-1))) with false. rewrite xorb_false_r, SS.
    destruct (Req_dec (val a) 1) as [E|E]; [|rewrite Rcompare_Gt by lra; reflexivity].
    rewrite E, Rminus_diag_eq, Rcompare_Eq by reflexivity. reflexivity.
Qed.

Lemma gt_false (x y : F F32) : isfin x = true -> isfin y = true -> val x <= val y -> vrel I GT x y = false.
Proof.
  intros Fx Fy H. destruct (vrel I GT x y) eqn:E; [|reflexivity]. apply (gt_dec_val I HI x y Fx Fy) in E. lra.
Qed.
Lemma gt_true (x y : F F32) : isfin x = true -> isfin y = true -> val x > val y -> vrel I GT x y = true.
Proof. intros Fx Fy H. apply (gt_dec_val I HI x y Fx Fy). exact H. Qed.
(** arc sine of the reduced argument against half the exact angle *)
Lemma arc_half a : isfin a = true -> 0.5 <= val a <= 1 ->
  let h := asin (sqrt ((1 - val a) / 2)) in
  isfin (arc n (arc_red n a)) = true /\ 0 <= h <= 0.5237 /\ Rabs (val (arc n (arc_red n a)) - h) <= 18e-8 * h + 6 * eta.
Proof.
  intros Fa Ba h. destruct (arc_red_ok a Fa Ba) as (FR & BR & BS & ER & _). unfold h. set (s := sqrt ((1 - val a) / 2)) in *. set (r := arc_red n a) in *. clearbody r.
  destruct (arc_ok r FR ltac:(rewrite Rabs_pos_eq; lra)) as [FA EA]. split; [exact FA|]. pose proof eta_small as ET.
  pose proof (lip_asin (val r) s ltac:(rewrite Rabs_pos_eq; lra) ltac:(rewrite Rabs_pos_eq; lra)) as EL. rewrite (Rabs_pos_eq (val r)) in EA by lra.
  pose proof (asin_low s ltac:(rewrite Rabs_pos_eq; lra)) as AL. pose proof (asin_nonneg s ltac:(lra)) as AN. rewrite !Rabs_pos_eq in AL by lra.
  assert (HB : asin s <= 0.5237).
  { pose proof (asin_poly s ltac:(rewrite Rabs_pos_eq; lra)) as P. rewrite (Rabs_pos_eq s) in P by lra. apply Rabs_le_inv in P.
    assert (Z : 0 <= s * s <= 0.25) by nra. pose proof (asin_q_range _ Z) as Q.
    assert (s * s * asin_q (s * s) <= 0.25 * 0.1888) by nra. nra. }
  split; [lra|]. apply Rabs_le_inv in ER.
  replace (val (arc n r) - asin s) with ((val (arc n r) - asin (val r)) + (asin (val r) - asin s)) by ring.
  eapply Rle_trans; [apply Rabs_triang|]. assert (Rabs (val r - s) <= / 16777216 * s + / 2 * eta) by (apply Rabs_le; lra). lra.
Qed.
Lemma asin_pos a : isfin a = true -> sgn a = false -> 0 <= val a <= 1 ->
  isfin (vec_asin_float c I n a) = true /\ Rabs (val (vec_asin_float c I n a) - asin (val a)) <= (if Rle_dec (val a) 0.5 then 11e-8 else 7e-7) * asin (val a) + 5 * eta.
Proof.
  intros Fa Sa Ba. destruct one_ok as (F1 & V1 & _). pose proof eta_small as ET. pose proof eta_tiny' as ET'.
  rewrite asin_form; [|exact Sa|apply gt_false; [exact Fa|exact F1|rewrite V1; lra]]. destruct litd_5_1 as (F5 & _ & _). pose proof val_litd_5_1 as V5.
  pose proof (asin_nonneg (val a) ltac:(lra)) as AN. pose proof (asin_low (val a) ltac:(rewrite Rabs_pos_eq; lra)) as AL. rewrite !Rabs_pos_eq in AL by lra.
  destruct (Rle_dec (val a) 0.5) as [L|L].
  - rewrite gt_false by (try assumption; rewrite V5; lra). destruct (arc_ok a Fa ltac:(rewrite Rabs_pos_eq; lra)) as [FA EA]. rewrite (Rabs_pos_eq (val a)) in EA by lra.
    split; [exact FA|]. lra.
  - rewrite gt_true by (try assumption; rewrite V5; lra). destruct (arc_half a Fa ltac:(lra)) as (FA & HB & EA). rewrite (asin_half (val a)) in * by lra.
    pose proof (asin_half (val a) ltac:(lra)) as AH. pose proof (asin_up (val a) ltac:(lra)) as AU. rewrite AH in AU.
    set (h := asin (sqrt ((1 - val a) / 2))) in *. set (p := arc n (arc_red n a)) in *. clearbody p. clear AH. clearbody h.
    destruct litd_157079637050628662109375_23 as (FC & _ & _). pose proof val_litd_157079637050628662109375_23 as VC. pose proof pi2_err as PE. pose proof pi_range as PR.
    set (C := litd 157079637050628662109375 23) in *. apply Rabs_le_inv in EA. apply Rabs_le_inv in PE. rewrite <- VC in PE.
    destruct (fsub_fin n C p FC FA) as (FD & VD & _); [apply small_fin; apply Rabs_le; lra|]. set (d := fsub n C p) in *.
    assert (B1 : Rabs (val C - val p) <= bpow radix2 1) by (change (bpow radix2 1) with 2; apply Rabs_le; lra).
    pose proof (rnd_err 1 _ ltac:(lia) B1) as E1. change (bpow radix2 (1 - 25)) with (/ 16777216) in E1. rewrite <- VD in E1. apply Rabs_le_inv in E1.
    destruct (fsub_fin n d p FD FA) as (FE & VE & _); [apply small_fin; apply Rabs_le; lra|].
    assert (B2 : Rabs (val d - val p) <= bpow radix2 1) by (change (bpow radix2 1) with 2; apply Rabs_le; lra).
    pose proof (rnd_err 1 _ ltac:(lia) B2) as E2. change (bpow radix2 (1 - 25)) with (/ 16777216) in E2. rewrite <- VE in E2. apply Rabs_le_inv in E2.
    split; [exact FE|]. apply Rabs_le. lra.
Qed.
Lemma asin_accurate_gen x : isfin x = true -> Rabs (val x) <= 1 ->
  isfin (vec_asin_float c I n x) = true /\
  Rabs (val (vec_asin_float c I n x) - asin (val x)) <= (if Rle_dec (Rabs (val x)) 0.5 then 11e-8 else 7e-7) * Rabs (asin (val x)) + 5 * eta.
Proof.
  intros Fx Bx. destruct one_ok as (F1 & V1 & _). 
  assert (FX : isfin (fabs x) = true) by (rewrite isfin_fabs; exact Fx).
  rewrite (asin_signed c I n HI x) by (apply gt_false; [exact FX|exact F1|rewrite val_fabs, V1; exact Bx]).
  destruct (asin_pos (fabs x)) as [F2 E2]; [exact FX|apply sgn_fabs|rewrite val_fabs; pose proof (Rabs_pos (val x)); lra|].
  rewrite val_fabs in E2. pose proof (sgn_val_gen x Fx) as SV. pose proof (asin_nonneg (Rabs (val x)) ltac:(pose proof (Rabs_pos (val x)); lra)) as AN.
  assert (EA : asin (val x) = if sgn x then - asin (Rabs (val x)) else asin (Rabs (val x))).
  { destruct (sgn x); rewrite SV at 1; [apply asin_opp|reflexivity]. }
  rewrite EA, abs_if, (Rabs_pos_eq (asin _)) by lra. apply neg_err; assumption.
Qed.
Lemma asin_accurate x : isfin x = true -> Rabs (val x) <= 1 ->
  isfin (vec_asin_float c I n x) = true /\ Rabs (val (vec_asin_float c I n x) - asin (val x)) <= 7e-7 * Rabs (asin (val x)) + 5 * eta.
Proof.
  intros Fx Bx. destruct (asin_accurate_gen x Fx Bx) as [F E]. split; [exact F|]. pose proof (Rabs_pos (asin (val x))). destruct (Rle_dec (Rabs (val x)) 0.5); lra.
Qed.
Lemma asin_small x : isfin x = true -> Rabs (val x) <= 0.5 ->
  isfin (vec_asin_float c I n x) = true /\ Rabs (val (vec_asin_float c I n x) - asin (val x)) <= 11e-8 * Rabs (asin (val x)) + 5 * eta.
Proof.
  intros Fx Bx. destruct (asin_accurate_gen x Fx ltac:(lra)) as [F E]. split; [exact F|]. destruct (Rle_dec (Rabs (val x)) 0.5); [exact E|lra].
Qed.

(** ** acos *)
Lemma acos_form x : vrel I GT (fabs x) (f_ofZ F32 1) = false ->
  vec_acos_float c I n x =
  let s := vec_asin_float c I n (if vrel I GT (fabs x) (f_lit F32 1 (-1)) then arc_red n (fabs x) else x) in
  if vrel I GT x (fneg (litd 5 1)) then if vrel I GT x (f_lit F32 1 (-1)) then fadd n s s else fsub n (litd 157079637050628662109375 23) s
  else fsub n (litd 31415927410125732421875 22) (fadd n s s).
Proof.
  intros G. unfold vec_acos_float. cbv zeta. rewrite !band_abs, gen_one_1, gen_05_half. rewrite !select_vmask by (apply x86_neon; exact HI). rewrite G.
  unfold arc_red. destruct (vrel I GT x (fneg (litd 5 1))), (vrel I GT x (f_lit F32 1 (-1))); reflexivity.
Qed.
Lemma asin_is_arc a : isfin a = true -> sgn a = false -> 0 <= val a <= 0.5 -> vec_asin_float c I n a = arc n a.
Proof.
  intros Fa Sa Ba. destruct one_ok as (F1 & V1 & _). destruct litd_5_1 as (F5 & _ & _). pose proof val_litd_5_1 as V5.
  rewrite asin_form; [|exact Sa|apply gt_false; [exact Fa|exact F1|rewrite V1; lra]]. rewrite gt_false; [reflexivity|exact Fa|exact F5|rewrite V5; lra].
Qed.
Lemma acos_accurate x : isfin x = true -> Rabs (val x) <= 1 -> val x <> - 0.5 ->
  isfin (vec_acos_float c I n x) = true /\ Rabs (val (vec_acos_float c I n x) - acos (val x)) <= 21e-8 * acos (val x) + 12 * eta.
Proof.
  intros Fx Bx NX. destruct one_ok as (F1 & V1 & _). destruct half_ok as [FH VH]. destruct litd_5_1 as (F5 & _ & _). pose proof val_litd_5_1 as V5.
  assert (FX : isfin (fabs x) = true) by (rewrite isfin_fabs; exact Fx). assert (VX := val_fabs x). pose proof eta_small as ET. pose proof eta_tiny' as ET'.
  assert (F5' : isfin (fneg (litd 5 1)) = true) by (rewrite isfin_fneg; exact F5). assert (V5' : val (fneg (litd 5 1)) = - 0.5) by (rewrite val_fneg, V5; lra).
  rewrite acos_form by (apply gt_false; [exact FX|exact F1|rewrite VX, V1; exact Bx]). cbv zeta.
  rewrite (acos_asin (val x)) by (apply Rabs_le_inv in Bx; lra). pose proof pi2_err as PE. pose proof pi_range as PR. apply Rabs_le_inv in PE.
  destruct (Rle_dec (Rabs (val x)) 0.5) as [L|L].
  - rewrite (gt_false (fabs x)) by (try assumption; rewrite VX, VH; lra). destruct (asin_small x Fx L) as [FA EA].
    pose proof (asin_poly (val x) L) as P. assert (AB : Rabs (asin (val x)) <= 0.5237).
    { pose proof (Rabs_pos (val x)). assert (Z : 0 <= val x * val x <= 0.25). { apply Rabs_le_inv in L. nra. }
      pose proof (asin_q_range _ Z) as Q.
      assert (Q2 : 0 <= val x * val x * asin_q (val x * val x) <= 0.0472) by nra. set (Y := val x * val x * asin_q (val x * val x)) in *.
      assert (AY : Rabs (val x * (1 + Y)) <= 0.5 * 1.0472) by (rewrite Rabs_mult, (Rabs_pos_eq (1 + Y)) by lra; nra).
      apply Rabs_le_inv in AY. apply Rabs_le_inv in P. apply Rabs_le_inv in L. apply Rabs_le. unfold Rabs in P. destruct (Rcase_abs (val x)); lra. }
    set (s := vec_asin_float c I n x) in *. clearbody s. set (A := asin (val x)) in *. clearbody A. clear P. apply Rabs_le_inv in L.
    rewrite (gt_true x (fneg (litd 5 1))) by (try assumption; rewrite V5'; lra). rewrite (gt_false x (f_lit F32 1 (-1))) by (try assumption; rewrite VH; lra).
    destruct litd_157079637050628662109375_23 as (FC & _ & _). pose proof val_litd_157079637050628662109375_23 as VC. set (C := litd 157079637050628662109375 23) in *. rewrite <- VC in PE.
    assert (EA' : Rabs (val s - A) <= 6e-8) by lra. apply Rabs_le_inv in EA'. apply Rabs_le_inv in AB.
    destruct (fsub_fin n C s FC FA) as (FD & VD & _); [apply small_fin; apply Rabs_le; lra|]. split; [exact FD|].
    pose proof (rnd_eta (val C - val s)) as RE. rewrite <- VD in RE. rewrite (Rabs_pos_eq (val C - val s)) in RE by lra. apply Rabs_le_inv in RE. apply Rabs_le. lra.
  - rewrite (gt_true (fabs x)) by (try assumption; rewrite VX, VH; lra). destruct (arc_red_ok (fabs x) FX ltac:(rewrite VX; lra)) as (FR & BR & _ & _ & SR).
    rewrite (asin_is_arc (arc_red n (fabs x)) FR SR BR). destruct (arc_half (fabs x) FX ltac:(rewrite VX; lra)) as (FA & HB & EA). rewrite VX in *.
    pose proof (asin_half (Rabs (val x)) ltac:(pose proof (Rabs_pos (val x)); lra)) as AH.
    set (h := asin (sqrt ((1 - Rabs (val x)) / 2))) in *. set (p := arc n (arc_red n (fabs x))) in *. clearbody p h. apply Rabs_le_inv in EA.
    destruct (double_exact n p FA ltac:(apply Rabs_le; lra)) as [F2 V2]. set (d := fadd n p p) in *.
    destruct (Rle_dec (val x) 0) as [NG|PG].
    + assert (AX : asin (val x) = - (PI / 2 - 2 * h)) by (rewrite <- AH, (Rabs_left1 (val x)), asin_opp by exact NG; ring). rewrite AX.
      rewrite (Rabs_left1 (val x)) in L by exact NG. rewrite (gt_false x (fneg (litd 5 1))) by (try assumption; rewrite V5'; lra).
      destruct litd_31415927410125732421875_22 as (FC & _ & _). pose proof val_litd_31415927410125732421875_22 as VC. set (C := litd 31415927410125732421875 22) in *.
      assert (PC : val C = 2 * (13176795 / 8388608)) by (rewrite VC; lra).
      destruct (fsub_fin n C d FC F2) as (FD & VD & _); [apply small_fin; apply Rabs_le; lra|]. split; [exact FD|].
      pose proof (rnd_eta (val C - val d)) as RE. rewrite <- VD in RE. rewrite (Rabs_pos_eq (val C - val d)) in RE by lra. apply Rabs_le_inv in RE. apply Rabs_le. lra.
    + assert (AX : asin (val x) = PI / 2 - 2 * h) by (rewrite <- AH, Rabs_pos_eq by lra; reflexivity). rewrite AX.
      rewrite Rabs_pos_eq in L by lra. rewrite (gt_true x (fneg (litd 5 1))) by (try assumption; rewrite V5'; lra). rewrite (gt_true x (f_lit F32 1 (-1))) by (try assumption; rewrite VH; lra).
      split; [exact F2|]. rewrite V2. apply Rabs_le. lra.
Qed.
End S.
