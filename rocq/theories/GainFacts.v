(** Arguments scaled by a power of two. *)
From Coq Require Import ZArith Reals List Lia Lra Bool.
From Flocq Require Import Core IEEE754.Binary IEEE754.Bits.
From Verif Require Import Base Mem Loop Backend Args Drivers Functors Lanes Float LaneOps FloatOps ScalarMath VecMath FloatFuns Spec SpecLane SpecAgree SpecAlike SpecNeutral SpecSwap SpecGain
  FloatFacts LaneFacts FloatRound VecFacts VecMore VecMore2 RoundFacts RoundMore RoundMore2 MathMore SumErr KeepFacts NeutralFacts AlikeFacts DriverClaims2 AgreeFacts ReduceMore ExData ExMath SwapFacts.
Import ListNotations.
Local Open Scope Z_scope.

Section T.
Context {t : fmt} (n : nans t).
Implicit Types x y z : F t.
Local Notation big := (bpow radix2 (emax t)).
Local Notation tp := (times_power (t := t)).

Lemma normal_exp : 2 - emax t = emin t + prec t - 1.
Proof. clear n. destruct t; reflexivity. Qed.
Lemma rnd_scale_normal k (r : R) : no_underflow t r -> no_underflow t (r * bpow radix2 k) ->
  rnd t (r * bpow radix2 k) = (rnd t r * bpow radix2 k)%R.
Proof.
  intros [->|H]; [intros _; rewrite Rmult_0_l, rnd_0, Rmult_0_l; reflexivity|].
  intros K. unfold smallest_normal in *. rewrite normal_exp in H.
  assert (N0 : r <> 0%R).
  { intros ->. rewrite Rabs_R0 in H. pose proof (bpow_gt_0 radix2 (emin t + prec t - 1)). lra. }
  destruct K as [K|K].
  { exfalso. apply Rmult_integral in K. pose proof (bpow_gt_0 radix2 k). destruct K; lra. }
  unfold smallest_normal in K. rewrite normal_exp in K.
  apply mag_ge_bpow in H. apply mag_ge_bpow in K. rewrite mag_mult_bpow in K by exact N0.
  assert (FE : forall e, fexp t e = Z.max (e - prec t) (emin t)) by (intros e; reflexivity).
  assert (C : cexp radix2 (fexp t) (r * bpow radix2 k) = (cexp radix2 (fexp t) r + k)%Z).
  { unfold cexp. rewrite mag_mult_bpow, !FE by exact N0. lia. }
  unfold rnd, round, F2R. cbn [Fnum Fexp]. rewrite C, bpow_plus. unfold scaled_mantissa. rewrite C.
  replace (r * bpow radix2 k * bpow radix2 (- (cexp radix2 (fexp t) r + k)))%R with (r * bpow radix2 (- cexp radix2 (fexp t) r))%R; [ring|].
  rewrite Rmult_assoc, <- bpow_plus. do 2 f_equal. lia.
Qed.

(** A finite result is the rounded one. *)
Lemma sat_fin x r : isfin x = true -> xval x = sat (t := t) r -> val x = r.
Proof.
  intros Fx H. rewrite xval_fin in H by exact Fx. pose proof (val_lt_emax x) as L. pose proof (big_pos (t := t)) as Hb.
  destruct (Rle_or_lt big r) as [G|G]; [rewrite sat_hi in H by exact G; rewrite H, Rabs_pos_eq in L; lra|].
  destruct (Rle_or_lt r (- big)) as [G'|G']; [rewrite sat_lo in H by exact G'; rewrite H, Rabs_Ropp, Rabs_pos_eq in L; lra|].
  rewrite sat_id in H; [exact H|]. apply Rabs_le. lra.
Qed.
Lemma vmul_val I x y : isfin x = true -> isfin y = true -> isfin (vmul I n x y) = true -> val (vmul I n x y) = rnd t (val x * val y).
Proof. intros Fx Fy H. apply sat_fin; [exact H|]. apply vmul_x; assumption. Qed.
Lemma vmul_fin_inv I x y : isfin (vmul I n x y) = true -> isfin x = true /\ isfin y = true.
Proof.
  intros H. destruct I; cbn [vmul] in H; clear - H.
  1-4: unfold fmul in H; destruct x as [sx|sx|sx px ex|sx mx ex hx], y as [sy|sy|sy py ey|sy my ey hy]; try (split; reflexivity); exfalso; cbn in H; try discriminate H;
    match type of H with context [build_nan _ _ ?v] => destruct v as [[| | |] ?]; cbn in H; discriminate H end.
  destruct (fadd_fin_inv n (f_ofZ t 0) (f_ofZ t 0)) as (Z1 & _); [destruct t; reflexivity|].
  remember (f_ofZ t 0) as z eqn:E. clear E.
  unfold ffma in H; destruct x as [sx|sx|sx px ex|sx mx ex hx], y as [sy|sy|sy py ey|sy my ey hy]; try (split; reflexivity); exfalso; destruct z as [sz|sz|sz pz ez|sz mz ez hz]; try discriminate Z1; cbn in H; try discriminate H;
    match type of H with context [build_nan _ _ ?v] => destruct v as [[| | |] ?]; cbn in H; discriminate H end.
Qed.

(** ** Sums, extremes, limits *)
(** Proof auxiliary: both finite, the second 2^k times the first. *)
Definition fs (k : Z) x y : Prop := isfin x = true /\ isfin y = true /\ val y = (val x * bpow radix2 k)%R.
Lemma tp_of k x y : fs k x y -> tp k x y.
Proof. intros (_ & _ & H) _ _. exact H. Qed.
Lemma tp_add k x x' y y' : tp k x x' -> tp k y y' -> tp k (fadd n x y) (fadd n x' y').
Proof. exact (scaled_add n k x x' y y'). Qed.
Lemma tp_neg k x x' : tp k x x' -> tp k (fneg x) (fneg x').
Proof. intros H. unfold times_power. rewrite !isfin_fneg, !val_fneg. intros A B. rewrite H by assumption. ring. Qed.
Lemma same_fin x y : same_or_nan x y -> isfin x = true -> y = x.
Proof. intros H Fx. symmetry. apply same_eq; [apply fin_not_nan; exact Fx|exact H]. Qed.
Lemma tp_sub k x x' y y' : tp k x x' -> tp k y y' -> tp k (fsub n x y) (fsub n x' y').
Proof.
  intros Hx Hy A B. rewrite <- (same_fin _ _ (fsub_add n x y) A), <- (same_fin _ _ (fsub_add n x' y') B).
  apply tp_add; [exact Hx|apply tp_neg; exact Hy|rewrite (same_fin _ _ (fsub_add n x y) A); exact A|rewrite (same_fin _ _ (fsub_add n x' y') B); exact B].
Qed.

Lemma flt_fin x y : isfin x = true -> isfin y = true -> flt x y = Rlt_bool (val x) (val y).
Proof.
  intros Fx Fy. rewrite flt_ord by (apply fin_not_nan; assumption).
  pose proof (ord_lt_val x y Fx Fy) as H. destruct (Z.ltb_spec (ord x) (ord y)) as [L|L].
  - rewrite Rlt_bool_true; [reflexivity|]. apply H. exact L.
  - rewrite Rlt_bool_false; [reflexivity|]. apply Rnot_lt_le. intros G. apply H in G. lia.
Qed.
Lemma fgt_flt x y : fgt x y = flt y x.
Proof. unfold fgt, flt. rewrite (Bcompare_swap _ _ y x). destruct (Bcompare _ _ y x) as [[]|]; reflexivity. Qed.
Lemma Rmin_scale (a b c : R) : (0 < c)%R -> Rmin (a * c) (b * c) = (Rmin a b * c)%R.
Proof. intros H. unfold Rmin. destruct (Rle_dec (a * c) (b * c)), (Rle_dec a b); try reflexivity; exfalso; nra. Qed.
Lemma Rmax_scale (a b c : R) : (0 < c)%R -> Rmax (a * c) (b * c) = (Rmax a b * c)%R.
Proof. intros H. unfold Rmax. destruct (Rle_dec (a * c) (b * c)), (Rle_dec a b); try reflexivity; exfalso; nra. Qed.
Lemma min_fin I x y : isfin x = true -> isfin y = true -> isfin (vmin I n x y) = true /\ val (vmin I n x y) = Rmin (val x) (val y).
Proof.
  intros Fx Fy. unfold vmin, smin. rewrite (fin_not_nan x Fx), (fin_not_nan y Fy), !flt_fin by assumption. cbn [orb].
  destruct (Rlt_bool_spec (val x) (val y)) as [L|L], (Rlt_bool_spec (val y) (val x)) as [K|K]; try lra; unfold Rmin; destruct (Rle_dec (val x) (val y)); try lra;
  destruct I; try destruct (sgn x); split; assumption || lra.
Qed.
Lemma max_fin I x y : isfin x = true -> isfin y = true -> isfin (vmax I n x y) = true /\ val (vmax I n x y) = Rmax (val x) (val y).
Proof.
  intros Fx Fy. unfold vmax, smax. rewrite fgt_flt, (fin_not_nan x Fx), (fin_not_nan y Fy), !flt_fin by assumption. cbn [orb].
  destruct (Rlt_bool_spec (val x) (val y)) as [L|L], (Rlt_bool_spec (val y) (val x)) as [K|K]; try lra; unfold Rmax; destruct (Rle_dec (val x) (val y)); try lra;
  destruct I; try destruct (sgn x); split; assumption || lra.
Qed.
Lemma fs_vmin I k x x' y y' : fs k x x' -> fs k y y' -> fs k (vmin I n x y) (vmin I n x' y').
Proof.
  intros (A1 & A2 & A3) (B1 & B2 & B3). destruct (min_fin I x y A1 B1) as [C1 C2], (min_fin I x' y' A2 B2) as [D1 D2].
  split; [exact C1|]. split; [exact D1|]. rewrite C2, D2, A3, B3. apply Rmin_scale, bpow_gt_0.
Qed.
Lemma fs_vmax I k x x' y y' : fs k x x' -> fs k y y' -> fs k (vmax I n x y) (vmax I n x' y').
Proof.
  intros (A1 & A2 & A3) (B1 & B2 & B3). destruct (max_fin I x y A1 B1) as [C1 C2], (max_fin I x' y' A2 B2) as [D1 D2].
  split; [exact C1|]. split; [exact D1|]. rewrite C2, D2, A3, B3. apply Rmax_scale, bpow_gt_0.
Qed.
Lemma fs_smin k x x' y y' : fs k x x' -> fs k y y' -> fs k (smin x y) (smin x' y').
Proof. exact (fs_vmin GEN k x x' y y'). Qed.
Lemma fs_smax k x x' y y' : fs k x x' -> fs k y y' -> fs k (smax x y) (smax x' y').
Proof. exact (fs_vmax GEN k x x' y y'). Qed.
Lemma zero_sub x : isfin x = true -> isfin (fsub n (f_ofZ t 0) x) = true /\ val (fsub n (f_ofZ t 0) x) = (- val x)%R.
Proof.
  intros Fx. destruct (zero_val (t := t)) as (Z1 & Z2 & _).
  assert (R : rnd t (val (f_ofZ t 0) - val x) = (- val x)%R).
  { rewrite Z2. unfold Rminus. rewrite Rplus_0_l. rewrite <- val_fneg. apply round_generic; [typeclasses eauto|apply val_format]. }
  destruct (fsub_fin n (f_ofZ t 0) x Z1 Fx) as (A & B & _); [rewrite R, Rabs_Ropp; apply val_lt_emax|]. rewrite R in B. split; assumption.
Qed.
Lemma fs_neg k x x' : fs k x x' -> fs k (fsub n (f_ofZ t 0) x) (fsub n (f_ofZ t 0) x').
Proof.
  intros (A1 & A2 & A3). destruct (zero_sub x A1) as [B1 B2], (zero_sub x' A2) as [C1 C2].
  split; [exact B1|]. split; [exact C1|]. rewrite B2, C2, A3. ring.
Qed.

(** ** Products and quotients *)
Lemma tp_mul I k x x' y : fs k x x' -> isfin y = true -> no_underflow t (val x * val y) -> no_underflow t (val x' * val y) ->
  tp k (vmul I n x y) (vmul I n x' y).
Proof.
  intros (A1 & A2 & A3) Fy U V H H'. rewrite !vmul_val by assumption. rewrite A3 in V |- *.
  replace (val x * bpow radix2 k * val y)%R with (val x * val y * bpow radix2 k)%R in V |- * by ring. apply rnd_scale_normal; assumption.
Qed.
Lemma tp_square I k x x' : fs k x x' -> no_underflow t (val x * val x) -> no_underflow t (val x' * val x') ->
  tp (2 * k) (vmul I n x x) (vmul I n x' x').
Proof.
  intros (A1 & A2 & A3) U V H H'. rewrite !vmul_val by assumption. rewrite A3 in V |- *.
  replace (val x * bpow radix2 k * (val x * bpow radix2 k))%R with (val x * val x * bpow radix2 (2 * k))%R in V |- *; [apply rnd_scale_normal; assumption|].
  replace (2 * k)%Z with (k + k)%Z by lia. rewrite bpow_plus. ring.
Qed.
Lemma fdiv_val x y : isfin x = true -> isfin y = true -> val y <> 0%R -> isfin (fdiv n x y) = true -> val (fdiv n x y) = rnd t (val x / val y).
Proof. intros Fx Fy Y H. apply sat_fin; [exact H|]. apply fdiv_x; assumption. Qed.
Lemma tp_div k x x' y : fs k x x' -> isfin y = true -> val y <> 0%R -> no_underflow t (val x / val y) -> no_underflow t (val x' / val y) ->
  tp k (fdiv n x y) (fdiv n x' y).
Proof.
  intros (A1 & A2 & A3) Fy Y U V H H'. rewrite !fdiv_val by assumption. rewrite A3 in V |- *.
  replace (val x * bpow radix2 k / val y)%R with (val x / val y * bpow radix2 k)%R in V |- * by (field; exact Y). apply rnd_scale_normal; assumption.
Qed.
Lemma tp_div_r k x y y' : fs k y y' -> isfin x = true -> val y <> 0%R -> no_underflow t (val x / val y) -> no_underflow t (val x / val y') ->
  tp (- k) (fdiv n x y) (fdiv n x y').
Proof.
  intros (A1 & A2 & A3) Fx Y U V H H'. pose proof (bpow_gt_0 radix2 k) as K.
  assert (Y' : val y' <> 0%R) by (rewrite A3; intros E; apply Rmult_integral in E; destruct E; lra).
  rewrite !fdiv_val by assumption. rewrite A3 in V |- *.
  replace (val x / (val y * bpow radix2 k))%R with (val x / val y * bpow radix2 (- k))%R in V |- *; [apply rnd_scale_normal; assumption|].
  rewrite bpow_opp. field. lra.
Qed.
Lemma tp_fma k x x' y z z' : fs k x x' -> isfin y = true -> fs k z z' -> no_underflow t (val x * val y + val z) -> no_underflow t (val x' * val y + val z') ->
  tp k (ffma n x y z) (ffma n x' y z').
Proof.
  intros (A1 & A2 & A3) Fy (B1 & B2 & B3) U V H H'.
  rewrite (sat_fin _ _ H (proj2 (ffma_x n x y z A1 Fy B1))), (sat_fin _ _ H' (proj2 (ffma_x n x' y z' A2 Fy B2))). rewrite A3, B3 in V |- *.
  replace (val x * bpow radix2 k * val y + val z * bpow radix2 k)%R with ((val x * val y + val z) * bpow radix2 k)%R in V |- * by ring. apply rnd_scale_normal; assumption.
Qed.
Lemma tp_madd c I k x x' y z z' : fs k x x' -> isfin y = true -> fs k z z' -> no_underflow t (val x * val y) -> no_underflow t (val x' * val y) ->
  no_underflow t (val x * val y + val z) -> no_underflow t (val x' * val y + val z') ->
  tp k (madd c I n x y z) (madd c I n x' y z').
Proof.
  intros A Fy B U V U' V'. assert (K : tp k (fadd n (fmul n x y) z) (fadd n (fmul n x' y) z')).
  { apply tp_add; [exact (tp_mul GEN k x x' y A Fy U V)|apply tp_of; exact B]. }
  destruct I; cbn [madd]; try destruct (has_fma c); first [exact K|apply tp_fma; assumption].
Qed.
Lemma normal_of_result (r : R) : (smallest_normal t < Rabs (rnd t r))%R -> no_underflow t r.
Proof.
  intros H. right. destruct (Rle_or_lt (smallest_normal t) (Rabs r)) as [G|G]; [exact G|exfalso].
  assert (K : (Rabs (rnd t r) <= smallest_normal t)%R); [|lra].
  unfold rnd. apply abs_round_le_generic; [typeclasses eauto..| |lra].
  unfold smallest_normal. apply bpow_format. rewrite normal_exp. pose proof (prec_pos t). lia.
Qed.
Lemma tp_mul_normal I k x x' w : fs k x x' -> times_power_normal k (vmul I n x w) (vmul I n x' w).
Proof.
  intros A H H' U V. destruct (vmul_fin_inv I x w H) as [_ Fw]. destruct A as (A1 & A2 & A3).
  rewrite vmul_val in U by assumption. rewrite vmul_val in V by assumption. apply (tp_mul I k x x' w); try assumption; [repeat split; assumption|apply normal_of_result; exact U|apply normal_of_result; exact V].
Qed.

(** ** Square roots *)
Lemma fsqrt_val x : val (fsqrt n x) = rnd t (sqrt (val x)).
Proof. apply (Bsqrt_correct (prec t) (emax t) (Hprec t) (Hmax t) (nan_sqrt n) BinarySingleNaN.mode_NE x). Qed.
Lemma sqrt_no_underflow x : (0 <= val x)%R -> no_underflow t (sqrt (val x)).
Proof.
  intros H. destruct (Req_dec (val x) 0) as [->|N]; [left; apply sqrt_0|right].
  rewrite Rabs_pos_eq by apply sqrt_pos. destruct (val_units x) as [j Hj].
  assert (J : (1 <= j)%Z).
  { pose proof (bpow_gt_0 radix2 (emin t)). destruct (Z_le_gt_dec 1 j) as [G|G]; [exact G|exfalso]. assert (IZR j <= 0)%R by (apply IZR_le; lia). nra. }
  unfold smallest_normal. rewrite <- (sqrt_Rsqr (bpow radix2 (2 - emax t))) by apply bpow_ge_0. apply sqrt_le_1_alt. unfold Rsqr. rewrite <- bpow_plus.
  apply Rle_trans with (bpow radix2 (emin t)).
  - apply bpow_le. clear. destruct t; vm_compute; discriminate.
  - rewrite Hj. apply IZR_le in J. pose proof (bpow_gt_0 radix2 (emin t)). nra.
Qed.
Lemma sqrt_power k : sqrt (bpow radix2 (2 * k)) = bpow radix2 k.
Proof. replace (2 * k)%Z with (k + k)%Z by lia. rewrite bpow_plus. apply sqrt_square, bpow_ge_0. Qed.
Lemma fs_sqrt k x x' : (0 <= val x)%R -> fs (2 * k) x x' -> val (fsqrt n x') = (val (fsqrt n x) * bpow radix2 k)%R.
Proof.
  intros P (A1 & A2 & A3). rewrite !fsqrt_val. assert (P' : (0 <= val x')%R) by (rewrite A3; apply Rmult_le_pos; [exact P|apply bpow_ge_0]).
  pose proof (sqrt_no_underflow x P) as U. pose proof (sqrt_no_underflow x' P') as V. rewrite A3 in V |- *.
  rewrite sqrt_mult, sqrt_power in V |- * by (exact P || apply bpow_ge_0). apply rnd_scale_normal; assumption.
Qed.
Lemma fs_sgn k x x' : fs k x x' -> val x <> 0%R -> sgn x' = sgn x.
Proof.
  intros (A1 & A2 & A3) N. pose proof (bpow_gt_0 radix2 k) as K. pose proof (sgn_val_gen x A1) as S. pose proof (sgn_val_gen x' A2) as S'.
  pose proof (Rabs_pos (val x)). pose proof (Rabs_pos (val x')). destruct (sgn x), (sgn x'); try reflexivity; exfalso; nra.
Qed.
Lemma tp_ssqrt k x x' : fs (2 * k) x x' -> tp k (s_signed_sqrt n x) (s_signed_sqrt n x').
Proof.
  intros A _ _. destruct A as (A1 & A2 & A3). pose proof (bpow_gt_0 radix2 (2 * k)) as K.
  assert (G : val (fsqrt n (fabs x')) = (val (fsqrt n (fabs x)) * bpow radix2 k)%R).
  { apply fs_sqrt; [rewrite val_fabs; apply Rabs_pos|]. split; [rewrite isfin_fabs; exact A1|]. split; [rewrite isfin_fabs; exact A2|].
    rewrite !val_fabs, A3, Rabs_mult. f_equal. apply Rabs_pos_eq. lra. }
  rewrite !s_signed_sqrt_eq by (apply fin_not_nan; assumption).
  destruct (Req_dec (val x) 0) as [Z|N].
  - assert (Q : val (fsqrt n (fabs x)) = 0%R) by (rewrite fsqrt_val, val_fabs, Z, Rabs_R0, sqrt_0; apply rnd_0).
    rewrite Q, Rmult_0_l in G. destruct (sgn x), (sgn x'); rewrite ?val_fneg, Q, G; ring.
  - rewrite (fs_sgn (2 * k) x x') by (repeat split; assumption). destruct (sgn x); rewrite ?val_fneg, G; ring.
Qed.
Lemma fs_abs k x x' : fs k x x' -> fs k (fabs x) (fabs x').
Proof.
  intros (A1 & A2 & A3). rewrite <- (isfin_fabs x) in A1. rewrite <- (isfin_fabs x') in A2. split; [exact A1|]. split; [exact A2|].
  rewrite !val_fabs, A3, Rabs_mult. f_equal. apply Rabs_pos_eq. apply bpow_ge_0.
Qed.
End T.

Ltac gains :=
  repeat match goal with Hi : 0 <= ?i < _, H : scales _ _ ?k ?a ?b _, E1 : sample _ _ ?a ?i = Some ?x, E2 : sample _ _ ?b ?i = Some ?y |- _ =>
    let K := fresh "K" in pose proof (H i x y Hi E1 E2) as K; change (fs k x y) in K; clear H end;
  repeat match goal with Hi : 0 <= ?i < _, H : products_fit _ _ ?a ?b _, E1 : sample _ _ ?a ?i = Some ?x, E2 : sample _ _ ?b ?i = Some ?y |- _ =>
    let K := fresh "K" in destruct (H i x y Hi E1 E2) as (? & ? & K); clear H end;
  repeat match goal with Hi : 0 <= ?i < _, H : products_fit _ _ ?a ?a _, E1 : sample _ _ ?a ?i = Some ?x |- _ =>
    let K := fresh "K" in destruct (H i x x Hi E1 E1) as (? & ? & K); clear H end;
  repeat match goal with Hi : 0 <= ?i < _, H : quotients_fit _ _ ?a ?b _, E1 : sample _ _ ?a ?i = Some ?x, E2 : sample _ _ ?b ?i = Some ?y |- _ =>
    let K := fresh "K" in destruct (H i x y Hi E1 E2) as (? & ? & ? & K); clear H end;
  repeat match goal with Hi : 0 <= ?i < _, H : muladds_fit _ _ ?a ?b ?d _, E1 : sample _ _ ?a ?i = Some ?x, E2 : sample _ _ ?b ?i = Some ?y, E3 : sample _ _ ?d ?i = Some ?z |- _ =>
    let K := fresh "K" in pose proof (H i x y z Hi E1 E2 E3) as K; clear H end.

(** Example data: positive samples, and four times these 64 elements on. *)
Definition loud : mem (F F32) :=
  block 0 160 (fun a => if a <? 80 then f_lit F32 (a + 1) (-3) else f_lit F32 (a - 63) (-1)).
(** Proof auxiliary: the samples of [a] are between 1 and 64. *)
Definition moderate (n : nans F32) (a : arg (F F32)) : Prop :=
  forall i x, 0 <= i < 32 -> sample (farith n) loud a i = Some x -> isfin x = true /\ (1 <= val x <= 64)%R.
Lemma loud_low n p i : 0 <= p -> 0 <= i -> p + i < 80 -> sample (farith n) loud (APtr p) i = Some (f_lit F32 (p + i + 1) (-3)).
Proof. intros. cbn [sample]. unfold loud. rewrite block_in by lia. destruct (Z.ltb_spec (p + i) 80); [reflexivity|lia]. Qed.
Lemma loud_high n p i : 80 <= p -> 0 <= i -> p + i < 160 -> sample (farith n) loud (APtr p) i = Some (f_lit F32 (p + i - 63) (-1)).
Proof. intros. cbn [sample]. unfold loud. rewrite block_in by lia. destruct (Z.ltb_spec (p + i) 80); [lia|reflexivity]. Qed.
Lemma loud_scales n p : 16 <= p -> p <= 48 -> scales (farith n) loud 2 (APtr p) (APtr (p + 64)) 32.
Proof.
  intros H1 H2 i x y Hi Q R. rewrite loud_low in Q by lia. rewrite loud_high in R by lia.
  assert (x = f_lit F32 (p + i + 1) (-3)) as -> by congruence. assert (y = f_lit F32 (p + 64 + i - 63) (-1)) as -> by congruence.
  replace (p + 64 + i - 63) with (p + i + 1) by lia.
  destruct (lit32 (p + i + 1) (-3)) as [A1 A2]; [lia|lia|]. destruct (lit32 (p + i + 1) (-1)) as [B1 B2]; [lia|lia|].
  split; [exact A1|]. split; [exact B1|]. rewrite A2, B2, Rmult_assoc, <- bpow_plus. reflexivity.
Qed.
Lemma loud_moderate n p : 8 <= p -> p <= 88 -> (p <= 48 \/ 80 <= p) -> moderate n (APtr p).
Proof.
  intros H1 H2 H3 i x Hi Q. destruct H3.
  - rewrite loud_low in Q by lia. assert (x = f_lit F32 (p + i + 1) (-3)) as -> by congruence.
    destruct (lit32 (p + i + 1) (-3)) as [A1 A2]; [lia|lia|]. split; [exact A1|]. rewrite A2. change (bpow radix2 (-3)) with (/ 8)%R.
    assert (8 <= IZR (p + i + 1) <= 512)%R by (split; apply IZR_le; lia). lra.
  - rewrite loud_high in Q by lia. assert (x = f_lit F32 (p + i - 63) (-1)) as -> by congruence.
    destruct (lit32 (p + i - 63) (-1)) as [A1 A2]; [lia|lia|]. split; [exact A1|]. rewrite A2. change (bpow radix2 (-1)) with (/ 2)%R.
    assert (2 <= IZR (p + i - 63) <= 128)%R by (split; apply IZR_le; lia). lra.
Qed.
Lemma const_moderate n x j : x = f_lit F32 j 0 -> 1 <= j <= 64 -> moderate n (AScal x).
Proof.
  intros -> Hj i y Hi Q. cbn [sample] in Q. assert (y = f_lit F32 j 0) as -> by congruence. destruct (lit32 j 0) as [A1 A2]; [lia|lia|].
  split; [exact A1|]. rewrite A2. cbn [bpow]. assert (1 <= IZR j <= 64)%R by (split; apply IZR_le; lia). lra.
Qed.
Lemma const_scales n x y j : x = f_lit F32 j 0 -> y = f_lit F32 j 2 -> 1 <= j <= 64 -> scales (farith n) loud 2 (AScal x) (AScal y) 32.
Proof.
  intros -> -> Hj i u v Hi Q R. cbn [sample] in Q, R. assert (u = f_lit F32 j 0) as -> by congruence. assert (v = f_lit F32 j 2) as -> by congruence.
  destruct (lit32 j 0) as [A1 A2]; [lia|lia|]. destruct (lit32 j 2) as [B1 B2]; [lia|lia|]. split; [exact A1|]. split; [exact B1|]. rewrite A2, B2. cbn [bpow]. ring.
Qed.
Lemma normal_small r : (1 / 64 <= r)%R -> no_underflow F32 r.
Proof.
  intros H. right. rewrite Rabs_pos_eq by lra. apply Rle_trans with (bpow radix2 (-6)); [apply bpow_le; vm_compute; discriminate|]. change (bpow radix2 (-6)) with (/ 64)%R. lra.
Qed.
Lemma moderate_products n a b : moderate n a -> moderate n b -> products_fit (farith n) loud a b 32.
Proof. intros A B i x y Hi Q R. destruct (A i x Hi Q) as [A1 A2], (B i y Hi R) as [B1 B2]. split; [exact A1|]. split; [exact B1|]. apply normal_small. nra. Qed.
Lemma moderate_muladds n a b d : moderate n a -> moderate n b -> moderate n d -> muladds_fit (farith n) loud a b d 32.
Proof. intros A B D i x y z Hi Q R S. destruct (A i x Hi Q) as [A1 A2], (B i y Hi R) as [B1 B2], (D i z Hi S) as [D1 D2]. apply normal_small. nra. Qed.
Lemma moderate_quotients n a b : moderate n a -> moderate n b -> quotients_fit (farith n) loud a b 32.
Proof.
  intros A B i x y Hi Q R. destruct (A i x Hi Q) as [A1 A2], (B i y Hi R) as [B1 B2]. split; [exact A1|]. split; [exact B1|]. split; [lra|].
  apply normal_small. apply Rmult_le_reg_r with (val y); [lra|]. replace (val x / val y * val y)%R with (val x) by (field; lra). lra.
Qed.
Ltac mod_tac := first [apply loud_moderate; lia
  | apply const_moderate with 3; [apply bits_inj; vm_compute; reflexivity|lia] | apply const_moderate with 5; [apply bits_inj; vm_compute; reflexivity|lia]
  | apply const_moderate with 12; [apply bits_inj; vm_compute; reflexivity|lia] | apply const_moderate with 20; [apply bits_inj; vm_compute; reflexivity|lia]].
Ltac loud_tac := unfold call_fits, simd_call_fits;
  repeat match goal with |- _ /\ _ => split | |- Forall _ _ => constructor end;
  lazymatch goal with
  | |- scales _ _ _ (APtr ?p) _ _ => apply (loud_scales _ p); lia
  | |- scales _ _ _ (AScal _) _ _ => first [apply const_scales with 3; [apply bits_inj; vm_compute; reflexivity|apply bits_inj; vm_compute; reflexivity|lia]|apply const_scales with 5; [apply bits_inj; vm_compute; reflexivity|apply bits_inj; vm_compute; reflexivity|lia]]
  | |- products_fit _ _ _ _ _ => apply moderate_products; mod_tac
  | |- quotients_fit _ _ _ _ _ => apply moderate_quotients; mod_tac
  | |- muladds_fit _ _ _ _ _ _ => apply moderate_muladds; mod_tac
  | |- arg_fit _ _ _ _ => split; [first [exact Logic.I|apply accessible_block; vm_compute; congruence]|first [exact Logic.I|cbn; lia]]
  | |- simd_fit _ _ _ _ _ => split; [first [exact Logic.I|apply accessible_block; vm_compute; congruence]|split; [first [exact Logic.I|cbn; lia]|first [exact Logic.I|apply Z.mod_divide; [discriminate|reflexivity]]]]
  | |- plain _ => exact Logic.I
  | |- accessible _ _ _ => apply accessible_block; vm_compute; congruence
  | |- legal_simd_length _ _ => split; [split; reflexivity|apply Z.mod_divide; [discriminate|reflexivity]]
  | |- aligned _ _ => apply Z.mod_divide; [discriminate|reflexivity]
  | |- _ => first [reflexivity|lia|discriminate]
  end.
