(** Accuracy of sine and cosine. *)
From Coq Require Import ZArith Reals List Lia Lra Bool.
From Flocq Require Import Core IEEE754.Binary IEEE754.Bits.
From Verif Require Import Base Backend Lanes Float LaneOps ScalarMath VecMath IntVec TransMath SpecLane SpecInt
  FloatFacts FloatRound LaneFacts VecFacts VecMore RoundFacts RoundMore RoundMore2 IntFacts LdexpFacts TransConst ErrFacts ErrTac LastStep NearFacts TransFacts RealTanh RealTrig LogFacts ExpFacts TrigFacts.
Import ListNotations.
Local Open Scope R_scope.
#[local] Opaque litf litd.

(** Proof auxiliary: the cosine branch of sin and cos (vec_math.hpp). *)
Definition trig_cos (n : nans F32) (b : F F32) : F F32 :=
  fadd n (fsub n (fmul n (fmul n (fadd n (fmul n (fsub n (fmul n (litd 2443315711809948 20) (fmul n b b)) (litd 1388731625493765 18)) (fmul n b b))
    (litd 4166664568298827 17)) (fmul n b b)) (fmul n b b)) (fmul n (litf 5 1) (fmul n b b))) (f_ofZ F32 1).
(** Proof auxiliary: the sine polynomial. *)
Definition trig_C (n : nans F32) (b : F F32) : F F32 :=
  fmul n (fsub n (fmul n (fadd n (fmul n (fneg (litd 19515295891 14)) (fmul n b b)) (litd 83321608736 13)) (fmul n b b)) (litd 16666654611 11)) (fmul n b b).
(** Proof auxiliary: the sine branch. *)
Definition trig_sin (n : nans F32) (b : F F32) : F F32 := fadd n (fmul n (trig_C n b) b) b.

(** The four quadrants. *)
(** Proof auxiliary: [f] holds of the [N] numbers from [z] on. *)
Fixpoint all_from (N : nat) (z : Z) (f : Z -> bool) : bool :=
  match N with O => true | S N => f z && all_from N (Z.succ z) f end.
(** Proof auxiliary: [f] holds of 0 ... N-1. *)
Definition upto (N : nat) (f : Z -> bool) : bool := all_from N 0 f.
Lemma all_from_ok N f : forall z k, all_from N z f = true -> (z <= k < z + Z.of_nat N)%Z -> f k = true.
Proof.
  induction N as [|N IH]; intros z k H B; [lia|]. cbn [all_from] in H. apply andb_true_iff in H. destruct H as [H1 H2].
  destruct (Z.eq_dec k z) as [->|E]; [exact H1|]. apply (IH (Z.succ z)); [exact H2|lia].
Qed.
Lemma upto_all N f k : upto N f = true -> (0 <= k < Z.of_nat N)%Z -> f k = true.
Proof. intros H B. apply (all_from_ok N f 0 k H). lia. Qed.
(** Proof auxiliary: check of the quadrant masks for one octant. *)
Definition quad_bits (k : Z) : bool :=
  ((iand (2 * k) (u32 2) =? 0)%Z && Z.even k || (iand (2 * k) (u32 2) =? 2)%Z && Z.odd k)
  && (islli SSE (iand (2 * k) (u32 4)) 29 =? if Z.odd (k / 2) then 2 ^ 31 else 0)%Z
  && ((iand (isub (2 * k) (u32 2)) (u32 2) =? 0)%Z && Z.odd k || (iand (isub (2 * k) (u32 2)) (u32 2) =? 2)%Z && Z.even k)
  && (islli SSE (iandnot SSE (isub (2 * k) (u32 2)) (u32 4)) 29 =? if Z.odd ((k + 1) / 2) then 2 ^ 31 else 0)%Z.
Lemma quad_all : upto (Z.to_nat 5216) quad_bits = true. Proof. vm_compute. reflexivity. Qed.

Section S.
Context (c : cfg) (I : isa) (n : nans F32) (HI : x86 I).
Lemma quad k : (0 <= k <= 5215)%Z ->
  of_bits F32 (ieq (iand (2 * k) (u32 2)) (u32 0)) = mask (Z.even k) /\
  islli I (iand (2 * k) (u32 4)) 29 = (if Z.odd (k / 2) then 2 ^ 31 else 0)%Z /\
  of_bits F32 (ieq (iand (isub (2 * k) (u32 2)) (u32 2)) (u32 0)) = mask (Z.odd k) /\
  islli I (iandnot I (isub (2 * k) (u32 2)) (u32 4)) 29 = (if Z.odd ((k + 1) / 2) then 2 ^ 31 else 0)%Z.
Proof.
  intros B. pose proof (upto_all (Z.to_nat 5216) quad_bits k quad_all ltac:(lia)) as H. unfold quad_bits in H.
  rewrite !andb_true_iff, !orb_true_iff, !andb_true_iff, !Z.eqb_eq in H. destruct H as (((H1 & H2) & H3) & H4).
  assert (EI : forall (A B : Z), islli I A B = islli SSE A B) by (intros; destruct HI as [-> | ->]; reflexivity).
  assert (EN : forall (A B : Z), iandnot I A B = iandnot SSE A B) by (intros; destruct HI as [-> | ->]; reflexivity).
  rewrite !EI, EN, H2, H4. split; [|split; [reflexivity|split; [|reflexivity]]].
  - destruct H1 as [[-> E]|[-> E]]; [rewrite E; reflexivity|]. rewrite <- Z.negb_odd, E. reflexivity.
  - destruct H3 as [[-> E]|[-> E]]; [rewrite E; reflexivity|]. rewrite <- Z.negb_even, E. reflexivity.
Qed.
Lemma bxor_top (x : F F32) (b : bool) : bxor x (of_bits F32 (if b then 2 ^ 31 else 0)%Z) = if b then fneg x else x.
Proof.
  destruct b; [|exact (bxor_zero x)]. 
  assert (R : (0 <= 2 ^ 31 < 2 ^ width F32)%Z) by (change (2 ^ width F32)%Z with 4294967296%Z; lia).
  assert (S : sgn (of_bits F32 (2 ^ 31)) = true) by (rewrite sgn_of_bits by exact R; reflexivity).
  assert (M : mag (of_bits F32 (2 ^ 31)) = 0%Z) by (rewrite mag_of_bits by exact R; reflexivity).
  apply sm_inj; [rewrite sgn_bxor, sgn_fneg, S; apply xorb_true_r|rewrite mag_bxor, mag_fneg, M; apply Z.lxor_0_r].
Qed.
Lemma sin_form a : sgn a = false -> forall k, (0 <= k <= 5215)%Z -> red_j I n a = (2 * k)%Z ->
  let b := red_base n a (iconvert I (red_j I n a)) in
  vec_sin_float c I n a = let p := if Z.even k then trig_sin n b else trig_cos n b in if Z.odd (k / 2) then fneg p else p.
Proof.
  intros Sa k Bk EJ. cbv zeta. destruct (quad k Bk) as (Q1 & Q2 & _ & _).
  assert (EA : fabs a = a) by (destruct a as [[]|[]|[]|[]]; reflexivity || discriminate).
  unfold vec_sin_float. cbv zeta. rewrite !band_abs, EA. fold (red_y n a). fold (red_j I n a). rewrite EJ, Q1, Q2. clear Q1 Q2.
  rewrite select_mask by (destruct HI as [-> | ->]; discriminate).
  rewrite bxor_assoc, bxor_sign, Sa, bxor_top.
  unfold trig_sin, trig_cos, trig_C. cbv zeta. set (B := red_base n a (iconvert I (2 * k))). unfold red_base in B.
  destruct (Z.odd (k / 2)), (Z.even k); subst B; reflexivity.
Qed.
Lemma cos_form a : sgn a = false -> forall k, (0 <= k <= 5215)%Z -> red_j I n a = (2 * k)%Z ->
  let b := red_base n a (iconvert I (red_j I n a)) in
  vec_cos_float c I n a = let p := if Z.odd k then trig_sin n b else trig_cos n b in if Z.odd ((k + 1) / 2) then fneg p else p.
Proof.
  intros Sa k Bk EJ. cbv zeta. destruct (quad k Bk) as (_ & _ & Q3 & Q4).
  assert (EA : fabs a = a) by (destruct a as [[]|[]|[]|[]]; reflexivity || discriminate).
  unfold vec_cos_float. cbv zeta. rewrite !band_abs, EA. fold (red_y n a). fold (red_j I n a). rewrite EJ, Q3, Q4. clear Q3 Q4.
  rewrite select_mask by (destruct HI as [-> | ->]; discriminate).
  rewrite bxor_top.
  unfold trig_sin, trig_cos, trig_C. cbv zeta. set (B := red_base n a (iconvert I (2 * k))). unfold red_base in B.
  destruct (Z.odd ((k + 1) / 2)), (Z.odd k); subst B; reflexivity.
Qed.

(** The two polynomials. *)
Definition bb := (- 7868 * 2 ^ 80 / 10000 - 1, 7868 * 2 ^ 80 / 10000 + 1, 0)%Z.
Lemma trig_C_val b : isfin b = true -> Rabs (val b) <= 0.7867 ->
  isfin (trig_C n b) = true /\ Rabs (val (trig_C n b) - sin_q (val b * val b)) <= 3e-8 /\ Rabs (val (trig_C n b)) <= 0.11.
Proof.
  intros Fb Bb. assert (HB : holds b (val b) bb).
  { unfold bb. apply holds_var; [exact Fb|reflexivity|]. dyz. apply Rabs_le_inv in Bb. lra. }
  unfold bb in HB.
  let t := eval unfold trig_C in (trig_C n b) in err_bound n [b] [val b] [(- 7868 * 2 ^ 80 / 10000 - 1, 7868 * 2 ^ 80 / 10000 + 1, 0)]%Z t H.
  fold (trig_C n b) in H. autorewrite with lits in H. 
  destruct H as (F1 & R1 & E1). 
  match type of E1 with Rabs (_ - ?X) <= _ => replace X with (sin_q (val b * val b)) in * by (unfold sin_q; ring) end.
  rewrite !dy_lit in *. split; [exact F1|]. split; [lra|].
  apply Rabs_le_inv in E1. apply Rabs_le_inv in Bb. assert (Z : 0 <= val b * val b <= 0.619) by nra.
  assert (Q : - 0.105 <= sin_q (val b * val b) <= 0). { unfold sin_q. set (z := val b * val b) in *. nra. }
  apply Rabs_le. lra.
Qed.
Lemma trig_cos_val b : isfin b = true -> Rabs (val b) <= 0.7867 ->
  isfin (trig_cos n b) = true /\ Rabs (val (trig_cos n b) - cos_p (val b * val b)) <= 1.1e-7.
Proof.
  intros Fb Bb. assert (HB : holds b (val b) bb).
  { unfold bb. apply holds_var; [exact Fb|reflexivity|]. dyz. apply Rabs_le_inv in Bb. lra. }
  unfold bb in HB. destruct one_ok as (F1 & V1 & S1).
  assert (H1 : holds (f_ofZ F32 1) 1 (2 ^ 80, 2 ^ 80, 0)%Z).
  { split; [exact F1|]. rewrite !dy_lit, V1, Rminus_diag_eq, Rabs_R0 by reflexivity. lra. }
  let t := eval unfold trig_cos in (trig_cos n b) in err_bound n [b; f_ofZ F32 1] [val b; 1] [(- 7868 * 2 ^ 80 / 10000 - 1, 7868 * 2 ^ 80 / 10000 + 1, 0); (2 ^ 80, 2 ^ 80, 0)]%Z t H.
  fold (trig_cos n b) in H. autorewrite with lits in H. 
  destruct H as (F2 & R2 & E2). 
  match type of E2 with Rabs (_ - ?X) <= _ => replace X with (cos_p (val b * val b)) in * by (unfold cos_p; ring) end.
  rewrite !dy_lit in *. split; [exact F2|]. lra.
Qed.

(** The two polynomials against sine and cosine of the exact reduced argument. *)
Definition tail148 : R := bpow radix2 (-148).
Lemma sin_part b t a : isfin b = true -> Rabs (val b) <= 0.7867 -> Rabs t <= 0.7866 -> 0 <= a -> Rabs (val b - t) <= / 16777216 * Rabs t + 1e-14 * a ->
  isfin (trig_sin n b) = true /\ Rabs (val (trig_sin n b) - sin t) <= 2e-7 * Rabs (sin t) + 1.01e-14 * a + tail148.
Proof.
  intros Fb Bb Bt Pa E. destruct (trig_C_val b Fb Bb) as (FC & EC & BC).
  destruct (last_step n b (trig_C n b) (sin_q (val b * val b)) 3e-8 0.11 FC Fb ltac:(lra) EC BC ltac:(lra)) as [FS ES]. fold (trig_sin n b) in FS, ES. fold tail148 in ES.
  split; [exact FS|]. pose proof (sin_poly (val b) ltac:(lra)) as EP. pose proof (lip_sin (val b) t) as EL. pose proof (sin_low t ltac:(lra)) as SL.
  set (S := trig_sin n b) in *. set (r := val b * (1 + sin_q (val b * val b))) in *.
  assert (BT : Rabs (val b) <= Rabs t + (/ 16777216 * Rabs t + 1e-14 * a)).
  { replace (val b) with (t + (val b - t)) by ring. eapply Rle_trans; [apply Rabs_triang|]. lra. }
  replace (val S - sin t) with ((val S - r) + ((r - sin (val b)) + (sin (val b) - sin t))) by ring.
  eapply Rle_trans; [apply Rabs_triang|]. pose proof (Rabs_triang (r - sin (val b)) (sin (val b) - sin t)) as T. 
  pose proof (Rabs_pos (val b)). pose proof (Rabs_pos t). set (B := Rabs (val b)) in *. set (U := Rabs t) in *. set (W := Rabs (sin t)) in *. lra.
Qed.
Lemma cos_part b t a : isfin b = true -> Rabs (val b) <= 0.7867 -> Rabs t <= 0.7866 -> 0 <= a -> Rabs (val b - t) <= / 16777216 * Rabs t + 1e-14 * a ->
  isfin (trig_cos n b) = true /\ Rabs (val (trig_cos n b) - cos t) <= 27e-8 * Rabs (cos t) + 1e-14 * a.
Proof.
  intros Fb Bb Bt Pa E. destruct (trig_cos_val b Fb Bb) as (FC & EC). split; [exact FC|].
  pose proof (cos_poly (val b) ltac:(lra)) as EP. pose proof (lip_cos (val b) t) as EL. pose proof (cos_low t ltac:(lra)) as CL.
  set (S := trig_cos n b) in *. set (r := cos_p (val b * val b)) in *. rewrite (Rabs_pos_eq (cos t)) by lra.
  replace (val S - cos t) with ((val S - r) + ((r - cos (val b)) + (cos (val b) - cos t))) by ring.
  eapply Rle_trans; [apply Rabs_triang|]. pose proof (Rabs_triang (r - cos (val b)) (cos (val b) - cos t)) as T. lra.
Qed.
Lemma tail_pos : 0 < tail148. Proof. apply bpow_gt_0. Qed.
Lemma neg_err (p : F F32) (q : bool) (r B : R) : isfin p = true -> Rabs (val p - r) <= B ->
  isfin (if q then fneg p else p) = true /\ Rabs (val (if q then fneg p else p) - (if q then - r else r)) <= B.
Proof.
  intros H E. destruct q; [|auto]. rewrite isfin_fneg, val_fneg. split; [exact H|]. replace (- val p - - r) with (- (val p - r)) by ring. rewrite Rabs_Ropp. exact E.
Qed.
Lemma abs_if (q : bool) (r : R) : Rabs (if q then - r else r) = Rabs r. Proof. destruct q; [apply Rabs_Ropp|reflexivity]. Qed.
Lemma sin_pos a : isfin a = true -> sgn a = false -> 0 <= val a <= 8192 ->
  isfin (vec_sin_float c I n a) = true /\ Rabs (val (vec_sin_float c I n a) - sin (val a)) <= 27e-8 * Rabs (sin (val a)) + 1.01e-14 * val a + tail148.
Proof.
  intros Fa Sa Ba. destruct (red_ok I n HI a Fa Ba) as (k & Bk & EJ & FB & TB & BB & EB & _). pose proof tail_pos as TP.
  rewrite (sin_form a Sa k Bk EJ). cbv zeta. set (b := red_base n a (iconvert I (red_j I n a))) in *. clearbody b. set (t := val a - IZR k * (PI / 2)) in *.
  assert (EA : val a = t + IZR k * (PI / 2)) by (unfold t; ring). 
  assert (EQ : sin (val a) = let p := if Z.even k then sin t else cos t in if Z.odd (k / 2) then - p else p) by (rewrite EA; apply sin_quad; lia).
  rewrite EQ. cbv zeta. rewrite abs_if. 
  apply neg_err; destruct (Z.even k).
  - apply (sin_part b t (val a)); try assumption; lra.
  - apply (cos_part b t (val a)); try assumption; lra.
  - destruct (sin_part b t (val a)) as [_ H]; try assumption; try lra. pose proof (Rabs_pos (sin t)). lra.
  - destruct (cos_part b t (val a)) as [_ H]; try assumption; try lra. 
Qed.
Lemma cos_pos a : isfin a = true -> sgn a = false -> 0 <= val a <= 8192 ->
  isfin (vec_cos_float c I n a) = true /\ Rabs (val (vec_cos_float c I n a) - cos (val a)) <= 27e-8 * Rabs (cos (val a)) + 1.01e-14 * val a + tail148.
Proof.
  intros Fa Sa Ba. destruct (red_ok I n HI a Fa Ba) as (k & Bk & EJ & FB & TB & BB & EB & _). pose proof tail_pos as TP.
  rewrite (cos_form a Sa k Bk EJ). cbv zeta. set (b := red_base n a (iconvert I (red_j I n a))) in *. clearbody b. set (t := val a - IZR k * (PI / 2)) in *.
  assert (EA : val a = t + IZR k * (PI / 2)) by (unfold t; ring). 
  assert (EQ : cos (val a) = let p := if Z.odd k then sin t else cos t in if Z.odd ((k + 1) / 2) then - p else p) by (rewrite EA; apply cos_quad; lia).
  rewrite EQ. cbv zeta. rewrite abs_if. 
  apply neg_err; destruct (Z.odd k).
  - apply (sin_part b t (val a)); try assumption; lra.
  - apply (cos_part b t (val a)); try assumption; lra.
  - destruct (sin_part b t (val a)) as [_ H]; try assumption; try lra. pose proof (Rabs_pos (sin t)). lra.
  - destruct (cos_part b t (val a)) as [_ H]; try assumption; try lra. 
Qed.
Lemma sin_accurate x : isfin x = true -> Rabs (val x) <= 8192 ->
  isfin (vec_sin_float c I n x) = true /\
  Rabs (val (vec_sin_float c I n x) - sin (val x)) <= 27e-8 * Rabs (sin (val x)) + 1.01e-14 * Rabs (val x) + tail148.
Proof.
  intros Fx Bx. rewrite (sin_signed c I n x).
  destruct (sin_pos (fabs x)) as [F1 E1]; [rewrite isfin_fabs; exact Fx|apply sgn_fabs|rewrite val_fabs; pose proof (Rabs_pos (val x)); lra|].
  rewrite val_fabs in E1. pose proof (sgn_val_gen x Fx) as SV.
  assert (EA : sin (val x) = if sgn x then - sin (Rabs (val x)) else sin (Rabs (val x))).
  { destruct (sgn x).
    - rewrite SV at 1. apply sin_neg.
    - rewrite SV at 1. reflexivity. }
  rewrite EA, abs_if. apply neg_err; assumption.
Qed.
Lemma cos_accurate x : isfin x = true -> Rabs (val x) <= 8192 ->
  isfin (vec_cos_float c I n x) = true /\
  Rabs (val (vec_cos_float c I n x) - cos (val x)) <= 27e-8 * Rabs (cos (val x)) + 1.01e-14 * Rabs (val x) + tail148.
Proof.
  intros Fx Bx. rewrite (cos_abs c I n x).
  destruct (cos_pos (fabs x)) as [F1 E1]; [rewrite isfin_fabs; exact Fx|apply sgn_fabs|rewrite val_fabs; pose proof (Rabs_pos (val x)); lra|].
  rewrite val_fabs in E1. split; [exact F1|].
  replace (cos (val x)) with (cos (Rabs (val x))); [exact E1|]. unfold Rabs. destruct (Rcase_abs (val x)); [apply cos_neg|reflexivity].
Qed.
End S.
