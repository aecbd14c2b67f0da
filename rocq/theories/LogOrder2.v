(** Order of the functions built from the logarithm, and where exp goes down. *)
From Coq Require Import ZArith Reals List Lia Lra Bool.
From Flocq Require Import Core IEEE754.Binary IEEE754.Bits.
From Verif Require Import Base Mem Backend Lanes Float LaneOps ScalarMath VecMath IntVec TransMath TransFuns SpecLane SpecRound SpecInt SpecOrder
  FloatFacts FloatRound LaneFacts VecFacts VecMore VecMore2 RoundFacts RoundMore IntFacts LdexpFacts TransConst TransFacts
  ErrFacts ErrTac RealMath RealTanh RealLog RealUnit ExpFacts ExpMore LastStep NearFacts TanhFacts LogFacts PowFacts UnitFacts MonoFacts RealOrder2 TrigOrder SinOrder LogOrder ExpOrder TanhOrder.
Import ListNotations.
Local Open Scope R_scope.
#[local] Opaque litf litd fadd fmul fsub fdiv vec_log_float.

(** Proof auxiliary: two floats in order, at most 2^e in magnitude. *)
Definition le2 (x y : F F32) (e : Z) : Prop := isfin x = true /\ isfin y = true /\ Rabs (val x) <= bpow radix2 e /\ Rabs (val y) <= bpow radix2 e /\ val x <= val y.
Section L.
Context (n : nans F32).
Lemma le2_mulr x y k e e' : le2 x y e -> isfin k = true -> 0 <= val k <= bpow radix2 e' -> (-126 <= e + e' <= 100)%Z -> le2 (fmul n x k) (fmul n y k) (e + e').
Proof.
  intros (Fx & Fy & Bx & By & L) Fk Bk HE. pose proof (bpow_gt_0 radix2 e). pose proof (bpow_gt_0 radix2 e').
  assert (G : forall w : F F32, Rabs (val w) <= bpow radix2 e -> Rabs (val w * val k) <= bpow radix2 (e + e')).
  { intros w Bw. rewrite Rabs_mult, (Rabs_pos_eq (val k)), bpow_plus by lra. apply Rmult_le_compat; try apply Rabs_pos; lra. }
  assert (BF : forall r, Rabs r <= bpow radix2 (e + e') -> Rabs (rnd F32 r) < bpow radix2 (emax F32)).
  { intros r Hr. eapply Rle_lt_trans; [apply (rnd_le_bpow (e + e')); [lia|exact Hr]|apply bpow_lt; change (emax F32) with 128%Z; lia]. }
  destruct (fmul_fin n x k Fx Fk (BF _ (G _ Bx))) as (F1 & V1 & _). destruct (fmul_fin n y k Fy Fk (BF _ (G _ By))) as (F2 & V2 & _).
  split; [exact F1|]. split; [exact F2|]. rewrite V1, V2. split; [apply rnd_le_bpow; [lia|apply G; exact Bx]|]. split; [apply rnd_le_bpow; [lia|apply G; exact By]|]. apply rnd_le. apply Rmult_le_compat_r; lra.
Qed.
Lemma le2_mull x y k e e' : le2 x y e -> isfin k = true -> 0 <= val k <= bpow radix2 e' -> (-126 <= e + e' <= 100)%Z -> le2 (fmul n k x) (fmul n k y) (e + e').
Proof.
  intros (Fx & Fy & Bx & By & L) Fk Bk HE. pose proof (bpow_gt_0 radix2 e). pose proof (bpow_gt_0 radix2 e').
  assert (G : forall w : F F32, Rabs (val w) <= bpow radix2 e -> Rabs (val k * val w) <= bpow radix2 (e + e')).
  { intros w Bw. rewrite Rabs_mult, (Rabs_pos_eq (val k)), bpow_plus, Rmult_comm by lra. apply Rmult_le_compat; try apply Rabs_pos; lra. }
  assert (BF : forall r, Rabs r <= bpow radix2 (e + e') -> Rabs (rnd F32 r) < bpow radix2 (emax F32)).
  { intros r Hr. eapply Rle_lt_trans; [apply (rnd_le_bpow (e + e')); [lia|exact Hr]|apply bpow_lt; change (emax F32) with 128%Z; lia]. }
  destruct (fmul_fin n k x Fk Fx (BF _ (G _ Bx))) as (F1 & V1 & _). destruct (fmul_fin n k y Fk Fy (BF _ (G _ By))) as (F2 & V2 & _).
  split; [exact F1|]. split; [exact F2|]. rewrite V1, V2. split; [apply rnd_le_bpow; [lia|apply G; exact Bx]|]. split; [apply rnd_le_bpow; [lia|apply G; exact By]|]. apply rnd_le. apply Rmult_le_compat_l; lra.
Qed.
Lemma le2_addr x y k e : le2 x y e -> isfin k = true -> Rabs (val k) <= bpow radix2 e -> (-126 <= e <= 100)%Z -> le2 (fadd n x k) (fadd n y k) (e + 1).
Proof.
  intros (Fx & Fy & Bx & By & L) Fk Bk HE.
  assert (D : bpow radix2 (e + 1) = bpow radix2 e + bpow radix2 e) by (rewrite bpow_plus; change (bpow radix2 1) with 2; ring).
  assert (G : forall w : F F32, Rabs (val w) <= bpow radix2 e -> Rabs (val w + val k) <= bpow radix2 (e + 1)) by (intros w Bw; eapply Rle_trans; [apply Rabs_triang|]; lra).
  assert (BF : forall r, Rabs r <= bpow radix2 (e + 1) -> Rabs (rnd F32 r) < bpow radix2 (emax F32)).
  { intros r Hr. eapply Rle_lt_trans; [apply (rnd_le_bpow (e + 1)); [lia|exact Hr]|apply bpow_lt; change (emax F32) with 128%Z; lia]. }
  destruct (fadd_fin n x k Fx Fk (BF _ (G _ Bx))) as (F1 & V1 & _). destruct (fadd_fin n y k Fy Fk (BF _ (G _ By))) as (F2 & V2 & _).
  split; [exact F1|]. split; [exact F2|]. rewrite V1, V2. split; [apply rnd_le_bpow; [lia|apply G; exact Bx]|]. split; [apply rnd_le_bpow; [lia|apply G; exact By]|]. apply rnd_le. lra.
Qed.
Lemma normal_pos (x : F F32) : isfin x = true -> bpow radix2 (-126) <= val x -> ~ tiny x /\ sgn x = false /\ fabs x = x.
Proof.
  intros Fx B. pose proof (bpow_gt_0 radix2 (-126)) as P. split; [intros [_ T]; rewrite Rabs_pos_eq in T by lra; lra|].
  assert (S : sgn x = false). { pose proof (sgn_val_gen x Fx) as A. pose proof (Rabs_pos (val x)). destruct (sgn x); [lra|reflexivity]. }
  split; [exact S|]. destruct x as [[]|[]|[]|[]]; try reflexivity; discriminate.
Qed.
End L.
Section R.
Context (c : cfg) (I : isa) (n : nans F32) (k : nans F64) (HI : x86 I).
Lemma log_le2 x y : isfin x = true -> isfin y = true -> bpow radix2 (-126) <= val x -> val x <= val y -> le2 (vec_log_float c I n x) (vec_log_float c I n y) 7.
Proof.
  intros Fx Fy Bx L. destruct (normal_pos x Fx Bx) as (Tx & Sx & _). destruct (normal_pos y Fy ltac:(lra)) as (Ty & Sy & _).
  assert (G : forall w, isfin w = true -> ~ tiny w -> sgn w = false -> Rabs (val (vec_log_float c I n w)) <= bpow radix2 7).
  { intros w Fw Tw Sw. destruct (log_rel c I n HI w Fw Tw Sw) as [_ E]. pose proof (ln_normal w Fw Tw Sw) as [_ B].
    replace (val (vec_log_float c I n w)) with (ln (val w) + (val (vec_log_float c I n w) - ln (val w))) by ring. eapply Rle_trans; [apply Rabs_triang|]. change (bpow radix2 7) with 128. lra. }
  split; [apply log_finite; exact HI|]. split; [apply log_finite; exact HI|]. split; [apply G; assumption|]. split; [apply G; assumption|]. apply log_rises; assumption.
Qed.
Lemma log2_le2 x y : isfin x = true -> isfin y = true -> bpow radix2 (-126) <= val x -> val x <= val y -> le2 (vec_log2 c I n k x) (vec_log2 c I n k y) 8.
Proof.
  intros Fx Fy Bx L. unfold vec_log2. destruct (rl2_ok k) as [F2 V2]. change 8%Z with (7 + 1)%Z. apply le2_mulr; [apply log_le2; assumption|exact F2|rewrite V2; change (bpow radix2 1) with 2; lra|lia].
Qed.
Lemma log10_le2 x y : isfin x = true -> isfin y = true -> bpow radix2 (-126) <= val x -> val x <= val y -> le2 (vec_log10 c I n k x) (vec_log10 c I n k y) 8.
Proof.
  intros Fx Fy Bx L. unfold vec_log10. destruct (rl10_ok k) as [F2 V2]. change 8%Z with (7 + 1)%Z. apply le2_mulr; [apply log_le2; assumption|exact F2|rewrite V2; change (bpow radix2 1) with 2; lra|lia].
Qed.
Lemma le2_rising (S : R -> Prop) f e : (forall x y, isfin x = true -> isfin y = true -> S (val x) -> S (val y) -> val x <= val y -> le2 (f x) (f y) e) -> rising S f.
Proof. intros H x y Fx Fy Sx Sy L. destruct (H x y Fx Fy Sx Sy L) as (A & B & _ & _ & C). auto. Qed.
Lemma log_rising : rising (fun r => bpow radix2 (-126) <= r) (vec_log_float c I n).
Proof. apply (le2_rising _ _ 7). intros. apply log_le2; assumption. Qed.
Lemma log2_rising : rising (fun r => bpow radix2 (-126) <= r) (vec_log2 c I n k).
Proof. apply (le2_rising _ _ 8). intros. apply log2_le2; assumption. Qed.
Lemma log10_rising : rising (fun r => bpow radix2 (-126) <= r) (vec_log10 c I n k).
Proof. apply (le2_rising _ _ 8). intros. apply log10_le2; assumption. Qed.
Lemma ratio2midi_rising : rising (fun r => bpow radix2 (-126) <= r) (ratio2midi c I n k).
Proof.
  apply (le2_rising _ _ (8 + 4)). intros. destruct (ofZ_small 12 ltac:(lia)) as (A & B & _). apply le2_mull; [apply log2_le2; assumption|exact A|rewrite B; change (bpow radix2 4) with 16; lra|lia].
Qed.
Lemma amp2db_rising : rising (fun r => bpow radix2 (-126) <= r) (amp2db c I n k).
Proof.
  apply (le2_rising _ _ (8 + 5)). intros x y Fx Fy Sx Sy L. unfold amp2db. rewrite !vabs_fabs. destruct (normal_pos x Fx Sx) as (_ & _ & ->). destruct (normal_pos y Fy Sy) as (_ & _ & ->).
  destruct (ofZ_small 20 ltac:(lia)) as (A & B & _). apply le2_mulr; [apply log10_le2; assumption|exact A|rewrite B; change (bpow radix2 5) with 32; lra|lia].
Qed.
Lemma scaled x : isfin x = true -> bpow radix2 (-117) <= val x -> let y := fmul n x (litd 22727272727 13) in
  isfin y = true /\ val y = rnd F32 (val x * val (litd 22727272727 13)) /\ bpow radix2 (-126) <= val y.
Proof.
  intros Fx Bx y. destruct litd_22727272727_13 as (F4 & _ & _). pose proof val_litd_22727272727_13 as V4.
  assert (K : / 512 <= val (litd 22727272727 13) <= 1) by (rewrite V4; lra).
  pose proof (bpow_gt_0 radix2 (-117)). assert (BX : Rabs (val x) < bpow radix2 128) by (apply (abs_B2R_lt_emax 24 128)).
  rewrite Rabs_pos_eq in BX by lra.
  assert (MX : val x * val (litd 22727272727 13) <= val x) by nra.
  destruct (fmul_fin n x _ Fx F4) as (F1 & V1 & _).
  { rewrite Rabs_pos_eq by (apply rnd_nonneg; apply Rmult_le_pos; lra). eapply Rle_lt_trans; [apply (rnd_le_format _ (val x)); [apply val_format|exact MX]|exact BX]. }
  fold y in F1, V1. split; [exact F1|]. split; [exact V1|]. rewrite V1. apply rnd_ge_format; [apply bpow_format; discriminate|].
  replace (bpow radix2 (-126)) with (bpow radix2 (-117) * / 512) by (change (/ 512) with (bpow radix2 (-9)); rewrite <- bpow_plus; reflexivity). apply Rmult_le_compat; lra.
Qed.
Lemma freq_le2 x y : isfin x = true -> isfin y = true -> bpow radix2 (-117) <= val x -> val x <= val y ->
  le2 (abs_log2 c I n k (fmul n x (litd 22727272727 13))) (abs_log2 c I n k (fmul n y (litd 22727272727 13))) 8.
Proof.
  intros Fx Fy Bx L. destruct (scaled x Fx Bx) as (F1 & V1 & B1). destruct (scaled y Fy ltac:(lra)) as (F2 & V2 & B2). unfold abs_log2. rewrite !vabs_fabs.
  destruct (normal_pos _ F1 B1) as (_ & _ & ->). destruct (normal_pos _ F2 B2) as (_ & _ & ->). apply log2_le2; try assumption. rewrite V1, V2. apply rnd_le.
  apply Rmult_le_compat_r; [rewrite val_litd_22727272727_13; lra|exact L].
Qed.
Lemma freq2midi_rising : rising (fun r => bpow radix2 (-117) <= r) (freq2midi c I n k).
Proof.
  apply (le2_rising _ _ (8 + 4 + 1)). intros x y Fx Fy Sx Sy L. unfold freq2midi. destruct (ofZ_small 12 ltac:(lia)) as (A & B & _). destruct (ofZ_small 69 ltac:(lia)) as (A' & B' & _).
  apply le2_addr; [apply le2_mulr; [apply freq_le2; assumption|exact A|rewrite B; change (bpow radix2 4) with 16; lra|lia]|exact A'|rewrite B'; change (bpow radix2 (8 + 4)) with 4096; rewrite Rabs_pos_eq; lra|lia].
Qed.
Lemma freq2oct_rising : rising (fun r => bpow radix2 (-117) <= r) (freq2oct c I n k).
Proof.
  apply (le2_rising _ _ (8 + 1)). intros x y Fx Fy Sx Sy L. unfold freq2oct. destruct litd_475_2 as (A & _ & _). pose proof val_litd_475_2 as B.
  apply le2_addr; [apply freq_le2; assumption|exact A|rewrite B; change (bpow radix2 8) with 256; rewrite Rabs_pos_eq; lra|lia].
Qed.
Lemma exp_rising : rising (from_to 1 88) (vec_exp_float c I n).
Proof.
  intros x y Fx Fy [S1 S2] [S3 S4] L. apply exp_rises; try assumption; lra.
Qed.
Lemma tanh_rising : rising (fun _ => True) (vec_tanh_float c I n).
Proof.
  intros x y Fx Fy _ _ L. split; [apply (tanh_bound c I n HI x (fin_not_nan x Fx))|]. split; [apply (tanh_bound c I n HI y (fin_not_nan y Fy))|]. apply tanh_rises; assumption.
Qed.
End R.
#[local] Transparent litf litd fadd fmul fsub fdiv vec_log_float.
Lemma exp_dip_bits c I n : x86 I -> bits (vec_exp_float c I n (f_lit F32 (-16667702) (-29))) = bits (f_lit F32 16264353 (-24)) /\ bits (vec_exp_float c I n (f_lit F32 (-16667701) (-29))) = bits (f_lit F32 16264352 (-24)).
Proof. intros [-> | ->]; [destruct c as [[] ? [] ?]|]; (split; vm_compute; reflexivity). Qed.
