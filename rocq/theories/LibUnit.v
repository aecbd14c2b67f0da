(** Accuracy of the unit conversions over a C library of given accuracy, for
    float and double. *)
From Coq Require Import ZArith Reals List Lia Lra Bool Psatz.
From Flocq Require Import Core IEEE754.Binary IEEE754.Bits.
From Flocq Require Import Relative.
From Verif Require Import Base Backend Lanes Float LaneOps ScalarMath VecMath IntVec TransMath TransFuns Libm Spec SpecLane SpecMath SpecLib
  FloatFacts FloatRound RoundMore TransConst RealTanh RealLog RealUnit RealUnit2.
Local Open Scope R_scope.

(** * Rounding *)
Section G.
Context {t : fmt}.
(** Proof auxiliary: the unit roundoff of the format. *)
Definition ut : R := bpow radix2 (- prec t).
(** Proof auxiliary: half the least positive number. *)
Definition et : R := bpow radix2 (emin t - 1).
Lemma ut_half : ut = half_ulp t. Proof. unfold ut, half_ulp. destruct t; reflexivity. Qed.
Lemma ut_range : 0 < ut <= 6e-8.
Proof. unfold ut. split; [apply bpow_gt_0|]. apply Rle_trans with (bpow radix2 (-24)); [apply bpow_le; destruct t; cbv; discriminate|].
  change (bpow radix2 (-24)) with (/ 16777216). lra. Qed.
Lemma et_range : 0 < et <= 1e-45.
Proof. unfold et. split; [apply bpow_gt_0|]. apply Rle_trans with (bpow radix2 (-150)); [apply bpow_le; destruct t; cbv; discriminate|].
  change (bpow radix2 (-150)) with (/ 1427247692705959881058285969449495136382746624). lra. Qed.
Lemma et_u : et <= 1.2e-38 * ut.
Proof.
  unfold et, ut. replace (emin t - 1)%Z with ((emin t - 1 + prec t) + - prec t)%Z by lia. rewrite bpow_plus. apply Rmult_le_compat_r; [apply bpow_ge_0|].
  apply Rle_trans with (bpow radix2 (-126)); [apply bpow_le; destruct t; cbv; discriminate|].
  change (bpow radix2 (-126)) with (/ 85070591730234615865843651857942052864). lra.
Qed.
Lemma rnd_ut r : Rabs (rnd t r - r) <= ut * Rabs r + et.
Proof.
  pose proof (bpow_gt_0 radix2 (- prec t)) as P1. pose proof (bpow_gt_0 radix2 (emin t - 1)) as P2. fold ut in P1. fold et in P2. pose proof (Rabs_pos r) as P3.
  assert (M : 0 <= ut * Rabs r) by nra.
  destruct (Rle_lt_dec (bpow radix2 (emin t + prec t - 1)) (Rabs r)) as [H|H].
  - pose proof (relative_error_N_FLT radix2 (emin t) (prec t) ltac:(destruct t; reflexivity) (fun x => negb (Z.even x)) r H) as E.
    replace (/ 2 * bpow radix2 (- prec t + 1)) with ut in E.
    2:{ unfold ut. rewrite bpow_plus. change (bpow radix2 1) with 2. lra. }
    unfold rnd. change (SpecFloat.fexp (prec t) (emax t)) with (fexp t). rewrite fexp_FLT. eapply Rle_trans; [exact E|lra].
  - destruct (Req_dec r 0) as [-> | Hr0]; [rewrite rnd_0, Rminus_0_r, Rabs_R0; lra|].
    apply Rle_trans with et; [|lra].
    eapply Rle_trans; [apply error_le_half_ulp; apply (fexp_correct (prec t) (emax t)); apply Hprec|].
    rewrite ulp_neq_0 by exact Hr0. unfold et. replace (emin t - 1)%Z with (-1 + emin t)%Z by lia. rewrite bpow_plus.
    change (bpow radix2 (-1)) with (/ 2). apply Rmult_le_compat_l; [lra|]. apply bpow_le. unfold cexp.
    change (SpecFloat.fexp (prec t) (emax t)) with (fexp t). rewrite fexp_FLT. unfold FLT_exp.
    assert (Raux.mag radix2 r <= emin t + prec t - 1)%Z; [|lia]. apply mag_le_bpow; [exact Hr0|exact H].
Qed.
Lemma rnd_big r : Rabs r <= 1e38 -> Rabs (rnd t r) < bpow radix2 (emax t).
Proof.
  intros H. eapply Rle_lt_trans; [apply (rnd_abs_le (t := t) r (bpow radix2 127))|apply bpow_lt; destruct t; reflexivity].
  - apply bpow_format. destruct t; cbv; discriminate.
  - change (bpow radix2 127) with 170141183460469231731687303715884105728. lra.
Qed.
(** Proof auxiliary: [f] is finite and within [d] of [r]. *)
Record rl (f : F t) (r d : R) : Prop := mk_rl { rl_fin : isfin f = true; rl_err : Rabs (val f - r) <= d }.
Lemma rl_abs f r d : rl f r d -> Rabs (val f) <= Rabs r + d.
Proof. intros [_ E]. replace (val f) with (r + (val f - r)) by ring. eapply Rle_trans; [apply Rabs_triang|lra]. Qed.
Lemma rl_d f r d : rl f r d -> 0 <= d. Proof. intros [_ E]. pose proof (Rabs_pos (val f - r)). lra. Qed.
Context (n : nans t).
Lemma rl_sub f g r s d1 d2 : rl f r d1 -> rl g s d2 -> Rabs (r - s) + d1 + d2 <= 1e38 ->
  rl (fsub n f g) (r - s) (d1 + d2 + ut * (Rabs (r - s) + d1 + d2) + et).
Proof.
  intros [F1 E1] [F2 E2] H. assert (E : Rabs ((val f - val g) - (r - s)) <= d1 + d2).
  { replace (val f - val g - (r - s)) with ((val f - r) + - (val g - s)) by ring. eapply Rle_trans; [apply Rabs_triang|]. rewrite Rabs_Ropp. lra. }
  assert (A : Rabs (val f - val g) <= Rabs (r - s) + d1 + d2).
  { replace (val f - val g) with ((r - s) + (val f - val g - (r - s))) by ring. eapply Rle_trans; [apply Rabs_triang|lra]. }
  destruct (fsub_fin n f g F1 F2) as (B & V & _); [apply rnd_big; lra|]. split; [exact B|]. rewrite V.
  pose proof (rnd_ut (val f - val g)) as R. pose proof ut_range. assert (ut * Rabs (val f - val g) <= ut * (Rabs (r - s) + d1 + d2)) by (apply Rmult_le_compat_l; lra).
  replace (rnd t (val f - val g) - (r - s)) with ((rnd t (val f - val g) - (val f - val g)) + (val f - val g - (r - s))) by ring.
  eapply Rle_trans; [apply Rabs_triang|lra].
Qed.
Lemma rl_add f g r s d1 d2 : rl f r d1 -> rl g s d2 -> Rabs (r + s) + d1 + d2 <= 1e38 ->
  rl (fadd n f g) (r + s) (d1 + d2 + ut * (Rabs (r + s) + d1 + d2) + et).
Proof.
  intros [F1 E1] [F2 E2] H. assert (E : Rabs ((val f + val g) - (r + s)) <= d1 + d2).
  { replace (val f + val g - (r + s)) with ((val f - r) + (val g - s)) by ring. eapply Rle_trans; [apply Rabs_triang|]. lra. }
  assert (A : Rabs (val f + val g) <= Rabs (r + s) + d1 + d2).
  { replace (val f + val g) with ((r + s) + (val f + val g - (r + s))) by ring. eapply Rle_trans; [apply Rabs_triang|lra]. }
  destruct (fadd_fin n f g F1 F2) as (B & V & _); [apply rnd_big; lra|]. split; [exact B|]. rewrite V.
  pose proof (rnd_ut (val f + val g)) as R. pose proof ut_range. assert (ut * Rabs (val f + val g) <= ut * (Rabs (r + s) + d1 + d2)) by (apply Rmult_le_compat_l; lra).
  replace (rnd t (val f + val g) - (r + s)) with ((rnd t (val f + val g) - (val f + val g)) + (val f + val g - (r + s))) by ring.
  eapply Rle_trans; [apply Rabs_triang|lra].
Qed.
(** Multiplication; [k] is the constant, off by a relative error of [c]. *)
Lemma rl_mul_aux (f k : F t) r K d c : rl f r d -> isfin k = true -> 0 < K <= 1000 -> Rabs (val k - K) <= c * K -> 0 <= c <= 1e-6 -> (Rabs r + d) * K <= 1e37 ->
  Rabs (val f * val k) <= 1e38 /\
  Rabs (rnd t (val f * val k) - r * K) <= (1 + c) * (1 + ut) * (d * K) + (c + 1.001 * ut) * (Rabs r * K) + et.
Proof.
  intros Hf Fk HK Ek Hc H. pose proof (rl_d _ _ _ Hf) as D. pose proof (rl_abs _ _ _ Hf) as AF. destruct Hf as [F1 E1]. pose proof (Rabs_pos r) as PR. pose proof ut_range as U.
  assert (Vk : 0 <= val k <= (1 + c) * K) by (apply Rabs_le_inv in Ek; nra).
  assert (E : Rabs (val f * val k - r * K) <= (1 + c) * (d * K) + c * (Rabs r * K)).
  { replace (val f * val k - r * K) with ((val f - r) * val k + r * (val k - K)) by ring. eapply Rle_trans; [apply Rabs_triang|]. rewrite !Rabs_mult, (Rabs_pos_eq (val k)) by lra.
    assert (Rabs (val f - r) * val k <= d * ((1 + c) * K)) by (apply Rmult_le_compat; try apply Rabs_pos; lra).
    assert (Rabs r * Rabs (val k - K) <= Rabs r * (c * K)) by (apply Rmult_le_compat_l; lra). lra. }
  assert (N1 : 0 <= Rabs r * K) by nra. assert (N2 : 0 <= d * K) by nra. set (Q := Rabs r * K) in *. set (W := d * K) in *.
  assert (A : Rabs (val f * val k) <= (1 + c) * W + (1 + c) * Q).
  { replace (val f * val k) with (r * K + (val f * val k - r * K)) by ring. eapply Rle_trans; [apply Rabs_triang|]. rewrite (Rabs_mult r K), (Rabs_pos_eq K) by lra. fold Q. lra. }
  assert (S : W + Q <= 1e37) by (unfold W, Q; lra). split.
  { assert ((1 + c) * (W + Q) <= 1.1 * (W + Q)) by (apply Rmult_le_compat_r; lra). lra. }
  pose proof (rnd_ut (val f * val k)) as R.
  replace (rnd t (val f * val k) - r * K) with ((rnd t (val f * val k) - val f * val k) + (val f * val k - r * K)) by ring.
  eapply Rle_trans; [apply Rabs_triang|].
  assert (ut * Rabs (val f * val k) <= ut * ((1 + c) * W + (1 + c) * Q)) by (apply Rmult_le_compat_l; lra).
  assert (ut * ((1 + c) * Q) <= 1.001 * ut * Q).
  { rewrite <- Rmult_assoc. apply Rmult_le_compat_r; [exact N1|]. rewrite Rmult_comm. apply Rmult_le_compat_r; lra. }
  assert (ut * ((1 + c) * W + (1 + c) * Q) = ut * ((1 + c) * W) + ut * ((1 + c) * Q)) by ring. lra.
Qed.
Lemma rl_mul (f k : F t) r K d c : rl f r d -> isfin k = true -> 0 < K <= 1000 -> Rabs (val k - K) <= c * K -> 0 <= c <= 1e-6 -> (Rabs r + d) * K <= 1e37 ->
  rl (fmul n f k) (r * K) ((1 + c) * (1 + ut) * (d * K) + (c + 1.001 * ut) * (Rabs r * K) + et).
Proof.
  intros Hf Fk HK Ek Hc H. destruct (rl_mul_aux f k r K d c Hf Fk HK Ek Hc H) as [A E].
  destruct (fmul_fin n f k (rl_fin _ _ _ Hf) Fk (rnd_big _ A)) as (B & V & _). split; [exact B|]. rewrite V. exact E.
Qed.
Lemma rl_mul' (f k : F t) r K d c : rl f r d -> isfin k = true -> 0 < K <= 1000 -> Rabs (val k - K) <= c * K -> 0 <= c <= 1e-6 -> (Rabs r + d) * K <= 1e37 ->
  rl (fmul n k f) (K * r) ((1 + c) * (1 + ut) * (d * K) + (c + 1.001 * ut) * (Rabs r * K) + et).
Proof.
  intros Hf Fk HK Ek Hc H. destruct (rl_mul_aux f k r K d c Hf Fk HK Ek Hc H) as [A E]. rewrite Rmult_comm in A, E at 1.
  destruct (fmul_fin n k f Fk (rl_fin _ _ _ Hf) (rnd_big _ A)) as (B & V & _). split; [exact B|]. rewrite V, (Rmult_comm K r). exact E.
Qed.
End G.
Arguments ut t : clear implicits.
Arguments et t : clear implicits.

(** * Literals *)
Lemma lit64 m e p q : (Z.abs m <= 2 ^ 53)%Z -> (-1074 <= e <= 900)%Z -> bits (f_dec F64 p q) = bits (f_lit F64 m e) ->
  isfin (f_dec F64 p q) = true /\ val (f_dec F64 p q) = IZR m * bpow radix2 e.
Proof.
  intros H1 H2 E. rewrite (bits_inj _ _ E). destruct (f_lit_exact (t := F64) m e) as (A & B & _); [exact H1|change (emin F64) with (-1074)%Z; lia|change (prec F64) with 53%Z; change (emax F64) with 1024%Z; lia|].
  auto.
Qed.
Ltac l64 m e p q := destruct (lit64 m e p q ltac:(cbv; discriminate) ltac:(lia) ltac:(vm_compute; reflexivity)) as [FF VV]; split; [exact FF|]; rewrite VV; clear.
(** Proof auxiliary: bound for the error of the constant 0.083333333333. *)
Definition cst12 (t : fmt) : R := match t with F32 => 3e-8 | F64 => 4.001e-12 end.
(** Proof auxiliary: bound for the error of the constant 0.0022727272727. *)
Definition cst440 (t : fmt) : R := match t with F32 => 4e-8 | F64 => 1.2001e-11 end.
Lemma k12 t : isfin (lit_as t 83333333333 12) = true /\ Rabs (val (lit_as t 83333333333 12) - / 12) <= cst12 t * / 12.
Proof. destruct t; unfold lit_as, cst12.
  - split; [apply litd_83333333333_12|]. rewrite val_litd_83333333333_12. apply Rabs_le. lra.
  - l64 6004799503136642%Z (-56)%Z 83333333333%Z 12%Z. change (bpow radix2 (-56)) with (/ 72057594037927936). apply Rabs_le. lra.
Qed.
Lemma k440 t : isfin (lit_as t 22727272727 13) = true /\ Rabs (val (lit_as t 22727272727 13) - / 440) <= cst440 t * / 440.
Proof. destruct t; unfold lit_as, cst440.
  - split; [apply litd_22727272727_13|]. rewrite val_litd_22727272727_13. apply Rabs_le. lra.
  - l64 5240552293604600%Z (-61)%Z 22727272727%Z 13%Z. change (bpow radix2 (-61)) with (/ 2305843009213693952). apply Rabs_le. lra.
Qed.
Lemma k20 t : isfin (lit_as t 5 2) = true /\ Rabs (val (lit_as t 5 2) - / 20) <= ut t * / 20.
Proof. destruct t; unfold lit_as, ut.
  - split; [apply litd_5_2|]. rewrite val_litd_5_2. change (bpow radix2 (- prec F32)) with (/ 16777216). apply Rabs_le. lra.
  - change (bpow radix2 (- prec F64)) with (/ 9007199254740992). l64 7205759403792794%Z (-57)%Z 5%Z 2%Z. change (bpow radix2 (-57)) with (/ 144115188075855872). apply Rabs_le. lra.
Qed.
Lemma k475 t : isfin (lit_as t 475 2) = true /\ val (lit_as t 475 2) = 4.75.
Proof. destruct t; unfold lit_as.
  - split; [apply litd_475_2|]. rewrite val_litd_475_2. lra.
  - l64 5348024557502464%Z (-50)%Z 475%Z 2%Z. change (bpow radix2 (-50)) with (/ 1125899906842624). lra.
Qed.
Lemma lit32' m e p q : (Z.abs m <= 2 ^ 24)%Z -> (-149 <= e <= 90)%Z -> bits (litd p q) = bits (f_lit F32 m e) ->
  isfin (litd p q) = true /\ val (litd p q) = IZR m * bpow radix2 e.
Proof.
  intros H1 H2 E. rewrite (bits_inj _ _ E). destruct (f_lit_exact (t := F32) m e) as (A & B & _); [exact H1|change (emin F32) with (-149)%Z; lia|change (prec F32) with 24%Z; change (emax F32) with 128%Z; lia|].
  auto.
Qed.
Ltac kz m := match goal with |- isfin (lit_as ?t _ _) = true /\ _ => destruct t; unfold lit_as;
  [destruct (lit32' m 0 m 0 ltac:(cbv; discriminate) ltac:(lia) ltac:(vm_compute; reflexivity)) as [FF VV]; split; [exact FF|]; rewrite VV
  |destruct (lit64 m 0 m 0 ltac:(cbv; discriminate) ltac:(lia) ltac:(vm_compute; reflexivity)) as [FF VV]; split; [exact FF|]; rewrite VV]; change (bpow radix2 0) with 1; lra end.
Lemma k440z t : isfin (lit_as t 440 0) = true /\ val (lit_as t 440 0) = 440. Proof. kz 440%Z. Qed.
Lemma k69 t : isfin (lit_as t 69 0) = true /\ val (lit_as t 69 0) = 69. Proof. kz 69%Z. Qed.
Lemma k12z t : isfin (lit_as t 12 0) = true /\ val (lit_as t 12 0) = 12. Proof. kz 12%Z. Qed.
Lemma k20z t : isfin (lit_as t 20 0) = true /\ val (lit_as t 20 0) = 20. Proof. kz 20%Z. Qed.
Lemma k2 t : isfin (lit_as t 2 0) = true /\ val (lit_as t 2 0) = 2. Proof. kz 2%Z. Qed.
Lemma k10 t : isfin (lit_as t 10 0) = true /\ val (lit_as t 10 0) = 10. Proof. kz 10%Z. Qed.

(** * Conversions *)
Lemma inv2r : 1.4426 <= / ln 2 <= 1.4427.
Proof. pose proof ln2_fine as [A B]. split; [apply Rmult_le_reg_r with (ln 2)|apply Rmult_le_reg_r with (ln 2)]; rewrite ?Rinv_l; lra. Qed.
Section W.
Context {t : fmt} (w : world t) (e : R) (HA : accurate e (w_lib w)) (He : 0 <= e <= 1e-5).
Local Notation u := (ut t).
Lemma rl_exact (f : F t) : isfin f = true -> rl f (val f) 0.
Proof. intros H. split; [exact H|]. rewrite Rminus_diag_eq, Rabs_R0 by reflexivity. lra. Qed.
Lemma pow_at (b y : F t) B q d : isfin b = true -> val b = B -> 2 <= B <= 10 -> rl y q d -> d <= 2e-5 -> Rabs (q * ln B) <= 87 ->
  near (e + 1.0011 * (ln B * d)) (m_pow (w_lib w) b y) (Rpower B q).
Proof.
  intros Fb Vb HB Hy Hd HQ. pose proof (rl_d _ _ _ Hy) as D0. destruct Hy as [Fy Ey]. 
  assert (LB : 0.69 <= ln B <= 2.31).
  { split; [apply Rle_trans with (ln 2); [pose proof ln2_range; lra|]|apply Rle_trans with (ln 10); [|pose proof ln10_range; lra]].
    - destruct (Req_dec 2 B) as [<-|]; [lra|left; apply ln_increasing; lra].
    - destruct (Req_dec 10 B) as [<-|]; [lra|left; apply ln_increasing; lra]. }
  set (l := ln B) in *. assert (DD : Rabs (val y * l - q * l) <= l * d).
  { replace (val y * l - q * l) with ((val y - q) * l) by ring. rewrite Rabs_mult, (Rabs_pos_eq l) by lra. rewrite Rmult_comm. apply Rmult_le_compat_l; lra. }
  assert (LD : 0 <= l * d <= 4.7e-5) by nra.
  assert (YB : Rabs (val y * l) <= 87.1) by (replace (val y * l) with (q * l + (val y * l - q * l)) by ring; eapply Rle_trans; [apply Rabs_triang|lra]).
  destruct (acc_pow _ _ HA b y Fb Fy) as [A E]; [lra| |].
  { unfold log_base. rewrite Vb. fold l. unfold Rdiv. rewrite <- Rmult_assoc, Rabs_mult. pose proof inv2r. rewrite (Rabs_pos_eq (/ ln 2)) by lra.
    apply Rle_trans with (87.1 * 1.4427); [apply Rmult_le_compat; try apply Rabs_pos; lra|lra]. }
  split; [exact A|]. rewrite Vb in E. unfold Rpower in *. fold l in E |- *.
  set (T := q * l) in *. set (D := val y * l - T) in *.
  assert (S : Rabs (exp D - 1) <= 1.001 * (l * d)) by (apply exp_small_rel; [exact DD|lra]).
  assert (EX : exp (val y * l) = exp T * exp D) by (rewrite <- exp_plus; f_equal; unfold D; ring). rewrite EX in E.
  pose proof (exp_pos T) as PE. pose proof (exp_pos D) as PD. set (X := exp T) in *. set (Y := exp D) in *. set (p := val (m_pow _ _ _)) in *. clearbody X Y p.
  rewrite (Rabs_pos_eq (X * Y)) in E by nra. rewrite (Rabs_pos_eq X) by lra. set (g := l * d) in *. apply Rabs_le_inv in S.
  replace (p - X) with ((p - X * Y) + X * (Y - 1)) by ring. eapply Rle_trans; [apply Rabs_triang|]. rewrite Rabs_mult, (Rabs_pos_eq X) by lra.
  assert (C1 : X * Rabs (Y - 1) <= X * (1.001 * g)) by (apply Rmult_le_compat_l; [lra|apply Rabs_le; lra]).
  assert (C2 : e * (X * Y) <= e * (X * (1 + 1.001 * g))) by (apply Rmult_le_compat_l; [lra|]; apply Rmult_le_compat_l; lra).
  assert (C3 : e * (X * (1.001 * g)) <= 1e-5 * (X * (1.001 * g))) by (apply Rmult_le_compat_r; [apply Rmult_le_pos; lra|lra]).
  assert (C4 : 0 <= X * g) by nra.
  lra.
Qed.
(** 440 times a power. *)
Lemma times440 (p : F t) (X a : R) : near a p X -> 1e-31 <= X <= 1e34 -> 0 <= a <= 1e-3 -> near (a + 1.01 * u) (fmul (w_nan w) (lit_as t 440 0) p) (440 * X).
Proof.
  intros [Fp Ep] HX Ha. destruct (k440z t) as [F4 V4]. rewrite (Rabs_pos_eq X) in Ep by lra. pose proof (ut_range (t := t)) as U. pose proof (et_range (t := t)) as E.
  assert (ut_lo : 1e-16 <= u). { unfold ut. apply Rle_trans with (bpow radix2 (-53)); [change (bpow radix2 (-53)) with (/ 9007199254740992); lra|apply bpow_le; destruct t; cbv; discriminate]. }
  destruct (rl_mul' (w_nan w) p (lit_as t 440 0) X 440 (a * X) 0) as [A B]; try lra; try exact F4.
  - split; [exact Fp|exact Ep].
  - rewrite V4, Rminus_diag_eq, Rabs_R0 by reflexivity. lra.
  - rewrite (Rabs_pos_eq X) by lra. assert (a * X <= 1e-3 * X) by (apply Rmult_le_compat_r; lra). lra.
  - split; [exact A|]. eapply Rle_trans; [exact B|]. rewrite (Rabs_pos_eq X) by lra. rewrite (Rabs_pos_eq (440 * X)) by lra.
    assert (u * (a * X) <= 1e-3 * (u * X)). { replace (u * (a * X)) with (a * (u * X)) by ring. apply Rmult_le_compat_r; [apply Rmult_le_pos; lra|lra]. }
    pose proof (et_u (t := t)) as E1. assert (1e-31 * u <= u * X) by (rewrite (Rmult_comm u); apply Rmult_le_compat_r; lra).
    replace ((1 + 0) * (1 + u) * (a * X * 440)) with (440 * (a * X) + 440 * (u * (a * X))) by ring.
    replace ((a + 1.01 * u) * (440 * X)) with (440 * (a * X) + 1.01 * 440 * (u * X)) by ring.
    replace ((0 + 1.001 * u) * (X * 440)) with (1.001 * 440 * (u * X)) by ring. lra.
Qed.

Lemma ut_lo : 1e-16 <= u.
Proof. unfold ut. apply Rle_trans with (bpow radix2 (-53)); [change (bpow radix2 (-53)) with (/ 9007199254740992); lra|apply bpow_le; destruct t; cbv; discriminate]. Qed.

(** An interval in semitones, times 0.08333. *)
Lemma semis (f : F t) (s d : R) : rl f s d -> Rabs s <= 1200 -> d <= u * Rabs s + 2 * et t ->
  exists d', rl (fmul (w_nan w) f (lit_as t 83333333333 12)) (s / 12) d' /\ d' <= 2e-5 /\ 1.0012 * (ln 2 * d') <= semitone_err t * Rabs s + 1e-40.
Proof.
  intros Hf Hs Hd. destruct (k12 t) as [F V]. pose proof (ut_range (t := t)) as U. pose proof (et_range (t := t)) as E. pose proof (rl_d _ _ _ Hf) as D0. pose proof (Rabs_pos s) as PS.
  assert (C : 0 <= cst12 t <= 3e-8) by (unfold cst12; destruct t; lra).
  pose proof (rl_mul (w_nan w) f (lit_as t 83333333333 12) s (/ 12) d (cst12 t) Hf F ltac:(lra) V ltac:(lra)) as R.
  assert (US : u * Rabs s <= 6e-8 * Rabs s) by (apply Rmult_le_compat_r; lra).
  specialize (R ltac:(lra)). eexists. split; [exact R|]. set (c := cst12 t) in *.
  assert (B : (1 + c) * (1 + u) * (d * / 12) + (c + 1.001 * u) * (Rabs s * / 12) + et t <= (c + 2.002 * u) * (Rabs s / 12) + 2 * et t).
  { assert ((1 + c) * (1 + u) <= 1.0000002) by nra. 
    assert ((1 + c) * (1 + u) * (d * / 12) <= 1.0000002 * (d * / 12)) by (apply Rmult_le_compat_r; lra).
    assert (0 <= u * Rabs s) by (apply Rmult_le_pos; lra). lra. }
  assert (G : (c + 2.002 * u) * (Rabs s / 12) <= 1.4375 * (semitone_err t * Rabs s)).
  { replace ((c + 2.002 * u) * (Rabs s / 12)) with ((c + 2.002 * u) / 12 * Rabs s) by field.
    replace (1.4375 * (semitone_err t * Rabs s)) with (1.4375 * semitone_err t * Rabs s) by ring. apply Rmult_le_compat_r; [exact PS|].
    unfold c, cst12, semitone_err, ut. clear. destruct t.
    - change (bpow radix2 (- prec F32)) with (/ 16777216). lra.
    - change (bpow radix2 (- prec F64)) with (/ 9007199254740992). lra. }
  assert (K : 0 <= semitone_err t * Rabs s <= 1.1e-5) by (unfold semitone_err; destruct t; lra).
  pose proof ln2_fine as L.
  split; [lra|]. set (d' := (1 + c) * (1 + u) * (d * / 12) + (c + 1.001 * u) * (Rabs s * / 12) + et t) in *.
  assert (P : 0 <= d') by exact (rl_d _ _ _ R).
  assert (ln 2 * d' <= 0.69314719 * d') by (apply Rmult_le_compat_r; lra). lra.
Qed.
Lemma u_d r : u * (Rabs r + 0 + 0) + et t <= u * Rabs r + 2 * et t.
Proof. pose proof (et_range (t := t)). rewrite !Rplus_0_r. lra. Qed.
Lemma near_weak {t'} (a b : R) (x : F t') y : near a x y -> a <= b -> near b x y.
Proof. intros [A B] H. split; [exact A|]. eapply Rle_trans; [exact B|]. apply Rmult_le_compat_r; [apply Rabs_pos|exact H]. Qed.
Lemma s_log_bound s : Rabs s <= 1200 -> Rabs (s / 12 * ln 2) <= 87.
Proof. intros H. pose proof ln2_fine. rewrite Rabs_mult, (Rabs_pos_eq (ln 2)) by lra. unfold Rdiv. rewrite Rabs_mult, (Rabs_pos_eq (/ 12)) by lra. nra. Qed.
Lemma midi2ratio_lib x : isfin x = true -> Rabs (val x) <= 1200 ->
  near (e + u + semitone_err t * Rabs (val x)) (s_unit w Midi2ratio x) (ratio_of_semitones (val x)).
Proof.
  intros F B. pose proof (et_range (t := t)) as E. pose proof (ut_range (t := t)) as U. pose proof (Rabs_pos (val x)). pose proof ut_lo as UL.
  destruct (semis x (val x) 0 (rl_exact x F) B) as (d & R & D1 & D2).
  { assert (0 <= u * Rabs (val x)) by (apply Rmult_le_pos; lra). lra. }
  destruct (k2 t) as [F2 V2]. unfold s_unit, u_fun, s_bfun, ratio_of_semitones.
  eapply near_weak; [apply (pow_at _ _ 2 (val x / 12) d F2 V2); [lra|exact R|exact D1|apply s_log_bound; exact B]|].
  pose proof (rl_d _ _ _ R). pose proof ln2_fine. assert (0 <= ln 2 * d) by (apply Rmult_le_pos; lra). lra.
Qed.
Lemma midi2freq_lib x : isfin x = true -> Rabs (val x - 69) <= 1200 ->
  near (e + 2 * u + semitone_err t * Rabs (val x - 69)) (s_unit w Midi2freq x) (hertz_of_key (val x)).
Proof.
  intros F B. pose proof (et_range (t := t)) as E. pose proof (ut_range (t := t)) as U. pose proof ut_lo as UL. set (s := val x - 69) in *. pose proof (Rabs_pos s) as PS.
  destruct (k69 t) as [F6 V6]. pose proof (rl_exact x F) as R0. pose proof (rl_exact _ F6) as R1. rewrite V6 in R1.
  pose proof (rl_sub (w_nan w) _ _ _ _ _ _ R0 R1) as R2. fold s in R2. specialize (R2 ltac:(lra)).
  destruct (semis _ _ _ R2 B) as (d & R & D1 & D2). { rewrite !Rplus_0_l. apply u_d. }
  destruct (k2 t) as [F2 V2]. unfold s_unit, u_fun, s_bfun, hertz_of_key. fold s.
  assert (P : near (e + 1.0011 * (ln 2 * d)) (m_pow (w_lib w) (lit_as t 2 0) (fmul (w_nan w) (fsub (w_nan w) x (lit_as t 69 0)) (lit_as t 83333333333 12))) (Rpower 2 (s / 12))).
  { apply (pow_at _ _ 2 (s / 12) d F2 V2); [lra|exact R|exact D1|apply s_log_bound; exact B]. }
  pose proof (rl_d _ _ _ R) as D0. pose proof ln2_fine as L. assert (0 <= ln 2 * d) by (apply Rmult_le_pos; lra). assert (ln 2 * d <= 1 * d) by (apply Rmult_le_compat_r; lra).
  pose proof (pow2_range (s / 12) ltac:(apply Rabs_le_inv in B; lra)) as RG.
  eapply near_weak; [apply (times440 _ _ _ P); lra|]. lra.
Qed.
Lemma oct2freq_lib x : isfin x = true -> Rabs (val x - 4.75) <= 100 ->
  near (e + 2 * u + 0.7 * u * Rabs (val x - 4.75)) (s_unit w Oct2freq x) (hertz_of_octave (val x)).
Proof.
  intros F B. pose proof (et_range (t := t)) as E. pose proof (ut_range (t := t)) as U. pose proof ut_lo as UL. set (s := val x - 4.75) in *. pose proof (Rabs_pos s) as PS.
  destruct (k475 t) as [F6 V6]. pose proof (rl_exact x F) as R0. pose proof (rl_exact _ F6) as R1. rewrite V6 in R1.
  pose proof (rl_sub (w_nan w) _ _ _ _ _ _ R0 R1) as R. fold s in R. specialize (R ltac:(lra)). rewrite !Rplus_0_l, !Rplus_0_r in R.
  set (d := u * Rabs s + et t) in *. assert (US : 0 <= u * Rabs s <= 6e-6) by nra.
  destruct (k2 t) as [F2 V2]. unfold s_unit, u_fun, s_bfun, hertz_of_octave. fold s. pose proof ln2_fine as L.
  assert (P : near (e + 1.0011 * (ln 2 * d)) (m_pow (w_lib w) (lit_as t 2 0) (fsub (w_nan w) x (lit_as t 475 2))) (Rpower 2 s)).
  { apply (pow_at _ _ 2 s d F2 V2); [lra|exact R|unfold d; lra|]. rewrite Rabs_mult, (Rabs_pos_eq (ln 2)) by lra. nra. }
  assert (0 <= d) by (unfold d; lra). assert (ln 2 * d <= 0.6932 * d) by (apply Rmult_le_compat_r; lra). assert (0 <= ln 2 * d) by (apply Rmult_le_pos; lra).
  pose proof (pow2_range s ltac:(apply Rabs_le_inv in B; lra)) as RG.
  eapply near_weak; [apply (times440 _ _ _ P); unfold d in *; lra|]. unfold d in *. lra.
Qed.
Lemma db2amp_lib x : isfin x = true -> Rabs (val x) <= 700 ->
  near (e + u + 0.24 * u * Rabs (val x)) (s_unit w Db2amp x) (amplitude_of_db (val x)).
Proof.
  intros F B. pose proof (et_range (t := t)) as E. pose proof (ut_range (t := t)) as U. pose proof ut_lo as UL. pose proof (Rabs_pos (val x)) as PS.
  destruct (k20 t) as [FK VK]. pose proof (rl_mul (w_nan w) x (lit_as t 5 2) (val x) (/ 20) 0 u (rl_exact x F) FK ltac:(lra) VK ltac:(lra) ltac:(lra)) as R.
  rewrite Rmult_0_l, Rmult_0_r, Rplus_0_l in R.
  set (d := (u + 1.001 * u) * (Rabs (val x) * / 20) + et t) in *. assert (US : 0 <= u * Rabs (val x) <= 4.2e-5) by nra.
  assert (D : 0 <= d) by (unfold d; lra).
  destruct (k10 t) as [F2 V2]. unfold s_unit, u_fun, s_bfun, amplitude_of_db. pose proof ln10_fine as L.
  assert (LD : ln 10 * d <= 2.3025851 * d) by (apply Rmult_le_compat_r; lra).
  eapply near_weak; [apply (pow_at _ _ 10 (val x / 20) d F2 V2); [lra|exact R|unfold d; lra|]|unfold d in *; lra].
  rewrite Rabs_mult, (Rabs_pos_eq (ln 10)) by lra. unfold Rdiv. rewrite Rabs_mult, (Rabs_pos_eq (/ 20)) by lra. nra.
Qed.
End W.
