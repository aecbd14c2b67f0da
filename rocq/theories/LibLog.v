(** Logarithms of the C library: log2 before C++11, and the conversions that
    take logarithms. *)
From Coq Require Import ZArith Reals List Lia Lra Bool Psatz.
From Flocq Require Import Core IEEE754.Binary IEEE754.Bits.
From Verif Require Import Base Backend Lanes Float LaneOps ScalarMath VecMath IntVec TransMath TransFuns Libm Spec SpecLane SpecMath SpecLib
  FloatFacts FloatRound RoundMore TransConst RealTanh RealLog RealUnit RealUnit2 LibUnit.
Local Open Scope R_scope.

Lemma away_one {t} (x : F t) : val x <> 1 -> 0 < val x -> ut t <= Rabs (val x - 1).
Proof.
  intros N P. pose proof (ut_range (t := t)) as U. destruct (Rlt_le_dec (val x) (1 / 2)) as [L|L]; [rewrite Rabs_left1 by lra; lra|].
  destruct (Rlt_le_dec (val x) 2) as [H|H]; [|rewrite Rabs_pos_eq by lra; lra].
  pose proof (val_format x) as FM. unfold fmtR, generic_format in FM. set (m := Ztrunc _) in FM.
  assert (G : exists k, val x = IZR k * ut t).
  { destruct (Rlt_le_dec (val x) 1) as [L1|L1].
    - assert (M : Raux.mag radix2 (val x) = 0%Z :> Z) by (apply mag_unique_pos; change (bpow radix2 0) with 1; change (bpow radix2 (0 - 1)) with (/ 2); lra).
      exists m. rewrite FM at 1. unfold F2R, Fnum, Fexp, cexp. rewrite M. unfold ut. f_equal. f_equal. destruct t; reflexivity.
    - assert (M : Raux.mag radix2 (val x) = 1%Z :> Z) by (apply mag_unique_pos; change (bpow radix2 (1 - 1)) with 1; change (bpow radix2 1) with 2; lra).
      exists (m * 2)%Z. rewrite FM at 1. unfold F2R, Fnum, Fexp, cexp. rewrite M. rewrite mult_IZR, Rmult_assoc. f_equal.
      change 2 with (bpow radix2 1). unfold ut. rewrite <- bpow_plus. f_equal. destruct t; reflexivity. }
  destruct G as [k K]. assert (O : 1 = IZR (2 ^ prec t) * ut t).
  { change 2%Z with (radix_val radix2). unfold ut. rewrite IZR_Zpower by (destruct t; cbv; discriminate). rewrite <- bpow_plus. rewrite Z.add_opp_diag_r. reflexivity. }
  rewrite K in N |- *. rewrite O in N |- *. rewrite <- Rmult_minus_distr_r, <- minus_IZR, Rabs_mult, (Rabs_pos_eq (ut t)) by lra.
  assert (D : (k - 2 ^ prec t <> 0)%Z) by (intros E; apply N; f_equal; f_equal; lia).
  assert (1 <= Rabs (IZR (k - 2 ^ prec t))) by (rewrite <- abs_IZR; apply IZR_le; lia). nra.
Qed.
Lemma ln_le_m1 x : 0 < x -> ln x <= x - 1.
Proof. intros H. pose proof (exp_ineq1_le (ln x)) as E. rewrite exp_ln in E by exact H. lra. Qed.
Lemma ln_away_t {t} (x : F t) : 0 < val x -> val x <> 1 -> 0.9 * ut t <= Rabs (ln (val x)).
Proof.
  intros P N. pose proof (away_one x N P) as A. pose proof (ut_range (t := t)) as U. destruct (Rlt_le_dec (val x) 1) as [L|L].
  - rewrite Rabs_left1 in A by lra. pose proof (ln_le_m1 (val x) P). rewrite Rabs_left1 by lra. lra.
  - rewrite Rabs_pos_eq in A by lra. assert (1 + ut t <= val x) by lra.
    assert (M : ln (1 + ut t) <= ln (val x)) by (destruct (Req_dec (1 + ut t) (val x)) as [->|]; [lra|left; apply ln_increasing; lra]).
    pose proof (ln_le_m1 (/ (1 + ut t)) ltac:(apply Rinv_0_lt_compat; lra)) as Q. rewrite ln_Rinv in Q by lra.
    assert (0.9 * ut t <= 1 - / (1 + ut t)).
    { replace (1 - / (1 + ut t)) with (ut t * / (1 + ut t)) by (field; lra). rewrite Rmult_comm. apply Rmult_le_compat_l; [lra|].
      apply Rmult_le_reg_r with (1 + ut t); [lra|]. rewrite Rinv_l by lra. lra. }
    rewrite Rabs_pos_eq; lra.
Qed.

Lemma ln_all {t} (x : F t) : isfin x = true -> 0 < val x -> Rabs (ln (val x)) <= 800.
Proof.
  intros F P. pose proof (val_lt_emax x) as H. rewrite Rabs_pos_eq in H by lra. 
  assert (H1 : val x <= bpow radix2 1024) by (eapply Rle_trans; [left; exact H|apply bpow_le; destruct t; cbv; discriminate]).
  assert (H2 : bpow radix2 (-1074) <= val x).
  { apply Rle_trans with (bpow radix2 (emin t)); [apply bpow_le; destruct t; cbv; discriminate|].
    pose proof (val_format x) as FM. change (generic_format radix2 (fexp t) (val x)) in FM. rewrite fexp_FLT in FM.
    pose proof (generic_format_ge_bpow radix2 (FLT_exp (emin t) (prec t)) (emin t)) as Q. apply Q; [intros; unfold FLT_exp; lia|exact P|exact FM]. }
  pose proof ln2_fine as L. assert (LB : forall z, ln (bpow radix2 z) = IZR z * ln 2).
  { intros z. rewrite bpow_exp, ln_exp. reflexivity. }
  assert (A1 : ln (val x) <= 1024 * ln 2) by (rewrite <- LB; destruct (Req_dec (val x) (bpow radix2 1024)) as [->|]; [lra|left; apply ln_increasing; lra]).
  assert (A2 : -1074 * ln 2 <= ln (val x)) by (rewrite <- LB; destruct (Req_dec (val x) (bpow radix2 (-1074))) as [->|]; [lra|left; apply ln_increasing; [apply bpow_gt_0|lra]]).
  apply Rabs_le. lra.
Qed.

Section W.
Context {t : fmt} (w : world t) (e : R) (HA : accurate e (w_lib w)) (He : 0 <= e <= 1e-5).
Local Notation u := (ut t).
(** A logarithm times a constant; no underflow, so the error is relative. *)
Lemma log_times (f k : F t) (x : F t) (b K : R) c : 0 < val x -> (b = / ln 2 \/ b = / ln 10 \/ b = 1) -> near e f (ln (val x) * b) -> Rabs (ln (val x)) <= 1000 ->
  isfin k = true -> 0.1 <= K <= 1000 -> Rabs (val k - K) <= c * K -> 0 <= c <= 1e-6 ->
  near (e + c + 1.01 * u + 1.01 * (e * c)) (fmul (w_nan w) f k) (ln (val x) * b * K) /\ near (e + c + 1.01 * u + 1.01 * (e * c)) (fmul (w_nan w) k f) (K * (ln (val x) * b)).
Proof.
  intros P Hb [Ff Ef] HL Fk HK Vk Hc. assert (B : 0.4 <= b <= 1.5) by (pose proof inv_ln2_fine; pose proof inv_ln10_fine; destruct Hb as [-> | [-> | ->]]; lra).
  pose proof (ut_range (t := t)) as U. pose proof (et_u (t := t)) as E. pose proof (et_range (t := t)) as E0.
  set (y := ln (val x) * b) in *. assert (AY : Rabs y <= 1500) by (unfold y; rewrite Rabs_mult, (Rabs_pos_eq b) by lra; pose proof (Rabs_pos (ln (val x))); nra).
  assert (PY := Rabs_pos y). assert (RR : rl f y (e * Rabs y)) by (split; assumption).
  assert (SS : (Rabs y + e * Rabs y) * K <= 1e37).
  { assert (e * Rabs y <= 1 * 1500) by (apply Rmult_le_compat; lra). apply Rle_trans with (3000 * 1000); [apply Rmult_le_compat; try lra; apply Rplus_le_le_0_compat; [lra|apply Rmult_le_pos; lra]|lra]. }
  pose proof (rl_mul (w_nan w) f k y K (e * Rabs y) c RR Fk ltac:(lra) Vk Hc SS) as [A1 B1].
  pose proof (rl_mul' (w_nan w) f k y K (e * Rabs y) c RR Fk ltac:(lra) Vk Hc SS) as [A2 B2].
  assert (Z : y = 0 \/ 1e-3 * et t / 1e-38 <= Rabs y).
  { destruct (Req_dec (val x) 1) as [X1|X1]; [left; unfold y; rewrite X1, ln_1; ring|right].
    pose proof (ln_away_t x P X1). unfold y. rewrite Rabs_mult, (Rabs_pos_eq b) by lra. apply Rle_trans with (0.9 * u * 0.4); [lra|apply Rmult_le_compat; lra]. }
  assert (BND : (1 + c) * (1 + u) * (e * Rabs y * K) + (c + 1.001 * u) * (Rabs y * K) + et t <= (e + c + 1.01 * u + 1.01 * (e * c)) * (Rabs y * K) + (et t - 0.008 * u * (Rabs y * K))).
  { set (q := Rabs y * K). assert (0 <= q) by (unfold q; nra). replace (e * Rabs y * K) with (e * q) by (unfold q; ring).
    assert (0 <= e * q) by nra.
    assert ((1 + c) * (1 + u) <= 1 + 1.0000001 * c + u) by nra.
    assert ((1 + c) * (1 + u) * (e * q) <= (1 + 1.0000001 * c + u) * (e * q)) by (apply Rmult_le_compat_r; assumption).
    assert (u * (e * q) <= 1e-5 * (u * q)). { replace (u * (e * q)) with (e * (u * q)) by ring. apply Rmult_le_compat_r; [apply Rmult_le_pos; lra|lra]. }
    assert (0 <= u * q) by (apply Rmult_le_pos; lra). assert (0 <= c * (e * q)) by (apply Rmult_le_pos; lra). lra. }
  destruct Z as [Z|Z].
  - assert (V0 : val f = 0). { rewrite Z, Rabs_R0, Rmult_0_r, Rminus_0_r in Ef. destruct (Req_dec (val f) 0) as [|NZ]; [assumption|]. apply Rabs_pos_lt in NZ. lra. }
    assert (Q1 : fmul (w_nan w) f k = fmul (w_nan w) f k) by reflexivity.
    destruct (fmul_fin (w_nan w) f k Ff Fk) as (C1 & C2 & _); [rewrite V0, Rmult_0_l, rnd_0, Rabs_R0; apply bpow_gt_0|].
    destruct (fmul_fin (w_nan w) k f Fk Ff) as (C3 & C4 & _); [rewrite V0, Rmult_0_r, rnd_0, Rabs_R0; apply bpow_gt_0|].
    split; split; try assumption; rewrite Z, ?C2, ?C4, V0, ?Rmult_0_l, ?Rmult_0_r, rnd_0, Rminus_0_r, Rabs_R0; lra.
  - assert (ZK : et t <= 0.008 * u * (Rabs y * K)).
    { destruct (Req_dec (val x) 1) as [X1|X1].
      - exfalso. unfold y in Z. rewrite X1, ln_1, Rmult_0_l, Rabs_R0 in Z. lra.
      - pose proof (ln_away_t x P X1) as LA. assert (LY : 0.36 * u <= Rabs y) by (unfold y; rewrite Rabs_mult, (Rabs_pos_eq b) by lra; apply Rle_trans with (0.9 * u * 0.4); [lra|apply Rmult_le_compat; lra]).
        assert (UL := ut_lo w e HA). assert (0.036 * u <= Rabs y * K) by (apply Rle_trans with (0.36 * u * 0.1); [lra|apply Rmult_le_compat; lra]). assert (3.6e-18 <= 0.036 * u) by lra. assert (3.6e-18 <= Rabs y * K) by lra.
        assert (3.6e-18 * (0.008 * u) <= (Rabs y * K) * (0.008 * u)) by (apply Rmult_le_compat_r; lra). lra. }
    pose proof (Rplus_le_compat_l ((e + c + 1.01 * u + 1.01 * (e * c)) * (Rabs y * K)) _ _ (Rle_minus _ _ ZK)) as FIN. rewrite Rplus_0_r in FIN.
    split; (split; [assumption|]); rewrite Rabs_mult, (Rabs_pos_eq K) by lra; [|rewrite (Rmult_comm K (Rabs y))].
    + eapply Rle_trans; [exact B1|]. eapply Rle_trans; [exact BND|]. exact FIN.
    + eapply Rle_trans; [exact B2|]. eapply Rle_trans; [exact BND|]. exact FIN.
Qed.

Lemma log10_at x : isfin x = true -> val x <> 0 -> near (e + 1.1 * u) (s_unit w Amp2db x) (db_of_amplitude (Rabs (val x))).
Proof.
  intros F N. pose proof (ut_range (t := t)) as U. destruct (k20z t) as [FK VK].
  assert (FA : isfin (fabs x) = true) by (rewrite isfin_fabs; exact F). assert (VA : val (fabs x) = Rabs (val x)) by apply val_fabs.
  assert (P : 0 < val (fabs x)) by (rewrite VA; apply Rabs_pos_lt; exact N).
  pose proof (acc_log10 e _ HA (fabs x) FA P) as Q. unfold log_base, Rdiv in Q.
  destruct (log_times (m_log10 (w_lib w) (fabs x)) (lit_as t 20 0) (fabs x) (/ ln 10) 20 0 P ltac:(auto) Q) as [Z _]; [pose proof (ln_all _ FA P); lra|exact FK|lra|rewrite VK, Rminus_eq_0, Rabs_R0; lra|lra|].
  unfold s_unit, u_fun, s_ufun, db_of_amplitude, log_base. rewrite VA in Z. rewrite (Rmult_comm _ 20) in Z. eapply near_weak; [exact Z|lra].
Qed.
Hypothesis H11 : w_cxx11 w = true.
Lemma ratio2midi_lib x : isfin x = true -> 0 < val x -> near (e + 1.1 * u) (s_unit w Ratio2midi x) (semitones_of_ratio (val x)).
Proof.
  intros F P. pose proof (ut_range (t := t)) as U. destruct (k12z t) as [FK VK].
  pose proof (acc_log2 e _ HA x F P) as Q. unfold log_base, Rdiv in Q.
  destruct (log_times (m_log2 (w_lib w) x) (lit_as t 12 0) x (/ ln 2) 12 0 P ltac:(auto) Q) as [_ Z]; [pose proof (ln_all _ F P); lra|exact FK|lra|rewrite VK, Rminus_eq_0, Rabs_R0; lra|lra|].
  unfold s_unit, u_fun, s_ufun, s_log2, semitones_of_ratio, log_base. rewrite H11. eapply near_weak; [exact Z|lra].
Qed.
Lemma ln_near g r d : 0 < r -> Rabs (g - r) <= d * r -> 0 <= d <= 1e-4 -> 0 < g /\ Rabs (ln g - ln r) <= 1.0002 * d.
Proof.
  intros P H D. apply Rabs_le_inv in H. assert (0 < (1 - d) * r) by (apply Rmult_lt_0_compat; lra). assert (G : 0 < g) by lra. split; [exact G|].
  assert (A : ln g - ln r <= d).
  { replace (ln g - ln r) with (ln (g / r)) by (unfold Rdiv; rewrite ln_mult, ln_Rinv; try (apply Rinv_0_lt_compat); lra).
    eapply Rle_trans; [apply ln_le_m1; apply Rdiv_lt_0_compat; lra|]. apply Rmult_le_reg_r with r; [exact P|]. unfold Rdiv. rewrite Rmult_minus_distr_r, Rmult_assoc, Rinv_l by lra. lra. }
  assert (B : ln r - ln g <= 1.0002 * d).
  { replace (ln r - ln g) with (ln (r / g)) by (unfold Rdiv; rewrite ln_mult, ln_Rinv; try (apply Rinv_0_lt_compat); lra).
    eapply Rle_trans; [apply ln_le_m1; apply Rdiv_lt_0_compat; lra|]. apply Rmult_le_reg_r with g; [exact G|]. unfold Rdiv. rewrite Rmult_minus_distr_r, Rmult_assoc, Rinv_l by lra.
    assert (1.0002 * d * ((1 - d) * r) <= 1.0002 * d * g) by (apply Rmult_le_compat_l; lra).
    assert (0 <= d * r) by (apply Rmult_le_pos; lra). assert (1 * (d * r) <= 1.0002 * (1 - d) * (d * r)) by (apply Rmult_le_compat_r; lra). lra. }
  apply Rabs_le. lra.
Qed.
Lemma half_max r d : Rabs r <= d -> - d <= r <= d. Proof. apply Rabs_le_inv. Qed.
(** The logarithm of a frequency over 440 Hz. *)
Lemma pitch x : isfin x = true -> 1e-30 <= Rabs (val x) <= 1e30 ->
  exists d, rl (u_abs_log2 fabs (s_ufun w Log2) (fmul (w_nan w) x (lit_as t 22727272727 13))) (log_base 2 (Rabs (val x) / 440)) d /\
    d <= e * Rabs (log_base 2 (Rabs (val x) / 440)) + 1.444 * (cst440 t + 1.01 * u) /\ Rabs (log_base 2 (Rabs (val x) / 440)) <= 130.
Proof.
  intros F B. pose proof (et_range (t := t)) as E. pose proof (ut_range (t := t)) as U. pose proof (ut_lo w e HA) as UL. destruct (k440 t) as [FK VK].
  assert (C : 0 < cst440 t <= 1e-7) by (unfold cst440; destruct t; lra).
  pose proof (rl_mul (w_nan w) x (lit_as t 22727272727 13) (val x) (/ 440) 0 (cst440 t) (rl_exact x F) FK ltac:(lra) VK ltac:(lra) ltac:(lra)) as [FG VG].
  set (g := fmul (w_nan w) x (lit_as t 22727272727 13)) in *.
  assert (FA : isfin (fabs g) = true) by (rewrite isfin_fabs; exact FG). assert (VA : val (fabs g) = Rabs (val g)) by apply val_fabs.
  set (r := Rabs (val x) / 440). assert (PR : 0 < r) by (unfold r; lra). set (q := cst440 t + 1.01 * u). assert (Q0 : 0 <= q) by (unfold q; lra).
  assert (NR : Rabs (val (fabs g) - r) <= q * r).
  { rewrite VA. replace r with (Rabs (val x * / 440)) at 1 by (rewrite Rabs_mult, (Rabs_pos_eq (/ 440)) by lra; reflexivity).
    eapply Rle_trans; [apply Rabs_triang_inv2|]. eapply Rle_trans; [exact VG|]. unfold q. unfold Rdiv in r. fold r.
    pose proof (et_u (t := t)). assert (u * 2e-33 <= u * r) by (apply Rmult_le_compat_l; unfold r; lra). lra. }
  destruct (ln_near _ _ q PR NR ltac:(unfold q; lra)) as [PG LG].
  pose proof inv_ln2_fine as IL. assert (AL : Rabs (ln r) <= 80).
  { assert (L1 : ln 1e-33 <= ln r) by (left; apply ln_increasing; unfold r; lra).
    assert (L2 : ln r <= ln 1e33) by (left; apply ln_increasing; unfold r; lra). pose proof ln_e33 as [Q1 Q2]. apply Rabs_le. lra. }
  pose proof (acc_log2 e _ HA (fabs g) FA PG) as [FL VL]. unfold u_abs_log2, s_ufun, s_log2. rewrite H11. 
  assert (D : Rabs (log_base 2 (val (fabs g)) - log_base 2 r) <= 1.4431 * q).
  { unfold log_base, Rdiv. rewrite <- Rmult_minus_distr_r, Rabs_mult, (Rabs_pos_eq (/ ln 2)) by lra.
    apply Rle_trans with (1.0002 * q * 1.44269505); [|lra]. apply Rmult_le_compat; try lra. apply Rabs_pos. }
  assert (A2 : Rabs (log_base 2 (val (fabs g))) <= Rabs (log_base 2 r) + 1.4431 * q).
  { replace (log_base 2 (val (fabs g))) with (log_base 2 r + (log_base 2 (val (fabs g)) - log_base 2 r)) by ring. eapply Rle_trans; [apply Rabs_triang|lra]. }
  exists (e * (Rabs (log_base 2 r) + 1.4431 * q) + 1.4431 * q). split; [split; [exact FL|]|split].
  - replace (val (m_log2 (w_lib w) (fabs g)) - log_base 2 r) with ((val (m_log2 (w_lib w) (fabs g)) - log_base 2 (val (fabs g))) + (log_base 2 (val (fabs g)) - log_base 2 r)) by ring.
    eapply Rle_trans; [apply Rabs_triang|]. assert (e * Rabs (log_base 2 (val (fabs g))) <= e * (Rabs (log_base 2 r) + 1.4431 * q)) by (apply Rmult_le_compat_l; lra). lra.
  - assert (0 <= q) by (unfold q; lra). assert (e * (1.4431 * q) <= 1e-5 * (1.4431 * q)) by (apply Rmult_le_compat_r; lra). fold q. lra.
  - unfold log_base, Rdiv. rewrite Rabs_mult, (Rabs_pos_eq (/ ln 2)) by lra. apply Rle_trans with (80 * 1.5); [apply Rmult_le_compat; try lra; apply Rabs_pos|lra].
Qed.


Lemma u_is : u = match t with F32 => / 16777216 | F64 => / 9007199254740992 end.
Proof. destruct t; reflexivity. Qed.
Lemma freq2oct_lib x : isfin x = true -> 1e-30 <= Rabs (val x) <= 1e30 ->
  isfin (s_unit w Freq2oct x) = true /\ Rabs (val (s_unit w Freq2oct x) - octave_of_hertz (Rabs (val x))) <= (e + 1.1 * u) * Rabs (octave_of_hertz (Rabs (val x)) - 4.75) + octave_err t.
Proof.
  intros F B. destruct (pitch x F B) as (d & R & D & A). pose proof (et_range (t := t)) as E. pose proof (ut_range (t := t)) as U. destruct (k475 t) as [FK VK].
  pose proof (rl_exact _ FK) as R1. rewrite VK in R1. unfold octave_of_hertz. set (L := log_base 2 (Rabs (val x) / 440)) in *. pose proof (Rabs_pos L) as PL.
  assert (C : 0 < cst440 t <= 1e-7) by (unfold cst440; destruct t; lra).
  assert (EL : e * Rabs L <= 1e-5 * 130) by (apply Rmult_le_compat; lra).
  assert (T : Rabs (L + 4.75) <= Rabs L + 4.75) by (eapply Rle_trans; [apply Rabs_triang|]; rewrite (Rabs_pos_eq 4.75) by lra; lra).
  destruct (rl_add (w_nan w) _ _ _ _ _ _ R R1 ltac:(lra)) as [F2 V2]. split; [exact F2|].
  replace (4.75 + L - 4.75) with L by ring. rewrite (Rplus_comm 4.75 L). eapply Rle_trans; [exact V2|].
  set (q := 1.444 * (cst440 t + 1.01 * u)) in *. assert (u * (Rabs (L + 4.75) + d + 0) <= u * (Rabs L + 4.75 + (1e-5 * Rabs L + q))).
  { apply Rmult_le_compat_l; [lra|]. assert (e * Rabs L <= 1e-5 * Rabs L) by (apply Rmult_le_compat_r; lra). lra. }
  assert (u * (Rabs L + 4.75 + (1e-5 * Rabs L + q)) <= 1.1 * u * Rabs L + 4.8 * u).
  { assert (0 <= u * Rabs L) by (apply Rmult_le_pos; lra). assert (u * q <= u * 1e-6) by (apply Rmult_le_compat_l; unfold q; lra). lra. }
  assert (q + 4.9 * u + et t <= octave_err t). { unfold q. rewrite u_is. unfold octave_err, cst440. destruct t; lra. }
  lra.
Qed.
Lemma freq2midi_lib x : isfin x = true -> 1e-30 <= Rabs (val x) <= 1e30 ->
  isfin (s_unit w Freq2midi x) = true /\ Rabs (val (s_unit w Freq2midi x) - key_of_hertz (Rabs (val x))) <= (e + 2.1 * u) * Rabs (key_of_hertz (Rabs (val x)) - 69) + key_err t.
Proof.
  intros F B. destruct (pitch x F B) as (d & R & D & A). pose proof (et_range (t := t)) as E. pose proof (ut_range (t := t)) as U. destruct (k69 t) as [FK VK]. destruct (k12z t) as [FT VT].
  pose proof (rl_exact _ FK) as R1. rewrite VK in R1. unfold key_of_hertz. set (L := log_base 2 (Rabs (val x) / 440)) in *. pose proof (Rabs_pos L) as PL.
  assert (C : 0 < cst440 t <= 1e-7) by (unfold cst440; destruct t; lra). pose proof (rl_d _ _ _ R) as D0.
  assert (EL : e * Rabs L <= 1e-5 * Rabs L) by (apply Rmult_le_compat_r; lra).
  pose proof (rl_mul (w_nan w) _ _ _ 12 _ 0 R FT ltac:(lra) ltac:(rewrite VT, Rminus_eq_0, Rabs_R0; lra) ltac:(lra) ltac:(lra)) as R2.
  set (q := 1.444 * (cst440 t + 1.01 * u)) in *. assert (Q : 0 <= q <= 1e-6) by (unfold q; lra).
  set (d2 := (1 + 0) * (1 + u) * (d * 12) + (0 + 1.001 * u) * (Rabs L * 12) + et t) in *.
  assert (D2 : d2 <= e * (Rabs L * 12) + 12 * q + 1.002 * u * (Rabs L * 12) + u * 1e-4 + et t).
  { unfold d2. assert (u * d <= u * (1e-5 * Rabs L + q)) by (apply Rmult_le_compat_l; lra). assert (u * q <= u * 1e-6) by (apply Rmult_le_compat_l; lra).
    assert (0 <= u * Rabs L) by (apply Rmult_le_pos; lra). lra. }
  assert (T : Rabs (L * 12 + 69) <= Rabs L * 12 + 69) by (eapply Rle_trans; [apply Rabs_triang|]; rewrite Rabs_mult, (Rabs_pos_eq 69), (Rabs_pos_eq 12) by lra; lra).
  assert (UB : 0 <= u * Rabs L) by (apply Rmult_le_pos; lra). assert (UC : u * Rabs L <= 1e-6 * Rabs L) by (apply Rmult_le_compat_r; lra).
  assert (D3 : d2 <= 1e-3 * Rabs L + 1e-4) by lra.
  destruct (rl_add (w_nan w) _ _ _ _ _ _ R2 R1 ltac:(lra)) as [F3 V3]. split; [exact F3|].
  replace (69 + 12 * L - 69) with (L * 12) by ring. replace (69 + 12 * L) with (L * 12 + 69) by ring. eapply Rle_trans; [exact V3|]. rewrite (Rabs_mult L 12), (Rabs_pos_eq 12) by lra.
  assert (u * (Rabs (L * 12 + 69) + d2 + 0) <= u * (Rabs L * 12 + 69 + (1e-3 * Rabs L + 1e-4))) by (apply Rmult_le_compat_l; lra).
  assert (12 * q + 70 * u + et t + et t <= key_err t). { unfold q. rewrite u_is. unfold key_err, cst440. destruct t; lra. }
  lra.
Qed.
End W.
