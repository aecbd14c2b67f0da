(** Division and square root on Altivec: error bounds and special cases. *)
From Coq Require Import ZArith Reals List Lia Lra Bool.
From Flocq Require Import Core IEEE754.Binary IEEE754.Bits.
From Verif Require Import Base Backend Lanes Float LaneOps VecMath Estimate SpecLane SpecRound SpecInt SpecMath FloatFacts FloatRound LaneFacts VecFacts VecMore VecMore2
  RoundFacts RoundMore RoundMore2 IntFacts LdexpFacts ErrFacts NearFacts ExpMore TransFacts RecipFacts EstFacts EstNeon SpecEst.
Local Open Scope R_scope.

Section A.
Context (n : nans F32) (c : cfg).
Lemma nmsub_fin (a b x : F F32) : isfin a = true -> isfin b = true -> isfin x = true -> Rabs (val a * val b - val x) <= bpow radix2 127 ->
  isfin (vec_nmsub n a b x) = true /\ val (vec_nmsub n a b x) = - rnd F32 (val a * val b - val x).
Proof.
  intros Fa Fb Fx B. unfold vec_nmsub. destruct (ffma_fin n a b (fneg x) Fa Fb) as (A & V); [rewrite isfin_fneg; exact Fx| |].
  - rewrite val_fneg. eapply b126; [exact B|lra].
  - rewrite isfin_fneg, val_fneg, V, val_fneg. auto.
Qed.
Lemma mul_fin (a b : F F32) : isfin a = true -> isfin b = true -> Rabs (val a * val b) <= bpow radix2 127 ->
  isfin (altivec_mul n a b) = true /\ val (altivec_mul n a b) = rnd F32 (val a * val b).
Proof.
  intros Fa Fb B. unfold altivec_mul, vec_madd. assert (Z1 : isfin (gen_zero : F F32) = true) by reflexivity. assert (Z2 : val (gen_zero : F F32) = 0) by reflexivity.
  destruct (ffma_fin n a b gen_zero Fa Fb Z1) as (A & V); rewrite ?Z2, ?Rplus_0_r in *; [eapply b126; [exact B|lra]|auto].
Qed.
Lemma alti_times (d e : R) (a r : F F32) (x : R) : isfin a = true -> isfin r = true -> x <> 0 -> 0 <= d <= 1e-5 -> d + 1e-7 <= e ->
  bpow radix2 (-125) <= Rabs (val a / x) <= bpow radix2 126 -> Rabs (val r * x - 1) <= d ->
  close e (altivec_mul n a r) (val a / x).
Proof.
  intros Fa Fr X D E B H. set (y := val a / x) in *. assert (AY : val a = y * x) by (unfold y; field; exact X). clearbody y.
  set (h := val r * x - 1) in *. assert (P : val a * val r = y * (1 + h)) by (rewrite AY; unfold h; ring). clearbody h. apply Rabs_le_inv in H.
  pose proof (Rabs_pos y) as YP.
  assert (PB : Rabs (val a * val r) <= 1.00001 * Rabs y) by (rewrite P, Rabs_mult, Rmult_comm; apply Rmult_le_compat_r; [exact YP|apply Rabs_le; lra]).
  assert (P' : bpow radix2 127 = 2 * bpow radix2 126) by (change 2 with (bpow radix2 1); rewrite <- bpow_plus; reflexivity).
  pose proof (bpow_gt_0 radix2 126) as PP.
  destruct (mul_fin a r Fa Fr) as (A & V); [lra|]. split; [exact A|].
  pose proof (rnd_eta (val a * val r)) as Q. rewrite <- V in Q. set (v := val (altivec_mul n a r)) in *. clearbody v.
  assert (EN : eta <= / 16777216 * Rabs y).
  { assert (EE : eta = / 16777216 * bpow radix2 (-125)) by (unfold eta; change (/ 16777216) with (bpow radix2 (-24)); rewrite <- bpow_plus; reflexivity). rewrite EE. apply Rmult_le_compat_l; lra. }
  replace (v - y) with ((v - val a * val r) + y * h) by (rewrite P; ring).
  eapply Rle_trans; [apply Rabs_triang|]. rewrite (Rabs_mult y).
  assert (HH : Rabs y * Rabs h <= Rabs y * d) by (apply Rmult_le_compat_l; [exact YP|apply Rabs_le; lra]).
  assert (EE : (d + 1e-7) * Rabs y <= e * Rabs y) by (apply Rmult_le_compat_r; lra). lra.
Qed.

(** ** Reciprocal *)
Section Re.
Context (re : F F32 -> F F32) (SP : re_spec re).
Lemma safe_ne x : safe_divisor x -> val x <> 0.
Proof. intros (_ & B & _) Z. rewrite Z, Rabs_R0 in B. pose proof (bpow_gt_0 radix2 (-126)). lra. Qed.
Lemma alti_recip_times (x : F F32) : safe_divisor x ->
  isfin (altivec_reciprocal n re c x) = true /\ Rabs (val (altivec_reciprocal n re c x) * val x - 1) <= 1.6e-7.
Proof.
  intros SD. destruct (re_close re SP x SD) as [Fe He]. pose proof (safe_ne x SD) as X. destruct SD as (Fx & Bx). unfold altivec_reciprocal. cbv zeta. rewrite gen_one_1. destruct one_ok as (F1 & V1 & _).
  set (e := re x) in *. clearbody e.
  assert (H : Rabs (val e * val x - 1) <= / 4096).
  { replace (val e * val x - 1) with ((val e - / val x) * val x) by (field; exact X). rewrite Rabs_mult.
    eapply Rle_trans; [apply Rmult_le_compat_r; [apply Rabs_pos|exact He]|]. rewrite Rmult_assoc, <- Rabs_mult, Rinv_l, Rabs_R1 by exact X. lra. }
  clear He. set (g := val e * val x - 1) in *. assert (EX : val e * val x = 1 + g) by (unfold g; ring).
  assert (H' : Rabs g <= bpow radix2 (-12)) by (change (bpow radix2 (-12)) with (/ 4096); exact H).
  destruct (nmsub_fin e x (f_ofZ F32 1) Fe Fx F1) as (FN & VN).
  { rewrite V1. fold g. eapply Rle_trans; [exact H'|apply bpow_le; lia]. }
  rewrite V1 in VN. fold g in VN. pose proof (rnd_err (-12) g ltac:(lia) H') as Q. change (bpow radix2 (-12 - 25)) with (/ 137438953472) in Q.
  set (N := vec_nmsub n e x (f_ofZ F32 1)) in *. clearbody N. clearbody g.
  set (q := - (rnd F32 g - g)). assert (VN' : val N = - g + q) by (rewrite VN; unfold q; ring).
  assert (HQ : Rabs q <= / 137438953472) by (unfold q; rewrite Rabs_Ropp; exact Q). clearbody q. apply Rabs_le_inv in HQ, H.
  pose proof (bpow_gt_0 radix2 (-126)) as PM.
  assert (PT : Rabs (val N * val e + val e) * Rabs (val x) = (1 + g) * (1 + val N)).
  { rewrite <- Rabs_mult. replace ((val N * val e + val e) * val x) with (val e * val x * (1 + val N)) by ring. rewrite EX. apply Rabs_pos_eq. apply Rmult_le_pos; lra. }
  assert (PB : (1 + g) * (1 + val N) <= 1.001).
  { apply Rle_trans with ((1 + / 4096) * (1 + 1 / 4090)); [|lra]. apply Rmult_le_compat; lra. }
  assert (RB : Rabs (val N * val e + val e) <= bpow radix2 127).
  { assert (Q' : Rabs (val N * val e + val e) * bpow radix2 (-126) <= 1.001).
    { eapply Rle_trans; [apply Rmult_le_compat_l; [apply Rabs_pos|apply Bx]|]. lra. }
    apply Rmult_le_reg_r with (bpow radix2 (-126)); [exact PM|]. rewrite <- bpow_plus. change (bpow radix2 (127 + -126)) with 2. lra. }
  unfold vec_madd. destruct (ffma_fin n N e e FN Fe Fe) as (A & B); [eapply b126; [exact RB|lra]|]. split; [exact A|].
  pose proof (rnd_eta (val N * val e + val e)) as QE. rewrite <- B in QE. set (v := val (ffma n N e e)) in *. clearbody v.
  assert (EN : eta * Rabs (val x) <= / 16777216).
  { assert (EE : eta * bpow radix2 125 = / 16777216) by (unfold eta; rewrite <- bpow_plus; reflexivity).
    rewrite <- EE. apply Rmult_le_compat_l; [apply bpow_ge_0|apply Bx]. }
  assert (Q' : Rabs (v * val x - (val N * val e + val e) * val x) <= / 16777216 * 1.001 + / 2 * / 16777216).
  { replace (v * val x - (val N * val e + val e) * val x) with ((v - (val N * val e + val e)) * val x) by ring. rewrite Rabs_mult.
    eapply Rle_trans; [apply Rmult_le_compat_r; [apply Rabs_pos|exact QE]|]. rewrite Rmult_plus_distr_r, !Rmult_assoc, PT. lra. }
  replace ((val N * val e + val e) * val x) with (1 - g * g + (1 + g) * q) in Q' by (transitivity (val e * val x * (1 + val N)); [rewrite EX, VN'; ring|ring]).
  assert (DD : 0 <= g * g <= / 4096 * (/ 4096)).
  { split; [apply Rle_0_sqr|]. rewrite <- (Rabs_pos_eq (g * g)) by apply Rle_0_sqr. rewrite Rabs_mult. apply Rmult_le_compat; try apply Rabs_pos; apply Rabs_le; lra. }
  assert (DQ : Rabs ((1 + g) * q) <= 1.003 * / 137438953472).
  { rewrite Rabs_mult. apply Rmult_le_compat; try apply Rabs_pos; apply Rabs_le; lra. }
  apply Rabs_le_inv in DQ. apply Rabs_le_inv in Q'. apply Rabs_le. lra.
Qed.
Lemma alti_recip_close (x : F F32) : safe_divisor x -> close 1.6e-7 (altivec_reciprocal n re c x) (/ val x).
Proof. intros SD. destruct (alti_recip_times x SD) as [A B]. split; [exact A|]. apply inv_error; [apply safe_ne; exact SD|exact B]. Qed.
Lemma alti_div_close (a b : F F32) : safe_quotient a b -> close 2.6e-7 (altivec_div n re c a b) (val a / val b).
Proof.
  intros (Fa & SD & B). destruct (alti_recip_times b SD) as [A H]. unfold altivec_div. apply (alti_times 1.6e-7); try assumption; try lra.
  apply safe_ne. exact SD.
Qed.

Lemma fma_zero_inf (a b x : F F32) : (isfin a = true /\ val a = 0 /\ isfin b = false /\ isnan b = false) \/ (isfin b = true /\ val b = 0 /\ isfin a = false /\ isnan a = false) ->
  isnan (ffma n a b x) = true.
Proof.
  assert (Z : forall y : F F32, isfin y = true -> val y = 0 -> exists s, y = B754_zero 24 128 s).
  { intros y Fy V. destruct y as [s|s|s pl H|s m e H]; try discriminate Fy; [eauto|]. exfalso. revert V. unfold val, B2R. intros V. apply (F2R_neq_0 radix2) in V; [exact V|]. destruct s; discriminate. }
  intros [(A & B & D & E)|(A & B & D & E)]; destruct (Z _ A B) as (s & ->).
  - destruct b; try discriminate D; try discriminate E; destruct x; cbn; first [reflexivity|apply pnan].
  - destruct a; try discriminate D; try discriminate E; destruct x; cbn; first [reflexivity|apply pnan].
Qed.
Lemma nmsub_nan (a b x : F F32) : isnan (ffma n a b (fneg x)) = true -> isnan (vec_nmsub n a b x) = true.
Proof. intros H. unfold vec_nmsub. rewrite isnan_fneg. exact H. Qed.
Lemma alti_recip_nan (x : F F32) : is_zero x \/ is_inf x -> isnan (altivec_reciprocal n re c x) = true.
Proof.
  intros H. unfold altivec_reciprocal. cbv zeta. unfold vec_madd. apply ffma_nan. apply nmsub_nan. apply fma_zero_inf. destruct H as [H|H].
  - pose proof (re_zero re SP x H) as [A B]. destruct H. right. auto.
  - pose proof (re_inf re SP x H) as [A B]. destruct H. left. auto.
Qed.
Lemma alti_div_nan (a x : F F32) : is_zero x \/ is_inf x -> isnan (altivec_div n re c a x) = true.
Proof.
  intros H. unfold altivec_div, altivec_mul, vec_madd. pose proof (alti_recip_nan x H) as N. set (r := altivec_reciprocal n re c x) in *. clearbody r.
  destruct r; try discriminate N. destruct a; cbn; first [reflexivity|apply pnan].
Qed.
End Re.

(** ** Square root *)
Lemma newton_rsqrt (d N h q1 q2 q3 : R) : Rabs d <= / 4096 -> Rabs q1 <= 1.0e-7 -> Rabs q2 <= 3e-11 -> Rabs q3 <= 1e-7 ->
  N = - (2 * d + d * d + q1) + q2 -> h = (1 + d) * (1 / 2 + q3) ->
  Rabs (N * h + (1 + d) - 1) <= 1.45e-7 /\ Rabs N <= 5e-4.
Proof.
  intros D Q1 Q2 Q3 EN EH. apply Rabs_le_inv in D, Q1, Q2, Q3.
  assert (DD : 0 <= d * d <= / 16777216).
  { split; [apply Rle_0_sqr|]. rewrite <- (Rabs_pos_eq (d * d)) by apply Rle_0_sqr. rewrite Rabs_mult. replace (/ 16777216) with (/ 4096 * / 4096) by lra. apply Rmult_le_compat; try apply Rabs_pos; apply Rabs_le; lra. }
  assert (NB : - (5e-4) <= N <= 5e-4) by (rewrite EN; lra).
  split; [|apply Rabs_le; exact NB].
  set (w := d * d) in *. set (z := (1 + d) * (N * q3)).
  assert (ZB : Rabs z <= 1e-10).
  { unfold z. rewrite !Rabs_mult. apply Rle_trans with (1.001 * (5e-4 * 1e-7)); [|lra]. apply Rmult_le_compat; [apply Rabs_pos|apply Rmult_le_pos; apply Rabs_pos|apply Rabs_le; lra|].
    apply Rmult_le_compat; try apply Rabs_pos; apply Rabs_le; lra. }
  assert (DW : Rabs (d * w) <= 1e-10).
  { rewrite Rabs_mult. apply Rle_trans with (/ 4096 * / 16777216); [|lra]. apply Rmult_le_compat; try apply Rabs_pos; apply Rabs_le; lra. }
  set (p := (q2 - q1) * d). assert (PB : Rabs p <= 1e-9).
  { unfold p. rewrite Rabs_mult. apply Rle_trans with (1.1e-7 * / 4096); [|lra]. apply Rmult_le_compat; try apply Rabs_pos; apply Rabs_le; lra. }
  replace (N * h + (1 + d) - 1) with (- (3 / 2) * w - / 2 * (d * w) + / 2 * (q2 - q1) + / 2 * p + z) by (unfold z, w, p; rewrite EH, EN; unfold w; field).
  apply Rabs_le_inv in ZB, DW, PB. apply Rabs_le. lra.
Qed.
Section Rs.
Context (rs : F F32 -> F F32) (SP : rsqrte_spec rs).
Lemma alti_rsqrt_times (x : F F32) : normal_positive x -> val x <= bpow radix2 125 ->
  isfin (altivec_rsqrt n rs c x) = true /\ Rabs (val (altivec_rsqrt n rs c x) * sqrt (val x) - 1) <= 2.1e-7.
Proof.
  intros NP BX. destruct (rsqrte_close rs SP x NP) as [Fe He]. destruct NP as [Fx BL]. unfold altivec_rsqrt. cbv zeta. rewrite gen_one_1, gen_05_half.
  destruct one_ok as (F1 & V1 & _). destruct (half_ok (t := F32) n) as (Fh & Vh).
  pose proof (bpow_gt_0 radix2 (-126)) as PM. assert (X0 : 0 < val x) by lra.
  set (e := rs x) in *. clearbody e. set (s := sqrt (val x)) in *.
  assert (S0 : 0 < s) by (apply sqrt_lt_R0; exact X0). assert (SS : s * s = val x) by (apply sqrt_sqrt; lra).
  assert (SB : s <= bpow radix2 63).
  { unfold s. replace (bpow radix2 63) with (sqrt (bpow radix2 126)); [apply sqrt_le_1_alt; eapply Rle_trans; [exact BX|apply bpow_le; lia]|].
    replace (bpow radix2 126) with (bpow radix2 63 * bpow radix2 63) by (rewrite <- bpow_plus; reflexivity). apply sqrt_square. apply bpow_ge_0. }
  assert (SL : bpow radix2 (-63) <= s).
  { unfold s. replace (bpow radix2 (-63)) with (sqrt (bpow radix2 (-126))); [apply sqrt_le_1_alt; lra|].
    replace (bpow radix2 (-126)) with (bpow radix2 (-63) * bpow radix2 (-63)) by (rewrite <- bpow_plus; reflexivity). apply sqrt_square. apply bpow_ge_0. }
  clearbody s.
  assert (H : Rabs (val e * s - 1) <= / 4096).
  { replace (val e * s - 1) with ((val e - / s) * s) by (field; lra). rewrite Rabs_mult.
    eapply Rle_trans; [apply Rmult_le_compat_r; [apply Rabs_pos|exact He]|]. rewrite Rmult_assoc, <- Rabs_mult, Rinv_l, Rabs_R1 by lra. lra. }
  clear He. set (d := val e * s - 1) in *. assert (ES : val e * s = 1 + d) by (unfold d; ring). clearbody d. pose proof H as H'. apply Rabs_le_inv in H'.
  (* magnitudes *)
  assert (EP : 0 < val e) by (apply Rmult_lt_reg_r with s; [exact S0|]; rewrite Rmult_0_l, ES; lra).
  assert (EB : val e <= bpow radix2 64).
  { apply Rmult_le_reg_r with s; [exact S0|]. rewrite ES. apply Rle_trans with (bpow radix2 64 * bpow radix2 (-63)); [rewrite <- bpow_plus; change (bpow radix2 (64 + -63)) with 2; lra|]. apply Rmult_le_compat_l; [apply bpow_ge_0|exact SL]. }
  assert (E2B : Rabs (val e * val e) <= bpow radix2 127).
  { rewrite Rabs_pos_eq by (apply Rmult_le_pos; lra). assert (Q : val e * val e * val x <= 1.001).
    { replace (val e * val e * val x) with ((1 + d) * (1 + d)) by (rewrite <- ES, <- SS; ring). apply Rle_trans with (1.0003 * 1.0003); [apply Rmult_le_compat; lra|lra]. }
    apply Rmult_le_reg_r with (bpow radix2 (-126)); [exact PM|]. rewrite <- bpow_plus. change (bpow radix2 (127 + -126)) with 2.
    eapply Rle_trans; [apply Rmult_le_compat_l; [apply Rmult_le_pos; lra|exact BL]|]. lra. }
  (* the square of the estimate *)
  change (vec_madd n e e gen_zero) with (altivec_mul n e e). change (vec_madd n e (f_lit F32 1 (-1)) gen_zero) with (altivec_mul n e (f_lit F32 1 (-1))).
  destruct (mul_fin e e Fe Fe E2B) as (F2 & V2). pose proof (rnd_eta (val e * val e)) as R2. rewrite <- V2 in R2. set (e2 := altivec_mul n e e) in *. clearbody e2.
  assert (EN : eta * val x <= / 16777216).
  { assert (EE : eta * bpow radix2 125 = / 16777216) by (unfold eta; rewrite <- bpow_plus; reflexivity). rewrite <- EE. apply Rmult_le_compat_l; [apply bpow_ge_0|exact BX]. }
  assert (PP : val e * val e * val x = (1 + d) * (1 + d)) by (rewrite <- ES, <- SS; ring).
  assert (PB : (1 + d) * (1 + d) <= 1.0005) by (apply Rle_trans with (1.000245 * 1.000245); [apply Rmult_le_compat; lra|lra]).
  set (q1 := val x * val e2 - (1 + d) * (1 + d)). assert (Q1 : Rabs q1 <= 1.0e-7).
  { unfold q1. rewrite <- PP. replace (val x * val e2 - val e * val e * val x) with ((val e2 - val e * val e) * val x) by ring. rewrite Rabs_mult, (Rabs_pos_eq (val x)) by lra.
    eapply Rle_trans; [apply Rmult_le_compat_r; [lra|exact R2]|]. rewrite (Rabs_pos_eq (val e * val e)) by (apply Rmult_le_pos; lra).
    rewrite Rmult_plus_distr_r, !Rmult_assoc. rewrite <- (Rmult_assoc (val e)), PP. lra. }
  assert (XE : val x * val e2 - 1 = 2 * d + d * d + q1) by (unfold q1; ring). clearbody q1. clear R2.
  (* half of the estimate *)
  assert (HB : Rabs (val e * val (f_lit F32 1 (-1))) <= bpow radix2 127).
  { rewrite Vh, Rabs_mult, (Rabs_pos_eq (val e)), (Rabs_pos_eq (/ 2)) by lra. apply Rle_trans with (bpow radix2 64); [lra|apply bpow_le; lia]. }
  destruct (mul_fin e (f_lit F32 1 (-1)) Fe Fh HB) as (F3 & V3). rewrite Vh in V3. pose proof (rnd_eta (val e * / 2)) as R3. rewrite <- V3 in R3.
  set (hf := altivec_mul n e (f_lit F32 1 (-1))) in *. clearbody hf. rewrite (Rabs_pos_eq (val e * / 2)) in R3 by lra.
  assert (ENe : eta <= 1e-9 * val e).
  { assert (EL : bpow radix2 (-64) <= val e).
    { apply Rmult_le_reg_r with s; [exact S0|]. rewrite ES. apply Rle_trans with (bpow radix2 (-64) * bpow radix2 63); [apply Rmult_le_compat_l; [apply bpow_ge_0|exact SB]|]. rewrite <- bpow_plus. change (bpow radix2 (-64 + 63)) with (/ 2). lra. }
    apply Rle_trans with (1e-9 * bpow radix2 (-64)); [|lra]. unfold eta. apply Rle_trans with (bpow radix2 (-30) * bpow radix2 (-64)); [rewrite <- bpow_plus; apply bpow_le; lia|]. apply Rmult_le_compat_r; [apply bpow_ge_0|]. change (bpow radix2 (-30)) with (/ 1073741824). lra. }
  set (q3 := val hf / val e - / 2). assert (HV : val hf = val e * (1 / 2 + q3)) by (unfold q3; field; lra).
  assert (Q3 : Rabs q3 <= 1e-7).
  { apply Rmult_le_reg_r with (val e); [exact EP|]. rewrite <- (Rabs_pos_eq (val e)) at 1 by lra. rewrite <- Rabs_mult.
    replace (q3 * val e) with (val hf - val e * / 2) by (unfold q3; field; lra). lra. }
  clearbody q3.
  (* the correction *)
  set (g := 2 * d + d * d + q1) in *.
  assert (DD : 0 <= d * d <= / 16777216).
  { split; [apply Rle_0_sqr|]. rewrite <- (Rabs_pos_eq (d * d)) by apply Rle_0_sqr. rewrite Rabs_mult. replace (/ 16777216) with (/ 4096 * / 4096) by lra. apply Rmult_le_compat; try apply Rabs_pos; exact H. }
  pose proof Q1 as Q1'. apply Rabs_le_inv in Q1'.
  assert (GB : Rabs g <= bpow radix2 (-10)) by (change (bpow radix2 (-10)) with (/ 1024); unfold g; apply Rabs_le; lra).
  destruct (nmsub_fin x e2 (f_ofZ F32 1) Fx F2 F1) as (FN & VN).
  { rewrite V1, XE. eapply Rle_trans; [exact GB|apply bpow_le; lia]. }
  rewrite V1, XE in VN. pose proof (rnd_err (-10) g ltac:(lia) GB) as Q. change (bpow radix2 (-10 - 25)) with (/ 34359738368) in Q.
  set (N := vec_nmsub n x e2 (f_ofZ F32 1)) in *. clearbody N.
  set (q2 := - (rnd F32 g - g)). assert (VN' : val N = - g + q2) by (rewrite VN; unfold q2; ring).
  assert (Q2 : Rabs q2 <= 3e-11) by (unfold q2; rewrite Rabs_Ropp; lra). clearbody q2.
  destruct (newton_rsqrt d (val N) ((1 + d) * (1 / 2 + q3)) q1 q2 q3 H Q1 Q2 Q3) as [NW NB]; [exact VN'|reflexivity|].
  (* the last step *)
  set (u := val N * val hf + val e).
  assert (US : u * s = val N * ((1 + d) * (1 / 2 + q3)) + (1 + d)) by (unfold u; rewrite HV, <- ES; ring).
  rewrite <- US in NW. apply Rabs_le_inv in NW.
  assert (UP : 0 < u) by (apply Rmult_lt_reg_r with s; [exact S0|]; lra).
  assert (UB : Rabs u <= bpow radix2 127).
  { rewrite Rabs_pos_eq by lra. apply Rmult_le_reg_r with s; [exact S0|]. apply Rle_trans with (bpow radix2 127 * bpow radix2 (-63)); [|apply Rmult_le_compat_l; [apply bpow_ge_0|exact SL]].
    rewrite <- bpow_plus. apply Rle_trans with (bpow radix2 1); [change (bpow radix2 1) with 2; lra|apply bpow_le; lia]. }
  unfold vec_madd. destruct (ffma_fin n N hf e FN F3 Fe) as (A & B); [eapply b126; [exact UB|lra]|]. split; [exact A|]. fold u in B.
  pose proof (rnd_eta u) as RU. rewrite <- B in RU. rewrite (Rabs_pos_eq u) in RU by lra. set (v := val (ffma n N hf e)) in *. clearbody v.
  assert (ENs : eta * s <= 1e-9).
  { apply Rle_trans with (eta * bpow radix2 63); [apply Rmult_le_compat_l; [apply bpow_ge_0|exact SB]|]. unfold eta. rewrite <- bpow_plus. apply Rle_trans with (bpow radix2 (-30)); [apply bpow_le; lia|]. change (bpow radix2 (-30)) with (/ 1073741824). lra. }
  assert (QF : Rabs (v * s - u * s) <= / 16777216 * 1.0001 + / 2 * 1e-9).
  { replace (v * s - u * s) with ((v - u) * s) by ring. rewrite Rabs_mult, (Rabs_pos_eq s) by lra. eapply Rle_trans; [apply Rmult_le_compat_r; [lra|exact RU]|].
    rewrite Rmult_plus_distr_r, !Rmult_assoc. lra. }
  apply Rabs_le_inv in QF. apply Rabs_le. lra.
Qed.
Lemma alti_sqrt_close (x : F F32) : normal_positive x -> val x <= bpow radix2 125 -> close 3e-7 (altivec_sqrt n rs c x) (sqrt (val x)).
Proof.
  intros NP BX. destruct (alti_rsqrt_times x NP BX) as [A H]. destruct NP as [Fx BL]. unfold altivec_sqrt. set (r := altivec_rsqrt n rs c x) in *. clearbody r.
  pose proof (bpow_gt_0 radix2 (-126)) as PM. assert (X0 : 0 < val x) by lra.
  set (s := sqrt (val x)) in *. assert (S0 : 0 < s) by (apply sqrt_lt_R0; exact X0). assert (SS : s * s = val x) by (apply sqrt_sqrt; lra).
  assert (SB : s <= bpow radix2 63).
  { unfold s. replace (bpow radix2 63) with (sqrt (bpow radix2 126)); [apply sqrt_le_1_alt; eapply Rle_trans; [exact BX|apply bpow_le; lia]|].
    replace (bpow radix2 126) with (bpow radix2 63 * bpow radix2 63) by (rewrite <- bpow_plus; reflexivity). apply sqrt_square. apply bpow_ge_0. }
  assert (SL : bpow radix2 (-63) <= s).
  { unfold s. replace (bpow radix2 (-63)) with (sqrt (bpow radix2 (-126))); [apply sqrt_le_1_alt; lra|].
    replace (bpow radix2 (-126)) with (bpow radix2 (-63) * bpow radix2 (-63)) by (rewrite <- bpow_plus; reflexivity). apply sqrt_square. apply bpow_ge_0. }
  clearbody s. set (h := val r * s - 1) in *. assert (P : val x * val r = s * (1 + h)) by (rewrite <- SS; unfold h; ring). clearbody h. apply Rabs_le_inv in H.
  assert (PB : Rabs (val x * val r) <= bpow radix2 127).
  { rewrite P, Rabs_pos_eq by (apply Rmult_le_pos; lra). apply Rle_trans with (bpow radix2 63 * 2); [apply Rmult_le_compat; lra|]. change 2 with (bpow radix2 1). rewrite <- bpow_plus. apply bpow_le; lia. }
  destruct (mul_fin x r Fx A PB) as (C & V). split; [exact C|]. pose proof (rnd_eta (val x * val r)) as Q. rewrite <- V in Q. set (v := val (altivec_mul n x r)) in *. clearbody v.
  assert (EN : eta <= 1e-9 * s).
  { apply Rle_trans with (1e-9 * bpow radix2 (-63)); [|apply Rmult_le_compat_l; lra]. unfold eta.
    apply Rle_trans with (bpow radix2 (-30) * bpow radix2 (-63)); [rewrite <- bpow_plus; apply bpow_le; lia|]. apply Rmult_le_compat_r; [apply bpow_ge_0|]. change (bpow radix2 (-30)) with (/ 1073741824). lra. }
  rewrite P in Q. rewrite (Rabs_pos_eq (s * (1 + h))) in Q by (apply Rmult_le_pos; lra). rewrite (Rabs_pos_eq s) by lra.
  assert (SH : Rabs (s * h) <= 2.1e-7 * s) by (rewrite Rabs_mult, (Rabs_pos_eq s), Rmult_comm by lra; apply Rmult_le_compat_r; [lra|apply Rabs_le; lra]).
  set (sh := s * h) in *. assert (E : s * (1 + h) = s + sh) by (unfold sh; ring). rewrite E in Q. clearbody sh. apply Rabs_le_inv in Q, SH. apply Rabs_le. lra.
Qed.
Lemma alti_sqrt_nan (x : F F32) : is_zero x \/ (is_inf x /\ sgn x = false) -> isnan (altivec_sqrt n rs c x) = true.
Proof.
  intros H. unfold altivec_sqrt, altivec_mul at 1, vec_madd. assert (N : isnan (altivec_rsqrt n rs c x) = true).
  { unfold altivec_rsqrt. cbv zeta. unfold vec_madd at 1. apply ffma_nan. apply nmsub_nan. apply fma_zero_inf. destruct H as [H|[H S]].
    - destruct (rsqrte_zero rs SP x H) as [A B]. destruct H. left. split; [assumption|]. split; [assumption|]. unfold vec_madd.
      destruct (rs x); try discriminate A; try discriminate B. destruct s; split; reflexivity.
    - destruct (rsqrte_inf rs SP x H S) as [A B]. destruct H. right.
      assert (Z : Rabs (rnd F32 (val (rs x) * val (rs x) + val (gen_zero : F F32))) < bpow radix2 (emax F32)).
      { rewrite B, Rmult_0_l. change (val (gen_zero : F F32)) with 0. rewrite Rplus_0_r, rnd_0, Rabs_R0. apply bpow_gt_0. }
      destruct (ffma_fin n (rs x) (rs x) gen_zero A A eq_refl Z) as (C & D). split; [exact C|]. split; [|auto]. unfold vec_madd. rewrite D, B, Rmult_0_l. change (val (gen_zero : F F32)) with 0. rewrite Rplus_0_r. apply rnd_0. }
  set (r := altivec_rsqrt n rs c x) in *. clearbody r. destruct r; try discriminate N. destruct x; cbn; first [reflexivity|apply pnan].
Qed.
End Rs.
End A.
