(** Accuracy of the unit conversions and of the logarithms to base 2 and 10. *)
From Coq Require Import ZArith Reals List Lia Lra Bool.
From Flocq Require Import Core IEEE754.Binary IEEE754.Bits.
From Verif Require Import Base Backend Lanes Float LaneOps ScalarMath VecMath IntVec TransMath TransFuns SpecLane
  FloatFacts FloatRound LaneFacts VecFacts VecMore RoundFacts RoundMore LdexpFacts TransConst ErrFacts LastStep NearFacts ExpMore TransFacts RealLog RealUnit LogFacts PowFacts.
Local Open Scope R_scope.

(** f is r up to a relative error of a and an absolute error of b. *)
Record rel (f : F F32) (r a b : R) : Prop := mk_rel { r_fin : isfin f = true; r_err : Rabs (val f - r) <= a * Rabs r + b }.
Lemma big_fin r : Rabs r <= bpow radix2 127 -> Rabs (rnd F32 r) < bpow radix2 (emax F32).
Proof. intros H. eapply Rle_lt_trans; [apply (rnd_le_bpow 127); [lia|exact H]|apply bpow_lt; reflexivity]. Qed.
Lemma p127 : bpow radix2 127 >= 1e38. Proof. change (bpow radix2 127) with 170141183460469231731687303715884105728. lra. Qed.

Section R.
Context (n : nans F32).
Lemma rel_mulc f k r K a b d : rel f r a b -> isfin k = true -> Rabs (val k - K) <= d * K -> 0 <= K <= 1000 -> 0 <= d <= 1e-6 ->
  0 <= a <= 1e-3 -> 0 <= b <= 1e6 -> Rabs r * K <= 1e37 ->
  rel (fmul n f k) (r * K) (a + d + 62e-9) (1.01 * (b * K) + eta) /\ rel (fmul n k f) (r * K) (a + d + 62e-9) (1.01 * (b * K) + eta).
Proof.
  intros [Ff Ef] Fk Ek HK Hd Ha Hb HR. pose proof eta_small as ET. pose proof (Rabs_pos r) as PR. set (R := Rabs r) in *.
  assert (Kv : 0 <= val k <= K * (1 + d)) by (apply Rabs_le_inv in Ek; nra).
  assert (E1 : Rabs (val f * val k - r * K) <= (a * (1 + d) + d) * (R * K) + (1 + d) * (b * K)).
  { replace (val f * val k - r * K) with ((val f - r) * val k + r * (val k - K)) by ring. eapply Rle_trans; [apply Rabs_triang|]. rewrite !Rabs_mult.
    rewrite (Rabs_pos_eq (val k)) by lra. fold R.
    assert (Rabs (val f - r) * val k <= (a * R + b) * (K * (1 + d))) by (apply Rmult_le_compat; try apply Rabs_pos; lra).
    assert (R * Rabs (val k - K) <= R * (d * K)) by (apply Rmult_le_compat_l; lra). lra. }
  assert (N1 : 0 <= R * K) by (apply Rmult_le_pos; lra). assert (N2 : 0 <= b * K <= 1e9) by nra.
  set (Q := R * K) in *. set (W := b * K) in *.
  assert (E2 : Rabs (val f * val k) <= 1.002 * Q + 1.001 * W).
  { replace (val f * val k) with (r * K + (val f * val k - r * K)) by ring. eapply Rle_trans; [apply Rabs_triang|].
    replace (Rabs (r * K)) with Q by (unfold Q, R; rewrite Rabs_mult, (Rabs_pos_eq K) by lra; reflexivity).
    assert ((a * (1 + d) + d) * Q <= 0.002 * Q) by (apply Rmult_le_compat_r; nra).
    assert ((1 + d) * W <= 1.001 * W) by (apply Rmult_le_compat_r; lra). lra. }
  assert (BB : Rabs (val f * val k) <= bpow radix2 127) by (pose proof p127; lra).
  pose proof (rnd_eta (val f * val k)) as RE.
  assert (FIN : Rabs (rnd F32 (val f * val k) - r * K) <= (a + d + 62e-9) * Rabs (r * K) + (1.01 * W + eta)).
  { replace (rnd F32 (val f * val k) - r * K) with ((rnd F32 (val f * val k) - val f * val k) + (val f * val k - r * K)) by ring.
    eapply Rle_trans; [apply Rabs_triang|]. replace (Rabs (r * K)) with Q by (unfold Q, R; rewrite Rabs_mult, (Rabs_pos_eq K) by lra; reflexivity).
    assert (A1 : (a * (1 + d) + d) * Q <= (a + d + 1e-9) * Q) by (apply Rmult_le_compat_r; nra).
    assert ((1 + d) * W <= 1.001 * W) by (apply Rmult_le_compat_r; lra). lra. }
  split.
  - destruct (fmul_fin n f k Ff Fk (big_fin _ BB)) as (A & B & _). split; [exact A|]. rewrite B. exact FIN.
  - rewrite Rmult_comm in BB, FIN at 1. destruct (fmul_fin n k f Fk Ff (big_fin _ BB)) as (A & B & _). split; [exact A|]. rewrite B. rewrite (Rmult_comm (val k)) in *.
    exact FIN.
Qed.
Lemma rel_exact f : isfin f = true -> rel f (val f) 0 0.
Proof. intros H. split; [exact H|]. rewrite Rminus_diag_eq, Rabs_R0 by reflexivity. pose proof eta_small. lra. Qed.
Lemma rel_weaken f r a b a' b' : rel f r a b -> a <= a' -> b <= b' -> rel f r a' b'.
Proof.
  intros [A B] H1 H2. split; [exact A|]. pose proof eta_small. pose proof (Rabs_pos r).
  assert (a * Rabs r <= a' * Rabs r) by (apply Rmult_le_compat_r; lra). lra.
Qed.
Lemma rel_sub f k : isfin f = true -> isfin k = true -> Rabs (val f - val k) <= 1e37 -> rel (fsub n f k) (val f - val k) 6e-8 eta.
Proof.
  intros Ff Fk B. pose proof p127. destruct (fsub_fin n f k Ff Fk) as (A & V & _); [apply big_fin; lra|]. split; [exact A|]. rewrite V.
  pose proof (rnd_eta (val f - val k)). pose proof (Rabs_pos (val f - val k)). pose proof eta_small. lra.
Qed.
End R.

Lemma ofZ_small (k : Z) : (Z.abs k < 2 ^ 24)%Z -> isfin (f_ofZ F32 k) = true /\ val (f_ofZ F32 k) = IZR k /\ sgn (f_ofZ F32 k) = (k <? 0)%Z.
Proof. intros H. apply ofZ_exact. change (prec F32) with 24%Z. lia. Qed.
Lemma normal_ge (x : F F32) : isfin x = true -> 1 <= val x -> ~ tiny x /\ sgn x = false.
Proof.
  intros F V. split.
  - intros [_ T]. rewrite Rabs_pos_eq in T by lra. assert (bpow radix2 (-126) <= bpow radix2 0) by (apply bpow_le; lia). change (bpow radix2 0) with 1 in H. lra.
  - destruct (sgn x) eqn:S; [|reflexivity]. exfalso. destruct x as [s|s|s pl H|s m e H]; try discriminate F; unfold sgn, Bsign in S; unfold val, B2R in V; subst s; [lra|].
    assert (Q := F2R_lt_0 radix2 (Float radix2 (cond_Zopp true (Zpos m)) e)). cbn [Fnum] in Q. specialize (Q ltac:(reflexivity)). lra.
Qed.

Section U.
Context (c : cfg) (I : isa) (n : nans F32) (k : nans F64) (HI : x86 I).
(** ** Powers of a fixed base *)
Lemma base_pow b y t a e : isfin b = true -> 2 <= val b <= 10 -> rel y t a e -> 0 <= a <= 1e-6 -> 0 <= e <= 1e-9 ->
  Rabs (t * ln (val b)) <= 86 ->
  isfin (vec_pow c I n b y) = true /\
  Rabs (val (vec_pow c I n b y) - Rpower (val b) t) <= (5.1e-7 + (5.1e-7 + 1.01 * a) * Rabs (t * ln (val b))) * Rpower (val b) t.
Proof.
  intros Fb Vb [Fy Ey] Ha He HT. destruct (normal_ge b Fb ltac:(lra)) as [Tb Sb]. pose proof eta_small as ET.
  assert (LB : 0.69 <= ln (val b) <= 2.31).
  { split; [apply Rle_trans with (ln 2); [pose proof ln2_range; lra|]|apply Rle_trans with (ln 10); [|pose proof ln10_range; lra]].
    - destruct (Req_dec 2 (val b)) as [<-|]; [lra|left; apply ln_increasing; lra].
    - destruct (Req_dec 10 (val b)) as [<-|]; [lra|left; apply ln_increasing; lra]. }
  set (l := ln (val b)) in *. set (T := t * l) in *. pose proof (Rabs_pos T) as PT.
  assert (D : Rabs (val y * l - T) <= a * Rabs T + 2.31e-9).
  { unfold T. replace (val y * l - t * l) with ((val y - t) * l) by ring. rewrite !Rabs_mult, (Rabs_pos_eq l) by lra. nra. }
  assert (YB : Rabs (val y * l) <= Rabs T + a * Rabs T + 2.31e-9) by (replace (val y * l) with (T + (val y * l - T)) by ring; eapply Rle_trans; [apply Rabs_triang|lra]).
  assert (AT : a * Rabs T <= 1e-6 * Rabs T) by nra.
  destruct (pow_accurate c I n HI b y Fb Tb Sb Fy) as (A & B); [fold l; lra|]. split; [exact A|]. fold l in B.
  set (p := val (vec_pow c I n b y)) in *. unfold Rpower in *. fold l in B |- *. fold T.
  set (d := a * Rabs T + 2.31e-9) in *.
  assert (S : Rabs (exp (val y * l - T) - 1) <= 1.001 * d) by (apply exp_small_rel; [exact D|unfold d; lra]).
  assert (EX : exp (val y * l) = exp T * exp (val y * l - T)) by (rewrite <- exp_plus; f_equal; ring). rewrite EX in B.
  pose proof (exp_pos T) as PE. set (E := exp T) in *. set (q := exp (val y * l - T)) in *. apply Rabs_le_inv in S.
  assert (Dd : 0 <= d <= 1e-4) by (unfold d; split; [|lra]; assert (0 <= a * Rabs T) by nra; lra).
  replace (p - E) with ((p - E * q) + E * (q - 1)) by ring. eapply Rle_trans; [apply Rabs_triang|]. rewrite Rabs_mult, (Rabs_pos_eq E) by lra.
  assert (C1 : E * Rabs (q - 1) <= E * (1.001 * d)) by (apply Rmult_le_compat_l; [lra|apply Rabs_le; lra]).
  assert (C2 : 5e-7 * (1 + Rabs (val y * l)) * (E * q) <= (502e-9 * (1 + Rabs T)) * E).
  { rewrite (Rmult_comm E q), <- Rmult_assoc. apply Rmult_le_compat_r; [lra|]. pose proof (Rabs_pos (val y * l)).
    apply Rle_trans with (5e-7 * (1 + Rabs (val y * l)) * (1 + 1.001 * d)); [apply Rmult_le_compat_l; lra|].
    assert (1 + Rabs (val y * l) <= 1.00001 * (1 + Rabs T)) by lra. nra. }
  assert (C3 : E * (1.001 * d) <= (1.01 * a * Rabs T + 3e-9) * E) by (rewrite Rmult_comm; apply Rmult_le_compat_r; [lra|]; unfold d; nra).
  assert (C4 : (502e-9 * (1 + Rabs T)) * E + (1.01 * a * Rabs T + 3e-9) * E <= (5.1e-7 + (5.1e-7 + 1.01 * a) * Rabs T) * E) by (rewrite <- Rmult_plus_distr_r; apply Rmult_le_compat_r; lra).
  lra.
Qed.

Lemma val_abs_err (x : R) (f : F F32) r a b : rel f r a b -> rel (fabs f) (Rabs r) a b.
Proof.
  intros [A B]. split; [rewrite isfin_fabs; exact A|]. rewrite val_fabs, Rabs_Rabsolu. eapply Rle_trans; [apply Rabs_triang_inv2|exact B].
Qed.
Lemma lit12 : isfin (litd 83333333333 12) = true /\ Rabs (val (litd 83333333333 12) - / 12) <= 3e-8 * / 12.
Proof. split; [apply litd_83333333333_12|]. rewrite val_litd_83333333333_12. apply Rabs_le. lra. Qed.
Lemma lit20 : isfin (litd 5 2) = true /\ Rabs (val (litd 5 2) - / 20) <= 3e-8 * / 20.
Proof. split; [apply litd_5_2|]. rewrite val_litd_5_2. apply Rabs_le. lra. Qed.
Lemma lit440 : isfin (litd 22727272727 13) = true /\ Rabs (val (litd 22727272727 13) - / 440) <= 4e-8 * / 440.
Proof. split; [apply litd_22727272727_13|]. rewrite val_litd_22727272727_13. apply Rabs_le. lra. Qed.
Lemma eta_tiny : eta <= 1e-44.
Proof. unfold eta. change (bpow radix2 (-149)) with (/ 713623846352979940529142984724747568191373312). lra. Qed.
Lemma ofZ_rel z : (0 <= z < 2 ^ 24)%Z -> isfin (f_ofZ F32 z) = true /\ Rabs (val (f_ofZ F32 z) - IZR z) <= 0 * IZR z.
Proof. intros H. destruct (ofZ_small z ltac:(lia)) as (A & B & _). split; [exact A|]. rewrite B, Rminus_diag_eq, Rabs_R0 by reflexivity. lra. Qed.
Lemma two_ok : isfin (f_ofZ F32 2) = true /\ val (f_ofZ F32 2) = 2. Proof. destruct (ofZ_small 2 ltac:(lia)) as (A & B & _). auto. Qed.
Lemma ten_ok : isfin (f_ofZ F32 10) = true /\ val (f_ofZ F32 10) = 10. Proof. destruct (ofZ_small 10 ltac:(lia)) as (A & B & _). auto. Qed.

(** 440 times a power of two *)
Lemma times_440 p T a : isfin p = true -> Rabs (val p - exp T) <= a * exp T -> 0 <= a <= 1e-3 -> Rabs T <= 77 ->
  isfin (fmul n (f_ofZ F32 440) p) = true /\ Rabs (val (fmul n (f_ofZ F32 440) p) - 440 * exp T) <= (a + 65e-9) * (440 * exp T).
Proof.
  intros Fp Ep Ha HT. pose proof (exp_pos T) as PT. pose proof (exp_86 T HT) as UT. destruct (ofZ_rel 440 ltac:(lia)) as [F4 V4].
  assert (R : rel p (exp T) a 0) by (split; [exact Fp|rewrite (Rabs_pos_eq (exp T)) by lra; lra]).
  destruct (rel_mulc n p (f_ofZ F32 440) (exp T) 440 a 0 0 R F4 V4) as [_ [A B]]; try lra; [rewrite Rabs_pos_eq by lra; lra|].
  split; [exact A|]. rewrite (Rmult_comm 440). rewrite (Rabs_pos_eq (exp T * 440)) in B by lra. pose proof eta_tiny as ET.
  assert (1e-34 <= exp T) by (pose proof (exp_86 (- T) ltac:(rewrite Rabs_Ropp; exact HT)) as Q; rewrite exp_Ropp in Q; apply Rmult_le_reg_r with (/ exp T); [apply Rinv_0_lt_compat; lra|]; rewrite Rinv_r by lra; nra).
  lra.
Qed.
Lemma midi2ratio_accurate m : isfin m = true -> Rabs (val m) <= 1200 ->
  isfin (midi2ratio c I n m) = true /\
  Rabs (val (midi2ratio c I n m) - Rpower 2 (val m / 12)) <= (5.1e-7 + 4e-8 * Rabs (val m)) * Rpower 2 (val m / 12).
Proof.
  intros Fm Bm. unfold midi2ratio. destruct lit12 as [F12 V12]. destruct two_ok as [F2 V2]. pose proof eta_tiny as ET. pose proof eta_small as ET'. pose proof ln2_range as L2.
  destruct (rel_mulc n m _ (val m) (/ 12) 0 0 3e-8 (rel_exact m Fm) F12 V12) as [R _]; try lra.
  pose proof (Rabs_pos (val m)) as PM.
  destruct (base_pow (f_ofZ F32 2) _ _ _ _ F2 ltac:(lra) R) as (A & B); try lra.
  { rewrite V2, !Rabs_mult, (Rabs_pos_eq (ln 2)), (Rabs_pos_eq (/ 12)) by lra. nra. }
  split; [exact A|]. rewrite V2 in B. replace (val m / 12) with (val m * / 12) by (unfold Rdiv; ring). eapply Rle_trans; [exact B|]. apply Rmult_le_compat_r; [left; apply exp_pos|].
  rewrite !Rabs_mult, (Rabs_pos_eq (ln 2)), (Rabs_pos_eq (/ 12)) by lra. nra.
Qed.
Lemma midi2freq_accurate m : isfin m = true -> Rabs (val m - 69) <= 1200 ->
  isfin (midi2freq c I n m) = true /\
  Rabs (val (midi2freq c I n m) - 440 * Rpower 2 ((val m - 69) / 12)) <= (6e-7 + 5e-8 * Rabs (val m - 69)) * (440 * Rpower 2 ((val m - 69) / 12)).
Proof.
  intros Fm Bm. unfold midi2freq. destruct lit12 as [F12 V12]. destruct two_ok as [F2 V2]. pose proof eta_tiny as ET. pose proof eta_small as ET'. pose proof ln2_range as L2.
  destruct (ofZ_small 69 ltac:(lia)) as (F69 & V69 & _). pose proof (rel_sub n m (f_ofZ F32 69) Fm F69) as R0. rewrite V69 in R0. specialize (R0 ltac:(lra)).
  set (z := val m - 69) in *. pose proof (Rabs_pos z) as PM.
  destruct (rel_mulc n _ _ z (/ 12) _ _ 3e-8 R0 F12 V12) as [R _]; try lra.
  assert (BT : Rabs (z * / 12 * ln 2) = Rabs z * / 12 * ln 2) by (rewrite !Rabs_mult, (Rabs_pos_eq (ln 2)), (Rabs_pos_eq (/ 12)) by lra; reflexivity).
  destruct (base_pow (f_ofZ F32 2) _ _ _ _ F2 ltac:(lra) R) as (A & B); try lra; [rewrite V2, BT; nra|].
  rewrite V2, BT in B. unfold Rpower in B. destruct (times_440 _ _ _ A B) as (C & D); [split; nra|rewrite BT; nra|].
  split; [exact C|]. unfold Rpower. replace (z / 12 * ln 2) with (z * / 12 * ln 2) by (unfold Rdiv; ring). eapply Rle_trans; [exact D|].
  apply Rmult_le_compat_r; [pose proof (exp_pos (z * / 12 * ln 2)); lra|]. nra.
Qed.
Lemma oct2freq_accurate m : isfin m = true -> Rabs (val m - 4.75) <= 100 ->
  isfin (oct2freq c I n m) = true /\
  Rabs (val (oct2freq c I n m) - 440 * Rpower 2 (val m - 4.75)) <= (6e-7 + 4e-7 * Rabs (val m - 4.75)) * (440 * Rpower 2 (val m - 4.75)).
Proof.
  intros Fm Bm. unfold oct2freq. destruct two_ok as [F2 V2]. pose proof eta_tiny as ET. pose proof eta_small as ET'. pose proof ln2_range as L2.
  destruct litd_475_2 as (F4 & _ & _). pose proof val_litd_475_2 as V4. pose proof (rel_sub n m (litd 475 2) Fm F4) as R0. rewrite V4 in R0.
  replace (19 / 4) with 4.75 in R0 by lra. specialize (R0 ltac:(lra)).
  set (z := val m - 4.75) in *. pose proof (Rabs_pos z) as PM.
  assert (BT : Rabs (z * ln 2) = Rabs z * ln 2) by (rewrite !Rabs_mult, (Rabs_pos_eq (ln 2)) by lra; reflexivity).
  destruct (base_pow (f_ofZ F32 2) _ _ _ _ F2 ltac:(lra) R0) as (A & B); try lra; [rewrite V2, BT; nra|].
  rewrite V2, BT in B. unfold Rpower in B. destruct (times_440 _ _ _ A B) as (C & D); [split; nra|rewrite BT; nra|].
  split; [exact C|]. unfold Rpower. eapply Rle_trans; [exact D|].
  apply Rmult_le_compat_r; [pose proof (exp_pos (z * ln 2)); lra|]. nra.
Qed.
Lemma db2amp_accurate d : isfin d = true -> Rabs (val d) <= 700 ->
  isfin (db2amp c I n d) = true /\
  Rabs (val (db2amp c I n d) - Rpower 10 (val d / 20)) <= (5.1e-7 + 1e-7 * Rabs (val d)) * Rpower 10 (val d / 20).
Proof.
  intros Fm Bm. unfold db2amp. destruct lit20 as [F12 V12]. destruct ten_ok as [F2 V2]. pose proof eta_tiny as ET. pose proof eta_small as ET'. pose proof ln10_range as L2.
  destruct (rel_mulc n d _ (val d) (/ 20) 0 0 3e-8 (rel_exact d Fm) F12 V12) as [R _]; try lra.
  pose proof (Rabs_pos (val d)) as PM.
  destruct (base_pow (f_ofZ F32 10) _ _ _ _ F2 ltac:(lra) R) as (A & B); try lra.
  { rewrite V2, !Rabs_mult, (Rabs_pos_eq (ln 10)), (Rabs_pos_eq (/ 20)) by lra. nra. }
  split; [exact A|]. rewrite V2 in B. replace (val d / 20) with (val d * / 20) by (unfold Rdiv; ring). eapply Rle_trans; [exact B|]. apply Rmult_le_compat_r; [left; apply exp_pos|].
  rewrite !Rabs_mult, (Rabs_pos_eq (ln 10)), (Rabs_pos_eq (/ 20)) by lra. nra.
Qed.

(** ** Logarithms to base 2 and 10 *)
Lemma rl2_ok : isfin (rlog k (f_dec F64 693147180559945309417232121458 30)) = true /\ val (rlog k (f_dec F64 693147180559945309417232121458 30)) = 12102203 / 8388608.
Proof. destruct (lit_is (rlog k (f_dec F64 693147180559945309417232121458 30)) 12102203 (-23)) as (A & B & _); [vm_compute; reflexivity|]. split; [exact A|]. rewrite B. reflexivity. Qed.
Lemma rl10_ok : isfin (rlog k (f_dec F64 2302585092994045684017991454684 30)) = true /\ val (rlog k (f_dec F64 2302585092994045684017991454684 30)) = 14572505 / 33554432.
Proof. destruct (lit_is (rlog k (f_dec F64 2302585092994045684017991454684 30)) 14572505 (-25)) as (A & B & _); [vm_compute; reflexivity|]. split; [exact A|]. rewrite B. reflexivity. Qed.
Lemma ln_normal (x : F F32) : isfin x = true -> ~ tiny x -> sgn x = false -> 0 < val x /\ Rabs (ln (val x)) <= 90.
Proof.
  intros F T S. pose proof (normal_fields x F T) as EF. pose proof (val_binade x EF) as VB. pose proof (sgn_val_gen x F) as V. rewrite S in V.
  assert (P : 0 < val x) by (rewrite V; pose proof (bpow_gt_0 radix2 (efield x - 127)); lra). split; [exact P|].
  rewrite Rabs_pos_eq in VB by lra. pose proof ln2_range as L2.
  assert (LB : forall e, ln (bpow radix2 e) = IZR e * ln 2) by (intros e; rewrite bpow_exp, ln_exp; reflexivity).
  assert (L1 : ln (bpow radix2 (efield x - 127)) <= ln (val x)) by (destruct (Req_dec (bpow radix2 (efield x - 127)) (val x)) as [<-|]; [lra|left; apply ln_increasing; [apply bpow_gt_0|lra]]).
  assert (U1 : ln (val x) <= ln (bpow radix2 (efield x - 126))) by (left; apply ln_increasing; lra).
  rewrite LB in L1, U1. assert (-126 <= IZR (efield x - 127)) by (apply IZR_le; lia). assert (IZR (efield x - 126) <= 128) by (apply IZR_le; lia).
  apply Rabs_le. nra.
Qed.
Lemma ln_one_or (x : F F32) : isfin x = true -> ~ tiny x -> sgn x = false -> val x = 1 \/ 1e-8 <= Rabs (ln (val x)).
Proof.
  intros F T S. destruct (ln_normal x F T S) as [P _]. destruct (Req_dec (val x) 1) as [|N]; [auto|right]. apply ln_away; [exact P|].
  destruct (Rle_dec (val x) (1 / 2)); [rewrite Rabs_left1 by lra; lra|]. destruct (Rle_dec 2 (val x)); [rewrite Rabs_pos_eq by lra; lra|].
  pose proof (normal_fields x F T) as EF. pose proof (val_binade x EF) as VB. pose proof (val_fields x EF) as VF. rewrite Rabs_pos_eq in VB, VF by lra.
  assert (E1 : (efield x - 127 < 1)%Z) by (apply (lt_bpow radix2); change (bpow radix2 1) with 2; lra).
  assert (E2 : (-1 < efield x - 126)%Z) by (apply (lt_bpow radix2); change (bpow radix2 (-1)) with (/ 2); lra).
  assert (exists z, val x = IZR z * / 16777216) as [z Z].
  { exists ((2 ^ 23 + ffield x) * (if efield x =? 126 then 1 else 2))%Z. rewrite VF, mult_IZR. assert (efield x = 126 \/ efield x = 127)%Z as [-> | ->] by lia.
    - change (bpow radix2 (126 - 150)) with (/ 16777216). change (126 =? 126)%Z with true. cbv iota. ring.
    - change (bpow radix2 (127 - 150)) with (/ 8388608). change (127 =? 126)%Z with false. cbv iota. field. }
  assert (ZN : z <> 16777216%Z) by (intros ->; apply N; rewrite Z; lra).
  rewrite Z. destruct (Z_lt_le_dec z 16777216) as [L|L].
  - assert (IZR z <= 16777215) by (apply IZR_le; lia). rewrite Rabs_left1 by lra. lra.
  - assert (16777217 <= IZR z) by (apply IZR_le; lia). rewrite Rabs_pos_eq by lra. lra.
Qed.
Lemma log_rel x : isfin x = true -> ~ tiny x -> sgn x = false -> rel (vec_log_float c I n x) (ln (val x)) 4e-7 0.
Proof. intros F T S. split; [apply log_finite; exact HI|]. pose proof (log_accurate c I n HI x F T S). lra. Qed.
Lemma inv2 : 1.44 <= / ln 2 <= 1.45.
Proof. pose proof ln2_range as L. split; [apply Rmult_le_reg_r with (ln 2); [lra|]; rewrite Rinv_l by lra; lra|apply Rmult_le_reg_r with (ln 2); [lra|]; rewrite Rinv_l by lra; lra]. Qed.
Lemma inv10 : 0.43 <= / ln 10 <= 0.44.
Proof. pose proof ln10_range as L. split; [apply Rmult_le_reg_r with (ln 10); [lra|]; rewrite Rinv_l by lra; lra|apply Rmult_le_reg_r with (ln 10); [lra|]; rewrite Rinv_l by lra; lra]. Qed.
Lemma log2_rel x : isfin x = true -> ~ tiny x -> sgn x = false -> rel (vec_log2 c I n k x) (ln (val x) / ln 2) 4.92e-7 eta.
Proof.
  intros F T S. unfold vec_log2. destruct rl2_ok as [F2 V2]. pose proof inv2. pose proof (ln_normal x F T S) as [_ B]. pose proof eta_small. pose proof rlog2_err as E. rewrite <- V2 in E.
  destruct (rel_mulc n _ _ _ (/ ln 2) _ _ 3e-8 (log_rel x F T S) F2 E) as [R _]; try lra; [nra|]. eapply rel_weaken; [exact R|lra|lra].
Qed.
Lemma log10_rel x : isfin x = true -> ~ tiny x -> sgn x = false -> rel (vec_log10 c I n k x) (ln (val x) / ln 10) 4.92e-7 eta.
Proof.
  intros F T S. unfold vec_log10. destruct rl10_ok as [F2 V2]. pose proof inv10. pose proof (ln_normal x F T S) as [_ B]. pose proof eta_small. pose proof rlog10_err as E. rewrite <- V2 in E.
  destruct (rel_mulc n _ _ _ (/ ln 10) _ _ 3e-8 (log_rel x F T S) F2 E) as [R _]; try lra; [nra|]. eapply rel_weaken; [exact R|lra|lra].
Qed.
(** an error of the form a|r| + 22*eta is purely relative once r is not tiny *)
Lemma rel_pure f r a b a' : rel f r a b -> b <= (a' - a) * Rabs r -> Rabs (val f - r) <= a' * Rabs r.
Proof. intros [_ H] B. lra. Qed.
Lemma log_zero_or x : isfin x = true -> ~ tiny x -> sgn x = false ->
  vec_log_float c I n x = f_ofZ F32 0 \/ 1e-8 <= Rabs (ln (val x)).
Proof.
  intros F T S. destruct (ln_one_or x F T S) as [E|E]; [left|right; exact E]. assert (x = f_ofZ F32 1) as ->.
  { destruct one_ok as (F1 & V1 & S1). apply fin_eq; [exact F|exact F1|congruence|congruence]. }
  apply bits_inj. apply log_one. exact HI.
Qed.
Lemma zero_times (y : F F32) : isfin y = true -> sgn y = false -> fmul n (f_ofZ F32 0) y = f_ofZ F32 0.
Proof. intros H S. destruct y; try discriminate H; unfold sgn, Bsign in S; subst; reflexivity. Qed.
Lemma ln_val_zero x : isfin x = true -> ~ tiny x -> sgn x = false -> vec_log_float c I n x = f_ofZ F32 0 -> ln (val x) = 0.
Proof.
  intros F T S E. pose proof (log_accurate c I n HI x F T S) as A. rewrite E in A. destruct zero_ok as (_ & V & _). rewrite V in A.
  replace (0 - ln (val x)) with (- ln (val x)) in A by ring. rewrite Rabs_Ropp in A. destruct (Req_dec (ln (val x)) 0) as [|N]; [assumption|]. apply Rabs_pos_lt in N. lra.
Qed.
Lemma log2_accurate x : isfin x = true -> ~ tiny x -> sgn x = false ->
  isfin (vec_log2 c I n k x) = true /\ Rabs (val (vec_log2 c I n k x) - ln (val x) / ln 2) <= 5e-7 * Rabs (ln (val x) / ln 2).
Proof.
  intros F T S. pose proof (log2_rel x F T S) as R. split; [apply R|]. destruct (log_zero_or x F T S) as [Z|N].
  - rewrite (ln_val_zero x F T S Z). unfold vec_log2. rewrite Z. destruct rl2_ok as [F2 V2].
    assert (SG : sgn (rlog k (f_dec F64 693147180559945309417232121458 30)) = false) by (vm_compute; reflexivity).
    rewrite zero_times by assumption. destruct zero_ok as (_ & V & _). rewrite V. unfold Rdiv. rewrite Rmult_0_l, Rminus_0_r, Rabs_R0. lra.
  - eapply rel_pure; [exact R|]. unfold Rdiv. rewrite Rabs_mult. pose proof inv2. rewrite (Rabs_pos_eq (/ ln 2)) by lra. pose proof eta_tiny. nra.
Qed.
Lemma log10_accurate x : isfin x = true -> ~ tiny x -> sgn x = false ->
  isfin (vec_log10 c I n k x) = true /\ Rabs (val (vec_log10 c I n k x) - ln (val x) / ln 10) <= 5e-7 * Rabs (ln (val x) / ln 10).
Proof.
  intros F T S. pose proof (log10_rel x F T S) as R. split; [apply R|]. destruct (log_zero_or x F T S) as [Z|N].
  - rewrite (ln_val_zero x F T S Z). unfold vec_log10. rewrite Z. destruct rl10_ok as [F2 V2].
    assert (SG : sgn (rlog k (f_dec F64 2302585092994045684017991454684 30)) = false) by (vm_compute; reflexivity).
    rewrite zero_times by assumption. destruct zero_ok as (_ & V & _). rewrite V. unfold Rdiv. rewrite Rmult_0_l, Rminus_0_r, Rabs_R0. lra.
  - eapply rel_pure; [exact R|]. unfold Rdiv. rewrite Rabs_mult. pose proof inv10. rewrite (Rabs_pos_eq (/ ln 10)) by lra. pose proof eta_tiny. nra.
Qed.
Lemma sgn_fabs (x : F F32) : sgn (fabs x) = false. Proof. destruct x; reflexivity. Qed.
Lemma tiny_fabs (x : F F32) : tiny (fabs x) -> tiny x.
Proof. intros [A B]. rewrite isfin_fabs in A. rewrite val_fabs, Rabs_Rabsolu in B. split; assumption. Qed.
Lemma amp2db_accurate x : isfin x = true -> ~ tiny x ->
  isfin (amp2db c I n k x) = true /\ Rabs (val (amp2db c I n k x) - 20 * (ln (Rabs (val x)) / ln 10)) <= 6e-7 * Rabs (20 * (ln (Rabs (val x)) / ln 10)).
Proof.
  intros F T. unfold amp2db. rewrite vabs_fabs. set (y := fabs x).
  assert (Fy : isfin y = true) by (unfold y; rewrite isfin_fabs; exact F). assert (Ty : ~ tiny y) by (intros Q; apply T, tiny_fabs, Q). assert (Sy : sgn y = false) by apply sgn_fabs.
  assert (VY : Rabs (val x) = val y) by (unfold y; rewrite val_fabs; reflexivity). rewrite VY.
  destruct (ofZ_rel 20 ltac:(lia)) as [F20 E20]. destruct (log10_accurate y Fy Ty Sy) as [FL EL]. destruct (ln_normal y Fy Ty Sy) as [_ B]. pose proof inv10 as I10.
  assert (R : rel (vec_log10 c I n k y) (ln (val y) / ln 10) 5e-7 0) by (split; [exact FL|lra]).
  assert (BL : Rabs (ln (val y) / ln 10) <= 45) by (unfold Rdiv; rewrite Rabs_mult, (Rabs_pos_eq (/ ln 10)) by lra; nra).
  destruct (rel_mulc n _ _ _ 20 _ _ 0 R F20 E20) as [[A C] _]; try lra. split; [exact A|]. rewrite (Rmult_comm 20).
  destruct (log_zero_or y Fy Ty Sy) as [Z|N].
  - rewrite (ln_val_zero y Fy Ty Sy Z). unfold vec_log10. rewrite Z. destruct rl10_ok as [F2 V2].
    assert (SG : sgn (rlog k (f_dec F64 2302585092994045684017991454684 30)) = false) by (vm_compute; reflexivity).
    repeat rewrite zero_times by (auto; reflexivity). destruct zero_ok as (_ & V & _). rewrite V. unfold Rdiv. rewrite !Rmult_0_l, Rminus_0_r, Rabs_R0. lra.
  - assert (1e-9 <= Rabs (ln (val y) / ln 10 * 20)) by (unfold Rdiv; rewrite !Rabs_mult, (Rabs_pos_eq (/ ln 10)), (Rabs_pos_eq 20) by lra; nra).
    pose proof eta_tiny. lra.
Qed.
Lemma ratio2midi_accurate x : isfin x = true -> ~ tiny x -> sgn x = false ->
  isfin (ratio2midi c I n k x) = true /\ Rabs (val (ratio2midi c I n k x) - 12 * (ln (val x) / ln 2)) <= 6e-7 * Rabs (12 * (ln (val x) / ln 2)).
Proof.
  intros F T S. unfold ratio2midi. destruct (ofZ_rel 12 ltac:(lia)) as [F20 E20]. destruct (log2_accurate x F T S) as [FL EL]. destruct (ln_normal x F T S) as [_ B]. pose proof inv2 as I2.
  assert (R : rel (vec_log2 c I n k x) (ln (val x) / ln 2) 5e-7 0) by (split; [exact FL|lra]).
  assert (BL : Rabs (ln (val x) / ln 2) <= 150) by (unfold Rdiv; rewrite Rabs_mult, (Rabs_pos_eq (/ ln 2)) by lra; nra).
  destruct (rel_mulc n _ _ _ 12 _ _ 0 R F20 E20) as [_ [A C]]; try lra. split; [exact A|]. rewrite (Rmult_comm 12).
  destruct (log_zero_or x F T S) as [Z|N].
  - rewrite (ln_val_zero x F T S Z). unfold vec_log2. rewrite Z. destruct rl2_ok as [F2 V2].
    assert (SG : sgn (rlog k (f_dec F64 693147180559945309417232121458 30)) = false) by (vm_compute; reflexivity).
    rewrite zero_times by assumption. replace (fmul n (f_ofZ F32 12) (f_ofZ F32 0)) with (f_ofZ F32 0) by reflexivity.
    destruct zero_ok as (_ & V & _). rewrite V. unfold Rdiv. rewrite !Rmult_0_l, Rminus_0_r, Rabs_R0. lra.
  - assert (1e-9 <= Rabs (ln (val x) / ln 2 * 12)) by (unfold Rdiv; rewrite !Rabs_mult, (Rabs_pos_eq (/ ln 2)), (Rabs_pos_eq 12) by lra; nra).
    pose proof eta_tiny. lra.
Qed.
Lemma big_not_tiny (y : F F32) : 1e-37 <= val y -> ~ tiny y.
Proof.
  intros B [_ Q]. rewrite Rabs_pos_eq in Q by lra. assert (bpow radix2 (-126) <= 1.2e-38) by (change (bpow radix2 (-126)) with (/ 85070591730234615865843651857942052864); lra). lra.
Qed.
Lemma log2_combine (q a b : R) : Rabs (a - b) <= 1.0411e-7 -> Rabs (q - a / ln 2) <= 4.92e-7 * Rabs (a / ln 2) + 1e-10 -> Rabs a <= 90 ->
  Rabs (q - b / ln 2) <= 4.95e-7 * Rabs (b / ln 2) + 1.6e-7 /\ Rabs (b / ln 2) <= 150.
Proof.
  intros H1 H2 H3. pose proof inv2 as I2. 
  assert (D : Rabs (a / ln 2 - b / ln 2) <= 1.51e-7).
  { replace (a / ln 2 - b / ln 2) with ((a - b) * / ln 2) by (unfold Rdiv; ring). rewrite Rabs_mult, (Rabs_pos_eq (/ ln 2)) by lra. nra. }
  assert (BA : Rabs (b / ln 2) <= Rabs (a / ln 2) + 1.51e-7) by (replace (b / ln 2) with (a / ln 2 - (a / ln 2 - b / ln 2)) by ring; eapply Rle_trans; [apply Rabs_triang|rewrite Rabs_Ropp; lra]).
  assert (AB : Rabs (a / ln 2) <= Rabs (b / ln 2) + 1.51e-7) by (replace (a / ln 2) with (b / ln 2 + (a / ln 2 - b / ln 2)) by ring; eapply Rle_trans; [apply Rabs_triang|lra]).
  assert (Rabs (a / ln 2) <= 140) by (unfold Rdiv; rewrite Rabs_mult, (Rabs_pos_eq (/ ln 2)) by lra; nra). split; [|lra].
  replace (q - b / ln 2) with ((q - a / ln 2) + (a / ln 2 - b / ln 2)) by ring. eapply Rle_trans; [apply Rabs_triang|]. pose proof (Rabs_pos (b / ln 2)). lra.
Qed.
Lemma log2_at (y : F F32) X : isfin y = true -> sgn y = false -> 2e-35 <= X -> Rabs (val y - X) <= 1.04e-7 * X ->
  rel (vec_log2 c I n k y) (ln X / ln 2) 4.95e-7 1.6e-7 /\ Rabs (ln X / ln 2) <= 150.
Proof.
  intros Fy Sy BX E. assert (Ty : ~ tiny y) by (apply big_not_tiny; apply Rabs_le_inv in E; lra).
  pose proof (log2_rel y Fy Ty Sy) as [A C]. pose proof (ln_normal y Fy Ty Sy) as [_ BL]. pose proof eta_tiny as ET.
  pose proof (ln_near (val y) X _ ltac:(lra) E ltac:(lra)) as LN.
  destruct (log2_combine (val (vec_log2 c I n k y)) (ln (val y)) (ln X)) as [U V]; [lra|lra|exact BL|]. split; [split; [exact A|exact U]|exact V].
Qed.
(** The common part of freq2midi and freq2oct. *)
Lemma freq_scaled f : isfin f = true -> 1e-32 <= Rabs (val f) <= 1e33 ->
  isfin (fabs (fmul n f (litd 22727272727 13))) = true /\ Rabs (val (fabs (fmul n f (litd 22727272727 13))) - Rabs (val f) / 440) <= 1.04e-7 * (Rabs (val f) / 440).
Proof.
  intros F B. destruct lit440 as [F4 V4]. pose proof eta_small as ES. pose proof eta_tiny as ET.
  destruct (rel_mulc n f _ (val f) (/ 440) 0 0 4e-8 (rel_exact f F) F4 V4) as [R _]; try lra. apply (val_abs_err 0) in R. destruct R as [A R]. split; [exact A|].
  rewrite Rabs_mult, (Rabs_pos_eq (/ 440)) in R by lra. unfold Rdiv. rewrite (Rabs_pos_eq (Rabs (val f) * / 440)) in R by lra. lra.
Qed.
Lemma freq_log f : isfin f = true -> 1e-32 <= Rabs (val f) <= 1e33 ->
  rel (abs_log2 c I n k (fmul n f (litd 22727272727 13))) (ln (Rabs (val f) / 440) / ln 2) 4.95e-7 1.6e-7 /\ Rabs (ln (Rabs (val f) / 440) / ln 2) <= 150.
Proof.
  intros F B. destruct (freq_scaled f F B) as [A C]. unfold abs_log2. rewrite vabs_fabs. apply log2_at; [exact A|apply sgn_fabs|lra|exact C].
Qed.
Lemma rel_add (f g : F F32) r a b : rel f r a b -> isfin g = true -> Rabs r <= 1e6 -> Rabs (val g) <= 1000 -> 0 <= a <= 1e-3 -> 0 <= b <= 1 ->
  isfin (fadd n f g) = true /\ Rabs (val (fadd n f g) - (r + val g)) <= a * Rabs r + b + / 16777216 * (Rabs (r + val g) + a * Rabs r + b) + eta.
Proof.
  intros [A B] G Br Bg Ha Hb. pose proof (Rabs_pos r). pose proof eta_small. pose proof p127.
  assert (D : Rabs (val f + val g - (r + val g)) <= a * Rabs r + b) by (replace (val f + val g - (r + val g)) with (val f - r) by ring; exact B).
  assert (S : Rabs (val f + val g) <= Rabs (r + val g) + (a * Rabs r + b)) by (replace (val f + val g) with ((r + val g) + (val f + val g - (r + val g))) by ring; eapply Rle_trans; [apply Rabs_triang|lra]).
  assert (S2 : Rabs (r + val g) <= 1e6 + 1000) by (eapply Rle_trans; [apply Rabs_triang|lra]).
  destruct (fadd_fin n f g A G) as (C & E & _); [apply big_fin; nra|]. split; [exact C|]. rewrite E. pose proof (rnd_eta (val f + val g)).
  replace (rnd F32 (val f + val g) - (r + val g)) with ((rnd F32 (val f + val g) - (val f + val g)) + (val f + val g - (r + val g))) by ring.
  eapply Rle_trans; [apply Rabs_triang|]. lra.
Qed.
Lemma freq2midi_accurate f : isfin f = true -> 1e-32 <= Rabs (val f) <= 1e33 -> let z := 12 * (ln (Rabs (val f) / 440) / ln 2) in
  isfin (freq2midi c I n k f) = true /\ Rabs (val (freq2midi c I n k f) - (69 + z)) <= 7e-6 + 7e-7 * Rabs z.
Proof.
  intros F B z. destruct (freq_log f F B) as [R BL]. unfold freq2midi. destruct (ofZ_rel 12 ltac:(lia)) as [F12 E12]. destruct (ofZ_small 69 ltac:(lia)) as (F69 & V69 & _). pose proof eta_small.
  destruct (rel_mulc n _ _ _ 12 _ _ 0 R F12 E12) as [R2 _]; try lra. replace (ln (Rabs (val f) / 440) / ln 2 * 12) with z in R2 by (unfold z; ring).
  assert (Bz : Rabs z <= 1800) by (unfold z; rewrite Rabs_mult, (Rabs_pos_eq 12) by lra; lra).
  destruct (rel_add _ (f_ofZ F32 69) _ _ _ R2 F69) as [A C]; rewrite ?V69, ?(Rabs_pos_eq 69) in *; try lra. split; [exact A|]. rewrite (Rplus_comm 69).
  assert (Rabs (z + 69) <= Rabs z + 69) by (eapply Rle_trans; [apply Rabs_triang|rewrite (Rabs_pos_eq 69); lra]). pose proof (Rabs_pos z). lra.
Qed.
Lemma freq2oct_accurate f : isfin f = true -> 1e-32 <= Rabs (val f) <= 1e33 -> let z := ln (Rabs (val f) / 440) / ln 2 in
  isfin (freq2oct c I n k f) = true /\ Rabs (val (freq2oct c I n k f) - (4.75 + z)) <= 5e-7 + 6e-7 * Rabs z.
Proof.
  intros F B z. destruct (freq_log f F B) as [R BL]. unfold freq2oct. destruct litd_475_2 as (F4 & _ & _). pose proof val_litd_475_2 as V4. pose proof eta_tiny. pose proof eta_small.
  fold z in R, BL. destruct (rel_add _ (litd 475 2) _ _ _ R F4) as [A C]; rewrite ?V4, ?(Rabs_pos_eq (19 / 4)) in *; try lra. split; [exact A|]. rewrite (Rplus_comm 4.75). replace 4.75 with (19 / 4) by lra.
  assert (Rabs (z + 19 / 4) <= Rabs z + 19 / 4) by (eapply Rle_trans; [apply Rabs_triang|rewrite (Rabs_pos_eq (19 / 4)); lra]). pose proof (Rabs_pos z). lra.
Qed.
(** ** Round trips *)
Lemma midi_range z f : - 69 <= z <= 58 -> Rabs (f - 440 * Rpower 2 (z / 12)) <= (6e-7 + 5e-8 * Rabs z) * (440 * Rpower 2 (z / 12)) -> 7 <= f <= 14000 /\ Rabs (ln (f / 440) - z / 12 * ln 2) <= 4.2e-6.
Proof.
  intros ZB C. pose proof ln2_range as L2. unfold Rpower in C. set (T := z / 12 * ln 2) in *. assert (BT : - 4 <= T <= 3.4) by (unfold T; nra).
  assert (E : 0.018 <= exp T <= 30) by (split; [apply exp_lo|apply exp_hi]; lra). assert (AZ : Rabs z <= 69) by (apply Rabs_le; lra).
  assert (C' : Rabs (f - 440 * exp T) <= 4.1e-6 * (440 * exp T)) by (eapply Rle_trans; [exact C|]; apply Rmult_le_compat_r; lra).
  split; [apply Rabs_le_inv in C'; lra|]. apply Rle_trans with (1.001 * 4.1e-6); [|lra]. rewrite <- (ln_exp T) at 1. apply ln_near; [apply exp_pos| |lra].
  replace (f / 440 - exp T) with ((f - 440 * exp T) * / 440) by field. rewrite Rabs_mult, (Rabs_pos_eq (/ 440)) by lra. lra.
Qed.
Lemma midi_back z l q : - 69 <= z <= 58 -> Rabs (l - z / 12 * ln 2) <= 4.2e-6 ->
  Rabs (q - (69 + 12 * (l / ln 2))) <= 7e-6 + 7e-7 * Rabs (12 * (l / ln 2)) -> Rabs (q - (69 + z)) <= 2e-4.
Proof.
  intros ZB LN H. pose proof inv2 as I2. pose proof ln2_range as L2. set (w := 12 * (l / ln 2)) in *. assert (AZ : Rabs z <= 69) by (apply Rabs_le; lra).
  assert (W : Rabs (w - z) <= 7.4e-5).
  { replace (w - z) with (12 * (/ ln 2) * (l - z / 12 * ln 2)) by (unfold w; field; lra). rewrite !Rabs_mult, (Rabs_pos_eq 12), (Rabs_pos_eq (/ ln 2)) by lra.
    pose proof (Rabs_pos (l - z / 12 * ln 2)). nra. }
  assert (WB : Rabs w <= 70) by (replace w with (z + (w - z)) by ring; eapply Rle_trans; [apply Rabs_triang|]; lra).
  replace (q - (69 + z)) with ((q - (69 + w)) + (w - z)) by ring. eapply Rle_trans; [apply Rabs_triang|]. lra.
Qed.
Lemma roundtrip_midi m : isfin m = true -> 0 <= val m <= 127 ->
  isfin (freq2midi c I n k (midi2freq c I n m)) = true /\ Rabs (val (freq2midi c I n k (midi2freq c I n m)) - val m) <= 2e-4.
Proof.
  intros F B. destruct (midi2freq_accurate m F ltac:(apply Rabs_le; lra)) as [A C].
  destruct (midi_range (val m - 69) _ ltac:(lra) C) as [PF LN].
  destruct (freq2midi_accurate _ A ltac:(rewrite Rabs_pos_eq; lra)) as [G H]. split; [exact G|]. rewrite (Rabs_pos_eq (val (midi2freq c I n m))) in H by lra.
  pose proof (midi_back (val m - 69) _ _ ltac:(lra) LN H) as Q. replace (69 + (val m - 69)) with (val m) in Q by ring. exact Q.
Qed.
Lemma db_range z f : Rabs z <= 200 -> Rabs (f - Rpower 10 (z / 20)) <= (5.1e-7 + 1e-7 * Rabs z) * Rpower 10 (z / 20) ->
  9e-12 <= f /\ Rabs (ln f - z / 20 * ln 10) <= 2.1e-5.
Proof.
  intros B C. pose proof ln10_range as L2. pose proof (Rabs_pos z) as PD. unfold Rpower in C. set (T := z / 20 * ln 10) in *. assert (BT : Rabs T <= 23.1).
  { unfold T, Rdiv. rewrite !Rabs_mult, (Rabs_pos_eq (/ 20)), (Rabs_pos_eq (ln 10)) by lra. nra. }
  assert (EL : 9.1e-11 <= exp T) by (apply Rabs_le_inv in BT; apply exp_lo23; lra).
  assert (C' : Rabs (f - exp T) <= 2.06e-5 * exp T) by (eapply Rle_trans; [exact C|]; apply Rmult_le_compat_r; lra).
  split; [apply Rabs_le_inv in C'; lra|]. apply Rle_trans with (1.001 * 2.06e-5); [|lra]. rewrite <- (ln_exp T) at 1. apply ln_near; [apply exp_pos|exact C'|lra].
Qed.
Lemma db_back z l q : Rabs z <= 200 -> Rabs (l - z / 20 * ln 10) <= 2.1e-5 ->
  Rabs (q - 20 * (l / ln 10)) <= 6e-7 * Rabs (20 * (l / ln 10)) -> Rabs (q - z) <= 4e-4.
Proof.
  intros ZB LN H. pose proof inv10 as I2. pose proof ln10_range as L2. set (w := 20 * (l / ln 10)) in *.
  assert (W : Rabs (w - z) <= 1.9e-4).
  { replace (w - z) with (20 * (/ ln 10) * (l - z / 20 * ln 10)) by (unfold w; field; lra). rewrite !Rabs_mult, (Rabs_pos_eq 20), (Rabs_pos_eq (/ ln 10)) by lra.
    pose proof (Rabs_pos (l - z / 20 * ln 10)). nra. }
  assert (WB : Rabs w <= 201) by (replace w with (z + (w - z)) by ring; eapply Rle_trans; [apply Rabs_triang|]; lra).
  replace (q - z) with ((q - w) + (w - z)) by ring. eapply Rle_trans; [apply Rabs_triang|]. lra.
Qed.
Lemma roundtrip_db d : isfin d = true -> Rabs (val d) <= 200 ->
  isfin (amp2db c I n k (db2amp c I n d)) = true /\ Rabs (val (amp2db c I n k (db2amp c I n d)) - val d) <= 4e-4.
Proof.
  intros F B. destruct (db2amp_accurate d F ltac:(lra)) as [A C]. destruct (db_range _ _ B C) as [PF LN].
  destruct (amp2db_accurate (db2amp c I n d) A (big_not_tiny (db2amp c I n d) ltac:(lra))) as [G H]. split; [exact G|]. rewrite (Rabs_pos_eq (val (db2amp c I n d))) in H by lra.
  exact (db_back _ _ _ B LN H).
Qed.
(** ** Exact points *)
Lemma midi2freq_69 : bits (midi2freq c I n (f_ofZ F32 69)) = bits (f_ofZ F32 440).
Proof. clear k. destruct HI as [-> | ->]; [destruct c as [[] ? [] ?]|]; vm_compute; reflexivity. Qed.
Lemma oct2freq_475 : bits (oct2freq c I n (litd 475 2)) = bits (f_ofZ F32 440).
Proof. clear k. destruct HI as [-> | ->]; [destruct c as [[] ? [] ?]|]; vm_compute; reflexivity. Qed.
Lemma midi2ratio_0 : bits (midi2ratio c I n (f_ofZ F32 0)) = bits (f_ofZ F32 1).
Proof. clear k. destruct HI as [-> | ->]; [destruct c as [[] ? [] ?]|]; vm_compute; reflexivity. Qed.
Lemma db2amp_0 : bits (db2amp c I n (f_ofZ F32 0)) = bits (f_ofZ F32 1).
Proof. clear k. destruct HI as [-> | ->]; [destruct c as [[] ? [] ?]|]; vm_compute; reflexivity. Qed.
Lemma amp2db_1 : bits (amp2db c I n k (f_ofZ F32 1)) = bits (f_ofZ F32 0).
Proof. destruct HI as [-> | ->]; [destruct c as [[] ? [] ?]|]; vm_compute; reflexivity. Qed.
Lemma ratio2midi_1 : bits (ratio2midi c I n k (f_ofZ F32 1)) = bits (f_ofZ F32 0).
Proof. destruct HI as [-> | ->]; [destruct c as [[] ? [] ?]|]; vm_compute; reflexivity. Qed.
(** ** Signs are ignored *)
Lemma amp2db_even x : amp2db c I n k (fneg x) = amp2db c I n k x.
Proof. unfold amp2db. rewrite !vabs_fabs, fabs_fneg. reflexivity. Qed.
End U.
