(** Division and square root on NEON: error bounds and special cases. *)
From Coq Require Import ZArith Reals List Lia Lra Bool.
From Flocq Require Import Core IEEE754.Binary IEEE754.Bits.
From Verif Require Import Base Backend Lanes Float LaneOps VecMath Estimate SpecLane SpecRound SpecInt SpecMath FloatFacts FloatRound LaneFacts VecFacts VecMore VecMore2
  RoundFacts RoundMore RoundMore2 IntFacts LdexpFacts ErrFacts NearFacts TransFacts RecipFacts EstFacts.
Local Open Scope R_scope.

Section N.
Context (n : nans F32).
Lemma two_ok : isfin (f_ofZ F32 2) = true /\ val (f_ofZ F32 2) = 2.
Proof. destruct (ofZ_exact (t := F32) 2) as (A & B & C); [cbv; discriminate|]. auto. Qed.

(** ** The Newton step *)
Lemma not_special (x : F F32) : (1 <= efield x <= 254)%Z ->
  ((exp_field x =? 255)%Z && (frac_field x =? 0)%Z = false) /\ ((exp_field x =? 0)%Z = false).
Proof. intros H. rewrite exp_field_ok. split; [apply andb_false_intro1|]; apply Z.eqb_neq; lia. Qed.
Lemma vrecps_ok (fused : bool) (x r : F F32) : (1 <= efield x <= 254)%Z -> isfin x = true -> isfin r = true ->
  Rabs (val r * val x - 1) <= 187 / 65536 ->
  isfin (vrecps n fused x r) = true /\ Rabs (val (vrecps n fused x r) - (2 - val r * val x)) <= / 8388608.
Proof.
  intros E Fx Fr H. apply Rabs_le_inv in H. destruct (not_special x E) as [S1 S2]. unfold vrecps. cbv zeta. rewrite S1, S2. cbn [andb orb].
  destruct two_ok as [F2 V2]. set (p := val r * val x) in *.
  assert (B1 : Rabs p <= bpow radix2 1) by (change (bpow radix2 1) with 2; apply Rabs_le; lra).
  destruct fused.
  - destruct (ffma_fin n (fneg x) r (f_ofZ F32 2)) as (A & B); [rewrite isfin_fneg; exact Fx|exact Fr|exact F2| |].
    + rewrite val_fneg, V2. replace (- val x * val r + 2) with (2 - p) by (unfold p; ring). apply (b126 _ 2); [apply Rabs_le; lra|]. change 2 with (bpow radix2 1). apply bpow_le; lia.
    + split; [exact A|]. rewrite B, val_fneg, V2. replace (- val x * val r + 2) with (2 - p) by (unfold p; ring).
      pose proof (rnd_err 1 (2 - p) ltac:(lia) ltac:(change (bpow radix2 1) with 2; apply Rabs_le; lra)) as Q. change (bpow radix2 (1 - 25)) with (/ 16777216) in Q. lra.
  - destruct (fmul_fin n x r Fx Fr) as (A & B & _).
    { rewrite Rmult_comm. fold p. eapply b126; [exact B1|apply bpow_le; lia]. }
    rewrite (Rmult_comm (val x)) in B. fold p in B. pose proof (rnd_err 1 p ltac:(lia) B1) as Q. rewrite <- B in Q. change (bpow radix2 (1 - 25)) with (/ 16777216) in Q.
    set (y := fmul n x r) in *. clearbody y. apply Rabs_le_inv in Q.
    assert (B2 : Rabs (2 - val y) <= bpow radix2 1) by (change (bpow radix2 1) with 2; apply Rabs_le; lra).
    destruct (fsub_fin n (f_ofZ F32 2) y F2 A) as (C & D & _).
    { rewrite V2. eapply b126; [exact B2|apply bpow_le; lia]. }
    split; [exact C|]. rewrite V2 in D. pose proof (rnd_err 1 _ ltac:(lia) B2) as Q2. rewrite <- D in Q2. change (bpow radix2 (1 - 25)) with (/ 16777216) in Q2. apply Rabs_le_inv in Q2. apply Rabs_le. lra.
Qed.

Lemma neon_recip_times (fused : bool) (x : F F32) : isfin x = true -> bpow radix2 (-126) <= Rabs (val x) <= bpow radix2 125 ->
  isfin (neon_reciprocal n fused x) = true /\ Rabs (val (neon_reciprocal n fused x) * val x - 1) <= 8.4e-6.
Proof.
  intros Fx Bx. pose proof (normal_e x Fx (proj1 Bx)) as E.
  assert (E' : (1 <= efield x <= 252)%Z).
  { split; [lia|]. apply (efield_lt x 126); [lia|]. eapply Rle_lt_trans; [apply Bx|]. apply bpow_lt; lia. }
  destruct (vrecpe_ok n x E') as (Fr & _ & D). unfold neon_reciprocal. cbv zeta.
  destruct (vrecps_ok fused x (vrecpe n x) E Fx Fr D) as (Ft & T).
  set (r := vrecpe n x) in *. set (t := vrecps n fused x r) in *. clearbody t r.
  apply Rabs_le_inv in D. apply Rabs_le_inv in T. set (d := val r * val x - 1) in *. assert (RX : val r * val x = 1 + d) by (unfold d; ring).
  rewrite RX in T. clearbody d.
  pose proof (bpow_gt_0 radix2 (-126)) as PM. assert (X0 : 0 < Rabs (val x)) by lra.
  assert (TB : 0.997 <= val t <= 1.003) by lra.
  assert (PT : Rabs (val r * val t) * Rabs (val x) = (1 + d) * val t).
  { rewrite <- Rabs_mult. replace (val r * val t * val x) with (val r * val x * val t) by ring. rewrite RX. apply Rabs_pos_eq. apply Rmult_le_pos; lra. }
  assert (PB : (1 + d) * val t <= 1.01).
  { apply Rle_trans with (1.003 * 1.003); [|lra]. apply Rmult_le_compat; lra. }
  assert (RB : Rabs (val r * val t) <= bpow radix2 127).
  { assert (Q : Rabs (val r * val t) * bpow radix2 (-126) <= 1.01).
    { eapply Rle_trans; [apply Rmult_le_compat_l; [apply Rabs_pos|apply Bx]|]. lra. }
    apply Rmult_le_reg_r with (bpow radix2 (-126)); [exact PM|]. rewrite <- bpow_plus. change (bpow radix2 (127 + -126)) with 2. lra. }
  destruct (fmul_fin n r t Fr Ft) as (A & B & _); [eapply b126; [exact RB|lra]|].
  split; [exact A|]. pose proof (rnd_eta (val r * val t)) as Q. rewrite <- B in Q. set (v := val (fmul n r t)) in *. clearbody v.
  assert (EN : eta * Rabs (val x) <= / 16777216).
  { assert (EE : eta * bpow radix2 125 = / 16777216) by (unfold eta; rewrite <- bpow_plus; reflexivity).
    rewrite <- EE. apply Rmult_le_compat_l; [apply bpow_ge_0|apply Bx]. }
  assert (Q' : Rabs (v * val x - val r * val t * val x) <= / 16777216 * 1.01 + / 2 * / 16777216).
  { replace (v * val x - val r * val t * val x) with ((v - val r * val t) * val x) by ring. rewrite Rabs_mult.
    eapply Rle_trans; [apply Rmult_le_compat_r; [apply Rabs_pos|exact Q]|]. rewrite Rmult_plus_distr_r, !Rmult_assoc, PT. lra. }
  replace (val r * val t * val x) with ((1 + d) * val t) in Q' by (rewrite <- RX; ring).
  set (q := val t - (1 - d)) in *. assert (Eq : val t = 1 - d + q) by (unfold q; ring).
  assert (HQ : - / 8388608 <= q <= / 8388608) by (unfold q; lra). rewrite Eq in Q'. clearbody q.
  replace ((1 + d) * (1 - d + q)) with (1 - d * d + (1 + d) * q) in Q' by ring.
  assert (DD : 0 <= d * d <= 187 / 65536 * (187 / 65536)).
  { split; [apply Rle_0_sqr|]. rewrite <- (Rabs_pos_eq (d * d)) by apply Rle_0_sqr. rewrite Rabs_mult. apply Rmult_le_compat; try apply Rabs_pos; apply Rabs_le; lra. }
  assert (DQ : Rabs ((1 + d) * q) <= 1.003 * / 8388608).
  { rewrite Rabs_mult. apply Rmult_le_compat; try apply Rabs_pos; apply Rabs_le; lra. }
  apply Rabs_le_inv in DQ. apply Rabs_le_inv in Q'. apply Rabs_le. lra.
Qed.

Lemma neon_recip_close (fused : bool) (x : F F32) : isfin x = true -> bpow radix2 (-126) <= Rabs (val x) <= bpow radix2 125 ->
  close 8.4e-6 (neon_reciprocal n fused x) (/ val x).
Proof.
  intros Fx Bx. destruct (neon_recip_times fused x Fx Bx) as [A B]. split; [exact A|]. apply inv_error; [|exact B].
  intros Z. rewrite Z, Rabs_R0 in Bx. pose proof (bpow_gt_0 radix2 (-126)). lra.
Qed.
Lemma neon_fast_close (x : F F32) : isfin x = true -> bpow radix2 (-126) <= Rabs (val x) < bpow radix2 126 ->
  close (187 / 65536) (neon_fast_reciprocal n x) (/ val x).
Proof.
  intros Fx Bx. pose proof (normal_e x Fx (proj1 Bx)) as E. pose proof (efield_lt x 126 E (proj2 Bx)) as E2.
  destruct (vrecpe_ok n x ltac:(lia)) as (A & _ & B). split; [exact A|]. apply inv_error; [|exact B].
  intros Z. rewrite Z, Rabs_R0 in Bx. pose proof (bpow_gt_0 radix2 (-126)). lra.
Qed.
(** The last multiplication. *)
Lemma times_recip (d e : R) (a r : F F32) (x : R) : isfin a = true -> isfin r = true -> x <> 0 -> 0 <= d <= 1e-5 -> d + 1e-7 <= e ->
  bpow radix2 (-125) <= Rabs (val a / x) <= bpow radix2 126 -> Rabs (val r * x - 1) <= d ->
  close e (fmul n a r) (val a / x).
Proof.
  intros Fa Fr X D E B H. set (y := val a / x) in *. assert (AY : val a = y * x) by (unfold y; field; exact X). clearbody y.
  set (h := val r * x - 1) in *. assert (P : val a * val r = y * (1 + h)) by (rewrite AY; unfold h; ring). clearbody h. apply Rabs_le_inv in H.
  pose proof (Rabs_pos y) as YP.
  assert (PB : Rabs (val a * val r) <= 1.00001 * Rabs y) by (rewrite P, Rabs_mult, Rmult_comm; apply Rmult_le_compat_r; [exact YP|apply Rabs_le; lra]).
  assert (P' : bpow radix2 127 = 2 * bpow radix2 126) by (change 2 with (bpow radix2 1); rewrite <- bpow_plus; reflexivity).
  pose proof (bpow_gt_0 radix2 126) as PP.
  destruct (fmul_fin n a r Fa Fr) as (A & V & _); [eapply b126; [exact PB|lra]|]. split; [exact A|].
  pose proof (rnd_eta (val a * val r)) as Q. rewrite <- V in Q. set (v := val (fmul n a r)) in *. clearbody v.
  assert (EN : eta <= / 16777216 * Rabs y).
  { assert (EE : eta = / 16777216 * bpow radix2 (-125)) by (unfold eta; change (/ 16777216) with (bpow radix2 (-24)); rewrite <- bpow_plus; reflexivity). rewrite EE. apply Rmult_le_compat_l; lra. }
  replace (v - y) with ((v - val a * val r) + y * h) by (rewrite P; ring).
  eapply Rle_trans; [apply Rabs_triang|]. rewrite (Rabs_mult y).
  assert (HH : Rabs y * Rabs h <= Rabs y * d) by (apply Rmult_le_compat_l; [exact YP|apply Rabs_le; lra]).
  assert (EE : (d + 1e-7) * Rabs y <= e * Rabs y) by (apply Rmult_le_compat_r; lra). lra.
Qed.
Lemma neon_div_close (fused : bool) (a b : F F32) : isfin a = true -> isfin b = true -> bpow radix2 (-126) <= Rabs (val b) <= bpow radix2 125 ->
  bpow radix2 (-125) <= Rabs (val a / val b) <= bpow radix2 126 ->
  close 8.5e-6 (neon_div n fused a b) (val a / val b).
Proof.
  intros Fa Fb Bb B. destruct (neon_recip_times fused b Fb Bb) as [A H]. unfold neon_div. cbv zeta. fold (neon_reciprocal n fused b).
  apply (times_recip 8.4e-6); try assumption; try lra.
  intros Z. rewrite Z, Rabs_R0 in Bb. pose proof (bpow_gt_0 radix2 (-126)). lra.
Qed.

(** ** Square root *)
Lemma sqrt_between (q s w : R) : 0 <= s -> 0 <= w -> w * w = q * (s * s) -> 33333419 / 33554432 <= q <= 33775000 / 33554432 ->
  0.9967009 * s <= w <= 1.0032815 * s.
Proof.
  intros S W E H. split.
  - apply Rsqr_incr_0_var; [|exact W]. unfold Rsqr. rewrite E. assert (0 <= s * s) by (apply Rmult_le_pos; exact S).
    replace (0.9967009 * s * (0.9967009 * s)) with (0.9967009 * 0.9967009 * (s * s)) by ring. apply Rmult_le_compat_r; lra.
  - apply Rsqr_incr_0_var; [|lra]. unfold Rsqr. rewrite E. assert (0 <= s * s) by (apply Rmult_le_pos; exact S).
    replace (1.0032815 * s * (1.0032815 * s)) with (1.0032815 * 1.0032815 * (s * s)) by ring. apply Rmult_le_compat_r; lra.
Qed.
Lemma neon_sqrt_close (x : F F32) : normal_positive x -> close 3.3e-3 (neon_sqrt n x) (sqrt (val x)) /\ sgn (neon_sqrt n x) = false.
Proof.
  intros [Fx Bx]. pose proof (bpow_gt_0 radix2 (-126)) as PM. assert (X0 : 0 < val x) by lra.
  pose proof (normal_e x Fx ltac:(rewrite Rabs_pos_eq; lra)) as E.
  assert (SX : sgn x = false).
  { rewrite (sgn_val_gen x Fx) in X0. destruct (sgn x); [|reflexivity]. pose proof (Rabs_pos (val x)). lra. }
  destruct (vrsqrte_ok n x E SX) as (Fr & R0 & Q). unfold neon_sqrt. set (r := vrsqrte n x) in *. clearbody r.
  set (s := sqrt (val x)). assert (SP : 0 < s) by (apply sqrt_lt_R0; exact X0). assert (SS : s * s = val x) by (apply sqrt_sqrt; lra).
  assert (W0 : 0 < val x * val r) by (apply Rmult_lt_0_compat; assumption).
  pose proof (sqrt_between (val x * (val r * val r)) s (val x * val r) ltac:(lra) ltac:(lra) ltac:(rewrite SS; ring) Q) as W.
  assert (SB : s <= bpow radix2 64).
  { unfold s. replace (bpow radix2 64) with (sqrt (bpow radix2 128)); [apply sqrt_le_1_alt; pose proof (val_lt_emax x) as VL; rewrite Rabs_pos_eq in VL by lra; change (bpow radix2 (emax F32)) with (bpow radix2 128) in VL; lra|].
    replace (bpow radix2 128) with (bpow radix2 64 * bpow radix2 64) by (rewrite <- bpow_plus; reflexivity). apply sqrt_square. apply bpow_ge_0. }
  assert (SL : bpow radix2 (-63) <= s).
  { unfold s. replace (bpow radix2 (-63)) with (sqrt (bpow radix2 (-126))); [apply sqrt_le_1_alt; lra|].
    replace (bpow radix2 (-126)) with (bpow radix2 (-63) * bpow radix2 (-63)) by (rewrite <- bpow_plus; reflexivity). apply sqrt_square. apply bpow_ge_0. }
  clearbody s. set (w := val x * val r) in *.
  assert (WB : Rabs w <= bpow radix2 65).
  { rewrite Rabs_pos_eq by lra. assert (EQ : bpow radix2 65 = 2 * bpow radix2 64) by (change 2 with (bpow radix2 1); rewrite <- bpow_plus; reflexivity). rewrite EQ. lra. }
  destruct (fmul_fin n x r Fx Fr) as (A & V & SG); [eapply b126; [exact WB|apply bpow_le; lia]|]. fold w in V.
  pose proof (rnd_eta w) as QE. rewrite <- V in QE. rewrite (Rabs_pos_eq w) in QE by lra.
  assert (EN : eta <= 1e-9 * s).
  { apply Rle_trans with (1e-9 * bpow radix2 (-63)); [|apply Rmult_le_compat_l; lra]. unfold eta.
    apply Rle_trans with (bpow radix2 (-30) * bpow radix2 (-63)); [rewrite <- bpow_plus; apply bpow_le; lia|]. apply Rmult_le_compat_r; [apply bpow_ge_0|]. change (bpow radix2 (-30)) with (/ 1073741824). lra. }
  split.
  - split; [exact A|]. rewrite (Rabs_pos_eq s) by lra. apply Rabs_le_inv in QE. apply Rabs_le. lra.
  - assert (VP : 0 < val (fmul n x r)) by (apply Rabs_le_inv in QE; lra).
    rewrite (sgn_val_gen _ A) in VP. destruct (sgn (fmul n x r)); [|reflexivity]. pose proof (Rabs_pos (val (fmul n x r))). lra.
Qed.
End N.
