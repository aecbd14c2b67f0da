(** One Newton step for the reciprocal; fused and unfused multiply-add. *)
From Coq Require Import ZArith Reals List Lia Lra Bool.
From Flocq Require Import Core IEEE754.Binary IEEE754.Bits.
From Verif Require Import Base Backend Lanes Float LaneOps ScalarMath VecMath IntVec TransMath SpecLane
  FloatFacts FloatRound LaneFacts VecFacts VecMore RoundMore ErrFacts LastStep NearFacts ExpMore TransFacts.
Local Open Scope R_scope.

Section R.
Context (c : cfg) (I : isa) (n : nans F32).
(** The two ways to compute a*b+x. *)
Lemma madd_cases (a b x : F F32) : madd c I n a b x = ffma n a b x \/ madd c I n a b x = fadd n (fmul n a b) x.
Proof. unfold madd. destruct I; auto. all: destruct (has_fma c); auto. Qed.
Lemma b126 r k : Rabs r <= k -> k <= bpow radix2 127 -> Rabs (rnd F32 r) < bpow radix2 (emax F32).
Proof. intros H K. eapply Rle_lt_trans; [apply (rnd_le_bpow 127); [lia|lra]|apply bpow_lt; reflexivity]. Qed.
Lemma madd_error (a b x : F F32) : isfin a = true -> isfin b = true -> isfin x = true ->
  Rabs (val a * val b) <= bpow radix2 125 -> Rabs (val x) <= 1.25 * bpow radix2 126 ->
  let e := / 16777216 * (Rabs (val a * val b + val x) + 1.001 * Rabs (val a * val b)) + 1.001 * eta in
  (isfin (ffma n a b x) = true /\ Rabs (val (ffma n a b x) - (val a * val b + val x)) <= e) /\
  (isfin (fadd n (fmul n a b) x) = true /\ Rabs (val (fadd n (fmul n a b) x) - (val a * val b + val x)) <= e).
Proof.
  intros Fa Fb Fx B1 B2 e. pose proof eta_small as ET.
  assert (P : bpow radix2 126 = 2 * bpow radix2 125) by (change 2 with (bpow radix2 1); rewrite <- bpow_plus; reflexivity).
  assert (P' : bpow radix2 127 = 4 * bpow radix2 125) by (change 4 with (bpow radix2 2); rewrite <- bpow_plus; reflexivity).
  pose proof (bpow_gt_0 radix2 125) as PP. assert (P1 : 1 <= bpow radix2 125) by (change 1 with (bpow radix2 0); apply bpow_le; lia).
  pose proof (Rabs_pos (val a * val b)) as N1. pose proof (Rabs_pos (val a * val b + val x)) as N2.
  assert (BS : Rabs (val a * val b + val x) <= bpow radix2 125 + 1.25 * bpow radix2 126) by (eapply Rle_trans; [apply Rabs_triang|lra]).
  pose proof (rnd_eta (val a * val b + val x)) as R1. pose proof (rnd_eta (val a * val b)) as R2. unfold e. split.
  - destruct (ffma_fin n a b x Fa Fb Fx) as (A & B); [eapply b126; [exact BS|lra]|]. split; [exact A|]. rewrite B. lra.
  - destruct (fmul_fin n a b Fa Fb) as (A & B & _); [eapply b126; [exact B1|lra]|].
    set (p := fmul n a b) in *. rewrite <- B in R2.
    assert (DS : Rabs (val p + val x - (val a * val b + val x)) <= / 16777216 * Rabs (val a * val b) + / 2 * eta) by (replace (val p + val x - (val a * val b + val x)) with (val p - val a * val b) by ring; exact R2).
    assert (BS' : Rabs (val p + val x) <= Rabs (val a * val b + val x) + (/ 16777216 * Rabs (val a * val b) + / 2 * eta)).
    { replace (val p + val x) with ((val a * val b + val x) + (val p + val x - (val a * val b + val x))) by ring. eapply Rle_trans; [apply Rabs_triang|]. lra. }
    destruct (fadd_fin n p x A Fx) as (C & D & _); [eapply b126; [exact BS'|lra]|]. split; [exact C|].
    pose proof (rnd_eta (val p + val x)) as R3. rewrite <- D in R3. set (r := val (fadd n p x)) in *.
    replace (r - (val a * val b + val x)) with ((r - (val p + val x)) + (val p + val x - (val a * val b + val x))) by ring.
    eapply Rle_trans; [apply Rabs_triang|]. lra.
Qed.
Lemma madd_exact (a b x : F F32) : isfin a = true -> isfin b = true -> isfin x = true -> fmtR F32 (val a * val b) ->
  Rabs (val a * val b) <= bpow radix2 125 -> Rabs (val x) <= 1.25 * bpow radix2 126 ->
  val (ffma n a b x) = val (fadd n (fmul n a b) x) /\ isfin (ffma n a b x) = true /\ isfin (fadd n (fmul n a b) x) = true.
Proof.
  intros Fa Fb Fx FM B1 B2. destruct (madd_error a b x Fa Fb Fx B1 B2) as ((A1 & _) & (A2 & _)). split; [|auto].
  assert (P : bpow radix2 126 = 2 * bpow radix2 125) by (change 2 with (bpow radix2 1); rewrite <- bpow_plus; reflexivity).
  assert (P' : bpow radix2 127 = 4 * bpow radix2 125) by (change 4 with (bpow radix2 2); rewrite <- bpow_plus; reflexivity).
  pose proof (bpow_gt_0 radix2 125) as PP.
  assert (BS : Rabs (val a * val b + val x) <= bpow radix2 125 + 1.25 * bpow radix2 126) by (eapply Rle_trans; [apply Rabs_triang|lra]).
  destruct (ffma_fin n a b x Fa Fb Fx) as (A & B); [eapply b126; [exact BS|lra]|].
  destruct (fmul_fin n a b Fa Fb) as (C & D & _); [eapply b126; [exact B1|lra]|]. rewrite rnd_id in D by exact FM.
  destruct (fadd_fin n (fmul n a b) x C Fx) as (E & G & _); [rewrite D; eapply b126; [exact BS|lra]|]. rewrite B, G, D. reflexivity.
Qed.

(** ** Reciprocal *)
Lemma inv_error (v x e : R) : x <> 0 -> Rabs (v * x - 1) <= e -> Rabs (v - / x) <= e * Rabs (/ x).
Proof.
  intros X H. replace (v - / x) with ((v * x - 1) * / x) by (field; exact X). rewrite Rabs_mult. apply Rmult_le_compat_r; [apply Rabs_pos|exact H].
Qed.
Lemma recip_newton (x r : F F32) : isfin x = true -> isfin r = true -> bpow radix2 (-126) <= Rabs (val x) <= bpow radix2 125 ->
  Rabs (val r * val x - 1) <= 1.5 / 4096 ->
  isfin (vec_reciprocal_newton c I n (fun _ => r) x) = true /\
  Rabs (val (vec_reciprocal_newton c I n (fun _ => r) x) * val x - 1) <= / 2097152.
Proof.
  intros Fx Fr Bx E0. unfold vec_reciprocal_newton. cbv zeta. rewrite gen_one_1. destruct one_ok as (F1 & V1 & _). pose proof eta_small as ET.
  set (d0 := val r * val x - 1) in *. assert (RX : val r * val x = 1 + d0) by (unfold d0; ring). apply Rabs_le_inv in E0.
  pose proof (bpow_gt_0 radix2 (-126)) as PM. assert (X0 : val x <> 0) by (intros E; rewrite E, Rabs_R0 in Bx; lra).
  assert (BP : Rabs (val r * val x) <= bpow radix2 1) by (change (bpow radix2 1) with 2; rewrite RX; apply Rabs_le; lra).
  assert (RB : Rabs (val r) <= bpow radix2 126 * 1.001).
  { assert (Q : Rabs (val r) * Rabs (val x) <= 1.0004) by (rewrite <- Rabs_mult, RX; apply Rabs_le; lra).
    assert (Q' : Rabs (val r) * bpow radix2 (-126) <= 1.0004) by (pose proof (Rabs_pos (val r)); nra).
    assert (E : bpow radix2 126 * bpow radix2 (-126) = 1) by (rewrite <- bpow_plus; reflexivity).
    apply Rmult_le_reg_r with (bpow radix2 (-126)); [exact PM|]. nra. }
  destruct (fmul_fin n r x Fr Fx) as (FP & VP & _).
  { eapply Rle_lt_trans; [apply (rnd_le_bpow 1); [lia|exact BP]|apply bpow_lt; reflexivity]. }
  pose proof (rnd_err 1 _ ltac:(lia) BP) as EP. rewrite <- VP in EP. change (bpow radix2 (1 - 25)) with (/ 16777216) in EP. set (P := fmul n r x) in *. rewrite RX in EP. apply Rabs_le_inv in EP.
  assert (BD : Rabs (1 - val P) <= bpow radix2 (-11)) by (change (bpow radix2 (-11)) with (/ 2048); apply Rabs_le; lra).
  destruct (fsub_fin n (f_ofZ F32 1) P F1 FP) as (FD & VD & _).
  { rewrite V1. eapply Rle_lt_trans; [apply (rnd_le_bpow (-11)); [lia|exact BD]|apply bpow_lt; reflexivity]. }
  rewrite V1 in VD. pose proof (rnd_err (-11) _ ltac:(lia) BD) as ED. rewrite <- VD in ED. change (bpow radix2 (-11 - 25)) with (/ 68719476736) in ED.
  set (D := fsub n (f_ofZ F32 1) P) in *. apply Rabs_le_inv in ED. apply Rabs_le_inv in BD. change (bpow radix2 (-11)) with (/ 2048) in BD.
  assert (BD2 : Rabs (val D) <= 1 / 2000) by (apply Rabs_le; lra).
  assert (B1 : Rabs (val D * val r) <= bpow radix2 125).
  { rewrite Rabs_mult. assert (P' : bpow radix2 126 = 2 * bpow radix2 125) by (change 2 with (bpow radix2 1); rewrite <- bpow_plus; reflexivity).
    pose proof (bpow_gt_0 radix2 125). pose proof (Rabs_pos (val D)). pose proof (Rabs_pos (val r)). nra. }
  assert (SC : forall v e, Rabs (v - (val D * val r + val r)) <= e -> e * Rabs (val x) <= 250e-9 -> Rabs (v * val x - 1) <= / 2097152).
  { clear - E0 EP BD ED BD2 RX. intros v e H1 H2. replace (v * val x - 1) with ((v - (val D * val r + val r)) * val x + ((val D + 1) * (1 + d0) - 1)) by (rewrite <- RX; ring).
    eapply Rle_trans; [apply Rabs_triang|]. rewrite Rabs_mult.
    assert (Rabs (v - (val D * val r + val r)) * Rabs (val x) <= e * Rabs (val x)) by (apply Rmult_le_compat_r; [apply Rabs_pos|exact H1]).
    assert (Rabs ((val D + 1) * (1 + d0) - 1) <= 196e-9); [|lra].
    set (e1 := val D + d0) in *. assert (E1 : - (60e-9) <= e1 <= 60e-9) by (unfold e1; lra).
    replace ((val D + 1) * (1 + d0) - 1) with (e1 * (1 + d0) - d0 * d0) by (unfold e1; ring). clear - E0 E1. assert (0 <= d0 * d0 <= 135e-9) by nra.
    apply Rabs_le. nra. }
  destruct (madd_error D r r FD Fr Fr B1 ltac:(pose proof (bpow_gt_0 radix2 126); lra)) as ((A1 & A2) & (A3 & A4)).
  assert (EX : (/ 16777216 * (Rabs (val D * val r + val r) + 1.001 * Rabs (val D * val r)) + 1.001 * eta) * Rabs (val x) <= 250e-9).
  { assert (EN : eta * bpow radix2 125 = / 16777216) by (unfold eta; rewrite <- bpow_plus; reflexivity).
    assert (EN' : eta * Rabs (val x) <= / 16777216) by (rewrite <- EN; apply Rmult_le_compat_l; [apply bpow_ge_0|apply Bx]).
    assert (Q1 : Rabs (val D * val r + val r) * Rabs (val x) <= 1.001).
    { rewrite <- Rabs_mult. replace ((val D * val r + val r) * val x) with ((val D + 1) * (1 + d0)) by (rewrite <- RX; ring). apply Rabs_le_inv in BD2. clear - E0 BD2. apply Rabs_le. nra. }
    assert (Q2 : Rabs (val D * val r) * Rabs (val x) <= 0.001).
    { rewrite <- Rabs_mult. replace (val D * val r * val x) with (val D * (1 + d0)) by (rewrite <- RX; ring). apply Rabs_le_inv in BD2. clear - E0 BD2. apply Rabs_le. nra. }
    rewrite Rmult_plus_distr_r, !Rmult_assoc, Rmult_plus_distr_r. rewrite Rmult_assoc. lra. }
  destruct (madd_cases D r r) as [-> | ->]; (split; [assumption|]); eapply SC; eauto.
Qed.
Lemma recip_accurate (x r : F F32) : isfin x = true -> isfin r = true -> bpow radix2 (-126) <= Rabs (val x) <= bpow radix2 125 ->
  Rabs (val r - / val x) <= 1.5 / 4096 * Rabs (/ val x) ->
  isfin (vec_reciprocal_newton c I n (fun _ => r) x) = true /\
  Rabs (val (vec_reciprocal_newton c I n (fun _ => r) x) - / val x) <= / 2097152 * Rabs (/ val x).
Proof.
  intros Fx Fr Bx E. assert (X0 : val x <> 0) by (intros Z; rewrite Z, Rabs_R0 in Bx; pose proof (bpow_gt_0 radix2 (-126)); lra).
  destruct (recip_newton x r Fx Fr Bx) as (A & B).
  - replace (val r * val x - 1) with ((val r - / val x) * val x) by (field; exact X0). rewrite Rabs_mult.
    eapply Rle_trans; [apply Rmult_le_compat_r; [apply Rabs_pos|exact E]|]. rewrite Rmult_assoc, <- Rabs_mult, Rinv_l, Rabs_R1 by exact X0. lra.
  - split; [exact A|]. apply inv_error; assumption.
Qed.
Lemma ffma_nan (a b x : F F32) : isnan a = true -> isnan (ffma n a b x) = true.
Proof. intros H; destruct a; try discriminate H; destruct b, x; cbn; first [reflexivity | apply pnan]. Qed.
Lemma zero_inf (x r : F F32) : isfin x = true -> val x = 0 -> isfin r = false -> isnan r = false -> isnan (fmul n r x) = true /\ isnan (fmul n x r) = true.
Proof.
  intros F V G N. destruct x as [s|s|s pl H|s m e H]; try discriminate F.
  - destruct r; try discriminate G; try discriminate N. split; cbn; first [reflexivity | apply pnan].
  - exfalso. revert V. unfold val, B2R. intros V. apply (F2R_neq_0 radix2) in V; [exact V|]. destruct s; discriminate.
Qed.
Lemma recip_nan (x r : F F32) : (isfin x = true /\ val x = 0 /\ isfin r = false /\ isnan r = false) \/
  (isfin x = false /\ isnan x = false /\ isfin r = true /\ val r = 0) ->
  isnan (vec_reciprocal_newton c I n (fun _ => r) x) = true.
Proof.
  intros H. unfold vec_reciprocal_newton. cbv zeta. set (o := gen_one c I : F F32). clearbody o.
  assert (A : isnan (fmul n r x) = true) by (destruct H as [(A & B & C & D) | (A & B & C & D)]; [apply (zero_inf x r A B C D)|apply (zero_inf r x C D A B)]).
  assert (B : isnan (fsub n o (fmul n r x)) = true) by (apply fsub_nan; right; exact A).
  destruct (madd_cases (fsub n o (fmul n r x)) r r) as [-> | ->]; [apply ffma_nan; exact B|].
  apply fadd_nan; left. apply fmul_nan; left. exact B.
Qed.
End R.
