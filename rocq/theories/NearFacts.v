(** Rounding errors relative to a scale: [near f r M e k s] says that the float
    f stands for the real r, where |r| <= M s and |f - r| <= e s + k 2^-149. *)
From Coq Require Import ZArith Reals List Lia Lra Bool.
From Flocq Require Import Core IEEE754.Binary IEEE754.Bits.
From Verif Require Import Base Backend Lanes Float LaneOps ScalarMath VecMath TransMath SpecLane
  FloatFacts FloatRound LaneFacts VecFacts VecMore RoundMore ErrFacts LastStep.
Local Open Scope R_scope.

(** Proof auxiliary: the least positive float. *)
Definition eta : R := bpow radix2 (-149).
Lemma eta_small : 0 < eta <= / 1000000000.
Proof.
  split; [apply bpow_gt_0|]. apply Rle_trans with (bpow radix2 (-30)); [apply bpow_le; lia|]. change (bpow radix2 (-30)) with (/ 1073741824). lra.
Qed.
Lemma rnd_eta r : Rabs (rnd F32 r - r) <= / 16777216 * Rabs r + / 2 * eta.
Proof.
  pose proof (rnd_rel r) as H. rewrite u_val in H. unfold eta. replace (/ 2 * bpow radix2 (-149)) with (bpow radix2 (-150)); [exact H|].
  change (/ 2) with (bpow radix2 (-1)). rewrite <- bpow_plus. reflexivity.
Qed.
(** Proof auxiliary: [f] is finite and within e*s + k*2^-149 of [r], and |r| <=
    M*s. *)
Record near (f : F F32) (r M e k s : R) : Prop := mk_near {
  n_fin : isfin f = true; n_abs : Rabs r <= M * s; n_err : Rabs (val f - r) <= e * s + k * eta;
  n_rng : 0 <= M <= 8 /\ 0 <= e <= 1 /\ 0 <= k <= 1000 /\ 0 <= s <= 1 }.
Lemma near_val f r M e k s : near f r M e k s -> Rabs (val f) <= (M + e) * s + k * eta.
Proof.
  intros [_ H1 H2 _]. replace (val f) with (r + (val f - r)) by ring. eapply Rle_trans; [apply Rabs_triang|]. lra.
Qed.
Lemma near_exact (f : F F32) : isfin f = true -> Rabs (val f) <= 1 -> near f (val f) 1 0 0 (Rabs (val f)).
Proof.
  intros H B. pose proof (Rabs_pos (val f)). split; [exact H|lra|rewrite Rminus_diag_eq, Rabs_R0 by reflexivity; lra|lra].
Qed.
Lemma near_scale f r M e k s s' d : near f r M e k s -> 0 <= d <= 1 -> 0 <= s' <= 1 -> s <= d * s' -> near f r (M * d) (e * d) k s'.
Proof.
  intros [H1 H2 H3 H4] Hd Hs HS. split; [exact H1| | |].
  - eapply Rle_trans; [exact H2|]. rewrite Rmult_assoc. apply Rmult_le_compat_l; lra.
  - eapply Rle_trans; [exact H3|]. rewrite Rmult_assoc. apply Rplus_le_compat_r, Rmult_le_compat_l; lra.
  - repeat split; try lra; nra.
Qed.
Lemma small_fin r : Rabs r <= 1024 -> Rabs (rnd F32 r) < bpow radix2 (emax F32).
Proof. intros H. eapply Rle_lt_trans; [apply (rnd_le_bpow 10); [lia|exact H]|apply bpow_lt; reflexivity]. Qed.
Lemma near_weaken f r M e k s M' e' k' : near f r M e k s -> Rabs r <= M' * s -> 0 <= M' <= 8 -> e <= e' <= 1 -> k <= k' <= 1000 -> near f r M' e' k' s.
Proof.
  intros [H1 H2 H3 H4] A B C D. pose proof eta_small. split; [exact H1|exact A| |lra]. eapply Rle_trans; [exact H3|].
  apply Rplus_le_compat; [apply Rmult_le_compat_r; lra|apply Rmult_le_compat_r; lra].
Qed.

Section N.
Context (n : nans F32).
Lemma near_mul f r M e k s g q M' e' t : near f r M e k s -> near g q M' e' 0 t -> M * M' <= 8 -> k <= 100 ->
  e * (M' + e') + M * e' + (M + e) * (M' + e') / 16777216 <= 1 ->
  near (fmul n f g) (r * q) (M * M') (e * (M' + e') + M * e' + (M + e) * (M' + e') / 16777216) (1.001 * (k * (M' + e')) + 1) (s * t).
Proof.
  intros Hf Hg HM Hk He. pose proof (near_val _ _ _ _ _ _ Hf) as VF. pose proof (near_val _ _ _ _ _ _ Hg) as VG.
  destruct Hf as [F1 A1 E1 (R1 & R2 & R3 & R4)]. destruct Hg as [F2 A2 E2 (R5 & R6 & R7 & R8)]. pose proof eta_small as HE.
  rewrite Rmult_0_l, Rplus_0_r in *.
  pose proof (Rabs_pos r) as P1. pose proof (Rabs_pos q) as P2. pose proof (Rabs_pos (val f)) as P3. pose proof (Rabs_pos (val g)) as P4.
  assert (T9 : (M' + e') * t <= 9) by nra.
  assert (VG9 : 0 <= (M' + e') * t) by nra.
  assert (VP : Rabs (val f * val g) <= (M + e) * (M' + e') * (s * t) + k * (M' + e') * eta).
  { rewrite Rabs_mult. apply Rle_trans with (((M + e) * s + k * eta) * ((M' + e') * t)).
    - apply Rmult_le_compat; assumption || lra.
    - assert (k * eta * ((M' + e') * t) <= k * (M' + e') * eta) by (assert ((M' + e') * t <= M' + e') by nra; assert (0 <= k * eta) by nra; nra). nra. }
  assert (ST : 0 <= s * t <= 1) by nra.
  assert (VB : Rabs (val f * val g) <= 1024).
  { eapply Rle_trans; [exact VP|]. assert ((M + e) * (M' + e') <= 81) by nra. assert (0 <= (M + e) * (M' + e')) by nra. 
    assert ((M + e) * (M' + e') * (s * t) <= 81 * 1) by nra. assert (0 <= k * (M' + e') <= 900) by nra. nra. }
  destruct (fmul_fin n f g F1 F2 (small_fin _ VB)) as (A & B & _). split; [exact A| | |].
  - rewrite Rabs_mult. replace (M * M' * (s * t)) with ((M * s) * (M' * t)) by ring. apply Rmult_le_compat; assumption.
  - rewrite B. pose proof (rnd_eta (val f * val g)) as RE. 
    replace (rnd F32 (val f * val g) - r * q) with ((rnd F32 (val f * val g) - val f * val g) + ((val f - r) * val g + r * (val g - q))) by ring.
    eapply Rle_trans; [apply Rabs_triang|]. eapply Rle_trans; [apply Rplus_le_compat_l, Rabs_triang|]. rewrite !(Rabs_mult (val f - r)), (Rabs_mult r).
    assert (Q1 : Rabs (val f - r) * Rabs (val g) <= (e * s + k * eta) * ((M' + e') * t)).
    { apply Rmult_le_compat; try apply Rabs_pos; assumption. }
    assert (Q2 : Rabs r * Rabs (val g - q) <= (M * s) * (e' * t)) by (apply Rmult_le_compat; try apply Rabs_pos; assumption).
    assert (Q3 : k * eta * ((M' + e') * t) <= k * (M' + e') * eta) by (assert ((M' + e') * t <= M' + e') by nra; assert (0 <= k * eta) by nra; nra).
    assert (Q4 : 0 <= k * (M' + e') * eta) by (assert (0 <= k * (M' + e')) by nra; nra).
    replace ((e * (M' + e') + M * e' + (M + e) * (M' + e') / 16777216) * (s * t)) with
      (e * s * ((M' + e') * t) + M * s * (e' * t) + / 16777216 * ((M + e) * (M' + e') * (s * t))) by field.
    lra.
  - repeat split; try lra; try nra.
Qed.
Lemma near_sum_aux (f g : F F32) (v : R) : forall r q M e k M' e' k' s MM o, near f r M e k s -> near g q M' e' k' s -> (o = 1 \/ o = -1) ->
  Rabs (r + o * q) <= MM * s -> 0 <= MM <= 8 -> k + k' <= 900 -> e + e' + (MM + e + e') / 16777216 <= 1 ->
  v = val f + o * val g -> Rabs v <= 1024 /\ Rabs (rnd F32 v - (r + o * q)) <= (e + e' + (MM + e + e') / 16777216) * s + (1.001 * (k + k') + 1) * eta.
Proof.
  intros r q M e k M' e' k' s MM o [F1 A1 E1 (R1 & R2 & R3 & R4)] [F2 A2 E2 (R5 & R6 & R7 & R8)] Ho HM BM HK HE ->. pose proof eta_small as ET.
  assert (DV : Rabs (val f + o * val g - (r + o * q)) <= (e + e') * s + (k + k') * eta).
  { replace (val f + o * val g - (r + o * q)) with ((val f - r) + o * (val g - q)) by ring. eapply Rle_trans; [apply Rabs_triang|].
    assert (Rabs (o * (val g - q)) = Rabs (val g - q)). { rewrite Rabs_mult. destruct Ho as [-> | ->]; rewrite ?Rabs_R1, ?(Rabs_left (-1)) by lra; lra. } lra. }
  assert (VB : Rabs (val f + o * val g) <= (MM + e + e') * s + (k + k') * eta).
  { replace (val f + o * val g) with ((r + o * q) + (val f + o * val g - (r + o * q))) by ring. eapply Rle_trans; [apply Rabs_triang|]. lra. }
  assert (KE : (k + k') * eta <= 1) by nra. assert (KP : 0 <= (k + k') * eta) by nra.
  split; [eapply Rle_trans; [exact VB|]; assert ((MM + e + e') * s <= 10) by nra; lra|].
  pose proof (rnd_eta (val f + o * val g)) as RE. set (v := val f + o * val g) in *.
  replace (rnd F32 v - (r + o * q)) with ((rnd F32 v - v) + (v - (r + o * q))) by ring. eapply Rle_trans; [apply Rabs_triang|].
  replace ((e + e' + (MM + e + e') / 16777216) * s) with ((e + e') * s + / 16777216 * ((MM + e + e') * s)) by field. lra.
Qed.
Lemma near_add f r M e k s g q M' e' k' MM : near f r M e k s -> near g q M' e' k' s ->
  Rabs (r + q) <= MM * s -> 0 <= MM <= 8 -> k + k' <= 900 -> e + e' + (MM + e + e') / 16777216 <= 1 ->
  near (fadd n f g) (r + q) MM (e + e' + (MM + e + e') / 16777216) (1.001 * (k + k') + 1) s.
Proof.
  intros Hf Hg HM BM HK HE. destruct (near_sum_aux f g (val f + val g) r q M e k M' e' k' s MM 1 Hf Hg) as [VB ER]; rewrite ?Rmult_1_l; auto.
  rewrite Rmult_1_l in ER. destruct Hf as [F1 A1 E1 (R1 & R2 & R3 & R4)]. destruct Hg as [F2 A2 E2 (R5 & R6 & R7 & R8)].
  destruct (fadd_fin n f g F1 F2 (small_fin _ VB)) as (A & B & _).
  split; [exact A|exact HM|rewrite B; exact ER|]. repeat split; lra.
Qed.
Lemma near_sub f r M e k s g q M' e' k' MM : near f r M e k s -> near g q M' e' k' s ->
  Rabs (r - q) <= MM * s -> 0 <= MM <= 8 -> k + k' <= 900 -> e + e' + (MM + e + e') / 16777216 <= 1 ->
  near (fsub n f g) (r - q) MM (e + e' + (MM + e + e') / 16777216) (1.001 * (k + k') + 1) s.
Proof.
  intros Hf Hg HM BM HK HE. assert (EQ : r + -1 * q = r - q) by ring.
  destruct (near_sum_aux f g (val f - val g) r q M e k M' e' k' s MM (-1) Hf Hg) as [VB ER]; rewrite ?EQ; auto; [ring|].
  rewrite EQ in ER. destruct Hf as [F1 A1 E1 (R1 & R2 & R3 & R4)]. destruct Hg as [F2 A2 E2 (R5 & R6 & R7 & R8)].
  destruct (fsub_fin n f g F1 F2 (small_fin _ VB)) as (A & B & _).
  split; [exact A|exact HM|rewrite B; exact ER|]. repeat split; lra.
Qed.
End N.
Lemma holds_near f r lo hi er M e : holds f r (lo, hi, er) -> - M <= dy lo -> dy hi <= M -> dy er <= e -> 0 <= M <= 8 -> 0 <= e <= 1 -> near f r M e 0 1.
Proof.
  intros (F & R & E) H1 H2 H3 H4 H5. split; [exact F|rewrite Rmult_1_r; apply Rabs_le; lra|lra|lra].
Qed.
