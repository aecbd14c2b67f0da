(** Real facts: sine and tangent of arguments that are apart. *)
From Coq Require Import Reals Ratan Lra Lia.
From Coquelicot Require Import Coquelicot.
From Interval Require Import Tactic.
Local Open Scope R_scope.

(** An argument up to about pi/4 and a greater one from about pi/4 on: the sines
    are at least 0.7 of the distance apart. *)
Lemma sin_apart t u : -0.7866 <= t <= 0.7866 -> 0.784 <= u <= PI / 2 -> / 1048576 <= u - t -> sin t + 6.6e-7 <= sin u.
Proof.
  intros Ht Hu D. assert (PI2 : 1.57 <= PI / 2 <= 1.5708) by (split; interval).
  destruct (Rle_dec u 0.79) as [C|C].
  - destruct (MVT_gen sin t u cos) as (c & Hc & E).
    + intros x _. apply is_derive_Reals. apply derivable_pt_lim_sin.
    + intros x _. apply continuity_sin.
    + rewrite Rmin_left, Rmax_right in Hc by lra. assert (HC : -0.79 <= c <= 0.79) by lra. assert (0.7 <= cos c) by interval. nra.
  - assert (S1 : sin t <= sin 0.7866) by (apply sin_incr_1; lra). assert (S2 : sin 0.79 <= sin u) by (apply sin_incr_1; lra).
    assert (sin 0.7866 <= 0.709) by interval. assert (0.71 <= sin 0.79) by interval. lra.
Qed.
Lemma tan_79 : 1.0091 <= tan 0.79. Proof. unfold tan. interval. Qed.
(** Likewise for the tangent. *)
Lemma tan_apart t u : -0.7866 <= t <= 0.7866 -> 0.784 <= u < PI / 2 -> / 1048576 <= u - t ->
  tan t + 1.8e-6 <= tan u /\ tan t <= 1.0025 /\ (tan u <= 1.01 \/ 1.0091 <= tan u).
Proof.
  intros Ht Hu D. assert (PI2 : 1.57 <= PI / 2 <= 1.5708) by (split; interval).
  assert (T1 : tan t <= tan 0.7866) by (destruct (Req_dec t 0.7866) as [-> |]; [lra|left; apply tan_increasing; lra]).
  assert (K1 : tan 0.7866 <= 1.0025) by (unfold tan; interval).
  assert (U1 : u <= 0.79 -> tan u <= 1.01). { intros C. unfold tan. interval. }
  assert (U2 : 0.79 < u -> 1.0091 <= tan u). { intros C. assert (tan 0.79 <= tan u) by (left; apply tan_increasing; lra). pose proof tan_79. lra. }
  split; [|split; [lra|destruct (Rle_dec u 0.79); [left|right]; auto; apply U2; lra]].
  destruct (Rle_dec u 0.79) as [C|C]; [|specialize (U2 ltac:(lra)); lra].
  destruct (Rle_dec t 0.77) as [C2|C2].
  { assert (tan t <= tan 0.77) by (destruct (Req_dec t 0.77) as [-> |]; [lra|left; apply tan_increasing; lra]).
    assert (tan 0.784 <= tan u) by (destruct (Req_dec u 0.784) as [-> |]; [lra|left; apply tan_increasing; lra]).
    assert (tan 0.77 <= 0.98) by (unfold tan; interval). assert (0.99 <= tan 0.784) by (unfold tan; interval). lra. }
  assert (DT : forall x, t <= x <= u -> is_derive tan x (/ (cos x * cos x))).
  { intros x Hx. assert (CX : 0 < cos x) by (apply cos_gt_0; lra). unfold tan. auto_derive; [lra|]. pose proof (sin2_cos2 x) as SC. unfold Rsqr in SC.
    transitivity ((sin x * sin x + cos x * cos x) * / (cos x * cos x)); [field; lra|rewrite SC; ring]. }
  destruct (MVT_gen tan t u (fun x => / (cos x * cos x))) as (c & Hc & E).
  - intros x Hx. rewrite Rmin_left, Rmax_right in Hx by lra. apply DT. lra.
  - intros x Hx. rewrite Rmin_left, Rmax_right in Hx by lra. apply derivable_continuous_pt. exists (/ (cos x * cos x)). apply is_derive_Reals. apply DT. lra.
  - rewrite Rmin_left, Rmax_right in Hc by lra. assert (HC : 0.77 <= c <= 0.79) by lra. assert (1.9 <= / (cos c * cos c)) by interval. nra.
Qed.
Lemma sin_710 t : -0.7866 <= t <= 0.7866 -> -0.71 <= sin t <= 0.71.
Proof. intros H. split; interval. Qed.
Lemma tan_1003 t : -0.7866 <= t <= 0.7866 -> -1.0025 <= tan t <= 1.0025.
Proof.
  intros H. assert (PI2 : 1.57 <= PI / 2 <= 1.5708) by (split; interval). assert (K1 : tan 0.7866 <= 1.0025) by (unfold tan; interval).
  assert (M : forall x y, -0.7866 <= x <= y -> y <= 0.7866 -> tan x <= tan y) by (intros x y A B; destruct (Req_dec x y) as [-> |]; [lra|left; apply tan_increasing; lra]).
  pose proof (M t 0.7866 ltac:(lra) ltac:(lra)). pose proof (M (-0.7866) t ltac:(lra) ltac:(lra)) as L. replace (-0.7866) with (- (0.7866)) in L by lra. rewrite tan_neg in L. lra.
Qed.
Lemma tan_99 u : 0.784 <= u < PI / 2 -> 0.99 <= tan u.
Proof.
  intros H. assert (PI2 : 1.57 <= PI / 2 <= 1.5708) by (split; interval). assert (0.99 <= tan 0.784) by (unfold tan; interval).
  destruct (Req_dec u 0.784) as [-> |]; [lra|]. assert (tan 0.784 < tan u) by (apply tan_increasing; lra). lra.
Qed.
Lemma atan_5_2 a : 0 <= a <= 2.5 -> atan a <= 1.5.
Proof. intros H. interval. Qed.
