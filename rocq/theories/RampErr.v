(** Rounding errors of ramps. *)
From Coq Require Import ZArith Reals Bool List Lia Lra Psatz.
From Flocq Require Import Core IEEE754.Binary IEEE754.Bits.
From Verif Require Import Base Mem Loop Backend Args Drivers Lanes Float LaneOps Reduce FloatOps Spec SpecReduce LoopFacts MemFacts
  KaryFacts DriverFacts RampFacts FloatFacts FloatRound RampFloat ErrFacts SumErr SpecDrift DriverFree BlockFacts MemFuns MemFunFacts.
Import ListNotations.
Local Open Scope R_scope.

Notation pz := (0%Z, 0%N, 0%nat).

(** Proof auxiliary: [k] times the same part. *)
Fixpoint pmul (k : nat) (p : part) : part :=
  match k with O => pz | S k => pjoin (pmul k p) p end.

Section Ramp.
Context {t : fmt} (n : nans t).
Local Notation u := (unit_roundoff t).
Local Notation g := (growth t).
Local Notation ar := (farith n).
Local Notation pmag := (pmag (t := t)).
Local Notation pval := (pval (t := t)).
Local Notation pfits := (pfits (t := t)).

Lemma pmul_add j k p : pjoin (pmul j p) (pmul k p) = pmul (j + k) p.
Proof.
  induction k as [|k IH]; cbn [pmul].
  - rewrite pjoin_comm, pjoin_zero, Nat.add_0_r. reflexivity.
  - rewrite pjoin_assoc, IH, Nat.add_succ_r. reflexivity.
Qed.
Lemma pmul_1 p : pmul 1 p = p. Proof. apply pjoin_zero. Qed.
Lemma pmul_mag k p : pmag (pmul k p) = INR k * pmag p.
Proof.
  induction k as [|k IH]; cbn [pmul]; [cbn; ring|]. rewrite pmag_join, IH, S_INR. ring.
Qed.
Lemma pmul_val k p : pval (pmul k p) = INR k * pval p.
Proof.
  induction k as [|k IH]; cbn [pmul]; [cbn; ring|]. rewrite pval_join, IH, S_INR. ring.
Qed.
Lemma snd_join x y : snd (pjoin x y) = (snd x + snd y)%nat.
Proof. destruct x as [[v a] k], y as [[v1 a1] k1]. reflexivity. Qed.
Lemma pmul_snd k p : snd p = 1%nat -> snd (pmul k p) = k.
Proof. intros H. induction k as [|k IH]; cbn [pmul]; [reflexivity|]. rewrite snd_join, IH, H. lia. Qed.

Context (base slope : F t) (z s : part).
Hypothesis Fb : isfin base = true.
Hypothesis Fs : isfin slope = true.
Hypothesis Lz : leaf base z.
Hypothesis Ls : leaf slope s.
Local Notation b0 := (Rabs (val base)).
Local Notation s0 := (Rabs (val slope)).

Lemma Rz : rounds base z. Proof. apply leaf_rounds; assumption. Qed.
Lemma Rsl : rounds slope (pmul 1 s). Proof. rewrite pmul_1. apply leaf_rounds; assumption. Qed.

(** Proof auxiliary: the part base + k*slope. *)
Definition point (k : nat) : part := pjoin z (pmul k s).
Lemma point_0 : point 0 = z. Proof. unfold point. cbn [pmul]. rewrite pjoin_comm. apply pjoin_zero. Qed.
Lemma point_add j k : pjoin (point j) (pmul k s) = point (j + k).
Proof. unfold point. rewrite <- pjoin_assoc, pmul_add. reflexivity. Qed.

Lemma point_facts k : pval (point k) = val base + INR k * val slope /\ pmag (point k) = b0 + INR k * s0 /\ pdep (point k) = k.
Proof.
  destruct Lz as (Z1 & Z2 & Z3), Ls as (S1 & S2 & S3). unfold point. rewrite pval_join, pmag_join, pmul_val, pmul_mag, Z1, Z2, S1, S2.
  repeat split. rewrite pdep_snd, snd_join, (pmul_snd k s S3), Z3. reflexivity.
Qed.
Lemma mul_facts k : pval (pmul k s) = INR k * val slope /\ pmag (pmul k s) = INR k * s0 /\ pdep (pmul k s) = Nat.pred k.
Proof.
  destruct Ls as (S1 & S2 & S3). rewrite pmul_val, pmul_mag, S1, S2.
  repeat split. rewrite pdep_snd, (pmul_snd k s S3). reflexivity.
Qed.

Context (N : nat).
Hypothesis Hfit : g N * (b0 + INR N * s0) < bpow radix2 (emax t).

Lemma fits_point k : (k <= N)%nat -> pfits (point k).
Proof.
  intros Hk. destruct (point_facts k) as (_ & E1 & E2). unfold SumErr.pfits. rewrite E1, E2.
  eapply Rle_lt_trans; [|exact Hfit]. pose proof (Rabs_pos (val base)). pose proof (Rabs_pos (val slope)).
  assert (INR k * s0 <= INR N * s0) by (apply Rmult_le_compat_r; [lra|apply le_INR; exact Hk]).
  assert (0 <= INR k * s0) by (apply Rmult_le_pos; [apply pos_INR|lra]).
  apply Rmult_le_compat; [apply Rlt_le, g_pos|lra|apply g_mono; exact Hk|lra].
Qed.
Lemma fits_mul k : (k <= N)%nat -> pfits (pmul k s).
Proof.
  intros Hk. pose proof (fits_point k Hk) as H. unfold point in H. rewrite pjoin_comm in H. exact (pfits_l _ _ H).
Qed.

Lemma scalar_rounds k : (k <= N)%nat -> rounds (Nat.iter k (fun y => a_add ar y slope) base) (point k).
Proof.
  induction k as [|k IH]; intros Hk; [rewrite point_0; exact Rz|].
  rewrite iterS. replace (point (S k)) with (pjoin (point k) (pmul 1 s)) by (rewrite point_add; f_equal; lia).
  cbn [farith a_add]. apply rounds_add; [apply IH; lia|exact Rsl|]. rewrite point_add. apply fits_point. lia.
Qed.

(** Multiplication by a small power of two is exact. *)
Lemma ofZ_pow2 (w : nat) : (w = 2 \/ w = 4 \/ w = 8)%nat -> isfin (f_ofZ t (Z.of_nat w)) = true /\
  val (f_ofZ t (Z.of_nat w)) = INR w /\ exists e, (0 <= e)%Z /\ INR w = bpow radix2 e.
Proof.
  intros H. assert (K : isfin (f_ofZ t (Z.of_nat w)) = true /\ val (f_ofZ t (Z.of_nat w)) = INR w).
  { destruct H as [->|[->| ->]]; destruct t; (split; [reflexivity|]); unfold val; cbn; unfold F2R; cbn; lra. }
  split; [apply K|]. split; [apply K|].
  destruct H as [->|[->| ->]]; [exists 1%Z|exists 2%Z|exists 3%Z]; (split; [lia|]); cbn; lra.
Qed.
Lemma format_scale x e : (0 <= e)%Z -> fmtR t x -> fmtR t (x * bpow radix2 e).
Proof.
  intros He H. apply (FLT_format_generic radix2 (emin t) (prec t)) in H. destruct H as [[mm ee] E H1 H2].
  change (emin t <= ee)%Z in H2. apply generic_format_FLT. exists (Float radix2 mm (ee + e)).
  - rewrite E. unfold F2R. cbn [Fnum Fexp]. rewrite bpow_plus. ring.
  - exact H1.
  - change (emin t <= ee + e)%Z. lia.
Qed.
Lemma scale_rounds (w : nat) x : (w = 2 \/ w = 4 \/ w = 8)%nat -> (w <= N)%nat ->
  x = fmul n slope (f_ofZ t (Z.of_nat w)) \/ x = fmul n (f_ofZ t (Z.of_nat w)) slope -> rounds x (pmul w s).
Proof.
  intros Hw HwN Hx. destruct (ofZ_pow2 w Hw) as (F1 & V1 & e & He & V2).
  assert (R0 : rnd t (val slope * INR w) = val slope * INR w).
  { apply rnd_id. rewrite V2. apply format_scale; [exact He|apply val_format]. }
  destruct (mul_facts w) as (M1 & M2 & M3).
  pose proof (fits_mul w HwN) as Hf. unfold SumErr.pfits in Hf. rewrite M2, M3 in Hf.
  pose proof (Rabs_pos (val slope)) as Ps. pose proof (pos_INR w) as Pw. pose proof (g_1 t (Nat.pred w)) as G1.
  assert (Pm : 0 <= INR w * s0) by (apply Rmult_le_pos; lra).
  assert (Hlt : Rabs (val slope * INR w) < bpow radix2 (emax t)).
  { rewrite Rabs_mult, (Rabs_pos_eq (INR w)) by exact Pw. rewrite Rmult_comm. eapply Rle_lt_trans; [|exact Hf].
    rewrite <- (Rmult_1_l (INR w * s0)) at 1. apply Rmult_le_compat_r; lra. }
  assert (K : isfin x = true /\ val x = val slope * INR w).
  { destruct Hx as [-> | ->].
    - destruct (fmul_fin n slope (f_ofZ t (Z.of_nat w)) Fs F1) as (A1 & A2 & _); [rewrite V1, R0; exact Hlt|].
      split; [exact A1|]. rewrite A2, V1. exact R0.
    - destruct (fmul_fin n (f_ofZ t (Z.of_nat w)) slope F1 Fs) as (A1 & A2 & _).
      + rewrite V1, Rmult_comm, R0. exact Hlt.
      + split; [exact A1|]. rewrite A2, V1, Rmult_comm. exact R0. }
  destruct K as [K1 K2]. split; [exact K1|]. rewrite M1, M2, M3. split; [|split].
  - rewrite Rabs_mult, (Rabs_pos_eq (INR w)) by exact Pw. lra.
  - rewrite K2. replace (val slope * INR w - INR w * val slope) with 0 by ring. rewrite Rabs_R0. apply Rmult_le_pos; lra.
  - destruct Ls as (_ & _ & S3). rewrite (pmul_snd w s S3). intros ->. cbn. ring.
Qed.

Context (B : backend).
Hypothesis HN : (vsize B <= N)%nat.

Lemma A_rule x y j k r : rounds x (pmul j s) -> rounds y (pmul k s) -> (j + k = r)%nat -> (r <= vsize B)%nat ->
  rounds (fadd n x y) (pmul r s).
Proof. intros Hx Hy <- Hr. rewrite <- pmul_add. apply rounds_add; auto. rewrite pmul_add. apply fits_mul. lia. Qed.
Lemma P_rule x y j k r : rounds x (point j) -> rounds y (pmul k s) -> (j + k = r)%nat -> (r <= vsize B)%nat ->
  rounds (fadd n x y) (point r).
Proof. intros Hx Hy <- Hr. rewrite <- point_add. apply rounds_add; auto. rewrite point_add. apply fits_point. lia. Qed.

Lemma R0z : rounds (f_ofZ t 0) (pmul 0 s). Proof. exact rounds_zero. Qed.

Lemma inc_rounds : rounds (snd (set_slope ar B base slope)) (pmul (vsize B) s).
Proof.
  pose proof Rsl as H1. pose proof R0z as H0. pose proof A_rule as A. revert HN A.
  destruct B; cbn [vsize set_slope base_set_slope fst snd farith a_add a_zero a_mul a_ofZ]; intros HN' A.
  - apply (A _ _ 3%nat 1%nat); [|exact H1|lia|lia]. apply (A _ _ 2%nat 1%nat); [|exact H1|lia|lia]. apply (A _ _ 1%nat 1%nat); [|exact H1|lia|lia].
    apply (A _ _ 0%nat 1%nat); [exact H0|exact H1|lia|lia].
  - apply (A _ _ 3%nat 1%nat); [|exact H1|lia|lia]. apply (A _ _ 2%nat 1%nat); [|exact H1|lia|lia]. apply (A _ _ 1%nat 1%nat); [|exact H1|lia|lia].
    apply (A _ _ 0%nat 1%nat); [exact H0|exact H1|lia|lia].
  - apply (A _ _ 2%nat 2%nat); [| |lia|lia]; apply (A _ _ 1%nat 1%nat); auto; lia.
  - apply (A _ _ 1%nat 1%nat); auto; lia.
  - apply scale_rounds; [auto|exact HN'|left; reflexivity].
  - apply (A _ _ 3%nat 1%nat); [|exact H1|lia|lia]. apply (A _ _ 2%nat 1%nat); [|exact H1|lia|lia]. apply (A _ _ 1%nat 1%nat); auto; lia.
  - apply (A _ _ 3%nat 1%nat); [|exact H1|lia|lia]. apply (A _ _ 2%nat 1%nat); [|exact H1|lia|lia]. apply (A _ _ 1%nat 1%nat); auto; lia.
  - apply (A _ _ 3%nat 1%nat); [|exact H1|lia|lia]. apply (A _ _ 2%nat 1%nat); [|exact H1|lia|lia]. apply (A _ _ 1%nat 1%nat); auto; lia.
Qed.

Lemma lane_rounds d l : (l < vsize B)%nat -> rounds (nth l (fst (set_slope ar B base slope)) d) (point l).
Proof.
  intros Hl. pose proof Rsl as H1. pose proof R0z as H0. pose proof A_rule as A. pose proof P_rule as P.
  assert (P0 : rounds base (point 0)) by (rewrite point_0; exact Rz).
  revert HN A P Hl.
  destruct B; cbn [vsize set_slope base_set_slope fst snd farith a_add a_zero a_mul a_ofZ]; intros HN' A P Hl.
  1, 2: destruct l as [|[|[|[|l]]]]; try lia; cbn [nth];
    [apply (P _ _ 0%nat 0%nat)|apply (P _ _ 0%nat 1%nat)|apply (P _ _ 0%nat 2%nat)|apply (P _ _ 0%nat 3%nat)]; auto; try lia;
    [apply (A _ _ 0%nat 1%nat); auto; lia
    |apply (A _ _ 1%nat 1%nat); auto; try lia; apply (A _ _ 0%nat 1%nat); auto; lia
    |apply (A _ _ 2%nat 1%nat); auto; try lia; apply (A _ _ 1%nat 1%nat); auto; try lia; apply (A _ _ 0%nat 1%nat); auto; lia].
  - destruct l as [|[|[|[|l]]]]; try lia; cbn [nth].
    + exact P0.
    + apply (P _ _ 0%nat 1%nat); auto; lia.
    + apply (P _ _ 0%nat 2%nat); auto; try lia. apply (A _ _ 1%nat 1%nat); auto; lia.
    + apply (P _ _ 2%nat 1%nat); auto; try lia. apply (P _ _ 0%nat 2%nat); auto; try lia. apply (A _ _ 1%nat 1%nat); auto; lia.
  - destruct l as [|[|l]]; try lia; cbn [nth].
    + exact P0.
    + apply (P _ _ 0%nat 1%nat); auto; lia.
  - assert (Q1 := P _ _ 0%nat 1%nat 1%nat P0 H1 ltac:(lia) ltac:(lia)).
    assert (Q2 := P _ _ 1%nat 1%nat 2%nat Q1 H1 ltac:(lia) ltac:(lia)).
    assert (Q3 := P _ _ 2%nat 1%nat 3%nat Q2 H1 ltac:(lia) ltac:(lia)).
    assert (Q4 := P _ _ 3%nat 1%nat 4%nat Q3 H1 ltac:(lia) ltac:(lia)).
    assert (Q5 := P _ _ 4%nat 1%nat 5%nat Q4 H1 ltac:(lia) ltac:(lia)).
    assert (Q6 := P _ _ 5%nat 1%nat 6%nat Q5 H1 ltac:(lia) ltac:(lia)).
    assert (Q7 := P _ _ 6%nat 1%nat 7%nat Q6 H1 ltac:(lia) ltac:(lia)).
    destruct l as [|[|[|[|[|[|[|[|l]]]]]]]]; try lia; cbn [nth]; assumption.
  - destruct l as [|[|[|[|l]]]]; try lia; cbn [nth].
    + exact P0.
    + apply (P _ _ 0%nat 1%nat); auto; lia.
    + apply (P _ _ 1%nat 1%nat); auto; try lia. apply (P _ _ 0%nat 1%nat); auto; lia.
    + apply (P _ _ 2%nat 1%nat); auto; try lia. apply (P _ _ 1%nat 1%nat); auto; try lia. apply (P _ _ 0%nat 1%nat); auto; lia.
  - destruct l as [|[|[|[|l]]]]; try lia; cbn [nth].
    + exact P0.
    + apply (P _ _ 0%nat 1%nat); auto; lia.
    + apply (P _ _ 1%nat 1%nat); auto; try lia. apply (P _ _ 0%nat 1%nat); auto; lia.
    + apply (P _ _ 2%nat 1%nat); auto; try lia. apply (P _ _ 1%nat 1%nat); auto; try lia. apply (P _ _ 0%nat 1%nat); auto; lia.
  - destruct l as [|[|[|[|l]]]]; try lia; cbn [nth].
    + exact P0.
    + apply (P _ _ 0%nat 1%nat); auto; lia.
    + apply (P _ _ 1%nat 1%nat); auto; try lia. apply (P _ _ 0%nat 1%nat); auto; lia.
    + apply (P _ _ 2%nat 1%nat); auto; try lia. apply (P _ _ 1%nat 1%nat); auto; try lia. apply (P _ _ 0%nat 1%nat); auto; lia.
Qed.
End Ramp.

Lemma rel_pos t : 0 <= slope_rel t. Proof. unfold slope_rel. destruct t; [lra|apply bpow_ge_0]. Qed.
Lemma tiny_pos t : 0 <= slope_tiny t. Proof. unfold slope_tiny. destruct t; [lra|apply bpow_ge_0]. Qed.


Section Narrow.
Context {t : fmt} (n : nans t).

Lemma narrow_err (x : F t) : isfin x = true -> (t = F64 -> Rabs (val x) <= 3 * bpow radix2 126) ->
  isfin (f_narrow n x) = true /\ Rabs (val (f_narrow n x) - val x) <= slope_rel t * Rabs (val x) + slope_tiny t.
Proof.
  destruct t; intros Hx Hb.
  - cbn [f_narrow slope_rel slope_tiny]. split; [exact Hx|]. rewrite Rminus_diag_eq, Rabs_R0 by reflexivity. lra.
  - specialize (Hb eq_refl). cbn [f_narrow slope_rel slope_tiny].
    assert (H3 : fmtR F32 (3 * bpow radix2 126)).
    { change 3 with (IZR 3). apply dyadic_format; [vm_compute; discriminate|vm_compute; discriminate]. }
    assert (Hr : Rabs (rnd F32 (val x)) <= 3 * bpow radix2 126) by (apply rnd_abs_le; assumption).
    assert (L : 3 * bpow radix2 126 < bpow radix2 128).
    { change 128%Z with (2 + 126)%Z. rewrite bpow_plus. change (bpow radix2 2) with 4. pose proof (bpow_gt_0 radix2 126). lra. }
    destruct (f_conv_fin F32 (nan_narrow n) x Hx) as (A1 & A2 & _).
    { eapply Rle_lt_trans; [exact Hr|]. exact L. }
    assert (V64 : rnd F64 (val (f_conv F32 (nan_narrow n) x)) = val (f_conv F32 (nan_narrow n) x)).
    { apply rnd_id, format32_64, val_format. }
    destruct (f_conv_fin F64 (nan_widen n) _ A1) as (B1 & B2 & _).
    { rewrite V64. eapply Rlt_trans; [apply val_lt_emax|]. apply bpow_lt. reflexivity. }
    split; [exact B1|]. rewrite B2, V64, A2. apply rnd_rel.
Qed.
End Narrow.

Section Bounds.
Context (t : fmt).
Local Notation g := (growth t).

Lemma ramp_arith1 (K b0 s0 tiny inc : R) (J l w : nat) : (1 <= w)%nat -> (1 <= J)%nat -> 1 <= K -> 0 <= b0 -> 0 <= s0 -> 0 <= tiny ->
  inc <= K * g (Nat.pred w) * (INR w * s0) + tiny ->
  g (l + J) * (b0 + INR l * s0 + INR J * inc) <=
  K * g (J * w + l) * (b0 + INR (J * w + l) * s0) + g (J * w + l) * (INR (J * w + l) * tiny).
Proof.
  intros Hw HJ HK Hb Hs Ht Hi.
  assert (D1 : (l + J <= J * w + l)%nat) by nia.
  assert (D2 : (l + J + Nat.pred w <= J * w + l)%nat) by nia.
  pose proof (g_mono t _ _ D1) as G1. pose proof (g_mono t _ _ D2) as G2. rewrite g_add in G2.
  pose proof (g_1 t (l + J)) as U1. pose proof (g_1 t (Nat.pred w)) as U2.
  assert (HD : INR J <= INR (J * w + l)) by (apply le_INR; nia).
  rewrite plus_INR, mult_INR in *.
  pose proof (pos_INR J) as PJ. pose proof (pos_INR l) as Pl. pose proof (pos_INR w) as Pw.
  set (gi := g (J * w + l)) in *. set (gl := g (l + J)) in *. set (gw := g (Nat.pred w)) in *. clearbody gi gl gw.
  set (j := INR J) in *. set (k := INR l) in *. set (v := INR w) in *. clearbody j k v.
  assert (Q1 : gl * (b0 + k * s0) <= K * gi * (b0 + k * s0)).
  { apply Rmult_le_compat_r; [|nra]. assert (0 <= k * s0) by (apply Rmult_le_pos; lra). lra. }
  assert (Q2 : gl * (j * inc) <= gl * (j * (K * gw * (v * s0) + tiny))).
  { apply Rmult_le_compat_l; [lra|]. apply Rmult_le_compat_l; lra. }
  assert (P0 : 0 <= j * v * s0) by (repeat apply Rmult_le_pos; lra).
  assert (Q3 : K * (gl * gw) * (j * v * s0) <= K * gi * (j * v * s0)).
  { apply Rmult_le_compat_r; [exact P0|]. apply Rmult_le_compat_l; lra. }
  assert (Q4 : gl * (j * tiny) <= gi * ((j * v + k) * tiny)).
  { apply Rmult_le_compat; [lra|apply Rmult_le_pos; lra|lra|]. apply Rmult_le_compat_r; lra. }
  replace (gl * (b0 + k * s0 + j * inc)) with (gl * (b0 + k * s0) + gl * (j * inc)) by ring.
  replace (gl * (j * (K * gw * (v * s0) + tiny))) with (K * (gl * gw) * (j * v * s0) + gl * (j * tiny)) in Q2 by ring.
  replace (K * gi * (b0 + (j * v + k) * s0)) with (K * gi * (b0 + k * s0) + K * gi * (j * v * s0)) by ring. lra.
Qed.

Lemma ramp_arith2 (K b0 s0 tiny inc e : R) (J l w : nat) : (1 <= w)%nat -> (1 <= J)%nat -> 1 <= K -> 0 <= b0 -> 0 <= s0 -> 0 <= tiny ->
  inc <= K * g (Nat.pred w) * (INR w * s0) + tiny -> e <= (K * g (Nat.pred w) - 1) * (INR w * s0) + tiny ->
  (g (l + J) - 1) * (b0 + INR l * s0 + INR J * inc) + INR J * e <=
  (K * g (J * w + l) - 1) * (b0 + INR (J * w + l) * s0) + g (J * w + l) * (INR (J * w + l) * tiny).
Proof.
  intros Hw HJ HK Hb Hs Ht Hi He.
  assert (D1 : (l + J <= J * w + l)%nat) by nia.
  assert (D2 : (l + J + Nat.pred w <= J * w + l)%nat) by nia.
  pose proof (g_mono t _ _ D1) as G1. pose proof (g_mono t _ _ D2) as G2. rewrite g_add in G2.
  pose proof (g_1 t (l + J)) as U1. pose proof (g_1 t (Nat.pred w)) as U2.
  assert (HD : INR J <= INR (J * w + l)) by (apply le_INR; nia).
  rewrite plus_INR, mult_INR in *.
  pose proof (pos_INR J) as PJ. pose proof (pos_INR l) as Pl. pose proof (pos_INR w) as Pw.
  set (gi := g (J * w + l)) in *. set (gl := g (l + J)) in *. set (gw := g (Nat.pred w)) in *. clearbody gi gl gw.
  set (j := INR J) in *. set (k := INR l) in *. set (v := INR w) in *. clearbody j k v.
  assert (Q1 : (gl - 1) * (b0 + k * s0) <= (K * gi - 1) * (b0 + k * s0)).
  { apply Rmult_le_compat_r; [|nra]. assert (0 <= k * s0) by (apply Rmult_le_pos; lra). lra. }
  assert (Q2 : (gl - 1) * (j * inc) <= (gl - 1) * (j * (K * gw * (v * s0) + tiny))).
  { apply Rmult_le_compat_l; [lra|]. apply Rmult_le_compat_l; lra. }
  assert (Q2' : j * e <= j * ((K * gw - 1) * (v * s0) + tiny)) by (apply Rmult_le_compat_l; lra).
  assert (P0 : 0 <= j * v * s0) by (repeat apply Rmult_le_pos; lra).
  assert (Q3 : K * (gl * gw) * (j * v * s0) <= K * gi * (j * v * s0)).
  { apply Rmult_le_compat_r; [exact P0|]. apply Rmult_le_compat_l; lra. }
  assert (Q4 : gl * (j * tiny) <= gi * ((j * v + k) * tiny)).
  { apply Rmult_le_compat; [lra|apply Rmult_le_pos; lra|lra|]. apply Rmult_le_compat_r; lra. }
  replace ((gl - 1) * (b0 + k * s0 + j * inc)) with ((gl - 1) * (b0 + k * s0) + (gl - 1) * (j * inc)) by ring.
  replace ((gl - 1) * (j * (K * gw * (v * s0) + tiny))) with (K * (gl * gw) * (j * v * s0) - K * gw * (j * v * s0) + (gl * (j * tiny) - j * tiny)) in Q2 by ring.
  replace (j * ((K * gw - 1) * (v * s0) + tiny)) with (K * gw * (j * v * s0) - j * v * s0 + j * tiny) in Q2' by ring.
  replace ((K * gi - 1) * (b0 + (j * v + k) * s0)) with ((K * gi - 1) * (b0 + k * s0) + K * gi * (j * v * s0) - j * v * s0) by ring. lra.
Qed.
End Bounds.

(** * Vectors of a ramp with some increment *)
Section Vectors.
Context {t : fmt} (n : nans t) (base slope : F t) (B : backend) (N : nat) (rel tiny : R) (inc : F t).
Local Notation g := (growth t).
Local Notation pmag := (pmag (t := t)).
Local Notation pval := (pval (t := t)).
Local Notation ar := (farith n).
Local Notation b0 := (Rabs (val base)).
Local Notation s0 := (Rabs (val slope)).
Local Notation w := (vsize B).
Hypothesis Fb : isfin base = true.
Hypothesis Fs : isfin slope = true.
Hypothesis Hrel : 0 <= rel.
Hypothesis Htiny : 0 <= tiny.
Hypothesis Hfit : (1 + rel) * g N * (b0 + INR N * s0) + g N * (INR N * tiny) < overflow_bound t.
Hypothesis HN : (w <= N)%nat.
Hypothesis Finc : isfin inc = true.
Hypothesis Hinc : Rabs (val inc - INR w * val slope) <= ((1 + rel) * g (Nat.pred w) - 1) * (INR w * s0) + tiny.

Lemma fit_plain : g N * (b0 + INR N * s0) < bpow radix2 (emax t).
Proof.
  rewrite <- ob_bpow. eapply Rle_lt_trans; [|exact Hfit]. pose proof (g_1 t N) as G1. pose proof (pos_INR N) as PN.
  pose proof (Rabs_pos (val base)). pose proof (Rabs_pos (val slope)).
  assert (0 <= INR N * s0) by (apply Rmult_le_pos; lra). assert (0 <= INR N * tiny) by (apply Rmult_le_pos; lra).
  assert (0 <= g N * (INR N * tiny)) by (apply Rmult_le_pos; lra).
  assert (g N * (b0 + INR N * s0) <= (1 + rel) * g N * (b0 + INR N * s0)); [|lra].
  apply Rmult_le_compat_r; [lra|]. rewrite <- (Rmult_1_l (g N)) at 1. apply Rmult_le_compat_r; lra.
Qed.

Lemma inc_abs : Rabs (val inc) <= (1 + rel) * g (Nat.pred w) * (INR w * s0) + tiny.
Proof.
  replace (val inc) with ((val inc - INR w * val slope) + INR w * val slope) by ring.
  eapply Rle_trans; [apply Rabs_triang|]. rewrite (Rabs_mult (INR w)), (Rabs_pos_eq (INR w)) by apply pos_INR. lra.
Qed.

Lemma vector_bound J l d : (J * w + l < N)%nat -> (l < w)%nat ->
  let y := Nat.iter J (fun y => a_add ar y inc) (nth l (fst (set_slope ar B base slope)) d) in
  isfin y = true /\
  Rabs (val y - (val base + INR (J * w + l) * val slope)) <=
    ((1 + rel) * g (J * w + l) - 1) * (b0 + INR (J * w + l) * s0) + g (J * w + l) * (INR (J * w + l) * tiny).
Proof.
  intros Hi Hl y. pose proof (vsize_pos B) as HB.
  destruct (leaf_ex base) as [z Lz]. destruct (leaf_ex slope) as [s Ls]. destruct (leaf_ex inc) as [q Lq].
  pose proof (lane_rounds n base slope z s Fb Fs Lz Ls N fit_plain B HN d l Hl) as RL.
  destruct (point_facts base slope z s Lz Ls l) as (P1 & P2 & P3).
  pose proof (Rabs_pos (val base)) as Pb. pose proof (Rabs_pos (val slope)) as Ps. pose proof (Rabs_pos (val inc)) as Pi.
  pose proof inc_abs as HI.
  assert (FACT : forall j, pval (pjoin (point z s l) (pmul j q)) = val base + INR l * val slope + INR j * val inc /\
     pmag (pjoin (point z s l) (pmul j q)) = b0 + INR l * s0 + INR j * Rabs (val inc) /\
     pdep (pjoin (point z s l) (pmul j q)) = (l + j)%nat).
  { intros j. destruct Lq as (Q1 & Q2 & Q3). destruct Lz as (_ & _ & Z3). destruct Ls as (_ & _ & S3).
    rewrite pval_join, pmag_join, pmul_val, pmul_mag, P1, P2, Q1, Q2. repeat split.
    rewrite pdep_snd. unfold point. rewrite !snd_join, (pmul_snd j q Q3), (pmul_snd l s S3), Z3. reflexivity. }
  assert (FIT : forall j, (j <= J)%nat -> pfits (t := t) (pjoin (point z s l) (pmul j q))).
  { intros j Hj. destruct (FACT j) as (_ & E2 & E3). unfold pfits. rewrite E2, E3.
    destruct j as [|j].
    - rewrite Nat.add_0_r. change (INR 0) with 0. rewrite Rmult_0_l, Rplus_0_r, <- P2. rewrite <- P3 at 1.
      apply (fits_point base slope z s Lz Ls N fit_plain). lia.
    - rewrite <- ob_bpow. eapply Rle_lt_trans; [|exact Hfit].
      eapply Rle_trans; [apply (ramp_arith1 t (1 + rel) b0 s0 tiny (Rabs (val inc)) (S j) l w); auto; try lia; lra|].
      assert (D : (S j * w + l <= N)%nat) by nia. pose proof (g_mono t _ _ D) as G. apply le_INR in D.
      pose proof (g_1 t (S j * w + l)) as G1. pose proof (pos_INR (S j * w + l)) as PI.
      set (gi := g (S j * w + l)) in *. set (ii := INR (S j * w + l)) in *. set (gN := g N) in *. clearbody gi ii gN.
      assert (A1 : 0 <= ii * s0) by (apply Rmult_le_pos; lra). assert (A2 : ii * s0 <= INR N * s0) by (apply Rmult_le_compat_r; lra).
      assert (A3 : 0 <= ii * tiny) by (apply Rmult_le_pos; lra). assert (A4 : ii * tiny <= INR N * tiny) by (apply Rmult_le_compat_r; lra).
      apply Rplus_le_compat.
      + apply Rmult_le_compat; [apply Rmult_le_pos; lra|lra|apply Rmult_le_compat_l; lra|lra].
      + apply Rmult_le_compat; lra. }
  assert (RJ : forall j, (j <= J)%nat ->
    rounds (Nat.iter j (fun y => a_add ar y inc) (nth l (fst (set_slope ar B base slope)) d)) (pjoin (point z s l) (pmul j q))).
  { induction j as [|j IH]; intros Hj.
    - cbn [Nat.iter pmul]. rewrite pjoin_comm, pjoin_zero. exact RL.
    - rewrite iterS. cbn [pmul]. rewrite pjoin_assoc. cbn [farith a_add]. apply rounds_add.
      + apply IH. lia.
      + apply leaf_rounds; assumption.
      + rewrite <- pjoin_assoc. exact (FIT (S j) Hj). }
  specialize (RJ J (Nat.le_refl J)). fold y in RJ. destruct RJ as (K1 & _ & K3 & _). split; [exact K1|].
  destruct (FACT J) as (E1 & E2 & E3). rewrite E1, E2, E3 in K3.
  destruct J as [|J].
  - cbn [Nat.mul Nat.add]. change (INR 0) with 0 in K3. rewrite Nat.add_0_r, !Rmult_0_l, !Rplus_0_r in K3.
    eapply Rle_trans; [exact K3|]. pose proof (g_1 t l) as G1. pose proof (pos_INR l) as Pl.
    assert (A1 : 0 <= INR l * s0) by (apply Rmult_le_pos; lra). assert (A3 : 0 <= INR l * tiny) by (apply Rmult_le_pos; lra).
    assert (0 <= g l * (INR l * tiny)) by (apply Rmult_le_pos; lra).
    assert ((g l - 1) * (b0 + INR l * s0) <= ((1 + rel) * g l - 1) * (b0 + INR l * s0)); [|lra].
    apply Rmult_le_compat_r; [lra|]. assert (0 <= rel * g l) by (apply Rmult_le_pos; lra). lra.
  - eapply Rle_trans; [|apply (ramp_arith2 t (1 + rel) b0 s0 tiny (Rabs (val inc)) (Rabs (val inc - INR w * val slope)) (S J) l w); auto; try lia; lra].
    replace (val y - (val base + INR (S J * w + l) * val slope)) with
      ((val y - (val base + INR l * val slope + INR (S J) * val inc)) + INR (S J) * (val inc - INR w * val slope))
      by (rewrite plus_INR, mult_INR; ring).
    eapply Rle_trans; [apply Rabs_triang|]. rewrite (Rabs_mult (INR (S J))), (Rabs_pos_eq (INR (S J))) by apply pos_INR. lra.
Qed.
End Vectors.

(** * Arguments of the drivers *)
Section Args.
Context {t : fmt} (n : nans t).
Local Notation g := (growth t).
Local Notation ar := (farith n).

Lemma tame_plain (base slope : F t) len : (0 <= len)%Z ->
  tame_arg 0 0 len (ARamp base slope) -> g (Z.to_nat len) * (Rabs (val base) + INR (Z.to_nat len) * Rabs (val slope)) < bpow radix2 (emax t).
Proof.
  intros Hl (_ & _ & H). rewrite Rplus_0_r, Rmult_1_l, !Rmult_0_r, Rplus_0_r in H. rewrite <- ob_bpow.
  rewrite INR_IZR_INZ, Z2Nat.id by lia. exact H.
Qed.

Lemma scalar_near m a i len : (0 <= i < len)%Z -> tame_arg 0 0 len a -> near_line 0 0 m a i (sample ar m a i).
Proof.
  intros Hi Ha. destruct a as [p|x|base slope]; try reflexivity.
  pose proof (tame_plain base slope len ltac:(lia) Ha) as Hfit. destruct Ha as (Fb & Fs & _).
  destruct (leaf_ex base) as [z Lz]. destruct (leaf_ex slope) as [s Ls].
  pose proof (scalar_rounds n base slope z s Fb Fs Lz Ls (Z.to_nat len) Hfit (Z.to_nat i) ltac:(lia)) as (R1 & _ & R3 & _).
  destruct (point_facts base slope z s Lz Ls (Z.to_nat i)) as (P1 & P2 & P3). rewrite P1, P2, P3 in R3.
  rewrite !INR_IZR_INZ, !Z2Nat.id in R3 by lia.
  cbn [near_line]. eexists. split; [reflexivity|]. split; [exact R1|].
  rewrite Rplus_0_r, Rmult_1_l, !Rmult_0_r, Rplus_0_r. exact R3.
Qed.
End Args.

Section SimdArgs.
Context (B : backend).
Local Notation t := (fmt_of B).
Context (n : nans t).
Local Notation g := (growth t).
Local Notation ar := (farith n).
Local Notation step := (Z.of_nat (vsize B)).

Lemma simd_near m a i len : (0 <= i < len)%Z -> (step <= len)%Z ->
  tame_arg (slope_rel t) (slope_tiny t) len a -> slope_in_range B a ->
  near_line (slope_rel t) (slope_tiny t) m a i (vsample ar B m a i).
Proof.
  intros Hi Hs Ha Hr. destruct a as [p|x|base slope]; try reflexivity.
  destruct Ha as (Fb & Fs & Hfit). cbn [slope_in_range] in Hr.
  pose proof (vsize_pos B) as HB.
  assert (HfitN : (1 + slope_rel t) * g (Z.to_nat len) * (Rabs (val base) + INR (Z.to_nat len) * Rabs (val slope)) +
    g (Z.to_nat len) * (INR (Z.to_nat len) * slope_tiny t) < overflow_bound t).
  { rewrite INR_IZR_INZ, Z2Nat.id by lia. exact Hfit. }
  assert (HN : (vsize B <= Z.to_nat len)%nat) by lia.
  pose proof (fit_plain base slope (Z.to_nat len) (slope_rel t) (slope_tiny t) (rel_pos t) (tiny_pos t) HfitN) as HP.
  destruct (leaf_ex base) as [z Lz]. destruct (leaf_ex slope) as [s Ls].
  pose proof (inc_rounds n base slope z s Fb Fs Lz Ls (Z.to_nat len) HP B HN) as (I1 & _ & I3 & _).
  destruct (mul_facts slope s Ls (vsize B)) as (M1 & M2 & M3). rewrite M1, M2, M3 in I3.
  set (inc0 := snd (set_slope ar B base slope)) in *.
  assert (Aw : Rabs (val inc0) <= g (Nat.pred (vsize B)) * (INR (vsize B) * Rabs (val slope))).
  { replace (val inc0) with ((val inc0 - INR (vsize B) * val slope) + INR (vsize B) * val slope) by ring.
    eapply Rle_trans; [apply Rabs_triang|]. rewrite (Rabs_mult (INR (vsize B))), (Rabs_pos_eq (INR (vsize B))) by apply pos_INR. lra. }
  assert (HL : INR (vsize B) = IZR (lanes B)) by (rewrite INR_IZR_INZ; destruct B; reflexivity).
  destruct (narrow_err n inc0 I1) as (N1 & N2).
  { intros E. specialize (Hr E). eapply Rle_trans; [exact Aw|]. rewrite HL.
    assert (G : g (Nat.pred (vsize B)) <= 3 / 2).
    { eapply Rle_trans; [apply (g_mono t _ 3%nat)|].
      - destruct B; cbn in E |- *; try discriminate E; lia.
      - rewrite E. unfold growth, unit_roundoff. cbn. lra. }
    change 127%Z with (1 + 126)%Z in Hr. rewrite bpow_plus in Hr. change (bpow radix2 1) with 2 in Hr.
    pose proof (bpow_gt_0 radix2 126). pose proof (g_1 t (Nat.pred (vsize B))).
    replace (3 * bpow radix2 126) with (3 / 2 * (2 * bpow radix2 126)) by field.
    apply Rmult_le_compat; [lra| |exact G|exact Hr].
    apply Rmult_le_pos; [apply IZR_le; destruct B; cbn; lia|apply Rabs_pos]. }
  assert (Hinc : Rabs (val (f_narrow n inc0) - INR (vsize B) * val slope) <=
    ((1 + slope_rel t) * g (Nat.pred (vsize B)) - 1) * (INR (vsize B) * Rabs (val slope)) + slope_tiny t).
  { replace (val (f_narrow n inc0) - INR (vsize B) * val slope) with ((val (f_narrow n inc0) - val inc0) + (val inc0 - INR (vsize B) * val slope)) by ring.
    eapply Rle_trans; [apply Rabs_triang|].
    assert (slope_rel t * Rabs (val inc0) <= slope_rel t * (g (Nat.pred (vsize B)) * (INR (vsize B) * Rabs (val slope))))
      by (apply Rmult_le_compat_l; [apply rel_pos|exact Aw]).
    lra. }
  set (J := Z.to_nat (i / step)). set (l := Z.to_nat (i mod step)).
  assert (Ei : i = Z.of_nat (J * vsize B + l)).
  { unfold J, l. rewrite Nat2Z.inj_add, Nat2Z.inj_mul, !Z2Nat.id by (apply Z.mod_pos_bound || apply Z.div_pos; lia).
    pose proof (Z.div_mod i step). lia. }
  assert (Hl : (l < vsize B)%nat).
  { pose proof (Z.mod_pos_bound i step ltac:(lia)). unfold l. lia. }
  assert (EJ : Z.to_nat i = (J * vsize B + l)%nat) by lia.
  destruct (vector_bound n base slope B (Z.to_nat len) (slope_rel t) (slope_tiny t) (f_narrow n inc0) Fb Fs (rel_pos t) (tiny_pos t) HfitN HN N1 Hinc
    J l base ltac:(lia) Hl) as (V1 & V2).
  cbn [vsample near_line]. eexists. split; [reflexivity|].
  assert (EV : vval ar B base m (ARamp base slope) i =
    Nat.iter J (fun y => a_add ar y (f_narrow n inc0)) (nth l (fst (set_slope ar B base slope)) base)).
  { unfold vval. fold J l. cbn [wrap_vector_arg]. pose proof (set_slope_length ar B base slope) as HLn.
    unfold inc0. destruct (set_slope ar B base slope) as [dat inc]. cbn [vchunk fst snd] in *.
    apply (iter_vadd_nth ar B); assumption. }
  rewrite EV. split; [exact V1|]. rewrite EJ, Ei, <- INR_IZR_INZ. exact V2.
Qed.

(** * set_slope_vec *)
Lemma slope_vec_near m dest f slope len : (0 < len < 2 ^ 32)%Z -> accessible m dest len ->
  tame_arg 0 0 len (ARamp f slope) ->
  exists r, (forall i, (0 <= i < len)%Z -> near_line 0 0 m (ARamp f slope) i (r i)) /\
    leaves m (set_slope_vec ar m dest f slope len) dest len r.
Proof.
  intros Hn Ha Ht. eexists. split; [|apply set_slope_vec_ok; assumption].
  intros i Hi. eapply scalar_near; eassumption.
Qed.

Lemma slope_vec_simd_near m dest f slope len : legal_simd_length B len -> aligned B dest -> accessible m dest len ->
  tame_arg 0 0 len (ARamp f slope) ->
  exists r, (forall i, (0 <= i < len)%Z -> near_line 0 0 m (ARamp f slope) i (r i)) /\
    leaves m (set_slope_vec_simd ar B m dest f slope len) dest len r.
Proof.
  intros Hn Hal Ha Ht. pose proof (vsize_pos B) as HB.
  destruct (legal_count B len Hn) as (Hc1 & Hc2 & Hc3).
  assert (Hs : (step <= len)%Z).
  { destruct Hn as (Hp & _). destruct (Z.to_nat (len / step)) as [|k]; [cbn in Hc3; lia|]. rewrite Nat2Z.inj_succ in Hc3. nia. }
  set (inc := a_mul ar (a_ofZ ar step) slope).
  set (v := fun i : Z => Nat.iter (Z.to_nat (i / step)) (fun y => a_add ar y inc)
     (nth (Z.to_nat (i mod step)) (fst (set_slope ar B f slope)) f)).
  exists (fun i => Some (v i)). split.
  - intros i Hi. pose proof (tame_plain f slope len ltac:(lia) Ht) as HP. destruct Ht as (Fb & Fs & Hfit).
    assert (HfitN : (1 + 0) * g (Z.to_nat len) * (Rabs (val f) + INR (Z.to_nat len) * Rabs (val slope)) +
      g (Z.to_nat len) * (INR (Z.to_nat len) * 0) < overflow_bound t).
    { rewrite INR_IZR_INZ, Z2Nat.id by lia. exact Hfit. }
    destruct (leaf_ex f) as [z Lz]. destruct (leaf_ex slope) as [s Ls].
    assert (HN : (vsize B <= Z.to_nat len)%nat) by lia.
    assert (RI : rounds inc (pmul (vsize B) s)).
    { apply (scale_rounds n f slope z s Fb Fs Lz Ls (Z.to_nat len) HP); [destruct B; cbn; auto|exact HN|right; reflexivity]. }
    destruct RI as (I1 & _ & I3 & _). destruct (mul_facts slope s Ls (vsize B)) as (M1 & M2 & M3). rewrite M1, M2, M3 in I3.
    set (J := Z.to_nat (i / step)). set (l := Z.to_nat (i mod step)).
    assert (Ei : i = Z.of_nat (J * vsize B + l)).
    { unfold J, l. rewrite Nat2Z.inj_add, Nat2Z.inj_mul, !Z2Nat.id by (apply Z.mod_pos_bound || apply Z.div_pos; lia).
      pose proof (Z.div_mod i step). lia. }
    assert (Hl : (l < vsize B)%nat).
    { pose proof (Z.mod_pos_bound i step ltac:(lia)). unfold l. lia. }
    assert (EJ : Z.to_nat i = (J * vsize B + l)%nat) by lia.
    destruct (vector_bound n f slope B (Z.to_nat len) 0 0 inc Fb Fs (Rle_refl 0) (Rle_refl 0) HfitN HN I1 ltac:(lra)
      J l f ltac:(lia) Hl) as (V1 & V2).
    cbn [near_line]. eexists. split; [reflexivity|]. unfold v. fold J l. split; [exact V1|].
    rewrite EJ, Ei, <- INR_IZR_INZ. exact V2.
  - apply (slope_simd_gen ar B m dest f slope len v Hn Hal Ha).
    + apply (lanesf_inj_ext B _ _ f); [apply set_slope_length|]. intros j Hj. unfold v.
      rewrite Z.div_small, Z.mod_small, Nat2Z.id by lia. reflexivity.
    + intros i Hi. unfold v. fold inc. rewrite (Z.add_comm i step).
      replace (step + i)%Z with (i + 1 * step)%Z by ring. rewrite Z.div_add, Z.mod_add by lia.
      rewrite Z2Nat.inj_add by (apply Z.div_pos || idtac; lia). change (Z.to_nat 1) with 1%nat.
      rewrite Nat.add_1_r, iterS. reflexivity.
Qed.
End SimdArgs.
