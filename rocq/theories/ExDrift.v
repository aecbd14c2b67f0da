(** Example data for the properties about accumulated rounding errors. *)
From Coq Require Import ZArith Reals List Lia Lra.
From Flocq Require Import Core IEEE754.Binary IEEE754.Bits.
From Verif Require Import Base Mem Backend Args Float LaneOps Spec SpecReduce SpecDrift FloatFacts FloatRound ReduceMore SumErr ExData ExFloat.
Import ListNotations.
Local Open Scope R_scope.

Lemma growth_upper t k : INR k * unit_roundoff t <= / 2 -> growth t k - 1 <= 2 * (INR k * unit_roundoff t).
Proof.
  assert (U : 0 < unit_roundoff t) by (unfold unit_roundoff; apply bpow_gt_0).
  set (u := unit_roundoff t) in *.
  induction k as [|k IH]; intros H.
  - rewrite g_0. cbn. lra.
  - rewrite g_S. rewrite S_INR in *. assert (Hk : INR k * u <= / 2) by lra. specialize (IH Hk).
    assert (u * growth t k <= u * 2) by (apply Rmult_le_compat_l; lra). fold u. lra.
Qed.

Lemma growth_2 t k : (Z.of_nat k <= 2 ^ 23)%Z -> growth t k <= 2.
Proof.
  intros H. assert (B : INR k * unit_roundoff t <= / 2).
  { rewrite INR_IZR_INZ. apply IZR_le in H.
    assert (U : unit_roundoff t <= bpow radix2 (-24)) by (unfold unit_roundoff; apply bpow_le; destruct t; discriminate).
    eapply Rle_trans; [apply Rmult_le_compat; [apply IZR_le; lia|unfold unit_roundoff; apply bpow_ge_0|exact H|exact U]|]. cbn. lra. }
  pose proof (growth_upper t k B). lra.
Qed.

Lemma ints_sums {t} (l : list (F t)) ks : integers l ks ->
  all_finite l /\ real_sum_abs l = IZR (zsum_abs ks) /\ real_sum_sqr l = IZR (zsum (map (fun k => (k * k)%Z) ks)).
Proof.
  induction 1 as [|x k l ks (F & V) H (I1 & I2 & I3)]; [split; [constructor|split; reflexivity]|].
  split; [constructor; assumption|]. cbn [real_sum_abs real_sum_sqr fold_right zsum_abs zsum map].
  fold (real_sum_abs l) (real_sum_sqr l) (zsum_abs ks) (zsum (map (fun k => (k * k)%Z) ks)).
  rewrite I2, I3, V, !plus_IZR, mult_IZR, abs_IZR. split; reflexivity.
Qed.

Lemma big_overflow t : 2 ^ 100 < overflow_bound t.
Proof.
  replace (2 ^ 100) with (bpow radix2 100) by (cbn; lra). apply bpow_lt. destruct t; reflexivity.
Qed.

Lemma sum_fits_ints {t} (l : list (F t)) ks : integers l ks -> (Z.of_nat (length l) <= 2 ^ 23)%Z -> (zsum_abs ks <= 2 ^ 90)%Z -> sum_fits l.
Proof.
  intros H Hl Hk. destruct (ints_sums l ks H) as (_ & E & _). unfold sum_fits. rewrite E. apply IZR_le in Hk.
  eapply Rle_lt_trans; [|apply big_overflow].
  assert (growth t (length l - 1) <= 2) by (apply growth_2; lia). pose proof (g_1 t (length l - 1)).
  assert (0 <= IZR (zsum_abs ks)).
  { apply IZR_le. clear. induction ks as [|k ks IH]; cbn [zsum_abs fold_right]; [lia|]. fold (zsum_abs ks). lia. }
  eapply Rle_trans; [apply Rmult_le_compat; [lra|assumption|eassumption|exact Hk]|]. change (2 ^ 90)%Z with 1237940039285380274899124224%Z. lra.
Qed.

Lemma squares_fit_ints {t} (s : F t) k0 (l : list (F t)) ks : val s = IZR k0 -> (Z.abs k0 <= 2 ^ 80)%Z -> integers l ks ->
  (Z.of_nat (length l) <= 2 ^ 22)%Z -> (0 <= zsum (map (fun k => (k * k)%Z) ks) <= 2 ^ 80)%Z -> squares_fit s l.
Proof.
  intros V Hs H Hl (Hk0 & Hk). destruct (ints_sums l ks H) as (_ & _ & E). unfold squares_fit. rewrite E, V, <- abs_IZR.
  apply IZR_le in Hk, Hk0. apply IZR_le in Hs.
  assert (G1 : growth t (length l + 1) <= 2) by (apply growth_2; lia). pose proof (g_1 t (length l + 1)).
  assert (G2 : growth t (length l) <= 2) by (apply growth_2; lia). pose proof (g_1 t (length l)).
  assert (N : 0 <= INR (length l) <= IZR (2 ^ 22)) by (rewrite INR_IZR_INZ; split; apply IZR_le; lia).
  assert (T : 0 <= half_tiny t <= 1).
  { unfold half_tiny. split; [apply bpow_ge_0|]. change 1 with (bpow radix2 0). apply bpow_le. destruct t; discriminate. }
  assert (0 <= IZR (Z.abs k0)) by (apply IZR_le; lia).
  eapply Rle_lt_trans; [|apply big_overflow].
  set (q := IZR (zsum (map (fun k => (k * k)%Z) ks))) in *. clearbody q. set (a := IZR (Z.abs k0)) in *. clearbody a.
  set (h := half_tiny t) in *. clearbody h. set (b := INR (length l)) in *. clearbody b.
  set (g1 := growth t (length l + 1)) in *. clearbody g1. set (g2 := growth t (length l)) in *. clearbody g2.
  assert (A1 : g1 * (a + q) <= 2 * (IZR (2 ^ 80) + IZR (2 ^ 80))) by (apply Rmult_le_compat; lra).
  assert (A2 : b * h <= IZR (2 ^ 22) * 1) by (apply Rmult_le_compat; lra).
  assert (A3 : 0 <= b * h) by (apply Rmult_le_pos; lra).
  assert (A4 : g2 * (b * h) <= 2 * (IZR (2 ^ 22) * 1)) by (apply Rmult_le_compat; lra).
  change (2 ^ 80)%Z with 1208925819614629174706176%Z in *. change (2 ^ 22)%Z with 4194304%Z in *. lra.
Qed.

Lemma in_range_mid t k v : (Z.of_nat k <= 2 ^ 22)%Z -> / IZR (2 ^ 64) <= Rabs v <= IZR (2 ^ 64) -> in_range t k v.
Proof.
  intros Hk (H1 & H2). assert (G : growth t k - 1 <= / 2).
  { assert (B : INR k * unit_roundoff t <= / 4).
    { rewrite INR_IZR_INZ. apply IZR_le in Hk.
      assert (U : unit_roundoff t <= bpow radix2 (-24)) by (unfold unit_roundoff; apply bpow_le; destruct t; discriminate).
      eapply Rle_trans; [apply Rmult_le_compat; [apply IZR_le; lia|unfold unit_roundoff; apply bpow_ge_0|exact Hk|exact U]|]. cbn. lra. }
    pose proof (growth_upper t k ltac:(lra)). lra. }
  pose proof (g_1 t k). pose proof (Rabs_pos v). split.
  - eapply Rle_lt_trans; [|apply big_overflow].
    assert (growth t k * Rabs v <= 2 * IZR (2 ^ 64)) by (apply Rmult_le_compat; lra).
    change (2 ^ 64)%Z with 18446744073709551616%Z in *. lra.
  - assert (N : smallest_normal t <= bpow radix2 (-126)) by (unfold smallest_normal; apply bpow_le; destruct t; discriminate).
    eapply Rle_trans; [exact N|].
    assert (/ 2 * / IZR (2 ^ 64) <= (2 - growth t k) * Rabs v).
    { apply Rmult_le_compat; lra. }
    assert (bpow radix2 (-126) <= / 2 * / IZR (2 ^ 64)).
    { change (/ 2) with (bpow radix2 (-1)). change (/ IZR (2 ^ 64)) with (bpow radix2 (-64)). rewrite <- bpow_plus. apply bpow_le. discriminate. }
    lra.
Qed.

(** Factor 0.9 as a float: 15099494 / 2^24. *)
Definition c09 : F F32 := f_lit F32 15099494 (-24).
Lemma c09_val : isfin c09 = true /\ val c09 = 15099494 / 16777216.
Proof.
  destruct (f_lit_exact (t := F32) 15099494 (-24)) as (A1 & A2 & _); [cbv; discriminate|cbv; discriminate|reflexivity|].
  split; [exact A1|]. unfold c09. rewrite A2. change (bpow radix2 (-24)) with (/ 16777216). reflexivity.
Qed.
Lemma c09_pow k : (k <= 60)%nat -> / IZR (2 ^ 62) <= val c09 ^ k <= 1.
Proof.
  intros Hk. rewrite (proj2 c09_val). split.
  - eapply Rle_trans with ((/ 2) ^ k).
    + eapply Rle_trans with ((/ 2) ^ 60); [cbn; lra|]. replace 60%nat with (k + (60 - k))%nat by lia. rewrite pow_add.
      assert (P : forall j, 0 < (/ 2) ^ j <= 1).
      { intros j. split; [apply pow_lt; lra|]. rewrite <- (pow1 j). apply pow_incr. lra. }
      pose proof (P k). pose proof (P (60 - k)%nat). rewrite <- (Rmult_1_r ((/ 2) ^ k)) at 2. apply Rmult_le_compat_l; lra.
    + apply pow_incr. lra.
  - rewrite <- (pow1 k). apply pow_incr. lra.
Qed.
Lemma c09_range j k : (j <= 60)%nat -> (k <= 60)%nat -> in_range F32 j (val c09 ^ k).
Proof.
  intros Hj Hk. apply in_range_mid; [lia|]. pose proof (c09_pow k Hk) as (L & U).
  rewrite Rabs_pos_eq by (assert (0 < / IZR (2 ^ 62)) by (apply Rinv_0_lt_compat; apply IZR_lt; reflexivity); lra).
  change (2 ^ 62)%Z with 4611686018427387904%Z in *. change (2 ^ 64)%Z with 18446744073709551616%Z. lra.
Qed.
Lemma c09_curve B (s : F F32) : val s = 3 -> fmt_of B = F32 -> (lanes B <= 8)%Z ->
  (forall k, (0 < k < 32)%Z -> in_range F32 (Z.to_nat k) (val s * val c09 ^ Z.to_nat k)) /\
  (forall k, (0 < k <= lanes B)%Z -> in_range F32 (Z.to_nat k - 1) (val c09 ^ Z.to_nat k)).
Proof.
  intros V _ HB. split; intros k Hk; [|apply c09_range; lia]. rewrite V. apply in_range_mid; [lia|].
  pose proof (c09_pow (Z.to_nat k) ltac:(lia)) as (L & U).
  assert (0 < / IZR (2 ^ 62)) by (apply Rinv_0_lt_compat; apply IZR_lt; reflexivity).
  rewrite Rabs_pos_eq by lra. change (2 ^ 62)%Z with 4611686018427387904%Z in *. change (2 ^ 64)%Z with 18446744073709551616%Z. lra.
Qed.

(** A ramp of doubles with slope 0.3, which is not a float. *)
Definition ramp03 : arg (F F64) := ARamp (f_ofZ F64 7) (f_lit F64 5404319552844595 (-54)).
Lemma ramp03_ok rel tiny : 0 <= rel <= 1 -> 0 <= tiny <= 1 -> tame_arg rel tiny 32 ramp03.
Proof.
  intros Hr Ht. destruct (f_lit_exact (t := F64) 7 0) as (A1 & A2 & _); [cbv; discriminate|cbv; discriminate|reflexivity|].
  destruct (f_lit_exact (t := F64) 5404319552844595 (-54)) as (B1 & B2 & _); [cbv; discriminate|cbv; discriminate|reflexivity|].
  split; [exact A1|]. split; [exact B1|].
  change (f_ofZ F64 7) with (f_lit F64 7 0). rewrite A2, B2. change (bpow radix2 0) with 1. change (bpow radix2 (-54)) with (/ 18014398509481984).
  rewrite !Rabs_pos_eq by lra. change (Z.to_nat 32) with 32%nat.
  assert (G : growth F64 32 <= 2) by (apply growth_2; cbn; lia). pose proof (g_1 F64 32).
  set (g := growth F64 32) in *. clearbody g.
  eapply Rle_lt_trans; [|apply big_overflow].
  assert (X1 : (1 + rel) * g <= 2 * 2) by (apply Rmult_le_compat; lra).
  assert (X0 : 0 <= (1 + rel) * g) by (apply Rmult_le_pos; lra).
  assert (X2 : g * (32 * tiny) <= 2 * 32) by (apply Rmult_le_compat; lra).
  assert (X3 : (1 + rel) * g * (7 * 1 + 32 * (5404319552844595 * / 18014398509481984)) <= 2 * 2 * 20) by (apply Rmult_le_compat; lra).
  lra.
Qed.
Lemma ramp03_range B : fmt_of B = F64 -> slope_in_range B ramp03.
Proof.
  intros HB _. destruct (f_lit_exact (t := F64) 5404319552844595 (-54)) as (B1 & B2 & _); [cbv; discriminate|cbv; discriminate|reflexivity|].
  rewrite B2. change (bpow radix2 (-54)) with (/ 18014398509481984). rewrite Rabs_pos_eq by lra.
  eapply Rle_trans with (bpow radix2 2); [|apply bpow_le; discriminate]. change (bpow radix2 2) with 4.
  destruct B; try discriminate HB; cbn [lanes]; lra.
Qed.
Lemma f_ofZ_val k : (Z.abs k <= 2 ^ 24)%Z -> val (f_ofZ F32 k) = IZR k.
Proof. intros H. apply (f_ofZ_int (n0 F32)). exact H. Qed.
