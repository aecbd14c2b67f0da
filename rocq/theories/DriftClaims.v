(** Proofs of the statements of Prop_Drift.v. *)
From Coq Require Import ZArith Reals List Lia Bool Lra.
From Flocq Require Import Core IEEE754.Binary IEEE754.Bits.
From Verif Require Import
  Base Mem Loop Backend Args Drivers Lanes Float LaneOps Reduce FloatOps MemFuns ScalarMath VecMath Spec SpecReduce SpecLane SpecDrift
  LoopFacts MemFacts KaryFacts DriverFacts DriverClaims DriverClaims2 DriverFree ReduceClaims FloatFacts FloatRound VecMore SumErr RampErr ExpErr SoftErr ExData ExFloat ExDrift.
Import ListNotations.
Local Open Scope Z_scope.

Lemma C69_horizontal_sum_vec_lemma : 
  forall (t : fmt) (n : nans t) (m : mem (F t)) p len l, filled m p len l -> all_finite l -> sum_fits l ->
    exists r, horizontal_sum_vec (fred_scalar n) m p len = Ok r /\ near_sum l r.
Proof.
  intros t n m p len l H1 H2 H3. unfold sum_fits, near_sum in *. rewrite Nat.sub_1_r in *. exact (hsum_err n m p len l H1 H2 H3).
Qed.

Lemma C69_horizontal_sum_vec_simd_lemma : 
  forall (c : cfg) (B : backend) (n : nans (fmt_of B)) (m : mem (F (fmt_of B))) p len l, aligned B p -> whole_vectors B len -> filled m p len l -> all_finite l -> sum_fits l ->
    exists r, horizontal_sum_vec_simd (fred c B n) c B m p len = Ok r /\ near_sum l r.
Proof.
  intros c B n m p len l H0 H0' H1 H2 H3. unfold sum_fits, near_sum in *. rewrite Nat.sub_1_r in *. exact (hsum_simd_err c B n m p len l H0 H0' H1 H2 H3).
Qed.

Lemma C69_horizontal_maxsum_vec_lemma : 
  forall (t : fmt) (n : nans t) (m : mem (F t)) p len l, filled m p len l -> all_finite l -> sum_fits l ->
    exists rmax r, horizontal_maxsum_vec (fred_scalar n) m p len = Ok (rmax, r) /\ near_sum l r.
Proof.
  intros t n m p len l H1 H2 H3. destruct (C25_horizontal_maxsum_vec_lemma _ (fred_scalar n) m p len l H1) as (rmax & r & E & _ & E2).
  destruct (C69_horizontal_sum_vec_lemma t n m p len l H1 H2 H3) as (r' & E3 & N). rewrite E2 in E3. injection E3 as <-. exists rmax, r. auto.
Qed.

Lemma C69_horizontal_maxsum_vec_simd_lemma : 
  forall (c : cfg) (B : backend) (n : nans (fmt_of B)) (m : mem (F (fmt_of B))) p len l, aligned B p -> whole_vectors B len -> filled m p len l -> all_finite l -> sum_fits l ->
    exists rmax r, horizontal_maxsum_vec_simd (fred c B n) c B m p len = Ok (rmax, r) /\ near_sum l r.
Proof.
  intros c B n m p len l H0 H0' H1 H2 H3. destruct (C25_horizontal_maxsum_vec_simd_lemma _ (fred c B n) c B m p len l H0 H0' H1) as (rmax & r & E & _ & E2).
  destruct (C69_horizontal_sum_vec_simd_lemma c B n m p len l H0 H0' H1 H2 H3) as (r' & E3 & N). rewrite E2 in E3. injection E3 as <-. exists rmax, r. auto.
Qed.

Lemma C69_horizontal_sum_lemma : 
  forall (c : cfg) (B : backend) (n : nans (fmt_of B)) (v : list (F (fmt_of B))),
    Z.of_nat (length v) = lanes B -> all_finite v -> sum_fits v ->
    exists r, horizontal_sum c B (f_ofZ (fmt_of B) 0) (fadd n) v = Ok r /\ near_sum v r.
Proof.
  intros c B n v H1 H2 H3. unfold sum_fits, near_sum in *. rewrite Nat.sub_1_r in *. apply vec_sum_err; auto.
  destruct B; cbn [lanes vsize] in *; lia.
Qed.

Lemma C69_peak_rms_vec_lemma : 
  forall (t : fmt) (n : nans t) (m : mem (F t)) p len l pk sq old start, filled m p len l -> all_finite l ->
    m pk = Some old -> m sq = Some start -> isfin start = true -> squares_fit start l ->
    exists m' r, peak_rms_vec (fred_scalar n) m p pk sq len = Ok m' /\ m' sq = Some r /\ near_squares start l r.
Proof.
  intros t n m p len l pk sq old start H1 H2 H3 H4 H5 H6. unfold squares_fit, near_squares in *.
  destruct (rms_err n m p pk sq len l old start H1 H2 H3 H4 H5 H6) as (m' & r & A1 & A2 & A3 & A4). exists m', r. auto.
Qed.

Lemma C69_peak_rms_vec_simd_lemma : 
  forall (c : cfg) (B : backend) (n : nans (fmt_of B)) (m : mem (F (fmt_of B))) p len l junk pk sq old start, aligned B p -> whole_quads B len -> upper_lanes_zero B (f_ofZ (fmt_of B) 0) junk -> filled m p len l -> all_finite l ->
    m pk = Some old -> m sq = Some start -> pk <> sq -> isfin start = true -> squares_fit start l ->
    exists m' r, peak_rms_vec_simd (fred c B n) c B junk m p pk sq len = Ok m' /\ m' sq = Some r /\ near_squares start l r.
Proof.
  intros c B n m p len l junk pk sq old start H0 H0' Hj H1 H2 H3 H4 Hne H5 H6. unfold squares_fit, near_squares in *.
  destruct (rms_simd_err c B n junk m p pk sq len l old start H0 H0' H1 H2 H3 H4 Hne H5 H6 Hj) as (m' & r & A1 & A2 & A3 & A4). exists m', r. auto.
Qed.

Lemma C69_growth_is_small_lemma : 
  forall (t : fmt) (k : nat), (INR k * unit_roundoff t <= / 2)%R -> (growth t k - 1 <= 2 * (INR k * unit_roundoff t))%R.
Proof.
  exact growth_upper.
Qed.

Lemma C69_same_sum_refuted_lemma : 
  exists m : mem (F F32), let l := f_ofZ F32 (2 ^ 24) :: repeat (f_ofZ F32 1) 7 in
    filled m 0 8 l /\ aligned SSE32 0 /\ whole_vectors SSE32 8 /\
    exists r1 r2, horizontal_sum_vec (fred_scalar (n0 F32)) m 0 8 = Ok r1 /\
      horizontal_sum_vec_simd (fred all_ext SSE32 (n0 F32)) all_ext SSE32 m 0 8 = Ok r2 /\
      bits r1 = bits (f_ofZ F32 (2 ^ 24)) /\ bits r2 = bits (f_ofZ F32 (2 ^ 24 + 6)).
Proof.
  exists (block 0 16 (fun a => f_ofZ F32 (if a =? 0 then 2 ^ 24 else 1))). cbv zeta. split; [|split; [|split]].
  - refine (filled_block 0 16 (fun a => f_ofZ F32 (if a =? 0 then 2 ^ 24 else 1)) 0 8 _ _ _); [split; reflexivity|lia|cbn; lia].
  - fitf_leaf.
  - fitf_leaf.
  - do 2 eexists. repeat split; try (vm_compute; reflexivity).
Qed.

Lemma C70_binary_vec_lemma : 
  forall (t : fmt) (n : nans t) (f : F t -> F t -> F t) (m : mem (F t)) (out : Z) (a1 a2 : arg (F t)) (len : Z),
    0 < len < 2 ^ 32 -> accessible m out len ->
    arg_fit m out len a1 -> tame_arg 0 0 len a1 ->
    arg_fit m out len a2 -> tame_arg 0 0 len a2 ->
    exists r1 r2 : Z -> option (F t),
      (forall i, 0 <= i < len -> near_line 0 0 m a1 i (r1 i) /\ near_line 0 0 m a2 i (r2 i)) /\
      leaves m (binary_vec (farith n) f m out a1 a2 len) out len (fun i => lift2 f (r1 i) (r2 i)).
Proof.
  intros t n f m out a1 a2 len Hn Ho H1 E1 H2 E2.
  exists (sample (farith n) m a1), (sample (farith n) m a2). split.
  { intros i Hi. repeat split; apply (scalar_near n m _ i len); assumption. }
  apply C01_foo_vec_maps_binary_lemma; auto.
Qed.

Lemma C70_ternary_vec_lemma : 
  forall (t : fmt) (n : nans t) (f : F t -> F t -> F t -> F t) (m : mem (F t)) (out : Z) (a1 a2 a3 : arg (F t)) (len : Z),
    0 < len < 2 ^ 32 -> accessible m out len ->
    arg_fit m out len a1 -> tame_arg 0 0 len a1 ->
    arg_fit m out len a2 -> tame_arg 0 0 len a2 ->
    arg_fit m out len a3 -> tame_arg 0 0 len a3 ->
    exists r1 r2 r3 : Z -> option (F t),
      (forall i, 0 <= i < len -> near_line 0 0 m a1 i (r1 i) /\ near_line 0 0 m a2 i (r2 i) /\ near_line 0 0 m a3 i (r3 i)) /\
      leaves m (ternary_vec (farith n) f m out a1 a2 a3 len) out len (fun i => lift3 f (r1 i) (r2 i) (r3 i)).
Proof.
  intros t n f m out a1 a2 a3 len Hn Ho H1 E1 H2 E2 H3 E3.
  exists (sample (farith n) m a1), (sample (farith n) m a2), (sample (farith n) m a3). split.
  { intros i Hi. repeat split; apply (scalar_near n m _ i len); assumption. }
  apply C01_foo_vec_maps_ternary_lemma; auto.
Qed.

Lemma C70_quaternary_vec_lemma : 
  forall (t : fmt) (n : nans t) (f : F t -> F t -> F t -> F t -> F t) (m : mem (F t)) (out : Z) (a1 a2 a3 a4 : arg (F t)) (len : Z),
    0 < len < 2 ^ 32 -> accessible m out len ->
    arg_fit m out len a1 -> tame_arg 0 0 len a1 ->
    arg_fit m out len a2 -> tame_arg 0 0 len a2 ->
    arg_fit m out len a3 -> tame_arg 0 0 len a3 ->
    arg_fit m out len a4 -> tame_arg 0 0 len a4 ->
    exists r1 r2 r3 r4 : Z -> option (F t),
      (forall i, 0 <= i < len -> near_line 0 0 m a1 i (r1 i) /\ near_line 0 0 m a2 i (r2 i) /\ near_line 0 0 m a3 i (r3 i) /\ near_line 0 0 m a4 i (r4 i)) /\
      leaves m (quaternary_vec (farith n) f m out a1 a2 a3 a4 len) out len (fun i => lift4 f (r1 i) (r2 i) (r3 i) (r4 i)).
Proof.
  intros t n f m out a1 a2 a3 a4 len Hn Ho H1 E1 H2 E2 H3 E3 H4 E4.
  exists (sample (farith n) m a1), (sample (farith n) m a2), (sample (farith n) m a3), (sample (farith n) m a4). split.
  { intros i Hi. repeat split; apply (scalar_near n m _ i len); assumption. }
  apply C01_foo_vec_maps_quaternary_lemma; auto.
Qed.

Lemma C70_binary_vec_simd_lemma : 
  forall (B : backend) (n : nans (fmt_of B)) (vf : list (F (fmt_of B)) -> list (F (fmt_of B)) -> list (F (fmt_of B))) (f : F (fmt_of B) -> F (fmt_of B) -> F (fmt_of B))
         (m : mem (F (fmt_of B))) (out : Z) (a1 a2 : arg (F (fmt_of B))) (len : Z),
    lanewise2 B vf f -> legal_simd_length B len -> aligned B out -> accessible m out len ->
    simd_fit B m out len a1 -> tame_arg (slope_rel (fmt_of B)) (slope_tiny (fmt_of B)) len a1 -> slope_in_range B a1 ->
    simd_fit B m out len a2 -> tame_arg (slope_rel (fmt_of B)) (slope_tiny (fmt_of B)) len a2 -> slope_in_range B a2 ->
    exists r1 r2 : Z -> option (F (fmt_of B)),
      (forall i, 0 <= i < len ->
        near_line (slope_rel (fmt_of B)) (slope_tiny (fmt_of B)) m a1 i (r1 i) /\
        near_line (slope_rel (fmt_of B)) (slope_tiny (fmt_of B)) m a2 i (r2 i)) /\
      let result := fun i => lift2 f (r1 i) (r2 i) in
      leaves m (binary_vec_simd (farith n) B vf m out a1 a2 len) out len result /\
      leaves m (binary_vec_simd_ct (farith n) B (Z.to_nat (len / Z.of_nat (vsize B))) vf m out a1 a2) out len result.
Proof.
  intros B n vf f m out a1 a2 len Hf Hn Hal Ho H1 E1 T1 H2 E2 T2.
  assert (Q1 : free_arg B m out len a1) by (unfold free_arg; unfold simd_fit in H1; tauto).
  assert (Q2 : free_arg B m out len a2) by (unfold free_arg; unfold simd_fit in H2; tauto).
  destruct (legal_bounds B len Hn) as [Hb Hr]. destruct (vecs_of_legal B len Hn) as [Hk Hkn].
  assert (Hs : Z.of_nat (vsize B) <= len) by nia.
  exists (vsample (farith n) B m a1), (vsample (farith n) B m a2). split.
  { intros i Hi. repeat split; apply (simd_near B n m _ i len); assumption. }
  cbv zeta. split.
  - pose proof (binary_simd_free (farith n) B vf f m out a1 a2 len Hf Hb Hal) as G. rewrite Hr in G. apply G; assumption.
  - pose proof (binary_ct_free (farith n) B vf f m out a1 a2 _ Hf Hk Hal) as G. rewrite Hkn in G. apply G; assumption.
Qed.

Lemma C70_ternary_vec_simd_lemma : 
  forall (B : backend) (n : nans (fmt_of B)) (vf : list (F (fmt_of B)) -> list (F (fmt_of B)) -> list (F (fmt_of B)) -> list (F (fmt_of B))) (f : F (fmt_of B) -> F (fmt_of B) -> F (fmt_of B) -> F (fmt_of B))
         (m : mem (F (fmt_of B))) (out : Z) (a1 a2 a3 : arg (F (fmt_of B))) (len : Z),
    lanewise3 B vf f -> legal_simd_length B len -> aligned B out -> accessible m out len ->
    simd_fit B m out len a1 -> tame_arg (slope_rel (fmt_of B)) (slope_tiny (fmt_of B)) len a1 -> slope_in_range B a1 ->
    simd_fit B m out len a2 -> tame_arg (slope_rel (fmt_of B)) (slope_tiny (fmt_of B)) len a2 -> slope_in_range B a2 ->
    simd_fit B m out len a3 -> tame_arg (slope_rel (fmt_of B)) (slope_tiny (fmt_of B)) len a3 -> slope_in_range B a3 ->
    exists r1 r2 r3 : Z -> option (F (fmt_of B)),
      (forall i, 0 <= i < len ->
        near_line (slope_rel (fmt_of B)) (slope_tiny (fmt_of B)) m a1 i (r1 i) /\
        near_line (slope_rel (fmt_of B)) (slope_tiny (fmt_of B)) m a2 i (r2 i) /\
        near_line (slope_rel (fmt_of B)) (slope_tiny (fmt_of B)) m a3 i (r3 i)) /\
      let result := fun i => lift3 f (r1 i) (r2 i) (r3 i) in
      leaves m (ternary_vec_simd (farith n) B vf m out a1 a2 a3 len) out len result /\
      leaves m (ternary_vec_simd_ct (farith n) B (Z.to_nat (len / Z.of_nat (vsize B))) vf m out a1 a2 a3) out len result.
Proof.
  intros B n vf f m out a1 a2 a3 len Hf Hn Hal Ho H1 E1 T1 H2 E2 T2 H3 E3 T3.
  assert (Q1 : free_arg B m out len a1) by (unfold free_arg; unfold simd_fit in H1; tauto).
  assert (Q2 : free_arg B m out len a2) by (unfold free_arg; unfold simd_fit in H2; tauto).
  assert (Q3 : free_arg B m out len a3) by (unfold free_arg; unfold simd_fit in H3; tauto).
  destruct (legal_bounds B len Hn) as [Hb Hr]. destruct (vecs_of_legal B len Hn) as [Hk Hkn].
  assert (Hs : Z.of_nat (vsize B) <= len) by nia.
  exists (vsample (farith n) B m a1), (vsample (farith n) B m a2), (vsample (farith n) B m a3). split.
  { intros i Hi. repeat split; apply (simd_near B n m _ i len); assumption. }
  cbv zeta. split.
  - pose proof (ternary_simd_free (farith n) B vf f m out a1 a2 a3 len Hf Hb Hal) as G. rewrite Hr in G. apply G; assumption.
  - pose proof (ternary_ct_free (farith n) B vf f m out a1 a2 a3 _ Hf Hk Hal) as G. rewrite Hkn in G. apply G; assumption.
Qed.

Lemma C70_quaternary_vec_simd_lemma : 
  forall (B : backend) (n : nans (fmt_of B)) (vf : list (F (fmt_of B)) -> list (F (fmt_of B)) -> list (F (fmt_of B)) -> list (F (fmt_of B)) -> list (F (fmt_of B))) (f : F (fmt_of B) -> F (fmt_of B) -> F (fmt_of B) -> F (fmt_of B) -> F (fmt_of B))
         (m : mem (F (fmt_of B))) (out : Z) (a1 a2 a3 a4 : arg (F (fmt_of B))) (len : Z),
    lanewise4 B vf f -> legal_simd_length B len -> aligned B out -> accessible m out len ->
    simd_fit B m out len a1 -> tame_arg (slope_rel (fmt_of B)) (slope_tiny (fmt_of B)) len a1 -> slope_in_range B a1 ->
    simd_fit B m out len a2 -> tame_arg (slope_rel (fmt_of B)) (slope_tiny (fmt_of B)) len a2 -> slope_in_range B a2 ->
    simd_fit B m out len a3 -> tame_arg (slope_rel (fmt_of B)) (slope_tiny (fmt_of B)) len a3 -> slope_in_range B a3 ->
    simd_fit B m out len a4 -> tame_arg (slope_rel (fmt_of B)) (slope_tiny (fmt_of B)) len a4 -> slope_in_range B a4 ->
    exists r1 r2 r3 r4 : Z -> option (F (fmt_of B)),
      (forall i, 0 <= i < len ->
        near_line (slope_rel (fmt_of B)) (slope_tiny (fmt_of B)) m a1 i (r1 i) /\
        near_line (slope_rel (fmt_of B)) (slope_tiny (fmt_of B)) m a2 i (r2 i) /\
        near_line (slope_rel (fmt_of B)) (slope_tiny (fmt_of B)) m a3 i (r3 i) /\
        near_line (slope_rel (fmt_of B)) (slope_tiny (fmt_of B)) m a4 i (r4 i)) /\
      let result := fun i => lift4 f (r1 i) (r2 i) (r3 i) (r4 i) in
      leaves m (quaternary_vec_simd (farith n) B vf m out a1 a2 a3 a4 len) out len result /\
      leaves m (quaternary_vec_simd_ct (farith n) B (Z.to_nat (len / Z.of_nat (vsize B))) vf m out a1 a2 a3 a4) out len result.
Proof.
  intros B n vf f m out a1 a2 a3 a4 len Hf Hn Hal Ho H1 E1 T1 H2 E2 T2 H3 E3 T3 H4 E4 T4.
  assert (Q1 : free_arg B m out len a1) by (unfold free_arg; unfold simd_fit in H1; tauto).
  assert (Q2 : free_arg B m out len a2) by (unfold free_arg; unfold simd_fit in H2; tauto).
  assert (Q3 : free_arg B m out len a3) by (unfold free_arg; unfold simd_fit in H3; tauto).
  assert (Q4 : free_arg B m out len a4) by (unfold free_arg; unfold simd_fit in H4; tauto).
  destruct (legal_bounds B len Hn) as [Hb Hr]. destruct (vecs_of_legal B len Hn) as [Hk Hkn].
  assert (Hs : Z.of_nat (vsize B) <= len) by nia.
  exists (vsample (farith n) B m a1), (vsample (farith n) B m a2), (vsample (farith n) B m a3), (vsample (farith n) B m a4). split.
  { intros i Hi. repeat split; apply (simd_near B n m _ i len); assumption. }
  cbv zeta. split.
  - pose proof (quaternary_simd_free (farith n) B vf f m out a1 a2 a3 a4 len Hf Hb Hal) as G. rewrite Hr in G. apply G; assumption.
  - pose proof (quaternary_ct_free (farith n) B vf f m out a1 a2 a3 a4 _ Hf Hk Hal) as G. rewrite Hkn in G. apply G; assumption.
Qed.

Lemma C70_set_slope_vec_lemma : 
  forall (B : backend) (n : nans (fmt_of B)) (m : mem (F (fmt_of B))) dest f slope len,
    0 < len < 2 ^ 32 -> accessible m dest len -> tame_arg 0 0 len (ARamp f slope) ->
    exists r, (forall i, 0 <= i < len -> near_line 0 0 m (ARamp f slope) i (r i)) /\
      leaves m (set_slope_vec (farith n) m dest f slope len) dest len r.
Proof.
  intros B n m dest f slope len H1 H2 H3. apply slope_vec_near; assumption.
Qed.

Lemma C70_set_slope_vec_simd_lemma : 
  forall (B : backend) (n : nans (fmt_of B)) (m : mem (F (fmt_of B))) dest f slope len,
    legal_simd_length B len -> aligned B dest -> accessible m dest len -> tame_arg 0 0 len (ARamp f slope) ->
    exists r, (forall i, 0 <= i < len -> near_line 0 0 m (ARamp f slope) i (r i)) /\
      leaves m (set_slope_vec_simd (farith n) B m dest f slope len) dest len r.
Proof.
  intros B n m dest f slope len H1 H2 H3 H4. apply slope_vec_simd_near; assumption.
Qed.

Lemma C70_same_ramp_refuted_lemma : 
  exists f slope : F F32, let m := block 0 64 (fun _ => f_ofZ F32 1) in
    isfin f = true /\ isfin slope = true /\
    cell_bits' (set_slope_vec (farith (n0 F32)) m 16 f slope 32) 26 = Some 1065353217 /\
    cell_bits' (set_slope_vec_simd (farith (n0 F32)) SSE32 m 16 f slope 32) 26 = Some 1065353216.
Proof.
  exists (f_ofZ F32 0), (f_lit F32 13421773 (-27)). repeat split; vm_compute; reflexivity.
Qed.

Lemma C70_growing_ramp_refuted_lemma : 
  exists f slope : F F32, let m := block 0 64 (fun _ => f_ofZ F32 1) in
    val f = IZR (2 ^ 24) /\ val slope = 1%R /\ forall i, 0 <= i < 32 ->
    cell_bits' (set_slope_vec (farith (n0 F32)) m 16 f slope 32) (16 + i) = Some (bits f).
Proof.
  exists (f_lit F32 1 24), (f_lit F32 1 0). cbv zeta.
  destruct (f_lit_exact (t := F32) 1 24) as (_ & A2 & _); [cbv; discriminate|cbv; discriminate|reflexivity|].
  destruct (f_lit_exact (t := F32) 1 0) as (_ & B2 & _); [cbv; discriminate|cbv; discriminate|reflexivity|].
  split; [rewrite A2; cbn; lra|]. split; [rewrite B2; cbn; lra|].
  intros i Hi. assert (D : forallb (fun k => match cell_bits' (set_slope_vec (farith (n0 F32)) (block 0 64 (fun _ => f_ofZ F32 1)) 16 (f_lit F32 1 24) (f_lit F32 1 0) 32) (16 + Z.of_nat k) with Some b => b =? bits (f_lit F32 1 24) | None => false end) (seq 0 32) = true) by (vm_compute; reflexivity).
  rewrite forallb_forall in D. specialize (D (Z.to_nat i)). rewrite Z2Nat.id in D by lia.
  destruct (cell_bits' _ _) as [b|]; [|discriminate D; apply in_seq; lia]. f_equal. apply Z.eqb_eq. apply D. apply in_seq. lia.
Qed.

Lemma C71_set_exp_vec_lemma : 
  forall (B : backend) (n : nans (fmt_of B)) (m : mem (F (fmt_of B))) dest f curve len,
    0 < len < 2 ^ 32 -> accessible m dest len -> isfin f = true -> isfin curve = true ->
    (forall k, 0 < k < len -> in_range (fmt_of B) (Z.to_nat k) (val f * val curve ^ Z.to_nat k)) ->
    exists r, (forall i, 0 <= i < len -> exists y, r i = Some y /\ near_product (Z.to_nat i) (val f * val curve ^ Z.to_nat i) y) /\
      leaves m (set_exp_vec (farith n) m dest f curve len) dest len r.
Proof.
  intros B n m dest f c len H1 H2 H3 H4 H5. exact (exp_vec_near B n m dest f c len H1 H2 H3 H4 H5).
Qed.

Lemma C71_set_exp_vec_simd_lemma : 
  forall (B : backend) (n : nans (fmt_of B)) (m : mem (F (fmt_of B))) dest f curve len,
    legal_simd_length B len -> aligned B dest -> accessible m dest len -> isfin f = true -> isfin curve = true ->
    (forall k, 0 < k < len -> in_range (fmt_of B) (Z.to_nat k) (val f * val curve ^ Z.to_nat k)) ->
    (forall k, 0 < k <= lanes B -> in_range (fmt_of B) (Z.to_nat k - 1) (val curve ^ Z.to_nat k)) ->
    exists r, (forall i, 0 <= i < len -> exists y, r i = Some y /\ near_product (Z.to_nat i) (val f * val curve ^ Z.to_nat i) y) /\
      leaves m (set_exp_vec_simd (farith n) B m dest f curve len) dest len r.
Proof.
  intros B n m dest f c len H0 H1 H2 H3 H4 H5 H6. exact (exp_vec_simd_near B n m dest f c len H0 H1 H2 H3 H4 H5 H6).
Qed.

Lemma C71_same_curve_refuted_lemma : 
  exists f curve : F F32, let m := block 0 64 (fun _ => f_ofZ F32 1) in
    isfin f = true /\ isfin curve = true /\
    cell_bits' (set_exp_vec (farith (n0 F32)) m 16 f curve 32) 29 = Some 702623256 /\
    cell_bits' (set_exp_vec_simd (farith (n0 F32)) SSE32 m 16 f curve 32) 29 = Some 702623253.
Proof.
  exists (f_ofZ F32 1), (f_lit F32 13421773 (-27)). repeat split; vm_compute; reflexivity.
Qed.

Lemma C71_small_power_refuted_lemma : 
  exists f curve : F F32, let m := block 0 64 (fun _ => f_ofZ F32 1) in
    (val f * val curve ^ 8 = bpow radix2 (-26))%R /\
    cell_bits' (set_exp_vec (farith (n0 F32)) m 16 f curve 32) 24 = Some (bits (f_lit F32 1 (-26))) /\
    cell_bits' (set_exp_vec_simd (farith (n0 F32)) AVX32 m 16 f curve 32) 24 = Some (bits (f_ofZ F32 0)).
Proof.
  exists (f_lit F32 8388608 103), (f_lit F32 1 (-19)). cbv zeta.
  destruct (f_lit_exact (t := F32) 8388608 103) as (_ & A2 & _); [cbv; discriminate|cbv; discriminate|reflexivity|].
  destruct (f_lit_exact (t := F32) 1 (-19)) as (_ & B2 & _); [cbv; discriminate|cbv; discriminate|reflexivity|].
  split; [|split; vm_compute; reflexivity]. rewrite A2, B2, !Rmult_1_l. change (IZR 8388608) with (bpow radix2 23). cbn [pow]. rewrite Rmult_1_r, <- !bpow_plus. reflexivity.
Qed.

Lemma C72_softclip_accurate_lemma : 
  forall t (n : nans t) (x : F t), isfin x = true ->
    (Rabs (val (s_softclip n x) - real_softclip (val x)) <= 2 * unit_roundoff t)%R.
Proof.
  intros t n x H. apply soft_err. exact H.
Qed.

Lemma C72_softclip_simd_accurate_lemma : 
  forall t (n : nans t) (c : cfg) (I : isa) (x : F t), isfin x = true ->
    (Rabs (val (vsoftclip c I n x) - real_softclip (val x)) <= 2 * unit_roundoff t)%R.
Proof.
  intros t n c I x H. rewrite vsoftclip_eq. apply soft_err. exact H.
Qed.

Lemma C72_softclip_monotone_lemma : 
  forall t (n : nans t) (x y : F t), isfin x = true -> isfin y = true -> (val x <= val y)%R ->
    (Rabs (val x) <= quarter_limit t)%R -> (Rabs (val y) <= quarter_limit t)%R ->
    (val (s_softclip n x) <= val (s_softclip n y))%R.
Proof.
  intros t n x y H1 H2 H3 H4 H5. apply soft_mono; assumption.
Qed.

Lemma C72_softclip_monotone_refuted_lemma : 
  forall t : fmt, exists x y : F t, isfin x = true /\ isfin y = true /\ (val x = quarter_limit t)%R /\ (val y = quarter_limit t + / 2)%R /\
    forall n : nans t, (val (s_softclip n y) < val (s_softclip n x))%R.
Proof.
  intros [].
  - exists (f_lit F32 1 22), (f_lit F32 8388609 (-1)).
    destruct (f_lit_exact (t := F32) 1 22) as (A1 & A2 & _); [cbv; discriminate|cbv; discriminate|reflexivity|].
    destruct (f_lit_exact (t := F32) 8388609 (-1)) as (B1 & B2 & _); [cbv; discriminate|cbv; discriminate|reflexivity|].
    split; [exact A1|]. split; [exact B1|]. split; [rewrite A2; cbn; lra|]. split; [rewrite B2; cbn; lra|]. intros n.
    assert (E1 : s_softclip n (f_lit F32 1 22) = f_lit F32 16777215 (-24)) by (apply bits_inj; vm_compute; reflexivity).
    assert (E2 : s_softclip n (f_lit F32 8388609 (-1)) = f_lit F32 16777214 (-24)) by (apply bits_inj; vm_compute; reflexivity).
    rewrite E1, E2.
    destruct (f_lit_exact (t := F32) 16777215 (-24)) as (_ & C2 & _); [cbv; discriminate|cbv; discriminate|reflexivity|].
    destruct (f_lit_exact (t := F32) 16777214 (-24)) as (_ & D2 & _); [cbv; discriminate|cbv; discriminate|reflexivity|].
    rewrite C2, D2. apply Rmult_lt_compat_r; [apply bpow_gt_0|lra].
  - exists (f_lit F64 1 51), (f_lit F64 4503599627370497 (-1)).
    destruct (f_lit_exact (t := F64) 1 51) as (A1 & A2 & _); [cbv; discriminate|cbv; discriminate|reflexivity|].
    destruct (f_lit_exact (t := F64) 4503599627370497 (-1)) as (B1 & B2 & _); [cbv; discriminate|cbv; discriminate|reflexivity|].
    split; [exact A1|]. split; [exact B1|]. split; [rewrite A2; cbn; lra|]. split; [rewrite B2; cbn; lra|]. intros n.
    assert (E1 : s_softclip n (f_lit F64 1 51) = f_lit F64 9007199254740991 (-53)) by (apply bits_inj; vm_compute; reflexivity).
    assert (E2 : s_softclip n (f_lit F64 4503599627370497 (-1)) = f_lit F64 9007199254740990 (-53)) by (apply bits_inj; vm_compute; reflexivity).
    rewrite E1, E2.
    destruct (f_lit_exact (t := F64) 9007199254740991 (-53)) as (_ & C2 & _); [cbv; discriminate|cbv; discriminate|reflexivity|].
    destruct (f_lit_exact (t := F64) 9007199254740990 (-53)) as (_ & D2 & _); [cbv; discriminate|cbv; discriminate|reflexivity|].
    rewrite C2, D2. apply Rmult_lt_compat_r; [apply bpow_gt_0|lra].
Qed.
