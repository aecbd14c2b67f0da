(** SIMD drivers whose ramps need not equal the scalar ones. *)
From Coq Require Import ZArith List Lia Bool.
From Verif Require Import Base Mem Loop Backend Args Drivers Spec LoopFacts MemFacts KaryFacts DriverFacts.
Import ListNotations.
Local Open Scope Z_scope.

Section Vector.
Context {A : Type} (ar : arith A) (B : backend).
Local Notation vec := (list A).
Local Notation step := (Z.of_nat (vsize B)).
Local Notation wrap := (wrap_vector_arg ar B).

(** Proof auxiliary: the lane a SIMD call reads for sample [i]. *)
Definition vval (d : A) (m : mem A) (a : arg A) (i : Z) : A :=
  nth (Z.to_nat (i mod step)) (vchunk ar B d m (wrap a) (Z.to_nat (i / step))) d.
(** Proof auxiliary: the same, possibly undefined. *)
Definition vsample (m : mem A) (a : arg A) (i : Z) : option A :=
  match a with
  | APtr p => m (p + i)
  | AScal x => Some x
  | ARamp b s => Some (vval b m (ARamp b s) i)
  end.
(** Requirements on one argument of a SIMD call over [n] samples, except that
    its ramps be exact. *)
Definition free_arg (m : mem A) (out n : Z) (a : arg A) : Prop :=
  arg_accessible m a n /\ arg_aligned B a /\ overlap_ok out a n.

Lemma div_lane J l : (l < vsize B)%nat ->
  Z.to_nat ((Z.of_nat J * step + Z.of_nat l) / step) = J /\ Z.to_nat ((Z.of_nat J * step + Z.of_nat l) mod step) = l.
Proof.
  intros Hl. split.
  - rewrite Z.div_add_l by lia. rewrite Z.div_small by lia. lia.
  - rewrite Z.add_comm, Z.mod_add by lia. rewrite Z.mod_small by lia. lia.
Qed.

Lemma vsample_vval d m a n i : 0 <= i < n -> arg_accessible m a n -> vsample m a i = Some (vval d m a i).
Proof.
  intros Hi Ha. pose proof (vsize_pos B) as HB.
  assert (E : i = Z.of_nat (Z.to_nat (i / step)) * step + Z.of_nat (Z.to_nat (i mod step))).
  { rewrite !Z2Nat.id by (apply Z.mod_pos_bound || apply Z.div_pos; lia). pose proof (Z.div_mod i step). lia. }
  assert (Hl : (Z.to_nat (i mod step) < vsize B)%nat).
  { pose proof (Z.mod_pos_bound i step ltac:(lia)). lia. }
  destruct a as [p|x|b s].
  - unfold vval. rewrite (lanes_match_not_ramp ar B m (APtr p) n I) by (rewrite <- ?E; lia). rewrite <- E.
    change (vsample m (APtr p) i) with (sample ar m (APtr p) i). apply (sample_sval ar d m (APtr p) n i); assumption.
  - unfold vval. rewrite (lanes_match_not_ramp ar B m (AScal x) n I) by (rewrite <- ?E; lia). reflexivity.
  - cbn [vsample]. f_equal. unfold vval. cbn [wrap_vector_arg].
    pose proof (set_slope_length ar B b s) as HL.
    destruct (set_slope ar B b s) as [dat inc]. cbn [fst vchunk] in *.
    apply nth_indep. rewrite (iter_vadd_length ar B); [exact Hl|exact HL|apply repeat_length].
Qed.

Lemma chunks_free d m out args fv fs N :
  lanewisek B (length args) d fv fs ->
  Forall (fun a => varg_ok B m out N (wrap a)) args ->
  chunks_are ar B d m (map wrap args) fv N
    (fun i => fs (map (fun a => vval d m a i) args)).
Proof.
  intros Hf Hok J HJ. rewrite map_map.
  destruct (Hf (map (fun a => vchunk ar B d m (wrap a) J) args)) as [L G].
  - apply map_length.
  - apply Forall_map. eapply Forall_impl; [|exact Hok]. intros a Ha.
    eapply vchunk_length; exact Ha.
  - split; [exact L|]. intros l Hlt. rewrite G by assumption. rewrite map_map. f_equal.
    apply map_ext_in. intros a Hin. unfold vval. destruct (div_lane J l Hlt) as [-> ->]. reflexivity.
Qed.

Lemma loopk_free d m out args fv fs T :
  lanewisek B (length args) d fv fs ->
  aligned B out -> accessible m out (Z.of_nat T * loop_unit B) ->
  Forall (free_arg m out (Z.of_nat T * loop_unit B)) args ->
  exists m' s1 s2, iter_res T (loopk_body ar B fv) (m, out, map wrap args) = Ok (m', s1, s2) /\
    meq m' (wr m out (Z.of_nat T * loop_unit B) (fun i => fs (map (fun a => vval d m a i) args))).
Proof.
  intros Hf Hal Hacc Hargs.
  assert (HN : Z.of_nat T * loop_unit B = Z.of_nat (T * vecs_per_loop B) * step).
  { destruct (vecs_per_loop_spec B) as [E _]. nia. }
  assert (Hok : Forall (fun a => varg_ok B m out (T * vecs_per_loop B) (wrap a)) args).
  { eapply Forall_impl; [|exact Hargs]. intros a (H1 & H2 & H3).
    eapply wrap_ok; [exact HN|..]; assumption. }
  apply (loopk_spec ar B d m out (map wrap args) fv _ T); auto.
  - rewrite Forall_map. exact Hok.
  - apply (chunks_free d m out); auto.
Qed.

Lemma runk_free d m out args fv fs k :
  (0 < k)%nat ->
  lanewisek B (length args) d fv fs ->
  aligned B out -> accessible m out (Z.of_nat k * step) ->
  Forall (free_arg m out (Z.of_nat k * step)) args ->
  exists m' s, runk ar B k m out (map wrap args) fv = Ok (m', s) /\
    meq m' (wr m out (Z.of_nat k * step) (fun i => fs (map (fun a => vval d m a i) args))).
Proof.
  intros Hk Hf Hal Hacc Hargs.
  assert (Hok : Forall (fun a => varg_ok B m out k (wrap a)) args).
  { eapply Forall_impl; [|exact Hargs]. intros a (H1 & H2 & H3).
    eapply wrap_ok; [reflexivity|..]; assumption. }
  destruct (runk_spec ar B d m out (map wrap args) fv
              (fun i => fs (map (fun a => vval d m a i) args)) k) with (k := k) (J := O) (m1 := m)
    as (m' & E & G); auto.
  - rewrite Forall_map. exact Hok.
  - apply (chunks_free d m out); auto.
  - replace (Z.of_nat 0 * step) with 0 by lia. apply meq_wr_0.
  - replace (out + Z.of_nat 0 * step) with out in E by lia.
    rewrite (map_ext _ (fun x => x)) in E by (intro; apply vadv_0). rewrite map_id in E.
    cbn [Nat.add] in E, G. eauto.
Qed.

Ltac simd_start n Hn :=
  rewrite do_while_iter by (apply count_ok; exact Hn).

Ltac finish_lift d n :=
  let i := fresh in let H := fresh in
  intros i H; cbv beta;
  repeat match goal with |- context [vsample ?m ?a i] =>
    rewrite (vsample_vval d m a n i) by (auto; tauto) end;
  reflexivity.

Lemma binary_simd_free vf f m out a1 a2 n :
  lanewise2 B vf f -> loop_unit B <= n < two32 ->
  aligned B out -> accessible m out (rounded B n) ->
  free_arg m out (rounded B n) a1 -> free_arg m out (rounded B n) a2 ->
  exists m', binary_vec_simd ar B vf m out a1 a2 n = Ok m' /\
    writes_exactly m m' out (rounded B n) (fun i => lift2 f (vsample m a1 i) (vsample m a2 i)).
Proof.
  intros Hf Hn Hal Hacc H1 H2. pose proof (loop_unit_pos B) as Hp.
  assert (HT : 1 <= n / loop_unit B) by (apply Z.div_le_lower_bound; lia).
  destruct (Hacc 0) as [d _]; [unfold rounded; nia|].
  unfold binary_vec_simd, generate_simd_loop2.
  simd_start n Hn. fold (lbody2 ar B vf).
  set (T := Z.to_nat (n / samples_per_loop B)).
  assert (HR : rounded B n = Z.of_nat T * loop_unit B) by (unfold rounded, T; rewrite loop_unit_spec, Z2Nat.id; lia).
  rewrite HR in *.
  destruct (loopk_free d m out [a1; a2] (fk2 [] vf) (fk2 d f) T) as (m' & s1 & s2 & E & G);
    auto using lanewise2_k.
  cbn [map] in E.
  pose proof (iter_res_embed _ _ e2 (lbody2_embed ar B vf) T (m, out, wrap a1, wrap a2)) as R.
  cbn [e2] in R. rewrite E in R.
  match goal with |- exists _, bind ?X _ = _ /\ _ => change X with (iter_res T (lbody2 ar B vf) (m, out, wrap a1, wrap a2)) end.
  destruct (iter_res T (lbody2 ar B vf) (m, out, wrap a1, wrap a2)) as [[[[m1 ?] ?] ?]|]; [|discriminate].
  cbn [rmap e2] in R. inversion R; subst. cbn [bind]. exists m1. split; [reflexivity|].
  eapply writes_exactly_of_wr; [exact G|]. destruct H1 as (HA & _), H2 as (HB & _).
  finish_lift d (Z.of_nat T * loop_unit B).
Qed.

Lemma ternary_simd_free vf f m out a1 a2 a3 n :
  lanewise3 B vf f -> loop_unit B <= n < two32 ->
  aligned B out -> accessible m out (rounded B n) ->
  free_arg m out (rounded B n) a1 -> free_arg m out (rounded B n) a2 -> free_arg m out (rounded B n) a3 ->
  exists m', ternary_vec_simd ar B vf m out a1 a2 a3 n = Ok m' /\
    writes_exactly m m' out (rounded B n)
      (fun i => lift3 f (vsample m a1 i) (vsample m a2 i) (vsample m a3 i)).
Proof.
  intros Hf Hn Hal Hacc H1 H2 H3. pose proof (loop_unit_pos B) as Hp.
  assert (HT : 1 <= n / loop_unit B) by (apply Z.div_le_lower_bound; lia).
  destruct (Hacc 0) as [d _]; [unfold rounded; nia|].
  unfold ternary_vec_simd, generate_simd_loop3.
  simd_start n Hn.
  set (T := Z.to_nat (n / samples_per_loop B)).
  assert (HR : rounded B n = Z.of_nat T * loop_unit B) by (unfold rounded, T; rewrite loop_unit_spec, Z2Nat.id; lia).
  rewrite HR in *.
  destruct (loopk_free d m out [a1; a2; a3] (fk3 [] vf) (fk3 d f) T) as (m' & s1 & s2 & E & G);
    auto using lanewise3_k.
  cbn [map] in E.
  pose proof (iter_res_embed _ _ e3 (lbody3_embed ar B vf) T (m, out, wrap a1, wrap a2, wrap a3)) as R.
  cbn [e3] in R. rewrite E in R.
  match goal with |- exists _, bind ?X _ = _ /\ _ => change X with (iter_res T (lbody3 ar B vf) (m, out, wrap a1, wrap a2, wrap a3)) end.
  destruct (iter_res T (lbody3 ar B vf) (m, out, wrap a1, wrap a2, wrap a3)) as [[[[[m1 ?] ?] ?] ?]|]; [|discriminate].
  cbn [rmap e3] in R. inversion R; subst. cbn [bind]. exists m1. split; [reflexivity|].
  eapply writes_exactly_of_wr; [exact G|]. destruct H1 as (HA & _), H2 as (HB & _), H3 as (HC & _).
  finish_lift d (Z.of_nat T * loop_unit B).
Qed.

Lemma quaternary_simd_free vf f m out a1 a2 a3 a4 n :
  lanewise4 B vf f -> loop_unit B <= n < two32 ->
  aligned B out -> accessible m out (rounded B n) ->
  free_arg m out (rounded B n) a1 -> free_arg m out (rounded B n) a2 ->
  free_arg m out (rounded B n) a3 -> free_arg m out (rounded B n) a4 ->
  exists m', quaternary_vec_simd ar B vf m out a1 a2 a3 a4 n = Ok m' /\
    writes_exactly m m' out (rounded B n)
      (fun i => lift4 f (vsample m a1 i) (vsample m a2 i) (vsample m a3 i) (vsample m a4 i)).
Proof.
  intros Hf Hn Hal Hacc H1 H2 H3 H4. pose proof (loop_unit_pos B) as Hp.
  assert (HT : 1 <= n / loop_unit B) by (apply Z.div_le_lower_bound; lia).
  destruct (Hacc 0) as [d _]; [unfold rounded; nia|].
  unfold quaternary_vec_simd, generate_simd_loop4.
  simd_start n Hn.
  set (T := Z.to_nat (n / samples_per_loop B)).
  assert (HR : rounded B n = Z.of_nat T * loop_unit B) by (unfold rounded, T; rewrite loop_unit_spec, Z2Nat.id; lia).
  rewrite HR in *.
  destruct (loopk_free d m out [a1; a2; a3; a4] (fk4 [] vf) (fk4 d f) T) as (m' & s1 & s2 & E & G);
    auto 10 using lanewise4_k.
  cbn [map] in E.
  pose proof (iter_res_embed _ _ e4 (lbody4_embed ar B vf) T (m, out, wrap a1, wrap a2, wrap a3, wrap a4)) as R.
  cbn [e4] in R. rewrite E in R.
  match goal with |- exists _, bind ?X _ = _ /\ _ => change X with (iter_res T (lbody4 ar B vf) (m, out, wrap a1, wrap a2, wrap a3, wrap a4)) end.
  destruct (iter_res T (lbody4 ar B vf) (m, out, wrap a1, wrap a2, wrap a3, wrap a4)) as [[[[[[m1 ?] ?] ?] ?] ?]|]; [|discriminate].
  cbn [rmap e4] in R. inversion R; subst. cbn [bind]. exists m1. split; [reflexivity|].
  eapply writes_exactly_of_wr; [exact G|].
  destruct H1 as (HA & _), H2 as (HB & _), H3 as (HC & _), H4 as (HD & _).
  finish_lift d (Z.of_nat T * loop_unit B).
Qed.

Lemma binary_ct_free vf f m out a1 a2 k :
  lanewise2 B vf f -> (0 < k)%nat ->
  aligned B out -> accessible m out (Z.of_nat k * step) ->
  free_arg m out (Z.of_nat k * step) a1 -> free_arg m out (Z.of_nat k * step) a2 ->
  exists m', binary_vec_simd_ct ar B k vf m out a1 a2 = Ok m' /\
    writes_exactly m m' out (Z.of_nat k * step) (fun i => lift2 f (vsample m a1 i) (vsample m a2 i)).
Proof.
  intros Hf Hk Hal Hacc H1 H2. pose proof (vsize_pos B) as Hp.
  destruct (Hacc 0) as [d _]; [nia|].
  destruct (runk_free d m out [a1; a2] (fk2 [] vf) (fk2 d f) k) as (m' & s & E & G);
    auto using lanewise2_k.
  unfold binary_vec_simd_ct. cbn [map] in E. rewrite run2_embed in E.
  destruct (run2 ar B k m out (wrap a1) (wrap a2) vf) as [[[m1 ?] ?]|]; [|discriminate].
  cbn [rmap] in E. inversion E; subst. cbn [bind]. exists m'. split; [reflexivity|].
  eapply writes_exactly_of_wr; [exact G|]. destruct H1 as (HA & _), H2 as (HB & _).
  finish_lift d (Z.of_nat k * step).
Qed.

Lemma ternary_ct_free vf f m out a1 a2 a3 k :
  lanewise3 B vf f -> (0 < k)%nat ->
  aligned B out -> accessible m out (Z.of_nat k * step) ->
  free_arg m out (Z.of_nat k * step) a1 -> free_arg m out (Z.of_nat k * step) a2 ->
  free_arg m out (Z.of_nat k * step) a3 ->
  exists m', ternary_vec_simd_ct ar B k vf m out a1 a2 a3 = Ok m' /\
    writes_exactly m m' out (Z.of_nat k * step)
      (fun i => lift3 f (vsample m a1 i) (vsample m a2 i) (vsample m a3 i)).
Proof.
  intros Hf Hk Hal Hacc H1 H2 H3. pose proof (vsize_pos B) as Hp.
  destruct (Hacc 0) as [d _]; [nia|].
  destruct (runk_free d m out [a1; a2; a3] (fk3 [] vf) (fk3 d f) k) as (m' & s & E & G);
    auto using lanewise3_k.
  unfold ternary_vec_simd_ct. cbn [map] in E. rewrite run3_embed in E.
  destruct (run3 ar B k m out (wrap a1) (wrap a2) (wrap a3) vf) as [[[[m1 ?] ?] ?]|]; [|discriminate].
  cbn [rmap] in E. inversion E; subst. cbn [bind]. exists m'. split; [reflexivity|].
  eapply writes_exactly_of_wr; [exact G|]. destruct H1 as (HA & _), H2 as (HB & _), H3 as (HC & _).
  finish_lift d (Z.of_nat k * step).
Qed.

Lemma quaternary_ct_free vf f m out a1 a2 a3 a4 k :
  lanewise4 B vf f -> (0 < k)%nat ->
  aligned B out -> accessible m out (Z.of_nat k * step) ->
  free_arg m out (Z.of_nat k * step) a1 -> free_arg m out (Z.of_nat k * step) a2 ->
  free_arg m out (Z.of_nat k * step) a3 -> free_arg m out (Z.of_nat k * step) a4 ->
  exists m', quaternary_vec_simd_ct ar B k vf m out a1 a2 a3 a4 = Ok m' /\
    writes_exactly m m' out (Z.of_nat k * step)
      (fun i => lift4 f (vsample m a1 i) (vsample m a2 i) (vsample m a3 i) (vsample m a4 i)).
Proof.
  intros Hf Hk Hal Hacc H1 H2 H3 H4. pose proof (vsize_pos B) as Hp.
  destruct (Hacc 0) as [d _]; [nia|].
  destruct (runk_free d m out [a1; a2; a3; a4] (fk4 [] vf) (fk4 d f) k) as (m' & s & E & G);
    auto 10 using lanewise4_k.
  unfold quaternary_vec_simd_ct. cbn [map] in E. rewrite run4_embed in E.
  destruct (run4 ar B k m out (wrap a1) (wrap a2) (wrap a3) (wrap a4) vf) as [[[[[m1 ?] ?] ?] ?]|]; [|discriminate].
  cbn [rmap] in E. inversion E; subst. cbn [bind]. exists m'. split; [reflexivity|].
  eapply writes_exactly_of_wr; [exact G|].
  destruct H1 as (HA & _), H2 as (HB & _), H3 as (HC & _), H4 as (HD & _).
  finish_lift d (Z.of_nat k * step).
Qed.

End Vector.
