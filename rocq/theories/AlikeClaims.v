(** Proofs of the statements of Prop_Alike.v. *)
From Coq Require Import ZArith Reals List Lia Permutation.
From Flocq Require Import Core IEEE754.Binary IEEE754.Bits.
From Verif Require Import Base Mem Loop Backend Args MemFuns Lanes Float LaneOps Reduce FloatOps Spec SpecReduce SpecAlike
  FloatFacts LaneFacts ReduceMore ExData ExFloat ReduceClaims AlikeFacts.
Import ListNotations.
Local Open Scope Z_scope.

Lemma C84_sum_of_negated_vec_lemma : 
  forall (t : fmt) (n : nans t) (m m' : mem (F t)) p p' len l, filled m p len l -> filled m' p' len (map fneg l) ->
    exists r r', horizontal_sum_vec (fred_scalar n) m p len = Ok r /\ horizontal_sum_vec (fred_scalar n) m' p' len = Ok r' /\ opposite r r'.
Proof.
  intros t n m m' p p' len l H H'. apply (hsum_vec_par (fred_scalar n) opposite m m' p p' len l (map fneg l)); try assumption.
  - intros. apply opposite_add; assumption.
  - apply opposite_zero.
  - apply opposite_negs.
Qed.

Lemma C84_sum_of_negated_vec_simd_lemma : 
  forall (c : cfg) (B : backend) (n : nans (fmt_of B)) (m m' : mem (F (fmt_of B))) p p' len l, aligned B p -> aligned B p' -> whole_vectors B len -> filled m p len l -> filled m' p' len (map fneg l) ->
    exists r r', horizontal_sum_vec_simd (fred c B n) c B m p len = Ok r /\ horizontal_sum_vec_simd (fred c B n) c B m' p' len = Ok r' /\ opposite r r'.
Proof.
  intros c B n m m' p p' len l Ha Ha' Hw H H'. apply (hsum_simd_par (fred c B n) opposite c B m m' p p' len l (map fneg l)); try assumption.
  - intros. apply opposite_add; assumption.
  - apply opposite_zero.
  - apply opposite_negs.
Qed.

Lemma C84_sum_of_scaled_vec_lemma : 
  forall (t : fmt) (n : nans t) (m m' : mem (F t)) p p' len k l l', filled m p len l -> filled m' p' len l' -> scaled_by_power k l l' ->
    exists r r', horizontal_sum_vec (fred_scalar n) m p len = Ok r /\ horizontal_sum_vec (fred_scalar n) m' p' len = Ok r' /\
      (isfin r = true -> isfin r' = true -> val r' = (val r * bpow radix2 k)%R).
Proof.
  intros t n m m' p p' len k l l' H H' HS. apply (hsum_vec_par (fred_scalar n) (scaled k) m m' p p' len l l'); try assumption.
  - intros. apply scaled_add; assumption.
  - apply scaled_zero.
  - apply scaled_list. exact HS.
Qed.

Lemma C84_sum_of_scaled_vec_simd_lemma : 
  forall (c : cfg) (B : backend) (n : nans (fmt_of B)) (m m' : mem (F (fmt_of B))) p p' len k l l', aligned B p -> aligned B p' -> whole_vectors B len -> filled m p len l -> filled m' p' len l' -> scaled_by_power k l l' ->
    exists r r', horizontal_sum_vec_simd (fred c B n) c B m p len = Ok r /\ horizontal_sum_vec_simd (fred c B n) c B m' p' len = Ok r' /\
      (isfin r = true -> isfin r' = true -> val r' = (val r * bpow radix2 k)%R).
Proof.
  intros c B n m m' p p' len k l l' Ha Ha' Hw H H' HS. apply (hsum_simd_par (fred c B n) (scaled k) c B m m' p p' len l l'); try assumption.
  - intros. apply scaled_add; assumption.
  - apply scaled_zero.
  - apply scaled_list. exact HS.
Qed.

Lemma C84_sum_any_order_refuted_lemma : 
  exists (n : nans F32) (m m' : mem (F F32)) p len l l', filled m p len l /\ filled m' p len l' /\ Permutation l l' /\
    (exists r r', horizontal_sum_vec (fred_scalar n) m p len = Ok r /\ horizontal_sum_vec (fred_scalar n) m' p len = Ok r' /\
       isfin r = true /\ isfin r' = true /\ feq r r' = false) /\
    (forall c, exists r r', horizontal_sum_vec_simd (fred c SSE32 n) c SSE32 m p len = Ok r /\
       horizontal_sum_vec_simd (fred c SSE32 n) c SSE32 m' p len = Ok r' /\ isfin r = true /\ isfin r' = true /\ feq r r' = false).
Proof.
  set (z := f_ofZ F32 0). set (b := f_ofZ F32 (2 ^ 24)). set (o := f_ofZ F32 1).
  exists (n0 F32), (block 0 4 (fun a => nth (Z.to_nat a) [b; o; fneg b; o] z)), (block 0 4 (fun a => nth (Z.to_nat a) [b; fneg b; o; o] z)), 0, 4, [b; o; fneg b; o], [b; fneg b; o; o].
  split; [exact (filled_block 0 4 (fun a => nth (Z.to_nat a) [b; o; fneg b; o] z) 0 4 ltac:(lia) ltac:(lia) ltac:(lia))|].
  split; [exact (filled_block 0 4 (fun a => nth (Z.to_nat a) [b; fneg b; o; o] z) 0 4 ltac:(lia) ltac:(lia) ltac:(lia))|].
  split; [apply perm_skip, perm_swap|].
  split; [do 2 eexists; split; [reflexivity|]; split; [reflexivity|]; vm_compute; auto|].
  intros c. unfold horizontal_sum_vec_simd, horizontal_sum. destruct (has_sse3 c); do 2 eexists; (split; [reflexivity|]); (split; [reflexivity|]); vm_compute; auto.
Qed.

Lemma C84_max_any_order_vec_lemma : 
  forall (t : fmt) (n : nans t) (m m' : mem (F t)) p p' len l l', filled m p len l -> filled m' p' len l' -> no_nan l -> Permutation l l' ->
    exists r, horizontal_max_vec (fred_scalar n) m p len = Ok r /\ horizontal_max_vec (fred_scalar n) m' p' len = Ok r.
Proof.
  intros t n m m' p p' len l l' H H' N P. destruct (C23_horizontal_max_vec_lemma t n m p len l H N) as (r & E & M).
  destruct (C23_horizontal_max_vec_lemma t n m' p' len l' H' (no_nan_perm l l' P N)) as (r' & E' & M').
  pose proof (is_max_unique r r' _ _ (perm_in l l' (f_min t) P) M M') as Q. apply feq_nonzero in Q; [|exact (is_max_above r l M)]. subst r'. eauto.
Qed.

Lemma C84_max_any_order_vec_simd_lemma : 
  forall (c : cfg) (B : backend) (n : nans (fmt_of B)) (m m' : mem (F (fmt_of B))) p p' len l l', aligned B p' -> whole_vectors B len -> filled m p len l -> filled m' p' len l' -> no_nan l -> Permutation l l' ->
    exists r, horizontal_max_vec (fred_scalar n) m p len = Ok r /\ horizontal_max_vec_simd (fred c B n) B m' p' len = Ok r.
Proof.
  intros c B n m m' p p' len l l' Ha Hw H H' N P. destruct (C23_horizontal_max_vec_lemma (fmt_of B) n m p len l H N) as (r & E & M).
  destruct (C23_horizontal_max_vec_simd_lemma c B n m' p' len l' Ha Hw H' (no_nan_perm l l' P N)) as (r' & E' & M').
  pose proof (is_max_unique r r' _ _ (perm_in l l' (f_min (fmt_of B)) P) M M') as Q. apply feq_nonzero in Q; [|exact (is_max_above r l M)]. subst r'. eauto.
Qed.

Lemma C84_min_any_order_vec_lemma : 
  forall (t : fmt) (n : nans t) (m m' : mem (F t)) p p' len l l', filled m p len l -> filled m' p' len l' -> no_nan l -> Permutation l l' ->
    exists r r', horizontal_min_vec (fred_scalar n) m p len = Ok r /\ horizontal_min_vec (fred_scalar n) m' p' len = Ok r' /\ feq r r' = true.
Proof.
  intros t n m m' p p' len l l' H H' N P. destruct (C23_horizontal_min_vec_lemma t n m p len l H N) as (r & E & M).
  destruct (C23_horizontal_min_vec_lemma t n m' p' len l' H' (no_nan_perm l l' P N)) as (r' & E' & M').
  pose proof (is_min_unique r r' _ _ (perm_in l l' (f_min t) P) M M'). eauto.
Qed.

Lemma C84_min_any_order_vec_simd_lemma : 
  forall (c : cfg) (B : backend) (n : nans (fmt_of B)) (m m' : mem (F (fmt_of B))) p p' len l l', aligned B p' -> whole_vectors B len -> filled m p len l -> filled m' p' len l' -> no_nan l -> Permutation l l' ->
    exists r r', horizontal_min_vec (fred_scalar n) m p len = Ok r /\ horizontal_min_vec_simd (fred c B n) B m' p' len = Ok r' /\ feq r r' = true.
Proof.
  intros c B n m m' p p' len l l' Ha Hw H H' N P. destruct (C23_horizontal_min_vec_lemma (fmt_of B) n m p len l H N) as (r & E & M).
  destruct (C23_horizontal_min_vec_simd_lemma c B n m' p' len l' Ha Hw H' (no_nan_perm l l' P N)) as (r' & E' & M').
  pose proof (is_min_unique r r' _ _ (perm_in l l' (f_min (fmt_of B)) P) M M'). eauto.
Qed.

Lemma C84_min_of_negated_vec_lemma : 
  forall (t : fmt) (n : nans t) (m m' : mem (F t)) p p' len l, filled m p len l -> filled m' p' len (map fneg l) -> no_nan l -> (exists x, In x l /\ fle (f_min t) x = true) ->
    exists r r', horizontal_max_vec (fred_scalar n) m p len = Ok r /\ horizontal_min_vec (fred_scalar n) m' p' len = Ok r' /\ opposite r r'.
Proof.
  intros t n m m' p p' len l H H' N X. destruct (C23_horizontal_max_vec_true_result_lemma t n m p len l H N X) as (r & E & M).
  assert (N' : no_nan (map fneg l)) by (apply Forall_map; eapply Forall_impl; [|exact N]; intros x Hx; cbn; rewrite isnan_fneg; exact Hx).
  destruct (C23_horizontal_min_vec_lemma t n m' p' len _ H' N') as (r' & E' & M'). exists r, r'. split; [exact E|]. split; [exact E'|]. right.
  exact (is_min_unique r' (fneg r) _ _ (fun x => iff_refl _) M' (is_min_neg r l M X)).
Qed.

Lemma C84_min_of_negated_vec_simd_lemma : 
  forall (c : cfg) (B : backend) (n : nans (fmt_of B)) (m m' : mem (F (fmt_of B))) p p' len l, aligned B p -> aligned B p' -> whole_vectors B len ->
    filled m p len l -> filled m' p' len (map fneg l) -> no_nan l -> (exists x, In x l /\ fle (f_min (fmt_of B)) x = true) ->
    exists r r', horizontal_max_vec_simd (fred c B n) B m p len = Ok r /\ horizontal_min_vec_simd (fred c B n) B m' p' len = Ok r' /\ opposite r r'.
Proof.
  intros c B n m m' p p' len l Ha Ha' Hw H H' N X. destruct (C23_horizontal_max_vec_simd_true_result_lemma c B n m p len l Ha Hw H N X) as (r & E & M).
  assert (N' : no_nan (map fneg l)) by (apply Forall_map; eapply Forall_impl; [|exact N]; intros x Hx; cbn; rewrite isnan_fneg; exact Hx).
  destruct (C23_horizontal_min_vec_simd_lemma c B n m' p' len _ Ha' Hw H' N') as (r' & E' & M'). exists r, r'. split; [exact E|]. split; [exact E'|]. right.
  exact (is_min_unique r' (fneg r) _ _ (fun x => iff_refl _) M' (is_min_neg r l M X)).
Qed.

Lemma C84_min_of_negated_refuted_lemma : 
  exists (n : nans F32) (m m' : mem (F F32)) p len l, filled m p len l /\ filled m' p len (map fneg l) /\ no_nan l /\
    exists r r', horizontal_max_vec (fred_scalar n) m p len = Ok r /\ horizontal_min_vec (fred_scalar n) m' p len = Ok r' /\ ~ opposite r r'.
Proof.
  set (x := f_ofZ F32 (-1)).
  exists (n0 F32), (block 0 4 (fun _ => x)), (block 0 4 (fun _ => fneg x)), 0, 4, (cells (fun _ => x) 0 4).
  split; [apply (filled_block 0 4 (fun _ => x) 0 4); lia|].
  split; [rewrite <- (cells_map fneg); apply (filled_block 0 4 (fun _ => fneg x) 0 4); lia|].
  split; [apply no_nan_b; vm_compute; reflexivity|].
  do 2 eexists. split; [reflexivity|]. split; [reflexivity|]. intros [[H _]|H]; vm_compute in H; discriminate H.
Qed.

Lemma C84_peak_any_order_vec_lemma : 
  forall (t : fmt) (n : nans t) (m m' : mem (F t)) p p' pk pk' len l l' old, filled m p len l -> filled m' p' len l' -> no_nan l -> Permutation l l' ->
    m pk = Some old -> m' pk' = Some old -> isnan old = false ->
    exists m1 m2 z z' r r', peak_vec (fred_scalar n) m p pk len = Ok (m1, z) /\ peak_vec (fred_scalar n) m' p' pk' len = Ok (m2, z') /\
      m1 pk = Some r /\ m2 pk' = Some r' /\ feq r r' = true.
Proof.
  intros t n m m' p p' pk pk' len l l' old H H' N P Hp Hp' No.
  destruct (C19_peak_vec_lemma t n m p pk len l old H Hp No N) as (m1 & r & z & E & _ & S & M).
  destruct (C19_peak_vec_lemma t n m' p' pk' len l' old H' Hp' No (no_nan_perm l l' P N)) as (m2 & r' & z' & E' & _ & S' & M').
  exists m1, m2, (fabs z), (fabs z'), r, r'. split; [exact E|]. split; [exact E'|]. split; [apply S|]. split; [apply S'|].
  exact (is_max_unique r r' _ _ (perm_in _ _ old (Permutation_map fabs P)) M M').
Qed.

Lemma C84_peak_any_order_vec_simd_lemma : 
  forall (c : cfg) (B : backend) (n : nans (fmt_of B)) junk (m m' : mem (F (fmt_of B))) p p' pk pk' len l l' old, aligned B p' -> whole_quads B len -> upper_lanes_zero B (f_ofZ (fmt_of B) 0) junk ->
    filled m p len l -> filled m' p' len l' -> no_nan l -> Permutation l l' ->
    m pk = Some old -> m' pk' = Some old -> isnan old = false ->
    exists m1 m2 z z' r r', peak_vec (fred_scalar n) m p pk len = Ok (m1, z) /\ peak_vec_simd (fred c B n) c B junk m' p' pk' len = Ok (m2, z') /\
      m1 pk = Some r /\ m2 pk' = Some r' /\ feq r r' = true.
Proof.
  intros c B n junk m m' p p' pk pk' len l l' old Ha Hw Hj H H' N P Hp Hp' No.
  destruct (C19_peak_vec_lemma (fmt_of B) n m p pk len l old H Hp No N) as (m1 & r & z & E & _ & S & M).
  destruct (C19_peak_vec_simd_lemma c B n junk m' p' pk' len l' old Ha Hw H' Hp' No (no_nan_perm l l' P N) Hj) as (m2 & r' & z' & E' & _ & S' & M').
  exists m1, m2, (fabs z), (fabs z'), r, r'. split; [exact E|]. split; [exact E'|]. split; [apply S|]. split; [apply S'|].
  exact (is_max_unique r r' _ _ (perm_in _ _ old (Permutation_map fabs P)) M M').
Qed.

Lemma C84_peak_ignores_signs_vec_lemma : 
  forall (t : fmt) (n : nans t) (m m' : mem (F t)) p p' pk pk' len l l' old, filled m p len l -> filled m' p' len l' -> same_but_signs l l' ->
    m pk = Some old -> m' pk' = Some old ->
    exists m1 m2 z r, peak_vec (fred_scalar n) m p pk len = Ok (m1, z) /\ peak_vec (fred_scalar n) m' p' pk' len = Ok (m2, z) /\
      m1 pk = Some r /\ m2 pk' = Some r.
Proof.
  intros t n m m' p p' pk pk' len l l' old H H' HS Hp Hp'.
  apply (peak_vec_signs (fred_scalar n) (fun x y => y = x \/ y = fneg x)) with (l := l) (l' := l') (old := old); try assumption.
  intros x y Hxy. symmetry. apply fabs_sign. exact Hxy.
Qed.

Lemma C84_peak_ignores_signs_vec_simd_lemma : 
  forall (c : cfg) (B : backend) (n : nans (fmt_of B)) junk junk' (m m' : mem (F (fmt_of B))) p p' pk pk' len l l' old, aligned B p -> aligned B p' -> whole_quads B len ->
    upper_lanes_zero B (f_ofZ (fmt_of B) 0) junk -> upper_lanes_zero B (f_ofZ (fmt_of B) 0) junk' ->
    filled m p len l -> filled m' p' len l' -> same_but_signs l l' -> m pk = Some old -> m' pk' = Some old ->
    exists m1 m2 z r, peak_vec_simd (fred c B n) c B junk m p pk len = Ok (m1, z) /\ peak_vec_simd (fred c B n) c B junk' m' p' pk' len = Ok (m2, z) /\
      m1 pk = Some r /\ m2 pk' = Some r.
Proof.
  intros c B n junk junk' m m' p p' pk pk' len l l' old Ha Ha' Hw Hj Hj' H H' HS Hp Hp'.
  apply (peak_simd_signs (fred c B n) (fun x y => y = x \/ y = fneg x)) with (l := l) (l' := l') (old := old); try assumption.
  intros x y Hxy. cbn [d_vabs fred]. rewrite !vabs_fabs. symmetry. apply fabs_sign. exact Hxy.
Qed.

Lemma C84_peak_rms_ignores_signs_vec_lemma : 
  forall (t : fmt) (n : nans t) (m m' : mem (F t)) p p' pk pk' sq sq' len l l' old olds, filled m p len l -> filled m' p' len l' -> no_nan l -> same_but_signs l l' ->
    m pk = Some old -> m' pk' = Some old -> m sq = Some olds -> m' sq' = Some olds -> pk <> sq -> pk' <> sq' ->
    exists m1 m2 r s, peak_rms_vec (fred_scalar n) m p pk sq len = Ok m1 /\ peak_rms_vec (fred_scalar n) m' p' pk' sq' len = Ok m2 /\
      m1 pk = Some r /\ m2 pk' = Some r /\ m1 sq = Some s /\ m2 sq' = Some s.
Proof.
  intros t n m m' p p' pk pk' sq sq' len l l' old olds H H' N HS Hp Hp' Hs Hs' N1 N2.
  assert (HR : Forall2 (fun x y => isnan x = false /\ (y = x \/ y = fneg x)) l l').
  { clear - N HS. unfold no_nan in N. induction HS as [|x y l l' Hxy HS IH]; constructor; inversion N; subst; auto. }
  apply (peak_rms_vec_signs (fred_scalar n) (fun x y => isnan x = false /\ (y = x \/ y = fneg x))) with (l := l) (l' := l') (old := old) (olds := olds); try assumption.
  - intros x y [_ Hxy]. symmetry. apply fabs_sign. exact Hxy.
  - intros x y Hxy. cbn [d_mul fred fred_scalar]. symmetry. destruct Hxy as [Nx Hxy]. apply sqr_sign; assumption.
Qed.

Lemma C84_peak_rms_ignores_signs_vec_simd_lemma : 
  forall (c : cfg) (B : backend) (n : nans (fmt_of B)) junk junk' (m m' : mem (F (fmt_of B))) p p' pk pk' sq sq' len l l' old olds, aligned B p -> aligned B p' -> whole_quads B len ->
    upper_lanes_zero B (f_ofZ (fmt_of B) 0) junk -> upper_lanes_zero B (f_ofZ (fmt_of B) 0) junk' ->
    filled m p len l -> filled m' p' len l' -> no_nan l -> same_but_signs l l' ->
    m pk = Some old -> m' pk' = Some old -> m sq = Some olds -> m' sq' = Some olds -> pk <> sq -> pk' <> sq' ->
    exists m1 m2 r s, peak_rms_vec_simd (fred c B n) c B junk m p pk sq len = Ok m1 /\ peak_rms_vec_simd (fred c B n) c B junk' m' p' pk' sq' len = Ok m2 /\
      m1 pk = Some r /\ m2 pk' = Some r /\ m1 sq = Some s /\ m2 sq' = Some s.
Proof.
  intros c B n junk junk' m m' p p' pk pk' sq sq' len l l' old olds Ha Ha' Hw Hj Hj' H H' N HS Hp Hp' Hs Hs' N1 N2.
  assert (HR : Forall2 (fun x y => isnan x = false /\ (y = x \/ y = fneg x)) l l').
  { clear - N HS. unfold no_nan in N. induction HS as [|x y l l' Hxy HS IH]; constructor; inversion N; subst; auto. }
  apply (peak_rms_simd_signs (fred c B n) (fun x y => isnan x = false /\ (y = x \/ y = fneg x))) with (l := l) (l' := l') (old := old) (olds := olds); try assumption.
  - intros x y Hxy. cbn [d_mul fred fred_scalar]. symmetry. destruct Hxy as [Nx Hxy]. apply sqr_sign; assumption.
  - intros x y [_ Hxy]. cbn [d_vabs fred]. rewrite !vabs_fabs. symmetry. apply fabs_sign. exact Hxy.
Qed.
