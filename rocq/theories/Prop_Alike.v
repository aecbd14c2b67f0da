(** C84: reductions over the same samples with other signs, in another order or scaled. *)
From Coq Require Import ZArith Reals List Lia Permutation.
From Flocq Require Import Core IEEE754.Binary IEEE754.Bits.
From Verif Require Import Base Mem Loop Backend Args MemFuns Lanes Float LaneOps Reduce FloatOps Spec SpecReduce SpecAlike
  ReduceMore ExData ExFloat AlikeFacts AlikeClaims.
Import ListNotations.
Local Open Scope Z_scope.

(** * C84: reductions do not depend on sign conventions, power-of-two scale or, extremes only, order *)

(** The sum of negated samples is the negated sum, bit for bit but for the sign of
    a zero; NaN and infinite samples and overflow included. *)
Theorem C84_sum_of_negated_vec : 
  forall (t : fmt) (n : nans t) (m m' : mem (F t)) p p' len l, filled m p len l -> filled m' p' len (map fneg l) ->
    exists r r', horizontal_sum_vec (fred_scalar n) m p len = Ok r /\ horizontal_sum_vec (fred_scalar n) m' p' len = Ok r' /\ opposite r r'.
Proof. exact C84_sum_of_negated_vec_lemma. Qed.
Print Assumptions C84_sum_of_negated_vec.

Example C84_sum_of_negated_vec_ex :
  let v := fun a => f_ofZ F32 ((a * 7) mod 23 - 11) in let w := fun a => fneg (v a) in filled (block 0 100 v) 3 20 (cells v 3 20) /\ filled (block 0 100 w) 3 20 (map fneg (cells v 3 20)).
Proof. cbv zeta. rewrite <- (cells_map fneg). fitf. Qed.

Theorem C84_sum_of_negated_vec_simd : 
  forall (c : cfg) (B : backend) (n : nans (fmt_of B)) (m m' : mem (F (fmt_of B))) p p' len l, aligned B p -> aligned B p' -> whole_vectors B len -> filled m p len l -> filled m' p' len (map fneg l) ->
    exists r r', horizontal_sum_vec_simd (fred c B n) c B m p len = Ok r /\ horizontal_sum_vec_simd (fred c B n) c B m' p' len = Ok r' /\ opposite r r'.
Proof. exact C84_sum_of_negated_vec_simd_lemma. Qed.
Print Assumptions C84_sum_of_negated_vec_simd.

Example C84_sum_of_negated_vec_simd_ex :
  let v := fun a => f_ofZ F32 ((a * 7) mod 23 - 11) in let w := fun a => fneg (v a) in aligned AVX32 8 /\ whole_vectors AVX32 24 /\ filled (block 0 100 v) 8 24 (cells v 8 24) /\ filled (block 0 100 w) 8 24 (map fneg (cells v 8 24)).
Proof. cbv zeta. rewrite <- (cells_map fneg). fitf. Qed.

(** Scaling all samples by a power of two scales the sum by it, with no rounding
    anywhere: whatever was rounded before is rounded alike.  Subnormal samples and
    sums included; overflow is not. *)
Theorem C84_sum_of_scaled_vec : 
  forall (t : fmt) (n : nans t) (m m' : mem (F t)) p p' len k l l', filled m p len l -> filled m' p' len l' -> scaled_by_power k l l' ->
    exists r r', horizontal_sum_vec (fred_scalar n) m p len = Ok r /\ horizontal_sum_vec (fred_scalar n) m' p' len = Ok r' /\
      (isfin r = true -> isfin r' = true -> val r' = (val r * bpow radix2 k)%R).
Proof. exact C84_sum_of_scaled_vec_lemma. Qed.
Print Assumptions C84_sum_of_scaled_vec.

Example C84_sum_of_scaled_vec_ex :
  let v := fun a => f_ofZ F32 ((a * 7) mod 23 - 11) in let w := fun a => f_ofZ F32 (8 * ((a * 7) mod 23 - 11)) in filled (block 0 100 v) 3 5 (cells v 3 5) /\ filled (block 0 100 w) 3 5 (cells w 3 5) /\ scaled_by_power 3 (cells v 3 5) (cells w 3 5).
Proof.
  intros v w. repeat match goal with |- _ /\ _ => split end; try (unfold v, w; fitf_leaf).
  apply (scaled_cells (fun a => (a * 7) mod 23 - 11)). intros a. change (2 ^ 20) with 1048576. pose proof (Z.mod_pos_bound (a * 7) 23 ltac:(lia)). lia.
Qed.

Theorem C84_sum_of_scaled_vec_simd : 
  forall (c : cfg) (B : backend) (n : nans (fmt_of B)) (m m' : mem (F (fmt_of B))) p p' len k l l', aligned B p -> aligned B p' -> whole_vectors B len -> filled m p len l -> filled m' p' len l' -> scaled_by_power k l l' ->
    exists r r', horizontal_sum_vec_simd (fred c B n) c B m p len = Ok r /\ horizontal_sum_vec_simd (fred c B n) c B m' p' len = Ok r' /\
      (isfin r = true -> isfin r' = true -> val r' = (val r * bpow radix2 k)%R).
Proof. exact C84_sum_of_scaled_vec_simd_lemma. Qed.
Print Assumptions C84_sum_of_scaled_vec_simd.

Example C84_sum_of_scaled_vec_simd_ex :
  let v := fun a => f_ofZ F32 ((a * 7) mod 23 - 11) in let w := fun a => f_ofZ F32 (8 * ((a * 7) mod 23 - 11)) in aligned SSE32 8 /\ whole_vectors SSE32 4 /\ filled (block 0 100 v) 8 4 (cells v 8 4) /\ filled (block 0 100 w) 8 4 (cells w 8 4) /\ scaled_by_power 3 (cells v 8 4) (cells w 8 4).
Proof.
  intros v w. repeat match goal with |- _ /\ _ => split end; try (unfold v, w; fitf_leaf).
  apply (scaled_cells (fun a => (a * 7) mod 23 - 11)). intros a. change (2 ^ 20) with 1048576. pose proof (Z.mod_pos_bound (a * 7) 23 ltac:(lia)). lia.
Qed.

(** The sum does depend on the order of the samples, as one learns to expect of
    floats. *)
Theorem C84_sum_any_order_refuted : 
  exists (n : nans F32) (m m' : mem (F F32)) p len l l', filled m p len l /\ filled m' p len l' /\ Permutation l l' /\
    (exists r r', horizontal_sum_vec (fred_scalar n) m p len = Ok r /\ horizontal_sum_vec (fred_scalar n) m' p len = Ok r' /\
       isfin r = true /\ isfin r' = true /\ feq r r' = false) /\
    (forall c, exists r r', horizontal_sum_vec_simd (fred c SSE32 n) c SSE32 m p len = Ok r /\
       horizontal_sum_vec_simd (fred c SSE32 n) c SSE32 m' p len = Ok r' /\ isfin r = true /\ isfin r' = true /\ feq r r' = false).
Proof. exact C84_sum_any_order_refuted_lemma. Qed.
Print Assumptions C84_sum_any_order_refuted.

(** The maximum does not depend on the order of the samples: the very same bits. *)
Theorem C84_max_any_order_vec : 
  forall (t : fmt) (n : nans t) (m m' : mem (F t)) p p' len l l', filled m p len l -> filled m' p' len l' -> no_nan l -> Permutation l l' ->
    exists r, horizontal_max_vec (fred_scalar n) m p len = Ok r /\ horizontal_max_vec (fred_scalar n) m' p' len = Ok r.
Proof. exact C84_max_any_order_vec_lemma. Qed.
Print Assumptions C84_max_any_order_vec.

Example C84_max_any_order_vec_ex :
  let v := fun a => f_ofZ F32 ((a * 7) mod 23 - 11) in let w := fun a => v (23 - a) in filled (block 0 100 v) 8 8 (cells v 8 8) /\ filled (block 0 100 w) 8 8 (cells w 8 8) /\ no_nan (cells v 8 8) /\ Permutation (cells v 8 8) (cells w 8 8).
Proof.
  intros v w. repeat match goal with |- _ /\ _ => split end; try (unfold v, w; fitf_leaf).
  replace (cells w 8 8) with (rev (cells v 8 8)) by reflexivity. apply Permutation_rev.
Qed.

(** And the vectorised function returns the same as the scalar one. *)
Theorem C84_max_any_order_vec_simd : 
  forall (c : cfg) (B : backend) (n : nans (fmt_of B)) (m m' : mem (F (fmt_of B))) p p' len l l', aligned B p' -> whole_vectors B len -> filled m p len l -> filled m' p' len l' -> no_nan l -> Permutation l l' ->
    exists r, horizontal_max_vec (fred_scalar n) m p len = Ok r /\ horizontal_max_vec_simd (fred c B n) B m' p' len = Ok r.
Proof. exact C84_max_any_order_vec_simd_lemma. Qed.
Print Assumptions C84_max_any_order_vec_simd.

Example C84_max_any_order_vec_simd_ex :
  let v := fun a => f_ofZ F32 ((a * 7) mod 23 - 11) in let w := fun a => v (23 - a) in aligned AVX32 8 /\ whole_vectors AVX32 8 /\ filled (block 0 100 v) 8 8 (cells v 8 8) /\ filled (block 0 100 w) 8 8 (cells w 8 8) /\ no_nan (cells v 8 8) /\ Permutation (cells v 8 8) (cells w 8 8).
Proof.
  intros v w. repeat match goal with |- _ /\ _ => split end; try (unfold v, w; fitf_leaf).
  replace (cells w 8 8) with (rev (cells v 8 8)) by reflexivity. apply Permutation_rev.
Qed.

(** Nor does the minimum, zeros of either sign being equal. *)
Theorem C84_min_any_order_vec : 
  forall (t : fmt) (n : nans t) (m m' : mem (F t)) p p' len l l', filled m p len l -> filled m' p' len l' -> no_nan l -> Permutation l l' ->
    exists r r', horizontal_min_vec (fred_scalar n) m p len = Ok r /\ horizontal_min_vec (fred_scalar n) m' p' len = Ok r' /\ feq r r' = true.
Proof. exact C84_min_any_order_vec_lemma. Qed.
Print Assumptions C84_min_any_order_vec.

Example C84_min_any_order_vec_ex :
  let v := fun a => f_ofZ F32 ((a * 7) mod 23 - 11) in let w := fun a => v (23 - a) in filled (block 0 100 v) 8 8 (cells v 8 8) /\ filled (block 0 100 w) 8 8 (cells w 8 8) /\ no_nan (cells v 8 8) /\ Permutation (cells v 8 8) (cells w 8 8).
Proof.
  intros v w. repeat match goal with |- _ /\ _ => split end; try (unfold v, w; fitf_leaf).
  replace (cells w 8 8) with (rev (cells v 8 8)) by reflexivity. apply Permutation_rev.
Qed.

(** And the vectorised function returns the same as the scalar one. *)
Theorem C84_min_any_order_vec_simd : 
  forall (c : cfg) (B : backend) (n : nans (fmt_of B)) (m m' : mem (F (fmt_of B))) p p' len l l', aligned B p' -> whole_vectors B len -> filled m p len l -> filled m' p' len l' -> no_nan l -> Permutation l l' ->
    exists r r', horizontal_min_vec (fred_scalar n) m p len = Ok r /\ horizontal_min_vec_simd (fred c B n) B m' p' len = Ok r' /\ feq r r' = true.
Proof. exact C84_min_any_order_vec_simd_lemma. Qed.
Print Assumptions C84_min_any_order_vec_simd.

Example C84_min_any_order_vec_simd_ex :
  let v := fun a => f_ofZ F32 ((a * 7) mod 23 - 11) in let w := fun a => v (23 - a) in aligned AVX32 8 /\ whole_vectors AVX32 8 /\ filled (block 0 100 v) 8 8 (cells v 8 8) /\ filled (block 0 100 w) 8 8 (cells w 8 8) /\ no_nan (cells v 8 8) /\ Permutation (cells v 8 8) (cells w 8 8).
Proof.
  intros v w. repeat match goal with |- _ /\ _ => split end; try (unfold v, w; fitf_leaf).
  replace (cells w 8 8) with (rev (cells v 8 8)) by reflexivity. apply Permutation_rev.
Qed.

(** The minimum of negated samples is minus the maximum if some sample is as large
    as the smallest normal number (both functions start from that), *)
Theorem C84_min_of_negated_vec : 
  forall (t : fmt) (n : nans t) (m m' : mem (F t)) p p' len l, filled m p len l -> filled m' p' len (map fneg l) -> no_nan l -> (exists x, In x l /\ fle (f_min t) x = true) ->
    exists r r', horizontal_max_vec (fred_scalar n) m p len = Ok r /\ horizontal_min_vec (fred_scalar n) m' p' len = Ok r' /\ opposite r r'.
Proof. exact C84_min_of_negated_vec_lemma. Qed.
Print Assumptions C84_min_of_negated_vec.

Example C84_min_of_negated_vec_ex :
  let v := fun a => f_ofZ F32 ((a * 7) mod 23 - 11) in let w := fun a => fneg (v a) in filled (block 0 100 v) 8 24 (cells v 8 24) /\ filled (block 0 100 w) 8 24 (map fneg (cells v 8 24)) /\ no_nan (cells v 8 24) /\ exists x, In x (cells v 8 24) /\ fle (f_min F32) x = true.
Proof.
  cbv zeta. rewrite <- (cells_map fneg). fitf. match goal with |- exists x, In x ?l /\ _ => enough (H : existsb (fun x => fle (f_min F32) x) l = true) end.
  - apply existsb_exists in H. exact H.
  - vm_compute. reflexivity.
Qed.

Theorem C84_min_of_negated_vec_simd : 
  forall (c : cfg) (B : backend) (n : nans (fmt_of B)) (m m' : mem (F (fmt_of B))) p p' len l, aligned B p -> aligned B p' -> whole_vectors B len ->
    filled m p len l -> filled m' p' len (map fneg l) -> no_nan l -> (exists x, In x l /\ fle (f_min (fmt_of B)) x = true) ->
    exists r r', horizontal_max_vec_simd (fred c B n) B m p len = Ok r /\ horizontal_min_vec_simd (fred c B n) B m' p' len = Ok r' /\ opposite r r'.
Proof. exact C84_min_of_negated_vec_simd_lemma. Qed.
Print Assumptions C84_min_of_negated_vec_simd.

Example C84_min_of_negated_vec_simd_ex :
  let v := fun a => f_ofZ F32 ((a * 7) mod 23 - 11) in let w := fun a => fneg (v a) in aligned AVX32 8 /\ whole_vectors AVX32 24 /\ filled (block 0 100 v) 8 24 (cells v 8 24) /\ filled (block 0 100 w) 8 24 (map fneg (cells v 8 24)) /\ no_nan (cells v 8 24) /\ exists x, In x (cells v 8 24) /\ fle (f_min F32) x = true.
Proof.
  cbv zeta. rewrite <- (cells_map fneg). fitf. match goal with |- exists x, In x ?l /\ _ => enough (H : existsb (fun x => fle (f_min F32) x) l = true) end.
  - apply existsb_exists in H. exact H.
  - vm_compute. reflexivity.
Qed.

(** but not if all samples are negative: both functions then return the positive
    number they start from. *)
Theorem C84_min_of_negated_refuted : 
  exists (n : nans F32) (m m' : mem (F F32)) p len l, filled m p len l /\ filled m' p len (map fneg l) /\ no_nan l /\
    exists r r', horizontal_max_vec (fred_scalar n) m p len = Ok r /\ horizontal_min_vec (fred_scalar n) m' p len = Ok r' /\ ~ opposite r r'.
Proof. exact C84_min_of_negated_refuted_lemma. Qed.
Print Assumptions C84_min_of_negated_refuted.

(** Nor does the peak meter care for the order of the samples, *)
Theorem C84_peak_any_order_vec : 
  forall (t : fmt) (n : nans t) (m m' : mem (F t)) p p' pk pk' len l l' old, filled m p len l -> filled m' p' len l' -> no_nan l -> Permutation l l' ->
    m pk = Some old -> m' pk' = Some old -> isnan old = false ->
    exists m1 m2 z z' r r', peak_vec (fred_scalar n) m p pk len = Ok (m1, z) /\ peak_vec (fred_scalar n) m' p' pk' len = Ok (m2, z') /\
      m1 pk = Some r /\ m2 pk' = Some r' /\ feq r r' = true.
Proof. exact C84_peak_any_order_vec_lemma. Qed.
Print Assumptions C84_peak_any_order_vec.

Example C84_peak_any_order_vec_ex :
  let v := fun a => f_ofZ F32 ((a * 7) mod 23 - 11) in let w := fun a => if a =? 90 then v 90 else v (23 - a) in filled (block 0 100 v) 8 8 (cells v 8 8) /\ filled (block 0 100 w) 8 8 (cells w 8 8) /\ no_nan (cells v 8 8) /\ Permutation (cells v 8 8) (cells w 8 8) /\ block 0 100 v 90 = Some (v 90) /\ block 0 100 w 90 = Some (v 90) /\ isnan (v 90) = false.
Proof.
  intros v w. repeat match goal with |- _ /\ _ => split end; try (unfold v, w; fitf_leaf).
  try reflexivity. replace (cells w 8 8) with (rev (cells v 8 8)) by reflexivity. apply Permutation_rev.
Qed.

(** scalar or vectorised, *)
Theorem C84_peak_any_order_vec_simd : 
  forall (c : cfg) (B : backend) (n : nans (fmt_of B)) junk (m m' : mem (F (fmt_of B))) p p' pk pk' len l l' old, aligned B p' -> whole_quads B len -> upper_lanes_zero B (f_ofZ (fmt_of B) 0) junk ->
    filled m p len l -> filled m' p' len l' -> no_nan l -> Permutation l l' ->
    m pk = Some old -> m' pk' = Some old -> isnan old = false ->
    exists m1 m2 z z' r r', peak_vec (fred_scalar n) m p pk len = Ok (m1, z) /\ peak_vec_simd (fred c B n) c B junk m' p' pk' len = Ok (m2, z') /\
      m1 pk = Some r /\ m2 pk' = Some r' /\ feq r r' = true.
Proof. exact C84_peak_any_order_vec_simd_lemma. Qed.
Print Assumptions C84_peak_any_order_vec_simd.

Example C84_peak_any_order_vec_simd_ex :
  let v := fun a => f_ofZ F32 ((a * 7) mod 23 - 11) in let w := fun a => if a =? 90 then v 90 else v (31 - a) in aligned SSE32 8 /\ whole_quads SSE32 16 /\ upper_lanes_zero SSE32 (f_ofZ F32 0) (fun _ => f_ofZ F32 0) /\ filled (block 0 100 v) 8 16 (cells v 8 16) /\ filled (block 0 100 w) 8 16 (cells w 8 16) /\ no_nan (cells v 8 16) /\ Permutation (cells v 8 16) (cells w 8 16) /\ block 0 100 v 90 = Some (v 90) /\ block 0 100 w 90 = Some (v 90) /\ isnan (v 90) = false.
Proof.
  intros v w. repeat match goal with |- _ /\ _ => split end; try (unfold v, w; fitf_leaf).
  try reflexivity. replace (cells w 8 16) with (rev (cells v 8 16)) by reflexivity. apply Permutation_rev.
Qed.

(** Changing signs of samples changes no bit of the stored peak or of the returned
    last magnitude, NaNs included, *)
Theorem C84_peak_ignores_signs_vec : 
  forall (t : fmt) (n : nans t) (m m' : mem (F t)) p p' pk pk' len l l' old, filled m p len l -> filled m' p' len l' -> same_but_signs l l' ->
    m pk = Some old -> m' pk' = Some old ->
    exists m1 m2 z r, peak_vec (fred_scalar n) m p pk len = Ok (m1, z) /\ peak_vec (fred_scalar n) m' p' pk' len = Ok (m2, z) /\
      m1 pk = Some r /\ m2 pk' = Some r.
Proof. exact C84_peak_ignores_signs_vec_lemma. Qed.
Print Assumptions C84_peak_ignores_signs_vec.

Example C84_peak_ignores_signs_vec_ex :
  let v := fun a => f_ofZ F32 ((a * 7) mod 23 - 11) in let w := fun a => if a mod 3 =? 1 then fneg (v a) else v a in filled (block 0 100 v) 3 20 (cells v 3 20) /\ filled (block 0 100 w) 3 20 (cells w 3 20) /\ same_but_signs (cells v 3 20) (cells w 3 20) /\ block 0 100 v 90 = Some (v 90) /\ block 0 100 w 90 = Some (v 90).
Proof.
  intros v w. repeat match goal with |- _ /\ _ => split end; try reflexivity; try discriminate; try (unfold v, w; fitf_leaf).
  apply signs_cells. intros a. unfold w. destruct (_ =? 1); auto.
Qed.

Theorem C84_peak_ignores_signs_vec_simd : 
  forall (c : cfg) (B : backend) (n : nans (fmt_of B)) junk junk' (m m' : mem (F (fmt_of B))) p p' pk pk' len l l' old, aligned B p -> aligned B p' -> whole_quads B len ->
    upper_lanes_zero B (f_ofZ (fmt_of B) 0) junk -> upper_lanes_zero B (f_ofZ (fmt_of B) 0) junk' ->
    filled m p len l -> filled m' p' len l' -> same_but_signs l l' -> m pk = Some old -> m' pk' = Some old ->
    exists m1 m2 z r, peak_vec_simd (fred c B n) c B junk m p pk len = Ok (m1, z) /\ peak_vec_simd (fred c B n) c B junk' m' p' pk' len = Ok (m2, z) /\
      m1 pk = Some r /\ m2 pk' = Some r.
Proof. exact C84_peak_ignores_signs_vec_simd_lemma. Qed.
Print Assumptions C84_peak_ignores_signs_vec_simd.

Example C84_peak_ignores_signs_vec_simd_ex :
  let v := fun a => f_ofZ F32 ((a * 7) mod 23 - 11) in let w := fun a => if a mod 3 =? 1 then fneg (v a) else v a in aligned AVX32 8 /\ whole_quads AVX32 32 /\ upper_lanes_zero AVX32 (f_ofZ F32 0) (fun _ => f_ofZ F32 0) /\ filled (block 0 100 v) 8 32 (cells v 8 32) /\ filled (block 0 100 w) 8 32 (cells w 8 32) /\ same_but_signs (cells v 8 32) (cells w 8 32) /\ block 0 100 v 90 = Some (v 90) /\ block 0 100 w 90 = Some (v 90).
Proof.
  intros v w. repeat match goal with |- _ /\ _ => split end; try reflexivity; try discriminate; try (unfold v, w; fitf_leaf).
  apply signs_cells. intros a. unfold w. destruct (_ =? 1); auto.
Qed.

(** nor, NaNs apart, of the peak and the sum of squares. *)
Theorem C84_peak_rms_ignores_signs_vec : 
  forall (t : fmt) (n : nans t) (m m' : mem (F t)) p p' pk pk' sq sq' len l l' old olds, filled m p len l -> filled m' p' len l' -> no_nan l -> same_but_signs l l' ->
    m pk = Some old -> m' pk' = Some old -> m sq = Some olds -> m' sq' = Some olds -> pk <> sq -> pk' <> sq' ->
    exists m1 m2 r s, peak_rms_vec (fred_scalar n) m p pk sq len = Ok m1 /\ peak_rms_vec (fred_scalar n) m' p' pk' sq' len = Ok m2 /\
      m1 pk = Some r /\ m2 pk' = Some r /\ m1 sq = Some s /\ m2 sq' = Some s.
Proof. exact C84_peak_rms_ignores_signs_vec_lemma. Qed.
Print Assumptions C84_peak_rms_ignores_signs_vec.

Example C84_peak_rms_ignores_signs_vec_ex :
  let v := fun a => f_ofZ F32 ((a * 7) mod 23 - 11) in let w := fun a => if a mod 3 =? 1 then fneg (v a) else v a in filled (block 0 100 v) 3 20 (cells v 3 20) /\ filled (block 0 100 w) 3 20 (cells w 3 20) /\ no_nan (cells v 3 20) /\ same_but_signs (cells v 3 20) (cells w 3 20) /\ block 0 100 v 90 = Some (v 90) /\ block 0 100 w 90 = Some (v 90) /\ block 0 100 v 93 = Some (v 93) /\ block 0 100 w 93 = Some (v 93) /\ 90 <> 93.
Proof.
  intros v w. repeat match goal with |- _ /\ _ => split end; try reflexivity; try discriminate; try (unfold v, w; fitf_leaf).
  apply signs_cells. intros a. unfold w. destruct (_ =? 1); auto.
Qed.

Theorem C84_peak_rms_ignores_signs_vec_simd : 
  forall (c : cfg) (B : backend) (n : nans (fmt_of B)) junk junk' (m m' : mem (F (fmt_of B))) p p' pk pk' sq sq' len l l' old olds, aligned B p -> aligned B p' -> whole_quads B len ->
    upper_lanes_zero B (f_ofZ (fmt_of B) 0) junk -> upper_lanes_zero B (f_ofZ (fmt_of B) 0) junk' ->
    filled m p len l -> filled m' p' len l' -> no_nan l -> same_but_signs l l' ->
    m pk = Some old -> m' pk' = Some old -> m sq = Some olds -> m' sq' = Some olds -> pk <> sq -> pk' <> sq' ->
    exists m1 m2 r s, peak_rms_vec_simd (fred c B n) c B junk m p pk sq len = Ok m1 /\ peak_rms_vec_simd (fred c B n) c B junk' m' p' pk' sq' len = Ok m2 /\
      m1 pk = Some r /\ m2 pk' = Some r /\ m1 sq = Some s /\ m2 sq' = Some s.
Proof. exact C84_peak_rms_ignores_signs_vec_simd_lemma. Qed.
Print Assumptions C84_peak_rms_ignores_signs_vec_simd.

Example C84_peak_rms_ignores_signs_vec_simd_ex :
  let v := fun a => f_ofZ F32 ((a * 7) mod 23 - 11) in let w := fun a => if a mod 3 =? 1 then fneg (v a) else v a in aligned AVX32 8 /\ whole_quads AVX32 32 /\ upper_lanes_zero AVX32 (f_ofZ F32 0) (fun _ => f_ofZ F32 0) /\ filled (block 0 100 v) 8 32 (cells v 8 32) /\ filled (block 0 100 w) 8 32 (cells w 8 32) /\ no_nan (cells v 8 32) /\ same_but_signs (cells v 8 32) (cells w 8 32) /\ block 0 100 v 90 = Some (v 90) /\ block 0 100 w 90 = Some (v 90) /\ block 0 100 v 93 = Some (v 93) /\ block 0 100 w 93 = Some (v 93) /\ 90 <> 93.
Proof.
  intros v w. repeat match goal with |- _ /\ _ => split end; try reflexivity; try discriminate; try (unfold v, w; fitf_leaf).
  apply signs_cells. intros a. unfold w. destruct (_ =? 1); auto.
Qed.
