(** Proofs of the statements of Prop_Reduce.v. *)
From Coq Require Import ZArith Reals List Lia.
From Flocq Require Import Core IEEE754.Binary IEEE754.Bits.
From Verif Require Import Base Mem Loop Backend Args MemFuns Lanes Float LaneOps Reduce FloatOps Spec SpecReduce
  LoopFacts MemFacts MemFunFacts BlockFacts FaultFacts FloatFacts LaneFacts ReduceFacts ReduceRun ReduceSim ReduceFloat ReduceMore AltivecFacts LaneMore ExData ExFloat.
Import ListNotations.
Local Open Scope Z_scope.

Lemma C19_peak_vec_lemma : 
  forall (t : fmt) (n : nans t) (m : mem (F t)) p pk len l old,
    filled m p len l -> m pk = Some old -> isnan old = false -> no_nan l ->
    peak_updated m (peak_vec (fred_scalar n) m p pk len) p pk len old l.
Proof.
  intros. apply peak_vec_float; assumption.
Qed.

Lemma C19_peak_vec_simd_lemma : 
  forall (c : cfg) (B : backend) (n : nans (fmt_of B)) junk (m : mem (F (fmt_of B))) p pk len l old,
    aligned B p -> whole_quads B len -> filled m p len l -> m pk = Some old -> isnan old = false -> no_nan l ->
    upper_lanes_zero B (f_ofZ (fmt_of B) 0) junk ->
    peak_updated m (peak_vec_simd (fred c B n) c B junk m p pk len) p pk len old l.
Proof.
  intros. apply peak_vec_simd_float; assumption.
Qed.

Lemma C19_peak_vec_blocks_lemma : 
  forall (t : fmt) (n : nans t) (lens : list Z) (m : mem (F t)) p pk l old,
    Forall (fun k => 0 < k < 2 ^ 32) lens -> holds m p l -> Z.of_nat (length l) = zsum lens ->
    (pk < p \/ p + zsum lens <= pk) -> m pk = Some old -> isnan old = false -> no_nan l ->
    exists m' new,
      block_after_block (fun m p k => peak_vec (fred_scalar n) m p pk k) m p lens = Ok m' /\
      sets_cell m m' pk new /\ is_max new (old :: map fabs l).
Proof.
  intros. apply peak_vec_blocks; assumption.
Qed.

Lemma C19_peak_vec_simd_blocks_lemma : 
  forall (c : cfg) (B : backend) (n : nans (fmt_of B)) junk (lens : list Z) (m : mem (F (fmt_of B))) p pk l old,
    aligned B p -> upper_lanes_zero B (f_ofZ (fmt_of B) 0) junk ->
    Forall (fun k => whole_quads B k /\ 0 < k < 2 ^ 32) lens -> holds m p l -> Z.of_nat (length l) = zsum lens ->
    (pk < p \/ p + zsum lens <= pk) -> m pk = Some old -> isnan old = false -> no_nan l ->
    exists m' new,
      block_after_block (fun m p k => peak_vec_simd (fred c B n) c B junk m p pk k) m p lens = Ok m' /\
      sets_cell m m' pk new /\ is_max new (old :: map fabs l).
Proof.
  intros. apply peak_vec_simd_blocks; assumption.
Qed.

Lemma C19_one_call_or_many_lemma : 
  forall (t : fmt) (old new1 new2 : F t) (l : list (F t)),
    is_max new1 (old :: map fabs l) -> is_max new2 (old :: map fabs l) -> feq new1 new2 = true.
Proof.
  intros t old r1 r2 l [U1 (x & Hx & Ex)] [U2 (y & Hy & Ey)].
  specialize (U1 y Hy). specialize (U2 x Hx). apply feq_iff in Ex, Ey. apply fle_iff in U1, U2. apply feq_iff.
  destruct Ex as (? & ? & ?), Ey as (? & ? & ?), U1 as (? & ? & ?), U2 as (? & ? & ?). repeat split; auto. lia.
Qed.

Lemma C19_undefined_lanes_refuted_lemma : 
  exists (c : cfg) (B : backend) (n : nans (fmt_of B)) junk (m : mem (F (fmt_of B))) p pk len l old,
    aligned B p /\ whole_quads B len /\ filled m p len l /\ m pk = Some old /\ isnan old = false /\ no_nan l /\
    ~ peak_updated m (peak_vec_simd (fred c B n) c B junk m p pk len) p pk len old l.
Proof.
  exists all_ext, AVX32, (n0 F32), (fun _ => f_ofZ F32 7), (block 0 100 (fun _ => f_ofZ F32 0)), 8, 90, 32,
    (cells (fun _ => f_ofZ F32 0) 8 32), (f_ofZ F32 0).
  fitf. intros (m' & new & z & E & _ & [S _] & M).
  assert (K : new = of_bits F32 (bits (f_ofZ F32 7))).
  { apply (cell_bits_new _ _ _ _ _ _ E S). vm_compute. reflexivity. }
  subst new. revert M. apply not_is_max. vm_compute. reflexivity.
Qed.

Lemma C20_peak_vec_simd_rounds_down_lemma : 
  forall A (d : redops A) (c : cfg) (B : backend) junk (m : mem A) p pk len,
    peak_vec_simd d c B junk m p pk len = peak_vec_simd d c B junk m p pk (len - len mod (4 * lanes B)).
Proof.
  intros. apply peak_simd_rounds.
Qed.

Lemma C20_peak_rms_vec_simd_rounds_down_lemma : 
  forall A (d : redops A) (c : cfg) (B : backend) junk (m : mem A) p pk sq len,
    peak_rms_vec_simd d c B junk m p pk sq len =
    peak_rms_vec_simd d c B junk m p pk sq (len - len mod (4 * lanes B)).
Proof.
  intros. apply peak_rms_simd_rounds.
Qed.

Lemma C20_ignores_last_samples_refuted_lemma : 
  exists (B : backend) (n : nans (fmt_of B)) (m : mem (F (fmt_of B))) p pk len l old,
    aligned B p /\ legal_simd_length B len /\ filled m p len l /\ m pk = Some old /\ isnan old = false /\ no_nan l /\
    forall c junk, ~ peak_updated m (peak_vec_simd (fred c B n) c B junk m p pk len) p pk len old l.
Proof.
  exists GEN64, (n0 F64), (block 0 100 (fun a => f_ofZ F64 a)), 0, 90, 24, (cells (fun a => f_ofZ F64 a) 0 24), (f_ofZ F64 90).
  fitf. intros c junk (m' & new & z & E & Z1 & _).
  assert (K : option_map bits (match peak_vec_simd (fred c GEN64 (n0 F64)) c GEN64 junk (block 0 100 (fun a => f_ofZ F64 a)) 0 90 24 with
     Ok (_, z) => Some z | Fault _ => None end) = Some (bits (f_ofZ F64 15))).
  { destruct c as [[] [] [] []]; vm_compute; reflexivity. }
  rewrite E in K. injection K as K.
  assert (Z2 : bits z = bits (f_ofZ F64 23)).
  { assert (Q : option_map bits (block 0 100 (fun a => f_ofZ F64 a) (0 + 24 - 1)) = Some (bits (f_ofZ F64 23))) by (vm_compute; reflexivity).
    rewrite Z1 in Q. injection Q as Q. exact Q. }
  apply bits_inj in Z2. subst z. revert K. vm_compute. discriminate.
Qed.

Lemma C20_peak_vec_simd_too_short_lemma : 
  forall A (d : redops A) (c : cfg) (B : backend) junk (m : mem A) p pk len i,
    0 <= len < 4 * lanes B -> aligned B p ->
    0 <= i < 2 ^ 32 * (4 * lanes B) -> m (p + i) = None ->
    memory_fault (peak_vec_simd d c B junk m p pk len).
Proof.
  intros A d c B junk m p pk len i. apply peak_simd_short.
Qed.

Lemma C20_peak_rms_vec_simd_too_short_lemma : 
  forall A (d : redops A) (c : cfg) (B : backend) junk (m : mem A) p pk sq len i,
    0 <= len < 4 * lanes B -> aligned B p ->
    0 <= i < 2 ^ 32 * (4 * lanes B) -> m (p + i) = None ->
    memory_fault (peak_rms_vec_simd d c B junk m p pk sq len).
Proof.
  intros A d c B junk m p pk sq len i. apply peak_rms_simd_short.
Qed.

Lemma C20_unit_too_large_lemma : 
  forall B, (loop_unit B < 4 * lanes B <-> B = AVX32 \/ B = AVX64 \/ B = GEN64) /\
            (loop_unit B = 4 * lanes B <-> B = SSE32 \/ B = SSE64 \/ B = NEON32 \/ B = ALTIVEC32 \/ B = GEN32).
Proof.
  intros []; split; split; intros H; cbn in *;
    first [lia | (repeat (destruct H as [H|H]; try discriminate); discriminate H) | tauto].
Qed.

Lemma C20_shortest_legal_length_faults_lemma : 
  forall A (d : redops A) (c : cfg) (B : backend) junk (m : mem A) p pk i,
    B = AVX32 \/ B = AVX64 \/ B = GEN64 -> aligned B p ->
    0 <= i < 2 ^ 32 * (4 * lanes B) -> m (p + i) = None ->
    legal_simd_length B (loop_unit B) /\ memory_fault (peak_vec_simd d c B junk m p pk (loop_unit B)).
Proof.
  intros A d c B junk m p pk i HB Ha Hi Hm. split.
  - split; [destruct B; split; reflexivity|exists 1; lia].
  - apply peak_simd_short with (i := i); auto. destruct HB as [->|[->| ->]]; cbn; lia.
Qed.

Lemma C21_peak_vec_skips_nan_lemma : 
  forall (t : fmt) (n : nans t) (m : mem (F t)) p pk len l old,
    filled m p len l -> m pk = Some old -> isnan old = false ->
    peak_updated m (peak_vec (fred_scalar n) m p pk len) p pk len old (filter (fun x => negb (isnan x)) l).
Proof.
  intros. apply peak_vec_nan; assumption.
Qed.

Lemma C21_stored_nan_stays_lemma : 
  forall (t : fmt) (n : nans t) (m : mem (F t)) p pk len l old,
    filled m p len l -> m pk = Some old -> isnan old = true ->
    exists m' z, peak_vec (fred_scalar n) m p pk len = Ok (m', z) /\ sets_cell m m' pk old.
Proof.
  intros. eapply peak_vec_nan_sticks; eassumption.
Qed.

Lemma C21_peak_vec_simd_refuted_lemma : 
  exists (n : nans F32) (m : mem (F F32)) p pk len l old,
    aligned SSE32 p /\ whole_quads SSE32 len /\ filled m p len l /\ m pk = Some old /\ isnan old = false /\
    forall c junk, exists m' z new, peak_vec_simd (fred c SSE32 n) c SSE32 junk m p pk len = Ok (m', z) /\
      m' pk = Some new /\ flt new old = true.
Proof.
  exists (n0 F32), (block 0 100 (fun a => if a =? 12 then qnan F32 else if a =? 90 then f_ofZ F32 9 else f_ofZ F32 (a mod 3))), 0, 90, 32,
    (cells (fun a => if a =? 12 then qnan F32 else if a =? 90 then f_ofZ F32 9 else f_ofZ F32 (a mod 3)) 0 32), (f_ofZ F32 9).
  fitf. intros c junk.
  match goal with |- exists m' z new, ?r = _ /\ _ =>
    assert (K : cell_bits r 90 = Some (bits (f_ofZ F32 2))) by (destruct c as [[] [] [] []]; vm_compute; reflexivity);
    destruct r as [[m' z]|e] eqn:E; cbn [cell_bits] in K; [|discriminate] end.
  exists m', z. destruct (m' 90) as [new|] eqn:En; cbn [option_map] in K; [|discriminate]. exists new. split; [reflexivity|].
  split; [reflexivity|]. assert (K' : bits new = bits (f_ofZ F32 2)) by congruence. apply bits_inj in K'. subst new. vm_compute. reflexivity.
Qed.

Lemma C22_peak_rms_vec_lemma : 
  forall A (d : redops A) (m : mem A) p pk sq len l old olds,
    exact_reductions d -> filled m p len l -> m pk = Some old -> m sq = Some olds -> pk <> sq ->
    exists m', peak_rms_vec d m p pk sq len = Ok m' /\
      m' pk = Some (max_from d old (map (d_fabs d) l)) /\
      m' sq = Some (sum_from d olds (map (fun x => d_mul d x x) l)) /\
      (forall a, a <> pk -> a <> sq -> m' a = m a).
Proof.
  intros A d m p pk sq len l old olds X H Hpk Hsq Hne.
  rewrite (peak_rms_vec_run d m p pk sq len l old olds) by assumption.
  eexists. split; [reflexivity|]. unfold upd. rewrite Z.eqb_refl. destruct (Z.eqb_spec pk sq); [contradiction|]. rewrite Z.eqb_refl.
  split; [reflexivity|]. split; [reflexivity|].
  intros a H1 H2. destruct (Z.eqb_spec a sq); [contradiction|]. destruct (Z.eqb_spec a pk); [contradiction|reflexivity].
Qed.

Lemma C22_peak_rms_vec_simd_lemma : 
  forall A (d : redops A) (c : cfg) (B : backend) junk (m : mem A) p pk sq len l old olds,
    exact_reductions d -> aligned B p -> whole_quads B len -> upper_lanes_zero B (d_zero d) junk ->
    filled m p len l -> m pk = Some old -> m sq = Some olds -> pk <> sq ->
    exists m', peak_rms_vec_simd d c B junk m p pk sq len = Ok m' /\
      m' pk = Some (max_from d old (map (d_fabs d) l)) /\
      m' sq = Some (sum_from d olds (map (fun x => d_mul d x x) l)) /\
      (forall a, a <> pk -> a <> sq -> m' a = m a).
Proof.
  intros A d c B junk m p pk sq len l old olds X Ha Hw Hj H Hpk Hsq Hne.
  rewrite (peak_rms_simd_exact d X c B junk m p pk sq len l old olds) by assumption.
  eexists. split; [reflexivity|]. unfold upd. rewrite Z.eqb_refl. destruct (Z.eqb_spec pk sq); [contradiction|]. rewrite Z.eqb_refl.
  split; [reflexivity|]. split; [reflexivity|].
  intros a H1 H2. destruct (Z.eqb_spec a sq); [contradiction|]. destruct (Z.eqb_spec a pk); [contradiction|reflexivity].
Qed.

Lemma C22_same_peak_as_plain_meter_lemma : 
  forall A (d : redops A) (m : mem A) p pk sq len l old olds,
    filled m p len l -> m pk = Some old -> m sq = Some olds -> pk <> sq ->
    exists m1 z m2, peak_vec d m p pk len = Ok (m1, z) /\ peak_rms_vec d m p pk sq len = Ok m2 /\ m1 pk = m2 pk.
Proof.
  intros. eapply peak_rms_same; eassumption.
Qed.

Lemma C22_simd_same_peak_as_plain_meter_lemma : 
  forall A (d : redops A) (c : cfg) (B : backend) junk (m : mem A) p pk sq len l old olds,
    aligned B p -> whole_quads B len -> filled m p len l -> m pk = Some old -> m sq = Some olds -> pk <> sq ->
    exists m1 z m2, peak_vec_simd d c B junk m p pk len = Ok (m1, z) /\
      peak_rms_vec_simd d c B junk m p pk sq len = Ok m2 /\ m1 pk = m2 pk /\
      (forall a, a <> pk -> a <> sq -> m2 a = m a).
Proof.
  intros. eapply peak_rms_simd_same; eassumption.
Qed.

Lemma C22_peak_rms_vec_integers_lemma : 
  forall (t : fmt) (n : nans t) (m : mem (F t)) p pk sq len l ks old olds s0,
    filled m p len l -> integers l ks -> m pk = Some old -> m sq = Some olds ->
    isfin olds = true -> val olds = IZR s0 -> 0 <= s0 -> s0 + zsum (map (fun k => k * k) ks) <= 2 ^ prec t ->
    exists m' r, peak_rms_vec (fred_scalar n) m p pk sq len = Ok m' /\ m' sq = Some r /\
      isfin r = true /\ val r = IZR (s0 + zsum (map (fun k => k * k) ks)).
Proof.
  intros. eapply rms_int; eassumption.
Qed.

Lemma C22_peak_rms_vec_simd_integers_lemma : 
  forall (c : cfg) (B : backend) (n : nans (fmt_of B)) junk (m : mem (F (fmt_of B))) p pk sq len l ks old olds s0,
    aligned B p -> whole_quads B len -> upper_lanes_zero B (f_ofZ (fmt_of B) 0) junk -> pk <> sq ->
    filled m p len l -> integers l ks -> m pk = Some old -> m sq = Some olds ->
    isfin olds = true -> val olds = IZR s0 -> 0 <= s0 -> s0 + zsum (map (fun k => k * k) ks) <= 2 ^ prec (fmt_of B) ->
    exists m' r, peak_rms_vec_simd (fred c B n) c B junk m p pk sq len = Ok m' /\ m' sq = Some r /\
      isfin r = true /\ val r = IZR (s0 + zsum (map (fun k => k * k) ks)).
Proof.
  intros. eapply rms_simd_int; eassumption.
Qed.

Lemma C23_flt_min_lemma : val (f_min F32) = bpow radix2 (-126) /\ val (f_min F64) = bpow radix2 (-1022).
Proof.
  split.
  - replace (f_min F32) with (f_lit F32 1 (-126)) by (apply bits_inj; vm_compute; reflexivity). apply f_lit_pow; vm_compute; congruence.
  - replace (f_min F64) with (f_lit F64 1 (-1022)) by (apply bits_inj; vm_compute; reflexivity). apply f_lit_pow; vm_compute; congruence.
Qed.

Lemma C23_horizontal_max_vec_lemma : 
  forall (t : fmt) (n : nans t) (m : mem (F t)) p len l,
    filled m p len l -> no_nan l ->
    exists r, horizontal_max_vec (fred_scalar n) m p len = Ok r /\ is_max r (f_min t :: l).
Proof.
  intros. apply hmax_float; assumption.
Qed.

Lemma C23_horizontal_max_vec_true_result_lemma : 
  forall (t : fmt) (n : nans t) (m : mem (F t)) p len l,
    filled m p len l -> no_nan l -> (exists x, In x l /\ fle (f_min t) x = true) ->
    exists r, horizontal_max_vec (fred_scalar n) m p len = Ok r /\ is_max r l.
Proof.
  intros t n m p len l H Hl Hx. destruct (hmax_float n m p len l H Hl) as (r & E & M).
  exists r. split; [exact E|]. eapply is_max_drop; eassumption.
Qed.

Lemma C23_horizontal_max_vec_wrong_result_lemma : 
  forall (t : fmt) (n : nans t) (m : mem (F t)) p len l,
    filled m p len l -> no_nan l -> Forall (fun x => flt x (f_min t) = true) l ->
    exists r, horizontal_max_vec (fred_scalar n) m p len = Ok r /\ ~ is_max r l.
Proof.
  intros t n m p len l H Hl Hx. destruct (hmax_float n m p len l H Hl) as (r & E & M).
  exists r. split; [exact E|]. eapply is_max_below; eassumption.
Qed.

Lemma C23_horizontal_min_vec_lemma : 
  forall (t : fmt) (n : nans t) (m : mem (F t)) p len l,
    filled m p len l -> no_nan l ->
    exists r, horizontal_min_vec (fred_scalar n) m p len = Ok r /\ is_min r (f_min t :: l).
Proof.
  intros. apply hmin_float; assumption.
Qed.

Lemma C23_horizontal_min_vec_true_result_lemma : 
  forall (t : fmt) (n : nans t) (m : mem (F t)) p len l,
    filled m p len l -> no_nan l -> (exists x, In x l /\ fle x (f_min t) = true) ->
    exists r, horizontal_min_vec (fred_scalar n) m p len = Ok r /\ is_min r l.
Proof.
  intros t n m p len l H Hl Hx. destruct (hmin_float n m p len l H Hl) as (r & E & M).
  exists r. split; [exact E|]. eapply is_min_drop; eassumption.
Qed.

Lemma C23_horizontal_min_vec_wrong_result_lemma : 
  forall (t : fmt) (n : nans t) (m : mem (F t)) p len l,
    filled m p len l -> no_nan l -> Forall (fun x => flt (f_min t) x = true) l ->
    exists r, horizontal_min_vec (fred_scalar n) m p len = Ok r /\ ~ is_min r l.
Proof.
  intros t n m p len l H Hl Hx. destruct (hmin_float n m p len l H Hl) as (r & E & M).
  exists r. split; [exact E|]. eapply is_min_above; eassumption.
Qed.

Lemma C23_horizontal_max_vec_simd_lemma : 
  forall (c : cfg) (B : backend) (n : nans (fmt_of B)) (m : mem (F (fmt_of B))) p len l,
    aligned B p -> whole_vectors B len -> filled m p len l -> no_nan l ->
    exists r, horizontal_max_vec_simd (fred c B n) B m p len = Ok r /\ is_max r (f_min (fmt_of B) :: l).
Proof.
  intros. apply hmax_simd_float; assumption.
Qed.

Lemma C23_horizontal_max_vec_simd_true_result_lemma : 
  forall (c : cfg) (B : backend) (n : nans (fmt_of B)) (m : mem (F (fmt_of B))) p len l,
    aligned B p -> whole_vectors B len -> filled m p len l -> no_nan l -> (exists x, In x l /\ fle (f_min (fmt_of B)) x = true) ->
    exists r, horizontal_max_vec_simd (fred c B n) B m p len = Ok r /\ is_max r l.
Proof.
  intros c B n m p len l Ha Hw H Hl Hx. destruct (hmax_simd_float c B n m p len l Ha Hw H Hl) as (r & E & M).
  exists r. split; [exact E|]. eapply is_max_drop; eassumption.
Qed.

Lemma C23_horizontal_max_vec_simd_wrong_result_lemma : 
  forall (c : cfg) (B : backend) (n : nans (fmt_of B)) (m : mem (F (fmt_of B))) p len l,
    aligned B p -> whole_vectors B len -> filled m p len l -> no_nan l -> Forall (fun x => flt x (f_min (fmt_of B)) = true) l ->
    exists r, horizontal_max_vec_simd (fred c B n) B m p len = Ok r /\ ~ is_max r l.
Proof.
  intros c B n m p len l Ha Hw H Hl Hx. destruct (hmax_simd_float c B n m p len l Ha Hw H Hl) as (r & E & M).
  exists r. split; [exact E|]. eapply is_max_below; eassumption.
Qed.

Lemma C23_horizontal_min_vec_simd_lemma : 
  forall (c : cfg) (B : backend) (n : nans (fmt_of B)) (m : mem (F (fmt_of B))) p len l,
    aligned B p -> whole_vectors B len -> filled m p len l -> no_nan l ->
    exists r, horizontal_min_vec_simd (fred c B n) B m p len = Ok r /\ is_min r (f_min (fmt_of B) :: l).
Proof.
  intros. apply hmin_simd_float; assumption.
Qed.

Lemma C23_horizontal_min_vec_simd_true_result_lemma : 
  forall (c : cfg) (B : backend) (n : nans (fmt_of B)) (m : mem (F (fmt_of B))) p len l,
    aligned B p -> whole_vectors B len -> filled m p len l -> no_nan l -> (exists x, In x l /\ fle x (f_min (fmt_of B)) = true) ->
    exists r, horizontal_min_vec_simd (fred c B n) B m p len = Ok r /\ is_min r l.
Proof.
  intros c B n m p len l Ha Hw H Hl Hx. destruct (hmin_simd_float c B n m p len l Ha Hw H Hl) as (r & E & M).
  exists r. split; [exact E|]. eapply is_min_drop; eassumption.
Qed.

Lemma C23_horizontal_min_vec_simd_wrong_result_lemma : 
  forall (c : cfg) (B : backend) (n : nans (fmt_of B)) (m : mem (F (fmt_of B))) p len l,
    aligned B p -> whole_vectors B len -> filled m p len l -> no_nan l -> Forall (fun x => flt (f_min (fmt_of B)) x = true) l ->
    exists r, horizontal_min_vec_simd (fred c B n) B m p len = Ok r /\ ~ is_min r l.
Proof.
  intros c B n m p len l Ha Hw H Hl Hx. destruct (hmin_simd_float c B n m p len l Ha Hw H Hl) as (r & E & M).
  exists r. split; [exact E|]. eapply is_min_above; eassumption.
Qed.

Lemma C24_horizontal_sum_vec_lemma : 
  forall A (d : redops A) (m : mem A) p len l,
    exact_reductions d -> filled m p len l ->
    horizontal_sum_vec d m p len = Ok (sum_from d (d_zero d) l).
Proof.
  intros. apply horizontal_sum_vec_run. assumption.
Qed.

Lemma C24_horizontal_sum_vec_integers_lemma : 
  forall (t : fmt) (n : nans t) (m : mem (F t)) p len l ks,
    filled m p len l -> integers l ks -> zsum_abs ks <= 2 ^ prec t ->
    exists r, horizontal_sum_vec (fred_scalar n) m p len = Ok r /\ isfin r = true /\ val r = IZR (zsum ks).
Proof.
  intros. apply hsum_int with (l := l); assumption.
Qed.

Lemma C24_horizontal_sum_vec_simd_lemma : 
  forall A (d : redops A) (c : cfg) (B : backend) (m : mem A) p len l,
    exact_reductions d -> aligned B p -> whole_vectors B len -> filled m p len l ->
    horizontal_sum_vec_simd d c B m p len = Ok (sum_from d (d_zero d) l).
Proof.
  intros. apply hsum_simd_exact; assumption.
Qed.

Lemma C24_horizontal_sum_vec_simd_integers_lemma : 
  forall (c : cfg) (B : backend) (n : nans (fmt_of B)) (m : mem (F (fmt_of B))) p len l ks,
    aligned B p -> whole_vectors B len -> filled m p len l -> integers l ks -> zsum_abs ks <= 2 ^ prec (fmt_of B) ->
    exists r, horizontal_sum_vec_simd (fred c B n) c B m p len = Ok r /\ isfin r = true /\ val r = IZR (zsum ks).
Proof.
  intros. apply hsum_simd_int with (l := l); assumption.
Qed.

Lemma C25_horizontal_minmax_vec_lemma : 
  forall (t : fmt) (n : nans t) (m : mem (F t)) p len l,
    filled m p len l -> no_nan l ->
    exists rmin rmax, horizontal_minmax_vec (fred_scalar n) m p len = Ok (rmin, rmax) /\
      is_min rmin (f_max t :: l) /\ is_max rmax (f_min t :: l).
Proof.
  intros t n m p len l H Hl. apply hminmax_float; assumption.
Qed.

Lemma C25_horizontal_minmax_vec_true_minimum_lemma : 
  forall (t : fmt) (n : nans t) (m : mem (F t)) p len l,
    filled m p len l -> no_nan l -> (exists x, In x l /\ isfin x = true) ->
    exists rmin rmax, horizontal_minmax_vec (fred_scalar n) m p len = Ok (rmin, rmax) /\ is_min rmin l.
Proof.
  intros t n m p len l H Hl (x & Hx & Fx). destruct (hminmax_float n m p len l H Hl) as (r1 & r2 & E & M1 & M2).
  exists r1, r2. split; [exact E|]. eapply is_min_drop; [exact M1|]. exists x. split; [exact Hx|]. apply below_fmax. exact Fx.
Qed.

Lemma C25_horizontal_minmax_vec_same_max_lemma : 
  forall A (d : redops A) (m : mem A) p len l,
    filled m p len l ->
    exists rmin rmax, horizontal_minmax_vec d m p len = Ok (rmin, rmax) /\
      horizontal_max_vec d m p len = Ok rmax.
Proof.
  intros. eapply minmax_same; eassumption.
Qed.

Lemma C25_horizontal_maxsum_vec_lemma : 
  forall A (d : redops A) (m : mem A) p len l,
    filled m p len l ->
    exists rmax rsum, horizontal_maxsum_vec d m p len = Ok (rmax, rsum) /\
      horizontal_max_vec d m p len = Ok rmax /\ horizontal_sum_vec d m p len = Ok rsum.
Proof.
  intros. eapply maxsum_same; eassumption.
Qed.

Lemma C25_horizontal_minmax_vec_simd_lemma : 
  forall (c : cfg) (B : backend) (n : nans (fmt_of B)) (m : mem (F (fmt_of B))) p len l,
    aligned B p -> whole_vectors B len -> filled m p len l -> no_nan l ->
    exists rmin rmax, horizontal_minmax_vec_simd (fred c B n) B m p len = Ok (rmin, rmax) /\
      is_min rmin (f_max (fmt_of B) :: l) /\ is_max rmax (f_min (fmt_of B) :: l).
Proof.
  intros c B n m p len l Ha Hw H Hl. apply hminmax_simd_float; assumption.
Qed.

Lemma C25_horizontal_minmax_vec_simd_true_minimum_lemma : 
  forall (c : cfg) (B : backend) (n : nans (fmt_of B)) (m : mem (F (fmt_of B))) p len l,
    aligned B p -> whole_vectors B len -> filled m p len l -> no_nan l -> (exists x, In x l /\ isfin x = true) ->
    exists rmin rmax, horizontal_minmax_vec_simd (fred c B n) B m p len = Ok (rmin, rmax) /\ is_min rmin l.
Proof.
  intros c B n m p len l Ha Hw H Hl (x & Hx & Fx). destruct (hminmax_simd_float c B n m p len l Ha Hw H Hl) as (r1 & r2 & E & M1 & M2).
  exists r1, r2. split; [exact E|]. eapply is_min_drop; [exact M1|]. exists x. split; [exact Hx|]. apply below_fmax. exact Fx.
Qed.

Lemma C25_horizontal_minmax_vec_simd_same_max_lemma : 
  forall A (d : redops A) (B : backend) (m : mem A) p len l,
    aligned B p -> whole_vectors B len -> filled m p len l ->
    exists rmin rmax, horizontal_minmax_vec_simd d B m p len = Ok (rmin, rmax) /\
      horizontal_max_vec_simd d B m p len = Ok rmax.
Proof.
  intros. eapply minmax_simd_same; eassumption.
Qed.

Lemma C25_horizontal_maxsum_vec_simd_lemma : 
  forall A (d : redops A) (c : cfg) (B : backend) (m : mem A) p len l,
    aligned B p -> whole_vectors B len -> filled m p len l ->
    exists rmax rsum, horizontal_maxsum_vec_simd d c B m p len = Ok (rmax, rsum) /\
      horizontal_max_vec_simd d B m p len = Ok rmax /\ horizontal_sum_vec_simd d c B m p len = Ok rsum.
Proof.
  intros. eapply maxsum_simd_same; eassumption.
Qed.

Lemma C26_horizontal_max_lemma : 
  forall (B : backend) (n : nans (fmt_of B)) (v : list (F (fmt_of B))),
    Z.of_nat (length v) = lanes B -> no_nan v ->
    exists r, horizontal_max B smax (vmax (isa_of B) n) v = Ok r /\ is_max r v.
Proof.
  intros B n v Hl Hv. apply vec_max; [|exact Hv]. rewrite lanes_vsize in Hl. lia.
Qed.

Lemma C26_horizontal_min_lemma : 
  forall (B : backend) (n : nans (fmt_of B)) (v : list (F (fmt_of B))),
    Z.of_nat (length v) = lanes B -> no_nan v ->
    exists r, horizontal_min B smin (vmin (isa_of B) n) v = Ok r /\ is_min r v.
Proof.
  intros B n v Hl Hv. apply vec_min; [|exact Hv]. rewrite lanes_vsize in Hl. lia.
Qed.

Lemma C26_horizontal_sum_lemma : 
  forall A (d : redops A) (c : cfg) (B : backend) (v : list A),
    exact_reductions d -> Z.of_nat (length v) = lanes B ->
    horizontal_sum c B (d_zero d) (d_add d) v = Ok (sum_from d (d_zero d) v).
Proof.
  intros A d c B v X Hl. apply vec_sum_exact; [exact X|]. rewrite lanes_vsize in Hl. lia.
Qed.

Lemma C26_horizontal_sum_integers_lemma : 
  forall (c : cfg) (B : backend) (n : nans (fmt_of B)) (v : list (F (fmt_of B))) ks,
    Z.of_nat (length v) = lanes B -> integers v ks -> zsum_abs ks <= 2 ^ prec (fmt_of B) ->
    exists r, horizontal_sum c B (f_ofZ (fmt_of B) 0) (fadd n) v = Ok r /\ isfin r = true /\ val r = IZR (zsum ks).
Proof.
  intros c B n v ks Hl Hv Hs. apply vec_sum; [|exact Hv|exact Hs]. rewrite lanes_vsize in Hl. lia.
Qed.

Lemma C27_get_set_lemma : 
  forall A (c : cfg) (B : backend) (zero : A) (v : list A) i x,
    Z.of_nat (length v) = lanes B -> Z.of_nat i < lanes B ->
    exists v', set c B zero v i x = Ok v' /\ get c B v' i = Ok x /\
      forall j, Z.of_nat j < lanes B -> j <> i -> get c B v' j = get c B v j.
Proof.
  intros A c B zero v i x Hl Hi. rewrite lanes_vsize in Hl, Hi.
  destruct (get_set c B zero v i x) as (v' & E & G1 & G2); [lia|lia|]. exists v'. split; [exact E|]. split; [exact G1|].
  intros j Hj Hne. rewrite lanes_vsize in Hj. apply G2; [lia|exact Hne].
Qed.

Lemma C27_get_lemma : 
  forall A (c : cfg) (B : backend) (v : list A) i,
    Z.of_nat (length v) = lanes B -> Z.of_nat i < lanes B ->
    exists x, nth_error v i = Some x /\ get c B v i = Ok x.
Proof.
  intros A c B v i Hl Hi. rewrite lanes_vsize in Hl, Hi. apply get_nth; lia.
Qed.

Lemma C27_set_vec_lemma : 
  forall A (c : cfg) (B : backend) (x : A) i, Z.of_nat i < lanes B -> get c B (set_vec B x) i = Ok x.
Proof.
  intros A c B x i Hi. rewrite lanes_vsize in Hi. apply get_set_vec. lia.
Qed.

Lemma C27_set_slope_exact_lemma : 
  forall A (ar : arith A) (c : cfg) (B : backend) start slope i,
    exact_arith ar -> Z.of_nat i < lanes B ->
    get c B (fst (set_slope ar B start slope)) i = Ok (a_add ar start (times ar (Z.of_nat i) slope)) /\
    snd (set_slope ar B start slope) = times ar (lanes B) slope.
Proof.
  intros. apply set_slope_lane; assumption.
Qed.

Lemma C27_set_exp_exact_lemma : 
  forall A (ar : arith A) (c : cfg) (B : backend) start curve i,
    exact_arith ar -> Z.of_nat i < lanes B ->
    get c B (fst (set_exp ar B start curve)) i = Ok (a_mul ar start (power ar curve (Z.of_nat i))) /\
    snd (set_exp ar B start curve) = a_mul ar start (power ar curve (lanes B)).
Proof.
  intros. apply set_exp_lane; assumption.
Qed.

Lemma C27_load_aligned_store_aligned_lemma : 
  forall A (B : backend) (m : mem A) p q,
    aligned B p -> aligned B q ->
    accessible m p (lanes B) -> accessible m q (lanes B) ->
    exists v, vload_aligned B m p = Ok v /\
      leaves m (vstore_aligned B m q v) q (lanes B) (fun i => m (p + i)).
Proof.
  intros. apply (vload_vstore true); try (intros _); assumption.
Qed.

Lemma C27_load_store_lemma : 
  forall A (B : backend) (m : mem A) p q,
    access_ok B false p -> access_ok B false q ->
    accessible m p (lanes B) -> accessible m q (lanes B) ->
    exists v, vload B m p = Ok v /\
      leaves m (vstore B m q v) q (lanes B) (fun i => m (p + i)).
Proof.
  intros. apply (vload_vstore false); assumption.
Qed.

Lemma C55_zerovec_na_simd_lemma : 
  forall A (ar : arith A) (m : mem A) p len,
    ~ aligned ALTIVEC32 p -> legal_simd_length ALTIVEC32 len -> accessible m (floor4 p) len ->
    exists m', zerovec_na_simd ar ALTIVEC32 m p len = Ok m' /\
      writes_exactly m m' (floor4 p) len (fun _ => Some (a_zero ar)) /\
      floor4 p <= p - 1 < p /\ m' (p - 1) = Some (a_zero ar) /\ m' (p + len - 1) = m (p + len - 1).
Proof.
  intros A ar m p len Hp Hn Ha.
  destruct (fill_lands_below false m p (a_zero ar) len Hn Ha) as (m' & E & W). exists m'. split; [exact E|]. split; [exact W|].
  destruct Hn as [Hn [q Hq]]. cbn [loop_unit] in Hq.
  destruct (not_at_p m m' p len _ Hp ltac:(lia) ltac:(exists (4 * q); lia) W) as [W1 W2]. pose proof (down_below p Hp).
  split; [lia|]. split; assumption.
Qed.

Lemma C55_setvec_na_simd_lemma : 
  forall A (m : mem A) p (f : A) len,
    ~ aligned ALTIVEC32 p -> legal_simd_length ALTIVEC32 len -> accessible m (floor4 p) len ->
    exists m', setvec_na_simd ALTIVEC32 m p f len = Ok m' /\
      writes_exactly m m' (floor4 p) len (fun _ => Some (f)) /\
      floor4 p <= p - 1 < p /\ m' (p - 1) = Some (f) /\ m' (p + len - 1) = m (p + len - 1).
Proof.
  intros A m p f len Hp Hn Ha.
  destruct (fill_lands_below false m p (f) len Hn Ha) as (m' & E & W). exists m'. split; [exact E|]. split; [exact W|].
  destruct Hn as [Hn [q Hq]]. cbn [loop_unit] in Hq.
  destruct (not_at_p m m' p len _ Hp ltac:(lia) ltac:(exists (4 * q); lia) W) as [W1 W2]. pose proof (down_below p Hp).
  split; [lia|]. split; assumption.
Qed.

Lemma C55_copyvec_na_simd_lemma : 
  forall A (m : mem A) dest src len,
    ~ aligned ALTIVEC32 dest \/ ~ aligned ALTIVEC32 src ->
    legal_simd_length ALTIVEC32 len -> accessible m (floor4 dest) len -> accessible m (floor4 src) (len + 4) ->
    overlap_ok (floor4 dest) (@APtr A (floor4 src)) len ->
    leaves m (copyvec_na_simd ALTIVEC32 m dest src len) (floor4 dest) len (fun i => m (floor4 src + i)) /\
    (floor4 dest < dest \/ floor4 src < src).
Proof.
  intros A m dest src len Hp Hn Hd Hs Ho. split; [apply (copy_lands_below false true); assumption|].
  destruct Hp as [Hp|Hp]; apply down_below in Hp; lia.
Qed.

Lemma C55_copyvec_an_simd_lemma : 
  forall A (m : mem A) dest src len,
    ~ aligned ALTIVEC32 dest \/ ~ aligned ALTIVEC32 src ->
    legal_simd_length ALTIVEC32 len -> accessible m (floor4 dest) len -> accessible m (floor4 src) (len + 4) ->
    overlap_ok (floor4 dest) (@APtr A (floor4 src)) len ->
    leaves m (copyvec_an_simd ALTIVEC32 m dest src len) (floor4 dest) len (fun i => m (floor4 src + i)) /\
    (floor4 dest < dest \/ floor4 src < src).
Proof.
  intros A m dest src len Hp Hn Hd Hs Ho. split; [apply (copy_lands_below true false); assumption|].
  destruct Hp as [Hp|Hp]; apply down_below in Hp; lia.
Qed.

Lemma C55_copyvec_nn_simd_lemma : 
  forall A (m : mem A) dest src len,
    ~ aligned ALTIVEC32 dest \/ ~ aligned ALTIVEC32 src ->
    legal_simd_length ALTIVEC32 len -> accessible m (floor4 dest) len -> accessible m (floor4 src) (len + 4) ->
    overlap_ok (floor4 dest) (@APtr A (floor4 src)) len ->
    leaves m (copyvec_nn_simd ALTIVEC32 m dest src len) (floor4 dest) len (fun i => m (floor4 src + i)) /\
    (floor4 dest < dest \/ floor4 src < src).
Proof.
  intros A m dest src len Hp Hn Hd Hs Ho. split; [apply (copy_lands_below false false); assumption|].
  destruct Hp as [Hp|Hp]; apply down_below in Hp; lia.
Qed.
