(** C19-C27 and C55: peak meters, horizontal reductions, lane access, and the
    Altivec address rule. *)
From Coq Require Import ZArith Reals List Lia.
From Flocq Require Import Core IEEE754.Binary IEEE754.Bits.
From Verif Require Import Base Mem Loop Backend Args MemFuns Lanes Float LaneOps Reduce FloatOps Spec SpecReduce
  ReduceMore ExData ExFloat ReduceClaims.
Import ListNotations.
Local Open Scope Z_scope.

(** * C19: peak meter *)

Theorem C19_peak_vec : 
  forall (t : fmt) (n : nans t) (m : mem (F t)) p pk len l old,
    filled m p len l -> m pk = Some old -> isnan old = false -> no_nan l ->
    peak_updated m (peak_vec (fred_scalar n) m p pk len) p pk len old l.
Proof. exact C19_peak_vec_lemma. Qed.
Print Assumptions C19_peak_vec.

Example C19_peak_vec_ex :
  let v := fun a => f_ofZ F32 (if a =? 90 then 5 else (a * 7) mod 23 - 11) in
  let m := block 0 100 v in
  filled m 3 20 (cells v 3 20) /\ m 90 = Some (v 90) /\ isnan (v 90) = false /\ no_nan (cells v 3 20) /\
  cell_bits (peak_vec (fred_scalar (n0 F32)) m 3 90 20) 90 = Some (bits (f_ofZ F32 11)).
Proof. fitf. Qed.

Theorem C19_peak_vec_simd : 
  forall (c : cfg) (B : backend) (n : nans (fmt_of B)) junk (m : mem (F (fmt_of B))) p pk len l old,
    aligned B p -> whole_quads B len -> filled m p len l -> m pk = Some old -> isnan old = false -> no_nan l ->
    upper_lanes_zero B (f_ofZ (fmt_of B) 0) junk ->
    peak_updated m (peak_vec_simd (fred c B n) c B junk m p pk len) p pk len old l.
Proof. exact C19_peak_vec_simd_lemma. Qed.
Print Assumptions C19_peak_vec_simd.

Example C19_peak_vec_simd_ex :
  let v := fun a => f_ofZ F32 (if a =? 90 then 5 else (a * 7) mod 23 - 11) in
  let m := block 0 100 v in
  aligned AVX32 8 /\ whole_quads AVX32 32 /\ filled m 8 32 (cells v 8 32) /\ m 90 = Some (v 90) /\
  isnan (v 90) = false /\ no_nan (cells v 8 32) /\
  upper_lanes_zero AVX32 (f_ofZ F32 0) (fun _ => f_ofZ F32 0) /\
  cell_bits (peak_vec_simd (fred all_ext AVX32 (n0 F32)) all_ext AVX32 (fun _ => f_ofZ F32 0) m 8 90 32) 90
    = Some (bits (f_ofZ F32 11)).
Proof. fitf. Qed.

Theorem C19_peak_vec_blocks : 
  forall (t : fmt) (n : nans t) (lens : list Z) (m : mem (F t)) p pk l old,
    Forall (fun k => 0 < k < 2 ^ 32) lens -> holds m p l -> Z.of_nat (length l) = zsum lens ->
    (pk < p \/ p + zsum lens <= pk) -> m pk = Some old -> isnan old = false -> no_nan l ->
    exists m' new,
      block_after_block (fun m p k => peak_vec (fred_scalar n) m p pk k) m p lens = Ok m' /\
      sets_cell m m' pk new /\ is_max new (old :: map fabs l).
Proof. exact C19_peak_vec_blocks_lemma. Qed.
Print Assumptions C19_peak_vec_blocks.

Example C19_peak_vec_blocks_ex :
  let v := fun a => f_ofZ F32 (if a =? 90 then 5 else (a * 7) mod 23 - 11) in
  let m := block 0 100 v in
  Forall (fun k => 0 < k < 2 ^ 32) [7; 13] /\ holds m 3 (cells v 3 20) /\
  Z.of_nat (length (cells v 3 20)) = zsum [7; 13] /\ (90 < 3 \/ 3 + zsum [7; 13] <= 90) /\
  m 90 = Some (v 90) /\ isnan (v 90) = false /\ no_nan (cells v 3 20).
Proof. fitf; try reflexivity. right. vm_compute. congruence. Qed.

Theorem C19_peak_vec_simd_blocks : 
  forall (c : cfg) (B : backend) (n : nans (fmt_of B)) junk (lens : list Z) (m : mem (F (fmt_of B))) p pk l old,
    aligned B p -> upper_lanes_zero B (f_ofZ (fmt_of B) 0) junk ->
    Forall (fun k => whole_quads B k /\ 0 < k < 2 ^ 32) lens -> holds m p l -> Z.of_nat (length l) = zsum lens ->
    (pk < p \/ p + zsum lens <= pk) -> m pk = Some old -> isnan old = false -> no_nan l ->
    exists m' new,
      block_after_block (fun m p k => peak_vec_simd (fred c B n) c B junk m p pk k) m p lens = Ok m' /\
      sets_cell m m' pk new /\ is_max new (old :: map fabs l).
Proof. exact C19_peak_vec_simd_blocks_lemma. Qed.
Print Assumptions C19_peak_vec_simd_blocks.

Example C19_peak_vec_simd_blocks_ex :
  let v := fun a => f_ofZ F64 (if a =? 90 then 5 else (a * 7) mod 23 - 11) in
  let m := block 0 100 v in
  aligned SSE64 8 /\ upper_lanes_zero SSE64 (f_ofZ F64 0) (fun _ => f_ofZ F64 3) /\
  Forall (fun k => whole_quads SSE64 k /\ 0 < k < 2 ^ 32) [16; 24] /\ holds m 8 (cells v 8 40) /\
  Z.of_nat (length (cells v 8 40)) = zsum [16; 24] /\ (90 < 8 \/ 8 + zsum [16; 24] <= 90) /\
  m 90 = Some (v 90) /\ isnan (v 90) = false /\ no_nan (cells v 8 40).
Proof.
  fitf.
  all: try (right; vm_compute; congruence).
  all: apply Z.mod_divide; [discriminate|reflexivity].
Qed.

(** Whatever splits the buffer, the stored peaks are numerically equal. *)
Theorem C19_one_call_or_many : 
  forall (t : fmt) (old new1 new2 : F t) (l : list (F t)),
    is_max new1 (old :: map fabs l) -> is_max new2 (old :: map fabs l) -> feq new1 new2 = true.
Proof. exact C19_one_call_or_many_lemma. Qed.
Print Assumptions C19_one_call_or_many.

Example C19_one_call_or_many_ex :
  is_max (f_ofZ F32 4) (f_ofZ F32 1 :: map fabs [f_ofZ F32 (-4); f_ofZ F32 2]).
Proof. split; [apply forallb_forall; vm_compute; reflexivity|]. exists (fabs (f_ofZ F32 (-4))). split; [right; left; reflexivity|vm_compute; reflexivity]. Qed.

(** Without the assumption on the upper lanes (which the AVX intrinsic leaves undefined) the peak of silence can be anything. *)
Theorem C19_undefined_lanes_refuted : 
  exists (c : cfg) (B : backend) (n : nans (fmt_of B)) junk (m : mem (F (fmt_of B))) p pk len l old,
    aligned B p /\ whole_quads B len /\ filled m p len l /\ m pk = Some old /\ isnan old = false /\ no_nan l /\
    ~ peak_updated m (peak_vec_simd (fred c B n) c B junk m p pk len) p pk len old l.
Proof. exact C19_undefined_lanes_refuted_lemma. Qed.
Print Assumptions C19_undefined_lanes_refuted.

(** * C20: length unit of the SIMD peak meters *)

Theorem C20_peak_vec_simd_rounds_down : 
  forall A (d : redops A) (c : cfg) (B : backend) junk (m : mem A) p pk len,
    peak_vec_simd d c B junk m p pk len = peak_vec_simd d c B junk m p pk (len - len mod (4 * lanes B)).
Proof. exact C20_peak_vec_simd_rounds_down_lemma. Qed.
Print Assumptions C20_peak_vec_simd_rounds_down.

Example C20_peak_vec_simd_rounds_down_ex :
  let m := block 0 100 (fun a => a * a) in
  exists m', peak_vec_simd zred all_ext AVX32 (fun _ => 0) m 0 90 47 = Ok (m', 961) /\ m' 90 = Some 8100.
Proof. eexists. split; vm_compute; reflexivity. Qed.

Theorem C20_peak_rms_vec_simd_rounds_down : 
  forall A (d : redops A) (c : cfg) (B : backend) junk (m : mem A) p pk sq len,
    peak_rms_vec_simd d c B junk m p pk sq len =
    peak_rms_vec_simd d c B junk m p pk sq (len - len mod (4 * lanes B)).
Proof. exact C20_peak_rms_vec_simd_rounds_down_lemma. Qed.
Print Assumptions C20_peak_rms_vec_simd_rounds_down.

Example C20_peak_rms_vec_simd_rounds_down_ex :
  let m := block 0 100 (fun a => a mod 5) in
  exists m', peak_rms_vec_simd zred all_ext AVX32 (fun _ => 0) m 0 91 92 47 = Ok m' /\ m' 92 = Some 183.
Proof. eexists. split; vm_compute; reflexivity. Qed.

(** A legal length of 24 doubles on the generic back-end: only the first 16 samples are looked at. *)
Theorem C20_ignores_last_samples_refuted : 
  exists (B : backend) (n : nans (fmt_of B)) (m : mem (F (fmt_of B))) p pk len l old,
    aligned B p /\ legal_simd_length B len /\ filled m p len l /\ m pk = Some old /\ isnan old = false /\ no_nan l /\
    forall c junk, ~ peak_updated m (peak_vec_simd (fred c B n) c B junk m p pk len) p pk len old l.
Proof. exact C20_ignores_last_samples_refuted_lemma. Qed.
Print Assumptions C20_ignores_last_samples_refuted.

Theorem C20_peak_vec_simd_too_short : 
  forall A (d : redops A) (c : cfg) (B : backend) junk (m : mem A) p pk len i,
    0 <= len < 4 * lanes B -> aligned B p ->
    0 <= i < 2 ^ 32 * (4 * lanes B) -> m (p + i) = None ->
    memory_fault (peak_vec_simd d c B junk m p pk len).
Proof. exact C20_peak_vec_simd_too_short_lemma. Qed.
Print Assumptions C20_peak_vec_simd_too_short.

Example C20_peak_vec_simd_too_short_ex :
  let m := block 0 100 (fun a => a) in
  0 <= 16 < 4 * lanes AVX32 /\ aligned AVX32 8 /\ 0 <= 95 < 2 ^ 32 * (4 * lanes AVX32) /\ m (8 + 95) = None.
Proof. fitf. Qed.

Theorem C20_peak_rms_vec_simd_too_short : 
  forall A (d : redops A) (c : cfg) (B : backend) junk (m : mem A) p pk sq len i,
    0 <= len < 4 * lanes B -> aligned B p ->
    0 <= i < 2 ^ 32 * (4 * lanes B) -> m (p + i) = None ->
    memory_fault (peak_rms_vec_simd d c B junk m p pk sq len).
Proof. exact C20_peak_rms_vec_simd_too_short_lemma. Qed.
Print Assumptions C20_peak_rms_vec_simd_too_short.

Example C20_peak_rms_vec_simd_too_short_ex :
  let m := block 0 100 (fun a => a) in
  0 <= 16 < 4 * lanes AVX32 /\ aligned AVX32 8 /\ 0 <= 95 < 2 ^ 32 * (4 * lanes AVX32) /\ m (8 + 95) = None.
Proof. fitf. Qed.

Theorem C20_unit_too_large : 
  forall B, (loop_unit B < 4 * lanes B <-> B = AVX32 \/ B = AVX64 \/ B = GEN64) /\
            (loop_unit B = 4 * lanes B <-> B = SSE32 \/ B = SSE64 \/ B = NEON32 \/ B = ALTIVEC32 \/ B = GEN32).
Proof. exact C20_unit_too_large_lemma. Qed.
Print Assumptions C20_unit_too_large.

Theorem C20_shortest_legal_length_faults : 
  forall A (d : redops A) (c : cfg) (B : backend) junk (m : mem A) p pk i,
    B = AVX32 \/ B = AVX64 \/ B = GEN64 -> aligned B p ->
    0 <= i < 2 ^ 32 * (4 * lanes B) -> m (p + i) = None ->
    legal_simd_length B (loop_unit B) /\ memory_fault (peak_vec_simd d c B junk m p pk (loop_unit B)).
Proof. exact C20_shortest_legal_length_faults_lemma. Qed.
Print Assumptions C20_shortest_legal_length_faults.

Example C20_shortest_legal_length_faults_ex :
  let m := block 0 100 (fun a => a) in
  aligned AVX64 8 /\ 0 <= 95 < 2 ^ 32 * (4 * lanes AVX64) /\ m (8 + 95) = None.
Proof. fitf. Qed.

(** * C21: NaN samples *)

Theorem C21_peak_vec_skips_nan : 
  forall (t : fmt) (n : nans t) (m : mem (F t)) p pk len l old,
    filled m p len l -> m pk = Some old -> isnan old = false ->
    peak_updated m (peak_vec (fred_scalar n) m p pk len) p pk len old (filter (fun x => negb (isnan x)) l).
Proof. exact C21_peak_vec_skips_nan_lemma. Qed.
Print Assumptions C21_peak_vec_skips_nan.

Example C21_peak_vec_skips_nan_ex :
  let v := fun a => if a =? 12 then qnan F32 else if a =? 90 then f_ofZ F32 9 else f_ofZ F32 (a mod 3) in
  let m := block 0 100 v in
  filled m 0 32 (cells v 0 32) /\ m 90 = Some (v 90) /\ isnan (v 90) = false /\ In (qnan F32) (cells v 0 32).
Proof. fitf. do 12 right. left. reflexivity. Qed.

Theorem C21_stored_nan_stays : 
  forall (t : fmt) (n : nans t) (m : mem (F t)) p pk len l old,
    filled m p len l -> m pk = Some old -> isnan old = true ->
    exists m' z, peak_vec (fred_scalar n) m p pk len = Ok (m', z) /\ sets_cell m m' pk old.
Proof. exact C21_stored_nan_stays_lemma. Qed.
Print Assumptions C21_stored_nan_stays.

Example C21_stored_nan_stays_ex :
  let v := fun a => if a =? 12 then qnan F32 else if a =? 90 then f_ofZ F32 9 else f_ofZ F32 (a mod 3) in
  let m := block 0 100 v in
  filled m 0 12 (cells v 0 12) /\ m 12 = Some (v 12) /\ isnan (v 12) = true.
Proof. fitf. Qed.

(** With one NaN among the samples the SIMD meter stores a peak below the one it was given: a stored peak of 9 becomes 2. *)
Theorem C21_peak_vec_simd_refuted : 
  exists (n : nans F32) (m : mem (F F32)) p pk len l old,
    aligned SSE32 p /\ whole_quads SSE32 len /\ filled m p len l /\ m pk = Some old /\ isnan old = false /\
    forall c junk, exists m' z new, peak_vec_simd (fred c SSE32 n) c SSE32 junk m p pk len = Ok (m', z) /\
      m' pk = Some new /\ flt new old = true.
Proof. exact C21_peak_vec_simd_refuted_lemma. Qed.
Print Assumptions C21_peak_vec_simd_refuted.

(** * C22: peak and sum of squares *)

Theorem C22_peak_rms_vec : 
  forall A (d : redops A) (m : mem A) p pk sq len l old olds,
    exact_reductions d -> filled m p len l -> m pk = Some old -> m sq = Some olds -> pk <> sq ->
    exists m', peak_rms_vec d m p pk sq len = Ok m' /\
      m' pk = Some (max_from d old (map (d_fabs d) l)) /\
      m' sq = Some (sum_from d olds (map (fun x => d_mul d x x) l)) /\
      (forall a, a <> pk -> a <> sq -> m' a = m a).
Proof. exact C22_peak_rms_vec_lemma. Qed.
Print Assumptions C22_peak_rms_vec.

Example C22_peak_rms_vec_ex :
  let v := fun a => a mod 7 - 3 in let m := block 0 100 v in
  exact_reductions zred /\ filled m 8 32 (cells v 8 32) /\ m 90 = Some 3 /\ m 91 = Some (-3) /\ 90 <> 91 /\
  exists m', peak_rms_vec zred m 8 90 91 32 = Ok m' /\ map m' [89; 90; 91] = [Some 2; Some 3; Some 115].
Proof. fitf; [discriminate|]. eexists. split; vm_compute; reflexivity. Qed.

Theorem C22_peak_rms_vec_simd : 
  forall A (d : redops A) (c : cfg) (B : backend) junk (m : mem A) p pk sq len l old olds,
    exact_reductions d -> aligned B p -> whole_quads B len -> upper_lanes_zero B (d_zero d) junk ->
    filled m p len l -> m pk = Some old -> m sq = Some olds -> pk <> sq ->
    exists m', peak_rms_vec_simd d c B junk m p pk sq len = Ok m' /\
      m' pk = Some (max_from d old (map (d_fabs d) l)) /\
      m' sq = Some (sum_from d olds (map (fun x => d_mul d x x) l)) /\
      (forall a, a <> pk -> a <> sq -> m' a = m a).
Proof. exact C22_peak_rms_vec_simd_lemma. Qed.
Print Assumptions C22_peak_rms_vec_simd.

Example C22_peak_rms_vec_simd_ex :
  let v := fun a => a mod 7 - 3 in let m := block 0 100 v in
  exact_reductions zred /\ aligned AVX32 8 /\ whole_quads AVX32 32 /\ upper_lanes_zero AVX32 (d_zero zred) (fun _ => 0) /\ filled m 8 32 (cells v 8 32) /\ m 90 = Some 3 /\ m 91 = Some (-3) /\ 90 <> 91 /\
  exists m', peak_rms_vec_simd zred all_ext AVX32 (fun _ => 0) m 8 90 91 32 = Ok m' /\ map m' [89; 90; 91] = [Some 2; Some 3; Some 115].
Proof. fitf; [discriminate|]. eexists. split; vm_compute; reflexivity. Qed.

(** For any operations whatever, IEEE ones included. *)
Theorem C22_same_peak_as_plain_meter : 
  forall A (d : redops A) (m : mem A) p pk sq len l old olds,
    filled m p len l -> m pk = Some old -> m sq = Some olds -> pk <> sq ->
    exists m1 z m2, peak_vec d m p pk len = Ok (m1, z) /\ peak_rms_vec d m p pk sq len = Ok m2 /\ m1 pk = m2 pk.
Proof. exact C22_same_peak_as_plain_meter_lemma. Qed.
Print Assumptions C22_same_peak_as_plain_meter.

Example C22_same_peak_as_plain_meter_ex :
  let v := fun a => a mod 7 - 3 in let m := block 0 100 v in
  filled m 8 32 (cells v 8 32) /\ m 90 = Some 3 /\ m 91 = Some (-3) /\ 90 <> 91.
Proof. fitf. discriminate. Qed.

Theorem C22_simd_same_peak_as_plain_meter : 
  forall A (d : redops A) (c : cfg) (B : backend) junk (m : mem A) p pk sq len l old olds,
    aligned B p -> whole_quads B len -> filled m p len l -> m pk = Some old -> m sq = Some olds -> pk <> sq ->
    exists m1 z m2, peak_vec_simd d c B junk m p pk len = Ok (m1, z) /\
      peak_rms_vec_simd d c B junk m p pk sq len = Ok m2 /\ m1 pk = m2 pk /\
      (forall a, a <> pk -> a <> sq -> m2 a = m a).
Proof. exact C22_simd_same_peak_as_plain_meter_lemma. Qed.
Print Assumptions C22_simd_same_peak_as_plain_meter.

Example C22_simd_same_peak_as_plain_meter_ex :
  let v := fun a => a mod 7 - 3 in let m := block 0 100 v in
  aligned AVX32 8 /\ whole_quads AVX32 32 /\ filled m 8 32 (cells v 8 32) /\ m 90 = Some 3 /\ m 91 = Some (-3) /\ 90 <> 91.
Proof. fitf. discriminate. Qed.

Theorem C22_peak_rms_vec_integers : 
  forall (t : fmt) (n : nans t) (m : mem (F t)) p pk sq len l ks old olds s0,
    filled m p len l -> integers l ks -> m pk = Some old -> m sq = Some olds ->
    isfin olds = true -> val olds = IZR s0 -> 0 <= s0 -> s0 + zsum (map (fun k => k * k) ks) <= 2 ^ prec t ->
    exists m' r, peak_rms_vec (fred_scalar n) m p pk sq len = Ok m' /\ m' sq = Some r /\
      isfin r = true /\ val r = IZR (s0 + zsum (map (fun k => k * k) ks)).
Proof. exact C22_peak_rms_vec_integers_lemma. Qed.
Print Assumptions C22_peak_rms_vec_integers.

Example C22_peak_rms_vec_integers_ex :
  let k := fun a => if a =? 90 then 5 else if a =? 91 then 1000 else (a * 7) mod 23 - 11 in
  let v := fun a => f_ofZ F32 (k a) in let m := block 0 100 v in
  filled m 8 32 (map (f_ofZ F32) (cells k 8 32)) /\ integers (map (f_ofZ F32) (cells k 8 32)) (cells k 8 32) /\
  m 90 = Some (v 90) /\ m 91 = Some (v 91) /\ isfin (v 91) = true /\ val (v 91) = IZR 1000 /\ 0 <= 1000 /\
  1000 + zsum (map (fun k => k * k) (cells k 8 32)) <= 2 ^ prec F32 /\
  cell_bits' (peak_rms_vec (fred_scalar (n0 F32)) m 8 90 91 32) 91 =
    Some (bits (f_ofZ F32 (1000 + zsum (map (fun k => k * k) (cells k 8 32))))).
Proof.
  cbv zeta. rewrite <- (cells_map (f_ofZ F32)). repeat match goal with |- _ /\ _ => split end;
  lazymatch goal with |- integers _ _ => rewrite cells_map; fitf_leaf | |- val _ = _ => apply (f_ofZ_int (n0 F32)); vm_compute; congruence
    | |- _ <> _ => discriminate | |- _ => fitf_leaf end.
Qed.

Theorem C22_peak_rms_vec_simd_integers : 
  forall (c : cfg) (B : backend) (n : nans (fmt_of B)) junk (m : mem (F (fmt_of B))) p pk sq len l ks old olds s0,
    aligned B p -> whole_quads B len -> upper_lanes_zero B (f_ofZ (fmt_of B) 0) junk -> pk <> sq ->
    filled m p len l -> integers l ks -> m pk = Some old -> m sq = Some olds ->
    isfin olds = true -> val olds = IZR s0 -> 0 <= s0 -> s0 + zsum (map (fun k => k * k) ks) <= 2 ^ prec (fmt_of B) ->
    exists m' r, peak_rms_vec_simd (fred c B n) c B junk m p pk sq len = Ok m' /\ m' sq = Some r /\
      isfin r = true /\ val r = IZR (s0 + zsum (map (fun k => k * k) ks)).
Proof. exact C22_peak_rms_vec_simd_integers_lemma. Qed.
Print Assumptions C22_peak_rms_vec_simd_integers.

Example C22_peak_rms_vec_simd_integers_ex :
  let k := fun a => if a =? 90 then 5 else if a =? 91 then 1000 else (a * 7) mod 23 - 11 in
  let v := fun a => f_ofZ F32 (k a) in let m := block 0 100 v in
  aligned AVX32 8 /\ whole_quads AVX32 32 /\ upper_lanes_zero AVX32 (f_ofZ F32 0) (fun _ => f_ofZ F32 0) /\ 90 <> 91 /\
  filled m 8 32 (map (f_ofZ F32) (cells k 8 32)) /\ integers (map (f_ofZ F32) (cells k 8 32)) (cells k 8 32) /\
  m 90 = Some (v 90) /\ m 91 = Some (v 91) /\ isfin (v 91) = true /\ val (v 91) = IZR 1000 /\ 0 <= 1000 /\
  1000 + zsum (map (fun k => k * k) (cells k 8 32)) <= 2 ^ prec F32 /\
  cell_bits' (peak_rms_vec_simd (fred no_ext AVX32 (n0 F32)) no_ext AVX32 (fun _ => f_ofZ F32 0) m 8 90 91 32) 91 =
    Some (bits (f_ofZ F32 (1000 + zsum (map (fun k => k * k) (cells k 8 32))))).
Proof.
  cbv zeta. rewrite <- (cells_map (f_ofZ F32)). repeat match goal with |- _ /\ _ => split end;
  lazymatch goal with |- integers _ _ => rewrite cells_map; fitf_leaf | |- val _ = _ => apply (f_ofZ_int (n0 F32)); vm_compute; congruence
    | |- _ <> _ => discriminate | |- _ => fitf_leaf end.
Qed.

(** * C23: maximum and minimum of a buffer *)

(** numeric_limits<F>::min() is the smallest positive normal number. *)
Theorem C23_flt_min : val (f_min F32) = bpow radix2 (-126) /\ val (f_min F64) = bpow radix2 (-1022).
Proof. exact C23_flt_min_lemma. Qed.
Print Assumptions C23_flt_min.

Theorem C23_horizontal_max_vec : 
  forall (t : fmt) (n : nans t) (m : mem (F t)) p len l,
    filled m p len l -> no_nan l ->
    exists r, horizontal_max_vec (fred_scalar n) m p len = Ok r /\ is_max r (f_min t :: l).
Proof. exact C23_horizontal_max_vec_lemma. Qed.
Print Assumptions C23_horizontal_max_vec.

Example C23_horizontal_max_vec_ex :
  let v := fun a => f_ofZ F32 ((a * 7) mod 23 - 11) in let m := block 0 100 v in
  filled m 8 24 (cells v 8 24) /\ no_nan (cells v 8 24) /\ res_bits (horizontal_max_vec (fred_scalar (n0 F32)) m 8 24) = Some (bits (f_ofZ F32 (11))).
Proof. fitf. Qed.

Theorem C23_horizontal_max_vec_true_result : 
  forall (t : fmt) (n : nans t) (m : mem (F t)) p len l,
    filled m p len l -> no_nan l -> (exists x, In x l /\ fle (f_min t) x = true) ->
    exists r, horizontal_max_vec (fred_scalar n) m p len = Ok r /\ is_max r l.
Proof. exact C23_horizontal_max_vec_true_result_lemma. Qed.
Print Assumptions C23_horizontal_max_vec_true_result.

Example C23_horizontal_max_vec_true_result_ex :
  let v := fun a => f_ofZ F32 ((a * 7) mod 23 - 11) in let m := block 0 100 v in
  filled m 8 24 (cells v 8 24) /\ no_nan (cells v 8 24) /\ exists x, In x (cells v 8 24) /\ fle (f_min F32) x = true.
Proof.
  fitf. match goal with |- exists x, In x ?l /\ _ => enough (H : existsb (fun x => fle (f_min F32) x) l = true) end.
  - apply existsb_exists in H. exact H.
  - vm_compute. reflexivity.
Qed.

(** Not the maximum when all elements are below the smallest positive normal number: e.g. all negative. *)
Theorem C23_horizontal_max_vec_wrong_result : 
  forall (t : fmt) (n : nans t) (m : mem (F t)) p len l,
    filled m p len l -> no_nan l -> Forall (fun x => flt x (f_min t) = true) l ->
    exists r, horizontal_max_vec (fred_scalar n) m p len = Ok r /\ ~ is_max r l.
Proof. exact C23_horizontal_max_vec_wrong_result_lemma. Qed.
Print Assumptions C23_horizontal_max_vec_wrong_result.

Example C23_horizontal_max_vec_wrong_result_ex :
  let v := fun a => f_ofZ F32 (-(a mod 5 + 1)) in let m := block 0 100 v in
  filled m 8 24 (cells v 8 24) /\ no_nan (cells v 8 24) /\ Forall (fun x => flt x (f_min F32) = true) (cells v 8 24) /\
  res_bits (horizontal_max_vec (fred_scalar (n0 F32)) m 8 24) = Some (2 ^ 23).
Proof. fitf. apply forallb_Forall. vm_compute. reflexivity. Qed.

Theorem C23_horizontal_min_vec : 
  forall (t : fmt) (n : nans t) (m : mem (F t)) p len l,
    filled m p len l -> no_nan l ->
    exists r, horizontal_min_vec (fred_scalar n) m p len = Ok r /\ is_min r (f_min t :: l).
Proof. exact C23_horizontal_min_vec_lemma. Qed.
Print Assumptions C23_horizontal_min_vec.

Example C23_horizontal_min_vec_ex :
  let v := fun a => f_ofZ F32 ((a * 7) mod 23 - 11) in let m := block 0 100 v in
  filled m 8 24 (cells v 8 24) /\ no_nan (cells v 8 24) /\ res_bits (horizontal_min_vec (fred_scalar (n0 F32)) m 8 24) = Some (bits (f_ofZ F32 (-11))).
Proof. fitf. Qed.

Theorem C23_horizontal_min_vec_true_result : 
  forall (t : fmt) (n : nans t) (m : mem (F t)) p len l,
    filled m p len l -> no_nan l -> (exists x, In x l /\ fle x (f_min t) = true) ->
    exists r, horizontal_min_vec (fred_scalar n) m p len = Ok r /\ is_min r l.
Proof. exact C23_horizontal_min_vec_true_result_lemma. Qed.
Print Assumptions C23_horizontal_min_vec_true_result.

Example C23_horizontal_min_vec_true_result_ex :
  let v := fun a => f_ofZ F32 ((a * 7) mod 23 - 11) in let m := block 0 100 v in
  filled m 8 24 (cells v 8 24) /\ no_nan (cells v 8 24) /\ exists x, In x (cells v 8 24) /\ fle x (f_min F32) = true.
Proof.
  fitf. match goal with |- exists x, In x ?l /\ _ => enough (H : existsb (fun x => fle x (f_min F32)) l = true) end.
  - apply existsb_exists in H. exact H.
  - vm_compute. reflexivity.
Qed.

(** Not the minimum when all elements are above the smallest positive normal number: e.g. all at least 1. *)
Theorem C23_horizontal_min_vec_wrong_result : 
  forall (t : fmt) (n : nans t) (m : mem (F t)) p len l,
    filled m p len l -> no_nan l -> Forall (fun x => flt (f_min t) x = true) l ->
    exists r, horizontal_min_vec (fred_scalar n) m p len = Ok r /\ ~ is_min r l.
Proof. exact C23_horizontal_min_vec_wrong_result_lemma. Qed.
Print Assumptions C23_horizontal_min_vec_wrong_result.

Example C23_horizontal_min_vec_wrong_result_ex :
  let v := fun a => f_ofZ F32 ((a mod 5 + 1)) in let m := block 0 100 v in
  filled m 8 24 (cells v 8 24) /\ no_nan (cells v 8 24) /\ Forall (fun x => flt (f_min F32) x = true) (cells v 8 24) /\
  res_bits (horizontal_min_vec (fred_scalar (n0 F32)) m 8 24) = Some (2 ^ 23).
Proof. fitf. apply forallb_Forall. vm_compute. reflexivity. Qed.

Theorem C23_horizontal_max_vec_simd : 
  forall (c : cfg) (B : backend) (n : nans (fmt_of B)) (m : mem (F (fmt_of B))) p len l,
    aligned B p -> whole_vectors B len -> filled m p len l -> no_nan l ->
    exists r, horizontal_max_vec_simd (fred c B n) B m p len = Ok r /\ is_max r (f_min (fmt_of B) :: l).
Proof. exact C23_horizontal_max_vec_simd_lemma. Qed.
Print Assumptions C23_horizontal_max_vec_simd.

Example C23_horizontal_max_vec_simd_ex :
  let v := fun a => f_ofZ F32 ((a * 7) mod 23 - 11) in let m := block 0 100 v in
  aligned AVX32 8 /\ whole_vectors AVX32 24 /\ filled m 8 24 (cells v 8 24) /\ no_nan (cells v 8 24) /\ res_bits (horizontal_max_vec_simd (fred all_ext AVX32 (n0 F32)) AVX32 m 8 24) = Some (bits (f_ofZ F32 (11))).
Proof. fitf. Qed.

Theorem C23_horizontal_max_vec_simd_true_result : 
  forall (c : cfg) (B : backend) (n : nans (fmt_of B)) (m : mem (F (fmt_of B))) p len l,
    aligned B p -> whole_vectors B len -> filled m p len l -> no_nan l -> (exists x, In x l /\ fle (f_min (fmt_of B)) x = true) ->
    exists r, horizontal_max_vec_simd (fred c B n) B m p len = Ok r /\ is_max r l.
Proof. exact C23_horizontal_max_vec_simd_true_result_lemma. Qed.
Print Assumptions C23_horizontal_max_vec_simd_true_result.

Example C23_horizontal_max_vec_simd_true_result_ex :
  let v := fun a => f_ofZ F32 ((a * 7) mod 23 - 11) in let m := block 0 100 v in
  aligned AVX32 8 /\ whole_vectors AVX32 24 /\ filled m 8 24 (cells v 8 24) /\ no_nan (cells v 8 24) /\ exists x, In x (cells v 8 24) /\ fle (f_min F32) x = true.
Proof.
  fitf. match goal with |- exists x, In x ?l /\ _ => enough (H : existsb (fun x => fle (f_min F32) x) l = true) end.
  - apply existsb_exists in H. exact H.
  - vm_compute. reflexivity.
Qed.

(** Not the maximum when all elements are below the smallest positive normal number: e.g. all negative. *)
Theorem C23_horizontal_max_vec_simd_wrong_result : 
  forall (c : cfg) (B : backend) (n : nans (fmt_of B)) (m : mem (F (fmt_of B))) p len l,
    aligned B p -> whole_vectors B len -> filled m p len l -> no_nan l -> Forall (fun x => flt x (f_min (fmt_of B)) = true) l ->
    exists r, horizontal_max_vec_simd (fred c B n) B m p len = Ok r /\ ~ is_max r l.
Proof. exact C23_horizontal_max_vec_simd_wrong_result_lemma. Qed.
Print Assumptions C23_horizontal_max_vec_simd_wrong_result.

Example C23_horizontal_max_vec_simd_wrong_result_ex :
  let v := fun a => f_ofZ F32 (-(a mod 5 + 1)) in let m := block 0 100 v in
  aligned AVX32 8 /\ whole_vectors AVX32 24 /\ filled m 8 24 (cells v 8 24) /\ no_nan (cells v 8 24) /\ Forall (fun x => flt x (f_min F32) = true) (cells v 8 24) /\
  res_bits (horizontal_max_vec_simd (fred all_ext AVX32 (n0 F32)) AVX32 m 8 24) = Some (2 ^ 23).
Proof. fitf. apply forallb_Forall. vm_compute. reflexivity. Qed.

Theorem C23_horizontal_min_vec_simd : 
  forall (c : cfg) (B : backend) (n : nans (fmt_of B)) (m : mem (F (fmt_of B))) p len l,
    aligned B p -> whole_vectors B len -> filled m p len l -> no_nan l ->
    exists r, horizontal_min_vec_simd (fred c B n) B m p len = Ok r /\ is_min r (f_min (fmt_of B) :: l).
Proof. exact C23_horizontal_min_vec_simd_lemma. Qed.
Print Assumptions C23_horizontal_min_vec_simd.

Example C23_horizontal_min_vec_simd_ex :
  let v := fun a => f_ofZ F32 ((a * 7) mod 23 - 11) in let m := block 0 100 v in
  aligned AVX32 8 /\ whole_vectors AVX32 24 /\ filled m 8 24 (cells v 8 24) /\ no_nan (cells v 8 24) /\ res_bits (horizontal_min_vec_simd (fred all_ext AVX32 (n0 F32)) AVX32 m 8 24) = Some (bits (f_ofZ F32 (-11))).
Proof. fitf. Qed.

Theorem C23_horizontal_min_vec_simd_true_result : 
  forall (c : cfg) (B : backend) (n : nans (fmt_of B)) (m : mem (F (fmt_of B))) p len l,
    aligned B p -> whole_vectors B len -> filled m p len l -> no_nan l -> (exists x, In x l /\ fle x (f_min (fmt_of B)) = true) ->
    exists r, horizontal_min_vec_simd (fred c B n) B m p len = Ok r /\ is_min r l.
Proof. exact C23_horizontal_min_vec_simd_true_result_lemma. Qed.
Print Assumptions C23_horizontal_min_vec_simd_true_result.

Example C23_horizontal_min_vec_simd_true_result_ex :
  let v := fun a => f_ofZ F32 ((a * 7) mod 23 - 11) in let m := block 0 100 v in
  aligned AVX32 8 /\ whole_vectors AVX32 24 /\ filled m 8 24 (cells v 8 24) /\ no_nan (cells v 8 24) /\ exists x, In x (cells v 8 24) /\ fle x (f_min F32) = true.
Proof.
  fitf. match goal with |- exists x, In x ?l /\ _ => enough (H : existsb (fun x => fle x (f_min F32)) l = true) end.
  - apply existsb_exists in H. exact H.
  - vm_compute. reflexivity.
Qed.

(** Not the minimum when all elements are above the smallest positive normal number: e.g. all at least 1. *)
Theorem C23_horizontal_min_vec_simd_wrong_result : 
  forall (c : cfg) (B : backend) (n : nans (fmt_of B)) (m : mem (F (fmt_of B))) p len l,
    aligned B p -> whole_vectors B len -> filled m p len l -> no_nan l -> Forall (fun x => flt (f_min (fmt_of B)) x = true) l ->
    exists r, horizontal_min_vec_simd (fred c B n) B m p len = Ok r /\ ~ is_min r l.
Proof. exact C23_horizontal_min_vec_simd_wrong_result_lemma. Qed.
Print Assumptions C23_horizontal_min_vec_simd_wrong_result.

Example C23_horizontal_min_vec_simd_wrong_result_ex :
  let v := fun a => f_ofZ F32 ((a mod 5 + 1)) in let m := block 0 100 v in
  aligned AVX32 8 /\ whole_vectors AVX32 24 /\ filled m 8 24 (cells v 8 24) /\ no_nan (cells v 8 24) /\ Forall (fun x => flt (f_min F32) x = true) (cells v 8 24) /\
  res_bits (horizontal_min_vec_simd (fred all_ext AVX32 (n0 F32)) AVX32 m 8 24) = Some (2 ^ 23).
Proof. fitf. apply forallb_Forall. vm_compute. reflexivity. Qed.

(** * C24: sum of a buffer *)

Theorem C24_horizontal_sum_vec : 
  forall A (d : redops A) (m : mem A) p len l,
    exact_reductions d -> filled m p len l ->
    horizontal_sum_vec d m p len = Ok (sum_from d (d_zero d) l).
Proof. exact C24_horizontal_sum_vec_lemma. Qed.
Print Assumptions C24_horizontal_sum_vec.

Example C24_horizontal_sum_vec_ex :
  let v := fun a => a mod 7 - 3 in let m := block 0 100 v in
  exact_reductions zred /\ filled m 8 24 (cells v 8 24) /\ horizontal_sum_vec zred m 8 24 = Ok (-3).
Proof. fitf. Qed.

Theorem C24_horizontal_sum_vec_integers : 
  forall (t : fmt) (n : nans t) (m : mem (F t)) p len l ks,
    filled m p len l -> integers l ks -> zsum_abs ks <= 2 ^ prec t ->
    exists r, horizontal_sum_vec (fred_scalar n) m p len = Ok r /\ isfin r = true /\ val r = IZR (zsum ks).
Proof. exact C24_horizontal_sum_vec_integers_lemma. Qed.
Print Assumptions C24_horizontal_sum_vec_integers.

Example C24_horizontal_sum_vec_integers_ex :
  let k := fun a => if a =? 90 then 5 else if a =? 91 then 1000 else (a * 7) mod 23 - 11 in
  let v := fun a => f_ofZ F32 (k a) in let m := block 0 100 v in
  filled m 8 24 (map (f_ofZ F32) (cells k 8 24)) /\ integers (map (f_ofZ F32) (cells k 8 24)) (cells k 8 24) /\
  zsum_abs (cells k 8 24) <= 2 ^ prec F32 /\
  res_bits (horizontal_sum_vec (fred_scalar (n0 F32)) m 8 24) = Some (bits (f_ofZ F32 (zsum (cells k 8 24)))).
Proof.
  cbv zeta. rewrite <- (cells_map (f_ofZ F32)). repeat match goal with |- _ /\ _ => split end;
  lazymatch goal with |- integers _ _ => rewrite cells_map; fitf_leaf | |- _ => fitf_leaf end.
Qed.

Theorem C24_horizontal_sum_vec_simd : 
  forall A (d : redops A) (c : cfg) (B : backend) (m : mem A) p len l,
    exact_reductions d -> aligned B p -> whole_vectors B len -> filled m p len l ->
    horizontal_sum_vec_simd d c B m p len = Ok (sum_from d (d_zero d) l).
Proof. exact C24_horizontal_sum_vec_simd_lemma. Qed.
Print Assumptions C24_horizontal_sum_vec_simd.

Example C24_horizontal_sum_vec_simd_ex :
  let v := fun a => a mod 7 - 3 in let m := block 0 100 v in
  exact_reductions zred /\ aligned AVX32 8 /\ whole_vectors AVX32 24 /\ filled m 8 24 (cells v 8 24) /\ horizontal_sum_vec_simd zred all_ext AVX32 m 8 24 = Ok (-3).
Proof. fitf. Qed.

Theorem C24_horizontal_sum_vec_simd_integers : 
  forall (c : cfg) (B : backend) (n : nans (fmt_of B)) (m : mem (F (fmt_of B))) p len l ks,
    aligned B p -> whole_vectors B len -> filled m p len l -> integers l ks -> zsum_abs ks <= 2 ^ prec (fmt_of B) ->
    exists r, horizontal_sum_vec_simd (fred c B n) c B m p len = Ok r /\ isfin r = true /\ val r = IZR (zsum ks).
Proof. exact C24_horizontal_sum_vec_simd_integers_lemma. Qed.
Print Assumptions C24_horizontal_sum_vec_simd_integers.

Example C24_horizontal_sum_vec_simd_integers_ex :
  let k := fun a => if a =? 90 then 5 else if a =? 91 then 1000 else (a * 7) mod 23 - 11 in
  let v := fun a => f_ofZ F32 (k a) in let m := block 0 100 v in
  aligned AVX32 8 /\ whole_vectors AVX32 24 /\ filled m 8 24 (map (f_ofZ F32) (cells k 8 24)) /\ integers (map (f_ofZ F32) (cells k 8 24)) (cells k 8 24) /\
  zsum_abs (cells k 8 24) <= 2 ^ prec F32 /\
  res_bits (horizontal_sum_vec_simd (fred all_ext AVX32 (n0 F32)) all_ext AVX32 m 8 24) = Some (bits (f_ofZ F32 (zsum (cells k 8 24)))).
Proof.
  cbv zeta. rewrite <- (cells_map (f_ofZ F32)). repeat match goal with |- _ /\ _ => split end;
  lazymatch goal with |- integers _ _ => rewrite cells_map; fitf_leaf | |- _ => fitf_leaf end.
Qed.

(** * C25: combined reductions *)

Theorem C25_horizontal_minmax_vec : 
  forall (t : fmt) (n : nans t) (m : mem (F t)) p len l,
    filled m p len l -> no_nan l ->
    exists rmin rmax, horizontal_minmax_vec (fred_scalar n) m p len = Ok (rmin, rmax) /\
      is_min rmin (f_max t :: l) /\ is_max rmax (f_min t :: l).
Proof. exact C25_horizontal_minmax_vec_lemma. Qed.
Print Assumptions C25_horizontal_minmax_vec.

Example C25_horizontal_minmax_vec_ex :
  let v := fun a => f_ofZ F32 ((a * 7) mod 23 - 11) in let m := block 0 100 v in
  filled m 8 24 (cells v 8 24) /\ no_nan (cells v 8 24).
Proof. fitf. Qed.

Theorem C25_horizontal_minmax_vec_true_minimum : 
  forall (t : fmt) (n : nans t) (m : mem (F t)) p len l,
    filled m p len l -> no_nan l -> (exists x, In x l /\ isfin x = true) ->
    exists rmin rmax, horizontal_minmax_vec (fred_scalar n) m p len = Ok (rmin, rmax) /\ is_min rmin l.
Proof. exact C25_horizontal_minmax_vec_true_minimum_lemma. Qed.
Print Assumptions C25_horizontal_minmax_vec_true_minimum.

Example C25_horizontal_minmax_vec_true_minimum_ex :
  let v := fun a => f_ofZ F32 ((a * 7) mod 23 - 11) in let m := block 0 100 v in
  filled m 8 24 (cells v 8 24) /\ no_nan (cells v 8 24) /\ exists x, In x (cells v 8 24) /\ isfin x = true.
Proof. fitf. eexists. split; [left; reflexivity|vm_compute; reflexivity]. Qed.

Theorem C25_horizontal_minmax_vec_same_max : 
  forall A (d : redops A) (m : mem A) p len l,
    filled m p len l ->
    exists rmin rmax, horizontal_minmax_vec d m p len = Ok (rmin, rmax) /\
      horizontal_max_vec d m p len = Ok rmax.
Proof. exact C25_horizontal_minmax_vec_same_max_lemma. Qed.
Print Assumptions C25_horizontal_minmax_vec_same_max.

Example C25_horizontal_minmax_vec_same_max_ex :
  let v := fun a => a mod 7 - 3 in let m := block 0 100 v in
  filled m 8 24 (cells v 8 24) /\ horizontal_minmax_vec zred m 8 24 = Ok (-3, 3).
Proof. fitf. Qed.

Theorem C25_horizontal_maxsum_vec : 
  forall A (d : redops A) (m : mem A) p len l,
    filled m p len l ->
    exists rmax rsum, horizontal_maxsum_vec d m p len = Ok (rmax, rsum) /\
      horizontal_max_vec d m p len = Ok rmax /\ horizontal_sum_vec d m p len = Ok rsum.
Proof. exact C25_horizontal_maxsum_vec_lemma. Qed.
Print Assumptions C25_horizontal_maxsum_vec.

Example C25_horizontal_maxsum_vec_ex :
  let v := fun a => a mod 7 - 3 in let m := block 0 100 v in
  filled m 8 24 (cells v 8 24) /\ horizontal_maxsum_vec zred m 8 24 = Ok (3, -3).
Proof. fitf. Qed.

Theorem C25_horizontal_minmax_vec_simd : 
  forall (c : cfg) (B : backend) (n : nans (fmt_of B)) (m : mem (F (fmt_of B))) p len l,
    aligned B p -> whole_vectors B len -> filled m p len l -> no_nan l ->
    exists rmin rmax, horizontal_minmax_vec_simd (fred c B n) B m p len = Ok (rmin, rmax) /\
      is_min rmin (f_max (fmt_of B) :: l) /\ is_max rmax (f_min (fmt_of B) :: l).
Proof. exact C25_horizontal_minmax_vec_simd_lemma. Qed.
Print Assumptions C25_horizontal_minmax_vec_simd.

Example C25_horizontal_minmax_vec_simd_ex :
  let v := fun a => f_ofZ F32 ((a * 7) mod 23 - 11) in let m := block 0 100 v in
  aligned AVX32 8 /\ whole_vectors AVX32 24 /\ filled m 8 24 (cells v 8 24) /\ no_nan (cells v 8 24).
Proof. fitf. Qed.

Theorem C25_horizontal_minmax_vec_simd_true_minimum : 
  forall (c : cfg) (B : backend) (n : nans (fmt_of B)) (m : mem (F (fmt_of B))) p len l,
    aligned B p -> whole_vectors B len -> filled m p len l -> no_nan l -> (exists x, In x l /\ isfin x = true) ->
    exists rmin rmax, horizontal_minmax_vec_simd (fred c B n) B m p len = Ok (rmin, rmax) /\ is_min rmin l.
Proof. exact C25_horizontal_minmax_vec_simd_true_minimum_lemma. Qed.
Print Assumptions C25_horizontal_minmax_vec_simd_true_minimum.

Example C25_horizontal_minmax_vec_simd_true_minimum_ex :
  let v := fun a => f_ofZ F32 ((a * 7) mod 23 - 11) in let m := block 0 100 v in
  aligned AVX32 8 /\ whole_vectors AVX32 24 /\ filled m 8 24 (cells v 8 24) /\ no_nan (cells v 8 24) /\ exists x, In x (cells v 8 24) /\ isfin x = true.
Proof. fitf. eexists. split; [left; reflexivity|vm_compute; reflexivity]. Qed.

Theorem C25_horizontal_minmax_vec_simd_same_max : 
  forall A (d : redops A) (B : backend) (m : mem A) p len l,
    aligned B p -> whole_vectors B len -> filled m p len l ->
    exists rmin rmax, horizontal_minmax_vec_simd d B m p len = Ok (rmin, rmax) /\
      horizontal_max_vec_simd d B m p len = Ok rmax.
Proof. exact C25_horizontal_minmax_vec_simd_same_max_lemma. Qed.
Print Assumptions C25_horizontal_minmax_vec_simd_same_max.

Example C25_horizontal_minmax_vec_simd_same_max_ex :
  let v := fun a => a mod 7 - 3 in let m := block 0 100 v in
  aligned AVX32 8 /\ whole_vectors AVX32 24 /\ filled m 8 24 (cells v 8 24) /\ horizontal_minmax_vec_simd zred AVX32 m 8 24 = Ok (-3, 3).
Proof. fitf. Qed.

Theorem C25_horizontal_maxsum_vec_simd : 
  forall A (d : redops A) (c : cfg) (B : backend) (m : mem A) p len l,
    aligned B p -> whole_vectors B len -> filled m p len l ->
    exists rmax rsum, horizontal_maxsum_vec_simd d c B m p len = Ok (rmax, rsum) /\
      horizontal_max_vec_simd d B m p len = Ok rmax /\ horizontal_sum_vec_simd d c B m p len = Ok rsum.
Proof. exact C25_horizontal_maxsum_vec_simd_lemma. Qed.
Print Assumptions C25_horizontal_maxsum_vec_simd.

Example C25_horizontal_maxsum_vec_simd_ex :
  let v := fun a => a mod 7 - 3 in let m := block 0 100 v in
  aligned AVX32 8 /\ whole_vectors AVX32 24 /\ filled m 8 24 (cells v 8 24) /\ horizontal_maxsum_vec_simd zred all_ext AVX32 m 8 24 = Ok (3, -3).
Proof. fitf. Qed.

(** * C26: horizontal operations of a vector *)

Theorem C26_horizontal_max : 
  forall (B : backend) (n : nans (fmt_of B)) (v : list (F (fmt_of B))),
    Z.of_nat (length v) = lanes B -> no_nan v ->
    exists r, horizontal_max B smax (vmax (isa_of B) n) v = Ok r /\ is_max r v.
Proof. exact C26_horizontal_max_lemma. Qed.
Print Assumptions C26_horizontal_max.

Example C26_horizontal_max_ex :
  let v := map (f_ofZ F64) [3; -8; 5; 1] in
  Z.of_nat (length v) = lanes AVX64 /\ no_nan v /\
  res_bits (horizontal_max AVX64 smax (vmax (isa_of AVX64) (n0 F64)) v) = Some (bits (f_ofZ F64 (5))).
Proof. fitf. Qed.

Theorem C26_horizontal_min : 
  forall (B : backend) (n : nans (fmt_of B)) (v : list (F (fmt_of B))),
    Z.of_nat (length v) = lanes B -> no_nan v ->
    exists r, horizontal_min B smin (vmin (isa_of B) n) v = Ok r /\ is_min r v.
Proof. exact C26_horizontal_min_lemma. Qed.
Print Assumptions C26_horizontal_min.

Example C26_horizontal_min_ex :
  let v := map (f_ofZ F64) [3; -8; 5; 1] in
  Z.of_nat (length v) = lanes AVX64 /\ no_nan v /\
  res_bits (horizontal_min AVX64 smin (vmin (isa_of AVX64) (n0 F64)) v) = Some (bits (f_ofZ F64 (-8))).
Proof. fitf. Qed.

Theorem C26_horizontal_sum : 
  forall A (d : redops A) (c : cfg) (B : backend) (v : list A),
    exact_reductions d -> Z.of_nat (length v) = lanes B ->
    horizontal_sum c B (d_zero d) (d_add d) v = Ok (sum_from d (d_zero d) v).
Proof. exact C26_horizontal_sum_lemma. Qed.
Print Assumptions C26_horizontal_sum.

Example C26_horizontal_sum_ex :
  let v := [3; -8; 5; 1; 100; 200; 400; 800] in
  exact_reductions zred /\ Z.of_nat (length v) = lanes AVX32 /\ horizontal_sum all_ext AVX32 0 Z.add v = Ok 1501.
Proof. fitf. Qed.

Theorem C26_horizontal_sum_integers : 
  forall (c : cfg) (B : backend) (n : nans (fmt_of B)) (v : list (F (fmt_of B))) ks,
    Z.of_nat (length v) = lanes B -> integers v ks -> zsum_abs ks <= 2 ^ prec (fmt_of B) ->
    exists r, horizontal_sum c B (f_ofZ (fmt_of B) 0) (fadd n) v = Ok r /\ isfin r = true /\ val r = IZR (zsum ks).
Proof. exact C26_horizontal_sum_integers_lemma. Qed.
Print Assumptions C26_horizontal_sum_integers.

Example C26_horizontal_sum_integers_ex :
  let ks := [3; -8; 5; 1] in let v := map (f_ofZ F32) ks in
  Z.of_nat (length v) = lanes SSE32 /\ integers v ks /\ zsum_abs ks <= 2 ^ prec F32 /\
  res_bits (horizontal_sum no_ext SSE32 (f_ofZ F32 0) (fadd (n0 F32)) v) = Some (bits (f_ofZ F32 1)).
Proof. fitf. Qed.

(** * C27: lane access *)

Theorem C27_get_set : 
  forall A (c : cfg) (B : backend) (zero : A) (v : list A) i x,
    Z.of_nat (length v) = lanes B -> Z.of_nat i < lanes B ->
    exists v', set c B zero v i x = Ok v' /\ get c B v' i = Ok x /\
      forall j, Z.of_nat j < lanes B -> j <> i -> get c B v' j = get c B v j.
Proof. exact C27_get_set_lemma. Qed.
Print Assumptions C27_get_set.

Example C27_get_set_ex :
  let v := [3; -8; 5; 1] in
  Z.of_nat (length v) = lanes SSE32 /\ Z.of_nat 2 < lanes SSE32 /\ set all_ext SSE32 0 v 2 77 = Ok [3; -8; 77; 1].
Proof. fitf. Qed.

Theorem C27_get : 
  forall A (c : cfg) (B : backend) (v : list A) i,
    Z.of_nat (length v) = lanes B -> Z.of_nat i < lanes B ->
    exists x, nth_error v i = Some x /\ get c B v i = Ok x.
Proof. exact C27_get_lemma. Qed.
Print Assumptions C27_get.

Example C27_get_ex :
  let v := [3; -8; 5; 1] in
  Z.of_nat (length v) = lanes SSE32 /\ Z.of_nat 2 < lanes SSE32 /\ get no_ext SSE32 v 2 = Ok 5.
Proof. fitf. Qed.

Theorem C27_set_vec : 
  forall A (c : cfg) (B : backend) (x : A) i, Z.of_nat i < lanes B -> get c B (set_vec B x) i = Ok x.
Proof. exact C27_set_vec_lemma. Qed.
Print Assumptions C27_set_vec.

Example C27_set_vec_ex :
  Z.of_nat 3 < lanes AVX64 /\ get no_ext AVX64 (set_vec AVX64 9) 3 = Ok 9.
Proof. fitf. Qed.

Theorem C27_set_slope_exact : 
  forall A (ar : arith A) (c : cfg) (B : backend) start slope i,
    exact_arith ar -> Z.of_nat i < lanes B ->
    get c B (fst (set_slope ar B start slope)) i = Ok (a_add ar start (times ar (Z.of_nat i) slope)) /\
    snd (set_slope ar B start slope) = times ar (lanes B) slope.
Proof. exact C27_set_slope_exact_lemma. Qed.
Print Assumptions C27_set_slope_exact.

Example C27_set_slope_exact_ex :
  exact_arith zarith /\ Z.of_nat 5 < lanes AVX32 /\ fst (set_slope zarith AVX32 3 10) = [3; 13; 23; 33; 43; 53; 63; 73].
Proof. split; [exact zarith_exact|]. fitf. Qed.

Theorem C27_set_exp_exact : 
  forall A (ar : arith A) (c : cfg) (B : backend) start curve i,
    exact_arith ar -> Z.of_nat i < lanes B ->
    get c B (fst (set_exp ar B start curve)) i = Ok (a_mul ar start (power ar curve (Z.of_nat i))) /\
    snd (set_exp ar B start curve) = a_mul ar start (power ar curve (lanes B)).
Proof. exact C27_set_exp_exact_lemma. Qed.
Print Assumptions C27_set_exp_exact.

Example C27_set_exp_exact_ex :
  exact_arith zarith /\ Z.of_nat 5 < lanes AVX32 /\ fst (set_exp zarith AVX32 3 2) = [3; 6; 12; 24; 48; 96; 192; 384].
Proof. split; [exact zarith_exact|]. fitf. Qed.

Theorem C27_load_aligned_store_aligned : 
  forall A (B : backend) (m : mem A) p q,
    aligned B p -> aligned B q ->
    accessible m p (lanes B) -> accessible m q (lanes B) ->
    exists v, vload_aligned B m p = Ok v /\
      leaves m (vstore_aligned B m q v) q (lanes B) (fun i => m (p + i)).
Proof. exact C27_load_aligned_store_aligned_lemma. Qed.
Print Assumptions C27_load_aligned_store_aligned.

Example C27_load_aligned_store_aligned_ex :
  let m := block 0 100 (fun a => a * a) in
  aligned AVX32 8 /\ aligned AVX32 32 /\ accessible m 8 (lanes AVX32) /\ accessible m 32 (lanes AVX32).
Proof. fitf. Qed.

Theorem C27_load_store : 
  forall A (B : backend) (m : mem A) p q,
    access_ok B false p -> access_ok B false q ->
    accessible m p (lanes B) -> accessible m q (lanes B) ->
    exists v, vload B m p = Ok v /\
      leaves m (vstore B m q v) q (lanes B) (fun i => m (p + i)).
Proof. exact C27_load_store_lemma. Qed.
Print Assumptions C27_load_store.

Example C27_load_store_ex :
  let m := block 0 100 (fun a => a * a) in
  access_ok AVX32 false 9 /\ access_ok AVX32 false 13 /\ accessible m 8 (lanes AVX32) /\ accessible m 32 (lanes AVX32).
Proof. fitf; intros [H | H]; discriminate. Qed.

(** * C55: Altivec at misaligned addresses *)

Theorem C55_zerovec_na_simd : 
  forall A (ar : arith A) (m : mem A) p len,
    ~ aligned ALTIVEC32 p -> legal_simd_length ALTIVEC32 len -> accessible m (floor4 p) len ->
    exists m', zerovec_na_simd ar ALTIVEC32 m p len = Ok m' /\
      writes_exactly m m' (floor4 p) len (fun _ => Some (a_zero ar)) /\
      floor4 p <= p - 1 < p /\ m' (p - 1) = Some (a_zero ar) /\ m' (p + len - 1) = m (p + len - 1).
Proof. exact C55_zerovec_na_simd_lemma. Qed.
Print Assumptions C55_zerovec_na_simd.

Example C55_zerovec_na_simd_ex :
  let m := block 0 100 (fun a => a * a + 1) in
  ~ aligned ALTIVEC32 35 /\ legal_simd_length ALTIVEC32 16 /\ accessible m (floor4 35) 16 /\
  exists m', zerovec_na_simd zarith ALTIVEC32 m 35 16 = Ok m' /\
    map m' [31; 32; 34; 47; 48; 50] = [Some 962; Some 0; Some 0; Some 0; Some 2305; Some 2501].
Proof.
  fitf; [|eexists; split; vm_compute; reflexivity]. intros [k Hk]. change (align_req ALTIVEC32) with 4 in Hk. lia.
Qed.

Theorem C55_setvec_na_simd : 
  forall A (m : mem A) p (f : A) len,
    ~ aligned ALTIVEC32 p -> legal_simd_length ALTIVEC32 len -> accessible m (floor4 p) len ->
    exists m', setvec_na_simd ALTIVEC32 m p f len = Ok m' /\
      writes_exactly m m' (floor4 p) len (fun _ => Some (f)) /\
      floor4 p <= p - 1 < p /\ m' (p - 1) = Some (f) /\ m' (p + len - 1) = m (p + len - 1).
Proof. exact C55_setvec_na_simd_lemma. Qed.
Print Assumptions C55_setvec_na_simd.

Example C55_setvec_na_simd_ex :
  let m := block 0 100 (fun a => a * a + 1) in
  ~ aligned ALTIVEC32 35 /\ legal_simd_length ALTIVEC32 16 /\ accessible m (floor4 35) 16 /\
  exists m', setvec_na_simd ALTIVEC32 m 35 7 16 = Ok m' /\
    map m' [31; 32; 34; 47; 48; 50] = [Some 962; Some 7; Some 7; Some 7; Some 2305; Some 2501].
Proof.
  fitf; [|eexists; split; vm_compute; reflexivity]. intros [k Hk]. change (align_req ALTIVEC32) with 4 in Hk. lia.
Qed.

Theorem C55_copyvec_na_simd : 
  forall A (m : mem A) dest src len,
    ~ aligned ALTIVEC32 dest \/ ~ aligned ALTIVEC32 src ->
    legal_simd_length ALTIVEC32 len -> accessible m (floor4 dest) len -> accessible m (floor4 src) (len + 4) ->
    overlap_ok (floor4 dest) (@APtr A (floor4 src)) len ->
    leaves m (copyvec_na_simd ALTIVEC32 m dest src len) (floor4 dest) len (fun i => m (floor4 src + i)) /\
    (floor4 dest < dest \/ floor4 src < src).
Proof. exact C55_copyvec_na_simd_lemma. Qed.
Print Assumptions C55_copyvec_na_simd.

Example C55_copyvec_na_simd_ex :
  let m := block 0 100 (fun a => a * a + 1) in
  (~ aligned ALTIVEC32 35 \/ ~ aligned ALTIVEC32 64) /\ legal_simd_length ALTIVEC32 16 /\ accessible m (floor4 35) 16 /\
  accessible m (floor4 64) (16 + 4) /\ overlap_ok (floor4 35) (@APtr Z (floor4 64)) 16 /\
  exists m', copyvec_na_simd ALTIVEC32 m 35 64 16 = Ok m' /\ map m' [31; 32; 35; 48; 50] = [Some 962; Some 4097; Some 4490; Some 2305; Some 2501].
Proof.
  fitf.
  - left. intros [k Hk]. change (align_req ALTIVEC32) with 4 in Hk. lia.
  - vm_compute. left. congruence.
  - eexists; split; vm_compute; reflexivity.
Qed.

Theorem C55_copyvec_an_simd : 
  forall A (m : mem A) dest src len,
    ~ aligned ALTIVEC32 dest \/ ~ aligned ALTIVEC32 src ->
    legal_simd_length ALTIVEC32 len -> accessible m (floor4 dest) len -> accessible m (floor4 src) (len + 4) ->
    overlap_ok (floor4 dest) (@APtr A (floor4 src)) len ->
    leaves m (copyvec_an_simd ALTIVEC32 m dest src len) (floor4 dest) len (fun i => m (floor4 src + i)) /\
    (floor4 dest < dest \/ floor4 src < src).
Proof. exact C55_copyvec_an_simd_lemma. Qed.
Print Assumptions C55_copyvec_an_simd.

Example C55_copyvec_an_simd_ex :
  let m := block 0 100 (fun a => a * a + 1) in
  (~ aligned ALTIVEC32 35 \/ ~ aligned ALTIVEC32 64) /\ legal_simd_length ALTIVEC32 16 /\ accessible m (floor4 35) 16 /\
  accessible m (floor4 64) (16 + 4) /\ overlap_ok (floor4 35) (@APtr Z (floor4 64)) 16 /\
  exists m', copyvec_an_simd ALTIVEC32 m 35 64 16 = Ok m' /\ map m' [31; 32; 35; 48; 50] = [Some 962; Some 4097; Some 4490; Some 2305; Some 2501].
Proof.
  fitf.
  - left. intros [k Hk]. change (align_req ALTIVEC32) with 4 in Hk. lia.
  - vm_compute. left. congruence.
  - eexists; split; vm_compute; reflexivity.
Qed.

Theorem C55_copyvec_nn_simd : 
  forall A (m : mem A) dest src len,
    ~ aligned ALTIVEC32 dest \/ ~ aligned ALTIVEC32 src ->
    legal_simd_length ALTIVEC32 len -> accessible m (floor4 dest) len -> accessible m (floor4 src) (len + 4) ->
    overlap_ok (floor4 dest) (@APtr A (floor4 src)) len ->
    leaves m (copyvec_nn_simd ALTIVEC32 m dest src len) (floor4 dest) len (fun i => m (floor4 src + i)) /\
    (floor4 dest < dest \/ floor4 src < src).
Proof. exact C55_copyvec_nn_simd_lemma. Qed.
Print Assumptions C55_copyvec_nn_simd.

Example C55_copyvec_nn_simd_ex :
  let m := block 0 100 (fun a => a * a + 1) in
  (~ aligned ALTIVEC32 35 \/ ~ aligned ALTIVEC32 64) /\ legal_simd_length ALTIVEC32 16 /\ accessible m (floor4 35) 16 /\
  accessible m (floor4 64) (16 + 4) /\ overlap_ok (floor4 35) (@APtr Z (floor4 64)) 16 /\
  exists m', copyvec_nn_simd ALTIVEC32 m 35 64 16 = Ok m' /\ map m' [31; 32; 35; 48; 50] = [Some 962; Some 4097; Some 4490; Some 2305; Some 2501].
Proof.
  fitf.
  - left. intros [k Hk]. change (align_req ALTIVEC32) with 4 in Hk. lia.
  - vm_compute. left. congruence.
  - eexists; split; vm_compute; reflexivity.
Qed.
