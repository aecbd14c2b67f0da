(** Proofs of the statements of Prop_Calls.v. *)
From Coq Require Import ZArith Reals List Lia Bool Lra.
From Flocq Require Import Core IEEE754.Binary IEEE754.Bits.
From Verif Require Import
  Base Mem Backend Args MemFuns Pan Drivers Functors Lanes Float LaneOps Reduce FloatOps VecMath FloatFuns Spec SpecLane SpecReduce SpecAgree SpecAlike SpecSwap SpecChain SpecParts
  FloatFacts LaneFacts FloatRound ScalarMath VecFacts VecMore MemClaims ReduceRun ReduceFloat ReduceMore ReduceClaims LaneClaims AgreeFacts AlikeFacts ExData ExFloat ExMath SwapFacts ChainFacts PartsFacts CallsFacts.
Import ListNotations.
Local Open Scope Z_scope.

Lemma C92_addvec_lemma : 
  forall (t : fmt) (n : nans t) (m : mem (F t)) (out inp len : Z),
    call_fits m out len [APtr out; APtr inp] ->
    Spec.same_effect (addvec (farith n) m out inp len) (plus_vec (farith n) (fops_scalar n) m out (APtr out) (APtr inp) len).
Proof.
  intros t n m out inp len H. fits H.
  eapply same_of_leaves; [apply C14_addvec_lemma; fitc|apply C18_plus_vec_lemma; fitc|]. intros i Hi. reflexivity.
Qed.

Lemma C92_addvec_simd_lemma : 
  forall (c : cfg) (B : backend) (n : nans (fmt_of B)) (m : mem (F (fmt_of B))) (out inp len : Z),
    simd_call_fits B m out len [APtr out; APtr inp] ->
    Spec.same_effect (addvec_simd (farith n) B m out inp len) (plus_vec_simd (farith n) (fops c B n) B m out (APtr out) (APtr inp) len).
Proof.
  intros c B n m out inp len H. fits_simd H.
  eapply same_of_leaves; [apply C14_addvec_simd_lemma; fitc|apply C18_plus_vec_simd_lemma; fitc|]. intros i Hi. reflexivity.
Qed.

Lemma C92_addvec_scalar_lemma : 
  forall (t : fmt) (n : nans t) (m : mem (F t)) (out : Z) (f : F t) (len : Z),
    call_fits m out len [APtr out; AScal f] ->
    Spec.same_effect (addvec_scalar (farith n) m out f len) (plus_vec (farith n) (fops_scalar n) m out (APtr out) (AScal f) len).
Proof.
  intros t n m out f len H. fits H.
  eapply same_of_leaves; [apply C14_addvec_scalar_lemma; fitc|apply C18_plus_vec_lemma; fitc|]. intros i Hi. cbn [sample]. destruct (m (out + i)); reflexivity.
Qed.

Lemma C92_addvec_scalar_simd_lemma : 
  forall (c : cfg) (B : backend) (n : nans (fmt_of B)) (m : mem (F (fmt_of B))) (out : Z) (f : F (fmt_of B)) (len : Z),
    simd_call_fits B m out len [APtr out; AScal f] ->
    Spec.same_effect (addvec_scalar_simd (farith n) B m out f len) (plus_vec_simd (farith n) (fops c B n) B m out (APtr out) (AScal f) len).
Proof.
  intros c B n m out f len H. fits_simd H.
  eapply same_of_leaves; [apply C14_addvec_scalar_simd_lemma; fitc|apply C18_plus_vec_simd_lemma; fitc|]. intros i Hi. cbn [sample]. destruct (m (out + i)); reflexivity.
Qed.

Lemma C92_pan2_vec_lemma : 
  forall (t : fmt) (n : nans t) (m : mem (F t)) (out0 out1 inp : Z) (f0 f1 : F t) (len : Z),
    call_fits m out0 len [APtr inp] -> call_fits m out1 len [APtr inp] -> disjoint out0 out1 len -> clear_of (A := F t) out0 len (APtr inp) ->
    Spec.same_effect (pan2_vec (farith n) m out0 out1 inp f0 f1 len)
      (in_turn [fun m => times_vec (farith n) (fops_scalar n) m out0 (APtr inp) (AScal f0) len;
                fun m => times_vec (farith n) (fops_scalar n) m out1 (APtr inp) (AScal f1) len] m).
Proof.
  intros t n m out0 out1 inp f0 f1 len H0 H1 D C. fits H0. fits H1.
  eapply same_of_both; [apply C17_pan2_vec_lemma; fitc|exact D|cbv beta; apply C18_times_vec_lemma; fitc|]. intros m1 L. eexists. split; [cbv beta; apply C18_times_vec_lemma; refit L|].
  intros i Hi. cbv beta. rewrite (left_sample (farith n) _ _ _ _ _ (APtr inp) i L) by assumption. cbn [o_mul fops fops_scalar]. cbn [sample]. destruct (m (inp + i)); [|split; reflexivity]. cbn [lift1 lift2]. split; reflexivity.
Qed.

Lemma C92_pan2_vec_simd_lemma : 
  forall (c : cfg) (B : backend) (n : nans (fmt_of B)) (m : mem (F (fmt_of B))) (out0 out1 inp : Z) (f0 f1 : F (fmt_of B)) (len : Z),
    simd_call_fits B m out0 len [APtr inp] -> simd_call_fits B m out1 len [APtr inp] -> disjoint out0 out1 len -> clear_of (A := F (fmt_of B)) out0 len (APtr inp) -> isa_of B <> ALTIVEC ->
    Spec.same_effect (pan2_vec_simd (farith n) B m out0 out1 inp f0 f1 len)
      (in_turn [fun m => times_vec_simd (farith n) (fops c B n) B m out0 (APtr inp) (AScal f0) len;
                fun m => times_vec_simd (farith n) (fops c B n) B m out1 (APtr inp) (AScal f1) len] m).
Proof.
  intros c B n m out0 out1 inp f0 f1 len H0 H1 D C HB. fits_simd H0. fits_simd H1.
  eapply same_of_both; [apply C17_pan2_vec_simd_lemma; fitc|exact D|cbv beta; apply C18_times_vec_simd_lemma; fitc|]. intros m1 L. eexists. split; [cbv beta; apply C18_times_vec_simd_lemma; refit L|].
  intros i Hi. cbv beta. rewrite (left_sample (farith n) _ _ _ _ _ (APtr inp) i L) by assumption. cbn [o_mul fops fops_scalar]. cbn [sample]. destruct (m (inp + i)); [|split; reflexivity]. cbn [lift1 lift2]. rewrite ?vmul_x86 by assumption; split; reflexivity.
Qed.

Lemma C92_pan2_slope_vec_lemma : 
  forall (t : fmt) (n : nans t) (m : mem (F t)) (out0 out1 inp : Z) (f0 s0 f1 s1 : F t) (len : Z),
    call_fits m out0 len [APtr inp] -> call_fits m out1 len [APtr inp] -> disjoint out0 out1 len -> clear_of (A := F t) out0 len (APtr inp) ->
    Spec.same_effect (pan2_slope_vec (farith n) m out0 out1 inp f0 s0 f1 s1 len)
      (in_turn [fun m => times_vec (farith n) (fops_scalar n) m out0 (APtr inp) (ARamp f0 s0) len;
                fun m => times_vec (farith n) (fops_scalar n) m out1 (APtr inp) (ARamp f1 s1) len] m).
Proof.
  intros t n m out0 out1 inp f0 s0 f1 s1 len H0 H1 D C. fits H0. fits H1.
  eapply same_of_both; [apply C17_pan2_slope_vec_lemma; fitc|exact D|cbv beta; apply C18_times_vec_lemma; fitc|]. intros m1 L. eexists. split; [cbv beta; apply C18_times_vec_lemma; refit L|].
  intros i Hi. cbv beta. rewrite (left_sample (farith n) _ _ _ _ _ (APtr inp) i L) by assumption. cbn [o_mul fops fops_scalar]. cbn [sample]. destruct (m (inp + i)); [|split; reflexivity]. cbn [lift1 lift2]. split; reflexivity.
Qed.

Lemma C92_pan2_in_place_refuted_lemma : 
  forall (n : nans F32), exists (m : mem (F F32)) (out0 out1 inp : Z) (f0 f1 : F F32) (len : Z),
    call_fits m out0 len [APtr inp] /\ call_fits m out1 len [APtr inp] /\ disjoint out0 out1 len /\
    ~ Spec.same_effect (pan2_vec (farith n) m out0 out1 inp f0 f1 len)
        (in_turn [fun m => times_vec (farith n) (fops_scalar n) m out0 (APtr inp) (AScal f0) len;
                  fun m => times_vec (farith n) (fops_scalar n) m out1 (APtr inp) (AScal f1) len] m).
Proof.
  intros n. exists (block 0 8 (fun _ => f_ofZ F32 2)), 0, 4, 0, (f_ofZ F32 3), (f_ofZ F32 5), 1.
  split; [parts_tac|]. split; [parts_tac|]. split; [unfold disjoint; lia|]. intros (m1 & m2 & E1 & E2 & H). specialize (H 4).
  match type of E1 with ?r = _ => assert (K1 : match r with Ok m => option_map bits (m 4) | Fault _ => None end = Some (bits (f_ofZ F32 10))) by (vm_compute; reflexivity) end.
  match type of E2 with ?r = _ => assert (K2 : match r with Ok m => option_map bits (m 4) | Fault _ => None end = Some (bits (f_ofZ F32 30))) by (vm_compute; reflexivity) end.
  rewrite E1 in K1. rewrite E2 in K2. rewrite H in K1. rewrite K1 in K2. vm_compute in K2. discriminate K2.
Qed.

Lemma C92_ramp_times_vec_lemma : 
  forall (t : fmt) (n : nans t) (m : mem (F t)) (out tmp : Z) (a : arg (F t)) (f s : F t) (len : Z),
    call_fits m out len [a; ARamp f s] -> call_fits m tmp len [] -> arg_fit m out len (APtr tmp) -> clear_of tmp len a ->
    same_in_steps same_bits (times_vec (farith n) (fops_scalar n) m out a (ARamp f s) len) (set_slope_vec (farith n) m tmp f s len) (fun m2 => times_vec (farith n) (fops_scalar n) m2 out a (APtr tmp) len) out len.
Proof.
  intros t n m out tmp a f s len H1 H2 H3 H4. fits H1. fits H2.
  eapply steps_of_leaves; [apply C18_times_vec_lemma; fitc|apply C15_set_slope_vec_any_arithmetic_lemma; fitc|]. intros m2 L. eexists. split; [apply C18_times_vec_lemma; refit L|].
  intros i u v Hi. cbv beta. rewrite (left_tmp (farith n) _ _ _ _ _ i L), (left_sample (farith n) _ _ _ _ _ a i L) by assumption. intros U V.
  assert (E : Some u = Some v) by (rewrite <- U; exact V). injection E as ->. reflexivity.
Qed.

Lemma C92_ramp_plus_vec_lemma : 
  forall (t : fmt) (n : nans t) (m : mem (F t)) (out tmp : Z) (a : arg (F t)) (f s : F t) (len : Z),
    call_fits m out len [a; ARamp f s] -> call_fits m tmp len [] -> arg_fit m out len (APtr tmp) -> clear_of tmp len a ->
    same_in_steps same_bits (plus_vec (farith n) (fops_scalar n) m out a (ARamp f s) len) (set_slope_vec (farith n) m tmp f s len) (fun m2 => plus_vec (farith n) (fops_scalar n) m2 out a (APtr tmp) len) out len.
Proof.
  intros t n m out tmp a f s len H1 H2 H3 H4. fits H1. fits H2.
  eapply steps_of_leaves; [apply C18_plus_vec_lemma; fitc|apply C15_set_slope_vec_any_arithmetic_lemma; fitc|]. intros m2 L. eexists. split; [apply C18_plus_vec_lemma; refit L|].
  intros i u v Hi. cbv beta. rewrite (left_tmp (farith n) _ _ _ _ _ i L), (left_sample (farith n) _ _ _ _ _ a i L) by assumption. intros U V.
  assert (E : Some u = Some v) by (rewrite <- U; exact V). injection E as ->. reflexivity.
Qed.

Lemma C92_constant_times_vec_lemma : 
  forall (t : fmt) (n : nans t) (m : mem (F t)) (out tmp : Z) (a : arg (F t)) (f : F t) (len : Z),
    call_fits m out len [a; AScal f] -> call_fits m tmp len [] -> arg_fit m out len (APtr tmp) -> clear_of tmp len a ->
    same_in_steps same_bits (times_vec (farith n) (fops_scalar n) m out a (AScal f) len) (setvec m tmp f len) (fun m2 => times_vec (farith n) (fops_scalar n) m2 out a (APtr tmp) len) out len.
Proof.
  intros t n m out tmp a f len H1 H2 H3 H4. fits H1. fits H2.
  eapply steps_of_leaves; [apply C18_times_vec_lemma; fitc|apply C12_setvec_lemma; fitc|]. intros m2 L. eexists. split; [apply C18_times_vec_lemma; refit L|].
  intros i u v Hi. cbv beta. rewrite (left_tmp (farith n) _ _ _ _ _ i L), (left_sample (farith n) _ _ _ _ _ a i L) by assumption. intros U V.
  assert (E : Some u = Some v) by (rewrite <- U; exact V). injection E as ->. reflexivity.
Qed.

Lemma C92_constant_times_vec_simd_lemma : 
  forall (c : cfg) (B : backend) (n : nans (fmt_of B)) (m : mem (F (fmt_of B))) (out tmp : Z) (a : arg (F (fmt_of B))) (f : F (fmt_of B)) (len : Z),
    simd_call_fits B m out len [a; AScal f] -> simd_call_fits B m tmp len [] -> simd_fit B m out len (APtr tmp) -> clear_of tmp len a ->
    same_in_steps same_bits (times_vec_simd (farith n) (fops c B n) B m out a (AScal f) len) (setvec_simd B m tmp f len) (fun m2 => times_vec_simd (farith n) (fops c B n) B m2 out a (APtr tmp) len) out len.
Proof.
  intros c B n m out tmp a f len H1 H2 H3 H4. fits_simd H1. fits_simd H2.
  eapply steps_of_leaves; [apply C18_times_vec_simd_lemma; fitc|apply C12_setvec_simd_lemma; fitc|]. intros m2 L. eexists. split; [apply C18_times_vec_simd_lemma; refit L|].
  intros i u v Hi. cbv beta. rewrite (left_tmp (farith n) _ _ _ _ _ i L), (left_sample (farith n) _ _ _ _ _ a i L) by assumption. intros U V.
  assert (E : Some u = Some v) by (rewrite <- U; exact V). injection E as ->. reflexivity.
Qed.

Lemma C92_constant_plus_vec_lemma : 
  forall (t : fmt) (n : nans t) (m : mem (F t)) (out tmp : Z) (a : arg (F t)) (f : F t) (len : Z),
    call_fits m out len [a; AScal f] -> call_fits m tmp len [] -> arg_fit m out len (APtr tmp) -> clear_of tmp len a ->
    same_in_steps same_bits (plus_vec (farith n) (fops_scalar n) m out a (AScal f) len) (setvec m tmp f len) (fun m2 => plus_vec (farith n) (fops_scalar n) m2 out a (APtr tmp) len) out len.
Proof.
  intros t n m out tmp a f len H1 H2 H3 H4. fits H1. fits H2.
  eapply steps_of_leaves; [apply C18_plus_vec_lemma; fitc|apply C12_setvec_lemma; fitc|]. intros m2 L. eexists. split; [apply C18_plus_vec_lemma; refit L|].
  intros i u v Hi. cbv beta. rewrite (left_tmp (farith n) _ _ _ _ _ i L), (left_sample (farith n) _ _ _ _ _ a i L) by assumption. intros U V.
  assert (E : Some u = Some v) by (rewrite <- U; exact V). injection E as ->. reflexivity.
Qed.

Lemma C92_constant_plus_vec_simd_lemma : 
  forall (c : cfg) (B : backend) (n : nans (fmt_of B)) (m : mem (F (fmt_of B))) (out tmp : Z) (a : arg (F (fmt_of B))) (f : F (fmt_of B)) (len : Z),
    simd_call_fits B m out len [a; AScal f] -> simd_call_fits B m tmp len [] -> simd_fit B m out len (APtr tmp) -> clear_of tmp len a ->
    same_in_steps same_bits (plus_vec_simd (farith n) (fops c B n) B m out a (AScal f) len) (setvec_simd B m tmp f len) (fun m2 => plus_vec_simd (farith n) (fops c B n) B m2 out a (APtr tmp) len) out len.
Proof.
  intros c B n m out tmp a f len H1 H2 H3 H4. fits_simd H1. fits_simd H2.
  eapply steps_of_leaves; [apply C18_plus_vec_simd_lemma; fitc|apply C12_setvec_simd_lemma; fitc|]. intros m2 L. eexists. split; [apply C18_plus_vec_simd_lemma; refit L|].
  intros i u v Hi. cbv beta. rewrite (left_tmp (farith n) _ _ _ _ _ i L), (left_sample (farith n) _ _ _ _ _ a i L) by assumption. intros U V.
  assert (E : Some u = Some v) by (rewrite <- U; exact V). injection E as ->. reflexivity.
Qed.

Lemma C92_peak_lemma : 
  forall (B : backend) (n : nans (fmt_of B)) (m : mem (F (fmt_of B))) (p pk tmp len : Z) (l : list (F (fmt_of B))),
    call_fits m tmp len [APtr p] -> filled m p len l -> m pk = Some (f_ofZ (fmt_of B) 0) -> no_nan l -> (exists x, In x l /\ fle (f_min (fmt_of B)) (fabs x) = true) ->
    exists m1 z new m2 r, peak_vec (fred_scalar n) m p pk len = Ok (m1, z) /\ m1 pk = Some new /\
      abs_vec B m tmp p len = Ok m2 /\ horizontal_max_vec (fred_scalar n) m2 tmp len = Ok r /\ equal_numbers new r.
Proof.
  intros B n m p pk tmp len l H1 Hl Hk Hn Hx. fits H1.
  assert (N0 : isnan (f_ofZ (fmt_of B) 0) = false) by (destruct B; reflexivity).
  destruct (C19_peak_vec_lemma _ n m p pk len l _ Hl Hk N0 Hn) as (m1 & new & z & E1 & _ & [Ek _] & M).
  assert (LV : leaves m (abs_vec B m tmp p len) tmp len (fun i => lift1 fabs (m (p + i)))) by (apply (unary_leaves (farith n)); fitc).
  destruct LV as (m2 & E2 & W2).
  assert (Fl : filled m2 tmp len (map fabs l)).
  { apply filled_left with (m := m) (p := p); [exact Hl|]. destruct W2 as [W2 O2]. split; [exact O2|]. intros i Hi. exact (W2 i Hi). }
  assert (Nl : l <> []) by (intros ->; destruct Hl as (_ & L0 & L1); cbn in L0; lia).
  destruct (hmax_float n m2 tmp len (map fabs l) Fl (no_nan_fabs l Hn)) as (r & E3 & R).
  exists m1, (fabs z), new, m2, r. split; [exact E1|]. split; [exact Ek|]. split; [exact E2|]. split; [exact E3|]. apply is_max_zero in M; [|exact Nl].
  apply (is_max_unique _ _ (map fabs l)); [exact M|]. eapply is_max_drop; [exact R|]. destruct Hx as (x & I1 & I2). exists (fabs x). split; [apply in_map; exact I1|exact I2].
Qed.

Lemma C92_peak_simd_lemma : 
  forall (c : cfg) (B : backend) (n : nans (fmt_of B)) junk (m : mem (F (fmt_of B))) (p pk tmp len : Z) (l : list (F (fmt_of B))),
    aligned B p -> whole_quads B len -> upper_lanes_zero B (f_ofZ (fmt_of B) 0) junk -> simd_call_fits B m tmp len [APtr p] -> filled m p len l -> m pk = Some (f_ofZ (fmt_of B) 0) -> no_nan l -> (exists x, In x l /\ fle (f_min (fmt_of B)) (fabs x) = true) ->
    exists m1 z new m2 r, peak_vec_simd (fred c B n) c B junk m p pk len = Ok (m1, z) /\ m1 pk = Some new /\
      abs_vec_simd c B n m tmp p len = Ok m2 /\ horizontal_max_vec_simd (fred c B n) B m2 tmp len = Ok r /\ equal_numbers new r.
Proof.
  intros c B n junk m p pk tmp len l Ha Hw Hj H1 Hl Hk Hn Hx. fits_simd H1.
  assert (N0 : isnan (f_ofZ (fmt_of B) 0) = false) by (destruct B; reflexivity).
  destruct (C19_peak_vec_simd_lemma c B n junk m p pk len l _ Ha Hw Hl Hk N0 Hn Hj) as (m1 & new & z & E1 & _ & [Ek _] & M).
  assert (LV : leaves m (abs_vec_simd c B n m tmp p len) tmp len (fun i => lift1 (vabs c (isa_of B)) (m (p + i)))) by (apply unary_simd_leaves; fitc).
  destruct LV as (m2 & E2 & W2).
  assert (Fl : filled m2 tmp len (map fabs l)).
  { apply filled_left with (m := m) (p := p); [exact Hl|]. destruct W2 as [W2 O2]. split; [exact O2|]. intros i Hi. destruct (W2 i Hi) as [W3 W4]. cbv beta in W3, W4 |- *. destruct (m (p + i)); cbn [lift1] in *; rewrite ?vabs_fabs in *; auto. }
  assert (Nl : l <> []) by (intros ->; destruct Hl as (_ & L0 & L1); cbn in L0; lia).
  destruct (hmax_simd_float c B n m2 tmp len (map fabs l) ltac:(assumption) ltac:(apply quads_vectors; assumption) Fl (no_nan_fabs l Hn)) as (r & E3 & R).
  exists m1, (fabs z), new, m2, r. split; [exact E1|]. split; [exact Ek|]. split; [exact E2|]. split; [exact E3|]. apply is_max_zero in M; [|exact Nl].
  apply (is_max_unique _ _ (map fabs l)); [exact M|]. eapply is_max_drop; [exact R|]. destruct Hx as (x & I1 & I2). exists (fabs x). split; [apply in_map; exact I1|exact I2].
Qed.

Lemma C92_peak_below_smallest_normal_lemma : 
  forall (B : backend) (n : nans (fmt_of B)) (m : mem (F (fmt_of B))) (p pk tmp len : Z) (l : list (F (fmt_of B))),
    call_fits m tmp len [APtr p] -> filled m p len l -> m pk = Some (f_ofZ (fmt_of B) 0) -> no_nan l -> Forall (fun x => flt (fabs x) (f_min (fmt_of B)) = true) l ->
    exists m1 z new m2 r, peak_vec (fred_scalar n) m p pk len = Ok (m1, z) /\ m1 pk = Some new /\
      abs_vec B m tmp p len = Ok m2 /\ horizontal_max_vec (fred_scalar n) m2 tmp len = Ok r /\ flt new r = true.
Proof.
  intros B n m p pk tmp len l H1 Hl Hk Hn Hx. fits H1.
  assert (N0 : isnan (f_ofZ (fmt_of B) 0) = false) by (destruct B; reflexivity).
  destruct (C19_peak_vec_lemma _ n m p pk len l _ Hl Hk N0 Hn) as (m1 & new & z & E1 & _ & [Ek _] & M).
  assert (LV : leaves m (abs_vec B m tmp p len) tmp len (fun i => lift1 fabs (m (p + i)))) by (apply (unary_leaves (farith n)); fitc).
  destruct LV as (m2 & E2 & W2).
  assert (Fl : filled m2 tmp len (map fabs l)).
  { apply filled_left with (m := m) (p := p); [exact Hl|]. destruct W2 as [W2 O2]. split; [exact O2|]. intros i Hi. exact (W2 i Hi). }
  assert (Nl : l <> []) by (intros ->; destruct Hl as (_ & L0 & L1); cbn in L0; lia).
  destruct (hmax_float n m2 tmp len (map fabs l) Fl (no_nan_fabs l Hn)) as (r & E3 & R).
  exists m1, (fabs z), new, m2, r. split; [exact E1|]. split; [exact Ek|]. split; [exact E2|]. split; [exact E3|]. apply is_max_zero in M; [|exact Nl].
  eapply is_max_less; [exact M|exact R|]. apply Forall_map. exact Hx.
Qed.

Lemma C92_peak_below_smallest_normal_simd_lemma : 
  forall (c : cfg) (B : backend) (n : nans (fmt_of B)) junk (m : mem (F (fmt_of B))) (p pk tmp len : Z) (l : list (F (fmt_of B))),
    aligned B p -> whole_quads B len -> upper_lanes_zero B (f_ofZ (fmt_of B) 0) junk -> simd_call_fits B m tmp len [APtr p] -> filled m p len l -> m pk = Some (f_ofZ (fmt_of B) 0) -> no_nan l -> Forall (fun x => flt (fabs x) (f_min (fmt_of B)) = true) l ->
    exists m1 z new m2 r, peak_vec_simd (fred c B n) c B junk m p pk len = Ok (m1, z) /\ m1 pk = Some new /\
      abs_vec_simd c B n m tmp p len = Ok m2 /\ horizontal_max_vec_simd (fred c B n) B m2 tmp len = Ok r /\ flt new r = true.
Proof.
  intros c B n junk m p pk tmp len l Ha Hw Hj H1 Hl Hk Hn Hx. fits_simd H1.
  assert (N0 : isnan (f_ofZ (fmt_of B) 0) = false) by (destruct B; reflexivity).
  destruct (C19_peak_vec_simd_lemma c B n junk m p pk len l _ Ha Hw Hl Hk N0 Hn Hj) as (m1 & new & z & E1 & _ & [Ek _] & M).
  assert (LV : leaves m (abs_vec_simd c B n m tmp p len) tmp len (fun i => lift1 (vabs c (isa_of B)) (m (p + i)))) by (apply unary_simd_leaves; fitc).
  destruct LV as (m2 & E2 & W2).
  assert (Fl : filled m2 tmp len (map fabs l)).
  { apply filled_left with (m := m) (p := p); [exact Hl|]. destruct W2 as [W2 O2]. split; [exact O2|]. intros i Hi. destruct (W2 i Hi) as [W3 W4]. cbv beta in W3, W4 |- *. destruct (m (p + i)); cbn [lift1] in *; rewrite ?vabs_fabs in *; auto. }
  assert (Nl : l <> []) by (intros ->; destruct Hl as (_ & L0 & L1); cbn in L0; lia).
  destruct (hmax_simd_float c B n m2 tmp len (map fabs l) ltac:(assumption) ltac:(apply quads_vectors; assumption) Fl (no_nan_fabs l Hn)) as (r & E3 & R).
  exists m1, (fabs z), new, m2, r. split; [exact E1|]. split; [exact Ek|]. split; [exact E2|]. split; [exact E3|]. apply is_max_zero in M; [|exact Nl].
  eapply is_max_less; [exact M|exact R|]. apply Forall_map. exact Hx.
Qed.

Lemma C92_rms_sum_lemma : 
  forall (B : backend) (n : nans (fmt_of B)) (m : mem (F (fmt_of B))) (p pk sq tmp len : Z) (l : list (F (fmt_of B))) old,
    call_fits m tmp len [APtr p] -> filled m p len l -> m pk = Some old -> m sq = Some (f_ofZ (fmt_of B) 0) -> pk <> sq ->
    exists m1 sum m2, peak_rms_vec (fred_scalar n) m p pk sq len = Ok m1 /\ m1 sq = Some sum /\
      square_vec B n m tmp p len = Ok m2 /\ horizontal_sum_vec (fred_scalar n) m2 tmp len = Ok sum.
Proof.
  intros B n m p pk sq tmp len l old H1 Hl Hp Hs Hne. fits H1.
  rewrite (peak_rms_vec_run _ m p pk sq len l _ _ Hl Hp Hs).
  destruct (unary_leaves (farith n) (s_square n) m tmp p len) as (m2 & E2 & W2); [fitc..|].
  assert (Fl : filled m2 tmp len (map (s_square n) l)) by (apply filled_left with (m := m) (p := p); [exact Hl|]; destruct W2 as [W2 O2]; split; [exact O2|exact W2]).
  do 2 eexists. exists m2. split; [reflexivity|]. split; [unfold upd; rewrite Z.eqb_refl; reflexivity|]. split; [exact E2|].
  rewrite (horizontal_sum_vec_run _ m2 tmp len _ Fl). reflexivity.
Qed.
