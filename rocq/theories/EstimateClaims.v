(** Proofs of the statements of Prop_Estimate.v. *)
From Coq Require Import ZArith Reals List Lia Bool Lra.
From Flocq Require Import Core IEEE754.Binary IEEE754.Bits.
From Verif Require Import
  Base Mem Backend Args Drivers Functors Lanes Float LaneOps FloatOps ScalarMath VecMath FloatFuns IntVec TransMath TransFuns Estimate Spec SpecLane SpecMath SpecEst
  FloatFacts FloatRound ErrFacts MathMore EstFacts EstNeon EstSpecial EstAlti ExData ExFloat ExMath ExEst.
Import ListNotations.
Local Open Scope Z_scope.

Lemma C67_division_accurate_lemma : 
  forall (n : nans F32) (fused : bool) (a b : F F32), safe_quotient a b ->
    close 8.5e-6 (neon_div n fused a b) (val a / val b).
Proof.
  intros n fused a b (Fa & (Fb & Bb) & B). apply neon_div_close; assumption.
Qed.

Lemma C67_reciprocal_accurate_lemma : 
  forall (n : nans F32) (fused : bool) (x : F F32), safe_divisor x -> close 8.4e-6 (neon_reciprocal n fused x) (/ val x).
Proof.
  intros n fused x (Fb & Bb). apply neon_recip_close; assumption.
Qed.

Lemma C67_fast_reciprocal_accurate_lemma : 
  forall (n : nans F32) (x : F F32), isfin x = true -> (bpow radix2 (-126) <= Rabs (val x) < bpow radix2 126)%R ->
    close (187 / 65536) (neon_fast_reciprocal n x) (/ val x).
Proof.
  intros n x F B. apply neon_fast_close; assumption.
Qed.

Lemma C67_not_more_accurate_refuted_lemma : 
  exists x : F F32, safe_divisor x /\ forall (n : nans F32) (fused : bool),
    ~ close 8.1e-6 (neon_reciprocal n fused x) (/ val x) /\ ~ close 2.85e-3 (neon_fast_reciprocal n x) (/ val x).
Proof.
  exists (f_lit F32 274 (-8)). split; [fite|]. intros n fused.
  assert (V : val (f_lit F32 274 (-8)) = (274 / 256)%R) by (rewrite (proj2 (lit32 274 (-8) ltac:(lia) ltac:(lia))); change (bpow radix2 (-8)) with (/ 256)%R; lra).
  assert (A1 : neon_reciprocal n fused (f_lit F32 274 (-8)) = f_lit F32 15674936 (-24)) by (apply bits_inj; destruct fused; vm_compute; reflexivity).
  assert (A2 : neon_fast_reciprocal n (f_lit F32 274 (-8)) = f_lit F32 15630336 (-24)) by (apply bits_inj; vm_compute; reflexivity).
  rewrite A1, A2, V. split; intros [_ H]; [rewrite (proj2 (lit32 15674936 (-24) ltac:(lia) ltac:(lia))) in H|rewrite (proj2 (lit32 15630336 (-24) ltac:(lia) ltac:(lia))) in H]; change (bpow radix2 (-24)) with (/ 16777216)%R in H;
    replace (/ (274 / 256))%R with (256 / 274)%R in H by field; rewrite (Rabs_pos_eq (256 / 274)) in H by lra; apply Rabs_le_inv in H; lra.
Qed.

Lemma C67_division_exact_refuted_lemma : 
  exists a b : F F32, safe_quotient a b /\ val a = 1%R /\ val b = 1%R /\ forall (n : nans F32) (fused : bool),
    (val (neon_div n fused a b) = 1 - 64 / 16777216)%R.
Proof.
  exists (f_lit F32 1 0), (f_lit F32 1 0). assert (V : val (f_lit F32 1 0) = 1%R) by (rewrite (proj2 (lit32 1 0 ltac:(lia) ltac:(lia))); change (bpow radix2 0) with 1%R; lra).
  split; [fite|]. split; [exact V|]. split; [exact V|]. intros n fused.
  assert (A : neon_div n fused (f_lit F32 1 0) (f_lit F32 1 0) = f_lit F32 16777152 (-24)) by (apply bits_inj; destruct fused; vm_compute; reflexivity).
  rewrite A, (proj2 (lit32 16777152 (-24) ltac:(lia) ltac:(lia))). change (bpow radix2 (-24)) with (/ 16777216)%R. lra.
Qed.

Lemma C67_small_divisor_lemma : 
  forall (n : nans F32) (fused : bool) (a b : F F32), isnan a = false -> ~ tiny a -> tiny b ->
    neon_div n fused a b = B754_infinity 24 128 (xorb (sgn a) (sgn b)).
Proof.
  intros n fused a b H1 H2 H3. apply div_tiny; assumption.
Qed.

Lemma C67_large_divisor_lemma : 
  forall (n : nans F32) (fused : bool) (a b : F F32), isfin a = true -> huge b ->
    neon_div n fused a b = B754_zero 24 128 (xorb (sgn a) (sgn b)).
Proof.
  intros n fused a b H1 H2. apply div_huge; assumption.
Qed.

Lemma C67_self_quotient_refuted_lemma : 
  exists x : F F32, isfin x = true /\ (0 < val x)%R /\ forall (n : nans F32) (fused : bool), neon_div n fused x x = f_ofZ F32 0.
Proof.
  exists (f_lit F32 8388608 103). assert (E : val (f_lit F32 8388608 103) = bpow radix2 126).
  { transitivity (IZR 8388608 * bpow radix2 103)%R; [apply (f_lit_exact (t := F32) 8388608 103); [cbv; discriminate|cbv; discriminate|reflexivity]|].
    change (IZR 8388608) with (bpow radix2 23). rewrite <- bpow_plus. reflexivity. }
  split; [reflexivity|]. split; [rewrite E; apply bpow_gt_0|]. intros n fused. rewrite div_huge; [reflexivity|reflexivity|].
  split; [reflexivity|]. intros _. rewrite E, Rabs_pos_eq by apply bpow_ge_0. lra.
Qed.

Lemma C67_indeterminate_lemma : 
  forall (n : nans F32) (fused : bool) (a b : F F32), (is_zero a /\ is_zero b) \/ (is_inf a /\ is_inf b) -> isnan (neon_div n fused a b) = true.
Proof.
  intros n fused a b H. apply div_nan. unfold is_zero, is_inf in H. tauto.
Qed.

Lemma C67_sqrt_accurate_lemma : 
  forall (n : nans F32) (x : F F32), normal_positive x -> close 3.3e-3 (neon_sqrt n x) (sqrt (val x)).
Proof.
  intros n x H. apply neon_sqrt_close. exact H.
Qed.

Lemma C67_sqrt_not_more_accurate_refuted_lemma : 
  exists x : F F32, normal_positive x /\ forall n : nans F32, ~ close 3.27e-3 (neon_sqrt n x) (sqrt (val x)).
Proof.
  exists (f_lit F32 8781823 (-22)). split; [fitm|]. intros n.
  assert (V : val (f_lit F32 8781823 (-22)) = (8781823 / 4194304)%R) by (rewrite (proj2 (lit32 8781823 (-22) ltac:(lia) ltac:(lia))); change (bpow radix2 (-22)) with (/ 4194304)%R; lra).
  assert (A : neon_sqrt n (f_lit F32 8781823 (-22)) = f_lit F32 12177919 (-23)) by (apply bits_inj; vm_compute; reflexivity).
  rewrite A, V. intros [_ H]. rewrite (proj2 (lit32 12177919 (-23) ltac:(lia) ltac:(lia))) in H. change (bpow radix2 (-23)) with (/ 8388608)%R in H.
  pose proof (sqrt_pos (8781823 / 4194304)) as SP. assert (SS : (sqrt (8781823 / 4194304) * sqrt (8781823 / 4194304) = 8781823 / 4194304)%R) by (apply sqrt_sqrt; lra).
  set (s := sqrt (8781823 / 4194304)) in *. clearbody s. rewrite (Rabs_pos_eq s) in H by lra. apply Rabs_le_inv in H.
  assert (L : (IZR 12177919 * / 8388608 <= 1.00327 * s)%R) by lra.
  assert (L2 : (1.446985 <= s)%R) by lra. assert (M : (1.446985 * 1.446985 <= s * s)%R) by (apply Rmult_le_compat; lra). lra.
Qed.

Lemma C67_sqrt_exact_refuted_lemma : 
  exists x : F F32, val x = 4%R /\ forall n : nans F32, val (neon_sqrt n x) = (511 / 256)%R.
Proof.
  exists (f_lit F32 4 0). split; [rewrite (proj2 (lit32 4 0 ltac:(lia) ltac:(lia))); change (bpow radix2 0) with 1%R; lra|]. intros n.
  assert (A : neon_sqrt n (f_lit F32 4 0) = f_lit F32 511 (-8)) by (apply bits_inj; vm_compute; reflexivity).
  rewrite A, (proj2 (lit32 511 (-8) ltac:(lia) ltac:(lia))). change (bpow radix2 (-8)) with (/ 256)%R. lra.
Qed.

Lemma C67_signed_sqrt_accurate_lemma : 
  forall (n : nans F32) (c : cfg) (x : F F32), isfin x = true -> ~ tiny x ->
    close 3.3e-3 (neon_signed_sqrt n c x) ((if sgn x then -1 else 1) * sqrt (Rabs (val x))).
Proof.
  intros n c x H1 H2. apply signed_sqrt_close; assumption.
Qed.

Lemma C67_sqrt_of_zero_and_infinity_lemma : 
  forall (n : nans F32) (c : cfg) (x : F F32), is_zero x \/ is_inf x ->
    isnan (neon_signed_sqrt n c x) = true /\ (sgn x = false -> isnan (neon_sqrt n x) = true).
Proof.
  intros n c x H. split; [apply signed_sqrt_nan; exact H|]. intros S. destruct H as [[H1 H2]|[H1 H2]]; [apply sqrt_zero; assumption|].
  destruct x; try discriminate H1; try discriminate H2. cbn in S. subst s. apply sqrt_inf.
Qed.

Lemma C67_over_vec_simd_lemma : 
  forall (n : nans F32) (fused : bool) (m : mem (F F32)) (out inp1 inp2 len : Z), binary_fit NEON32 m out inp1 inp2 len ->
    computes2 (fun a b r => safe_quotient a b -> close 8.5e-6 r (val a / val b)) m (neon_over_vec_simd n fused m out (APtr inp1) (APtr inp2) len) out inp1 inp2 len.
Proof.
  intros n fused m out i1 i2 len H. apply (computes_binary n NEON32 (neon_div n fused) (fun _ _ => True)); [|exact H|intros; exact Logic.I].
  intros a b _ SQ. apply C67_division_accurate_lemma. exact SQ.
Qed.

Lemma C67_reciprocal_vec_simd_lemma : 
  forall (n : nans F32) (fused : bool) (m : mem (F F32)) (out inp len : Z), unary_fit NEON32 m out inp len ->
    computes (fun x r => safe_divisor x -> close 8.4e-6 r (/ val x)) m (neon_reciprocal_vec_simd n fused m out inp len) out inp len.
Proof.
  intros n fused m out i len H. apply (computes_unary n NEON32 (neon_reciprocal n fused) (fun _ => True)); [|exact H|intros ? ? ? ?; exact Logic.I].
  intros x _ SQ. apply C67_reciprocal_accurate_lemma. exact SQ.
Qed.

Lemma C67_signed_sqrt_vec_simd_lemma : 
  forall (n : nans F32) (c : cfg) (m : mem (F F32)) (out inp len : Z), unary_fit NEON32 m out inp len ->
    computes (fun x r => (isfin x = true -> ~ tiny x -> close 3.3e-3 r ((if sgn x then -1 else 1) * sqrt (Rabs (val x)))) /\
      (is_zero x \/ is_inf x -> isnan r = true)) m (neon_signed_sqrt_vec_simd n c m out inp len) out inp len.
Proof.
  intros n c m out i len H. apply (computes_unary n NEON32 (neon_signed_sqrt n c) (fun _ => True)); [|exact H|intros ? ? ? ?; exact Logic.I].
  intros x _. split; [apply C67_signed_sqrt_accurate_lemma|]. intros Z. apply (C67_sqrt_of_zero_and_infinity_lemma n c x Z).
Qed.

Lemma C68_division_accurate_lemma : 
  forall (n : nans F32) (c : cfg) (vec_re : F F32 -> F F32) (a b : F F32), re_spec vec_re -> safe_quotient a b ->
    close 2.6e-7 (altivec_div n vec_re c a b) (val a / val b).
Proof.
  intros n c re a b S H. apply alti_div_close; assumption.
Qed.

Lemma C68_reciprocal_accurate_lemma : 
  forall (n : nans F32) (c : cfg) (vec_re : F F32 -> F F32) (x : F F32), re_spec vec_re -> safe_divisor x -> close 1.6e-7 (altivec_reciprocal n vec_re c x) (/ val x).
Proof.
  intros n c re x S H. apply alti_recip_close; assumption.
Qed.

Lemma C68_sqrt_accurate_lemma : 
  forall (n : nans F32) (c : cfg) (vec_rsqrte : F F32 -> F F32) (x : F F32), rsqrte_spec vec_rsqrte -> normal_positive x -> (val x <= bpow radix2 125)%R ->
    close 3e-7 (altivec_sqrt n vec_rsqrte c x) (sqrt (val x)).
Proof.
  intros n c rs x S H B. apply alti_sqrt_close; assumption.
Qed.

Lemma C68_division_by_zero_and_infinity_lemma : 
  forall (n : nans F32) (c : cfg) (vec_re : F F32 -> F F32) (a b : F F32), re_spec vec_re -> is_zero b \/ is_inf b ->
    isnan (altivec_reciprocal n vec_re c b) = true /\ isnan (altivec_div n vec_re c a b) = true.
Proof.
  intros n c re a b S H. split; [apply alti_recip_nan; assumption|apply alti_div_nan; assumption].
Qed.

Lemma C68_sqrt_of_zero_and_infinity_lemma : 
  forall (n : nans F32) (c : cfg) (vec_rsqrte : F F32 -> F F32) (x : F F32), rsqrte_spec vec_rsqrte -> is_zero x \/ (is_inf x /\ sgn x = false) ->
    isnan (altivec_sqrt n vec_rsqrte c x) = true.
Proof.
  intros n c rs x S H. apply alti_sqrt_nan; assumption.
Qed.

Lemma C68_over_vec_simd_lemma : 
  forall (n : nans F32) (c : cfg) (vec_re : F F32 -> F F32) (m : mem (F F32)) (out inp1 inp2 len : Z), re_spec vec_re -> binary_fit ALTIVEC32 m out inp1 inp2 len ->
    computes2 (fun a b r => (safe_quotient a b -> close 2.6e-7 r (val a / val b)) /\ (is_zero b \/ is_inf b -> isnan r = true))
      m (altivec_over_vec_simd n vec_re c m out (APtr inp1) (APtr inp2) len) out inp1 inp2 len.
Proof.
  intros n c re m out i1 i2 len S H. apply (computes_binary n ALTIVEC32 (altivec_div n re c) (fun _ _ => True)); [|exact H|intros; exact Logic.I].
  intros a b _. split; intros SQ; [apply C68_division_accurate_lemma; assumption|apply C68_division_by_zero_and_infinity_lemma; assumption].
Qed.

Lemma C68_reciprocal_vec_simd_lemma : 
  forall (n : nans F32) (c : cfg) (vec_re : F F32 -> F F32) (m : mem (F F32)) (out inp len : Z), re_spec vec_re -> unary_fit ALTIVEC32 m out inp len ->
    computes (fun x r => (safe_divisor x -> close 1.6e-7 r (/ val x)) /\ (is_zero x \/ is_inf x -> isnan r = true))
      m (altivec_reciprocal_vec_simd n vec_re c m out inp len) out inp len.
Proof.
  intros n c re m out i len S H. apply (computes_unary n ALTIVEC32 (altivec_reciprocal n re c) (fun _ => True)); [|exact H|intros ? ? ? ?; exact Logic.I].
  intros x _. split; intros SQ; [apply C68_reciprocal_accurate_lemma; assumption|apply (C68_division_by_zero_and_infinity_lemma n c re x x S SQ)].
Qed.
