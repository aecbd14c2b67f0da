(** Proofs of the statements of Prop_Parts.v. *)
From Coq Require Import ZArith Reals List Lia Bool Lra.
From Flocq Require Import Core IEEE754.Binary IEEE754.Bits.
From Verif Require Import
  Base Mem Backend Args Drivers Functors Lanes Float LaneOps FloatOps VecMath FloatFuns Spec SpecLane SpecAgree SpecAlike SpecSwap SpecChain SpecGain SpecRound SpecKeep SpecParts
  FloatFacts LaneFacts FloatRound RoundFacts ScalarMath VecFacts VecMore VecMore2 KeepFacts MemClaims LaneClaims AgreeFacts AlikeFacts ExData ExFloat ExMath SwapFacts ChainFacts PartsFacts.
Import ListNotations.
Local Open Scope Z_scope.

Lemma C91_sgn_abs_vec_lemma : 
  forall (B : backend) (n : nans (fmt_of B)) (m : mem (F (fmt_of B))) (out tmp p : Z) (len : Z),
    call_fits m out len [APtr p] -> call_fits m tmp len [APtr p] -> clear_of (A := F (fmt_of B)) out len (APtr p) -> clear_of (A := F (fmt_of B)) out len (APtr tmp) -> samples (farith n) number m (APtr p) len -> 
    gives_back equal_numbers (farith n) m (APtr p)
      [fun m => sgn_vec B m out p len;
       fun m => abs_vec B m tmp p len;
       fun m => times_vec (farith n) (fops_scalar n) m out (APtr out) (APtr tmp) len] out len.
Proof.
  intros B n m out tmp p  len H1 H2 K0 K1 K2. fits H1. fits H2.
  assert (arg_fit m out len (APtr tmp)) by apart. assert (arg_fit m out len (APtr out)) by apart.
  edestruct (turn_cons m (fun m => sgn_vec B m out p len) [fun m => abs_vec B m tmp p len; fun m => times_vec (farith n) (fops_scalar n) m out (APtr out) (APtr tmp) len]) as (m1 & L1 & E1); [cbv beta; apply (unary_leaves (farith n)); fitc|].
  assert (accessible m1 out len) by refit L1.
  assert (accessible m1 tmp len) by refit L1.
  assert (arg_fit m1 tmp len (APtr p)) by refit L1.
  assert (arg_fit m1 out len (APtr out)) by refit L1.
  assert (arg_fit m1 out len (APtr tmp)) by refit L1.
  edestruct (turn_cons m1 (fun m => abs_vec B m tmp p len) [fun m => times_vec (farith n) (fops_scalar n) m out (APtr out) (APtr tmp) len]) as (m2 & L2 & E2); [cbv beta; apply (unary_leaves (farith n)); fitc|].
  eapply gives_last; [rewrite E1; exact E2|cbv beta; apply C18_times_vec_lemma; refit L2|].
  back n L1 L2. unfold equal_numbers; rewrite feq_sym; exact (sgn_abs n all_ext GEN _ K).
Qed.

Lemma C91_sgn_abs_vec_simd_lemma : 
  forall (c : cfg) (B : backend) (n : nans (fmt_of B)) (m : mem (F (fmt_of B))) (out tmp p : Z) (len : Z),
    simd_call_fits B m out len [APtr p] -> simd_call_fits B m tmp len [APtr p] -> clear_of (A := F (fmt_of B)) out len (APtr p) -> clear_of (A := F (fmt_of B)) out len (APtr tmp) -> samples (farith n) number m (APtr p) len -> 
    gives_back equal_numbers (farith n) m (APtr p)
      [fun m => sgn_vec_simd c B n m out p len;
       fun m => abs_vec_simd c B n m tmp p len;
       fun m => times_vec_simd (farith n) (fops c B n) B m out (APtr out) (APtr tmp) len] out len.
Proof.
  intros c B n m out tmp p  len H1 H2 K0 K1 K2. fits_simd H1. fits_simd H2.
  assert (simd_fit B m out len (APtr tmp)) by apart. assert (simd_fit B m out len (APtr out)) by apart.
  edestruct (turn_cons m (fun m => sgn_vec_simd c B n m out p len) [fun m => abs_vec_simd c B n m tmp p len; fun m => times_vec_simd (farith n) (fops c B n) B m out (APtr out) (APtr tmp) len]) as (m1 & L1 & E1); [cbv beta; apply unary_simd_leaves; fitc|].
  assert (accessible m1 out len) by refit L1.
  assert (accessible m1 tmp len) by refit L1.
  assert (simd_fit B m1 tmp len (APtr p)) by refit L1.
  assert (simd_fit B m1 out len (APtr out)) by refit L1.
  assert (simd_fit B m1 out len (APtr tmp)) by refit L1.
  edestruct (turn_cons m1 (fun m => abs_vec_simd c B n m tmp p len) [fun m => times_vec_simd (farith n) (fops c B n) B m out (APtr out) (APtr tmp) len]) as (m2 & L2 & E2); [cbv beta; apply unary_simd_leaves; fitc|].
  eapply gives_last; [rewrite E1; exact E2|cbv beta; apply C18_times_vec_simd_lemma; refit L2|].
  back n L1 L2. unfold equal_numbers; rewrite feq_sym; apply sgn_abs; exact K.
Qed.

Lemma C91_floor_frac_vec_lemma : 
  forall (B : backend) (n : nans (fmt_of B)) (m : mem (F (fmt_of B))) (out tmp p : Z) (len : Z),
    call_fits m out len [APtr p] -> call_fits m tmp len [APtr p] -> clear_of (A := F (fmt_of B)) out len (APtr p) -> clear_of (A := F (fmt_of B)) out len (APtr tmp) -> samples (farith n) not_slightly_negative m (APtr p) len -> 
    gives_back equal_numbers (farith n) m (APtr p)
      [fun m => floor_vec B n m out p len;
       fun m => frac_vec B n m tmp p len;
       fun m => plus_vec (farith n) (fops_scalar n) m out (APtr out) (APtr tmp) len] out len.
Proof.
  intros B n m out tmp p  len H1 H2 K0 K1 K2. fits H1. fits H2.
  assert (arg_fit m out len (APtr tmp)) by apart. assert (arg_fit m out len (APtr out)) by apart.
  edestruct (turn_cons m (fun m => floor_vec B n m out p len) [fun m => frac_vec B n m tmp p len; fun m => plus_vec (farith n) (fops_scalar n) m out (APtr out) (APtr tmp) len]) as (m1 & L1 & E1); [cbv beta; apply (unary_leaves (farith n)); fitc|].
  assert (accessible m1 out len) by refit L1.
  assert (accessible m1 tmp len) by refit L1.
  assert (arg_fit m1 tmp len (APtr p)) by refit L1.
  assert (arg_fit m1 out len (APtr out)) by refit L1.
  assert (arg_fit m1 out len (APtr tmp)) by refit L1.
  edestruct (turn_cons m1 (fun m => frac_vec B n m tmp p len) [fun m => plus_vec (farith n) (fops_scalar n) m out (APtr out) (APtr tmp) len]) as (m2 & L2 & E2); [cbv beta; apply (unary_leaves (farith n)); fitc|].
  eapply gives_last; [rewrite E1; exact E2|cbv beta; apply C18_plus_vec_lemma; refit L2|].
  back n L1 L2. unfold equal_numbers; rewrite feq_sym; apply floor_frac; exact K.
Qed.

Lemma C91_floor_frac_vec_simd_lemma : 
  forall (c : cfg) (B : backend) (n : nans (fmt_of B)) (m : mem (F (fmt_of B))) (out tmp p : Z) (len : Z),
    simd_call_fits B m out len [APtr p] -> simd_call_fits B m tmp len [APtr p] -> clear_of (A := F (fmt_of B)) out len (APtr p) -> clear_of (A := F (fmt_of B)) out len (APtr tmp) -> samples (farith n) (fun x => not_slightly_negative x /\ (magic_floor c B -> within_2_23 x)) m (APtr p) len -> 
    gives_back equal_numbers (farith n) m (APtr p)
      [fun m => floor_vec_simd c B n m out p len;
       fun m => frac_vec_simd c B n m tmp p len;
       fun m => plus_vec_simd (farith n) (fops c B n) B m out (APtr out) (APtr tmp) len] out len.
Proof.
  intros c B n m out tmp p  len H1 H2 K0 K1 K2. fits_simd H1. fits_simd H2.
  assert (simd_fit B m out len (APtr tmp)) by apart. assert (simd_fit B m out len (APtr out)) by apart.
  edestruct (turn_cons m (fun m => floor_vec_simd c B n m out p len) [fun m => frac_vec_simd c B n m tmp p len; fun m => plus_vec_simd (farith n) (fops c B n) B m out (APtr out) (APtr tmp) len]) as (m1 & L1 & E1); [cbv beta; apply unary_simd_leaves; fitc|].
  assert (accessible m1 out len) by refit L1.
  assert (accessible m1 tmp len) by refit L1.
  assert (simd_fit B m1 tmp len (APtr p)) by refit L1.
  assert (simd_fit B m1 out len (APtr out)) by refit L1.
  assert (simd_fit B m1 out len (APtr tmp)) by refit L1.
  edestruct (turn_cons m1 (fun m => frac_vec_simd c B n m tmp p len) [fun m => plus_vec_simd (farith n) (fops c B n) B m out (APtr out) (APtr tmp) len]) as (m2 & L2 & E2); [cbv beta; apply unary_simd_leaves; fitc|].
  eapply gives_last; [rewrite E1; exact E2|cbv beta; apply C18_plus_vec_simd_lemma; refit L2|].
  back n L1 L2. unfold equal_numbers; rewrite feq_sym; destruct K as [K K8]; apply floor_frac_simd; assumption.
Qed.

Lemma C91_ceil_floor_vec_lemma : 
  forall (B : backend) (n : nans (fmt_of B)) (m : mem (F (fmt_of B))) (out p : Z) (len : Z),
    call_fits m out len [APtr p] -> samples (farith n) number m (APtr p) len -> 
    same_in_turn equal_numbers m (ceil_vec B n m out p len)
      [fun m => minus_vec (farith n) (fops_scalar n) m out (AScal (f_ofZ (fmt_of B) 0)) (APtr p) len;
       fun m => floor_vec B n m out out len;
       fun m => minus_vec (farith n) (fops_scalar n) m out (AScal (f_ofZ (fmt_of B) 0)) (APtr out) len] out len.
Proof.
  intros B n m out p  len H1 K0. fits H1.
  assert (arg_fit m out len (APtr out)) by apart.
  edestruct (turn_cons m (fun m => minus_vec (farith n) (fops_scalar n) m out (AScal (f_ofZ (fmt_of B) 0)) (APtr p) len) [fun m => floor_vec B n m out out len; fun m => minus_vec (farith n) (fops_scalar n) m out (AScal (f_ofZ (fmt_of B) 0)) (APtr out) len]) as (m1 & L1 & E1); [cbv beta; apply C18_minus_vec_lemma; fitc|].
  assert (accessible m1 out len) by refit L1.
  assert (arg_fit m1 out len (APtr out)) by refit L1.
  edestruct (turn_cons m1 (fun m => floor_vec B n m out out len) [fun m => minus_vec (farith n) (fops_scalar n) m out (AScal (f_ofZ (fmt_of B) 0)) (APtr out) len]) as (m2 & L2 & E2); [cbv beta; apply (unary_leaves (farith n)); fitc|].
  eapply same_last; [apply (unary_leaves (farith n)); fitc|rewrite E1; exact E2|cbv beta; apply C18_minus_vec_lemma; refit L2|].
  turns n L1 L2. apply ceil_floor; exact K.
Qed.

Lemma C91_ceil_floor_vec_simd_lemma : 
  forall (c : cfg) (B : backend) (n : nans (fmt_of B)) (m : mem (F (fmt_of B))) (out p : Z) (len : Z),
    simd_call_fits B m out len [APtr p] -> samples (farith n) (roundable (magic_floor c B)) m (APtr p) len -> 
    same_in_turn equal_numbers m (ceil_vec_simd c B n m out p len)
      [fun m => minus_vec_simd (farith n) (fops c B n) B m out (AScal (f_ofZ (fmt_of B) 0)) (APtr p) len;
       fun m => floor_vec_simd c B n m out out len;
       fun m => minus_vec_simd (farith n) (fops c B n) B m out (AScal (f_ofZ (fmt_of B) 0)) (APtr out) len] out len.
Proof.
  intros c B n m out p  len H1 K0. fits_simd H1.
  assert (simd_fit B m out len (APtr out)) by apart.
  edestruct (turn_cons m (fun m => minus_vec_simd (farith n) (fops c B n) B m out (AScal (f_ofZ (fmt_of B) 0)) (APtr p) len) [fun m => floor_vec_simd c B n m out out len; fun m => minus_vec_simd (farith n) (fops c B n) B m out (AScal (f_ofZ (fmt_of B) 0)) (APtr out) len]) as (m1 & L1 & E1); [cbv beta; apply C18_minus_vec_simd_lemma; fitc|].
  assert (accessible m1 out len) by refit L1.
  assert (simd_fit B m1 out len (APtr out)) by refit L1.
  edestruct (turn_cons m1 (fun m => floor_vec_simd c B n m out out len) [fun m => minus_vec_simd (farith n) (fops c B n) B m out (AScal (f_ofZ (fmt_of B) 0)) (APtr out) len]) as (m2 & L2 & E2); [cbv beta; apply unary_simd_leaves; fitc|].
  eapply same_last; [apply unary_simd_leaves; fitc|rewrite E1; exact E2|cbv beta; apply C18_minus_vec_simd_lemma; refit L2|].
  turns n L1 L2. apply ceil_floor_simd; exact K.
Qed.

Lemma C91_min_max_vec_lemma : 
  forall (t : fmt) (n : nans t) (m : mem (F t)) (out tmp : Z) (a1 a2 : arg (F t)) (len : Z),
    call_fits m out len [a1; a2] -> call_fits m tmp len [a1; a2] -> clear_of (A := F t) out len a1 -> clear_of (A := F t) out len a2 -> clear_of (A := F t) out len (APtr tmp) -> samples (farith n) finite m a1 len -> samples (farith n) finite m a2 len -> 
    same_in_turn equal_numbers m (plus_vec (farith n) (fops_scalar n) m out a1 a2 len)
      [fun m => min_vec (farith n) (fops_scalar n) m out a1 a2 len;
       fun m => max_vec (farith n) (fops_scalar n) m tmp a1 a2 len;
       fun m => plus_vec (farith n) (fops_scalar n) m out (APtr out) (APtr tmp) len] out len.
Proof.
  intros t n m out tmp a1 a2 len H1 H2 K0 K1 K2 K3 K4. fits H1. fits H2.
  assert (arg_fit m out len (APtr tmp)) by apart. assert (arg_fit m out len (APtr out)) by apart.
  edestruct (turn_cons m (fun m => min_vec (farith n) (fops_scalar n) m out a1 a2 len) [fun m => max_vec (farith n) (fops_scalar n) m tmp a1 a2 len; fun m => plus_vec (farith n) (fops_scalar n) m out (APtr out) (APtr tmp) len]) as (m1 & L1 & E1); [cbv beta; apply C18_min_vec_lemma; fitc|].
  assert (accessible m1 out len) by refit L1.
  assert (accessible m1 tmp len) by refit L1.
  assert (arg_fit m1 tmp len a1) by refit L1.
  assert (arg_fit m1 tmp len a2) by refit L1.
  assert (arg_fit m1 out len (APtr out)) by refit L1.
  assert (arg_fit m1 out len (APtr tmp)) by refit L1.
  edestruct (turn_cons m1 (fun m => max_vec (farith n) (fops_scalar n) m tmp a1 a2 len) [fun m => plus_vec (farith n) (fops_scalar n) m out (APtr out) (APtr tmp) len]) as (m2 & L2 & E2); [cbv beta; apply C18_max_vec_lemma; fitc|].
  eapply same_last; [apply C18_plus_vec_lemma; fitc|rewrite E1; exact E2|cbv beta; apply C18_plus_vec_lemma; refit L2|].
  turns n L1 L2. apply (min_plus_max n GEN); assumption.
Qed.

Lemma C91_min_max_vec_simd_lemma : 
  forall (c : cfg) (B : backend) (n : nans (fmt_of B)) (m : mem (F (fmt_of B))) (out tmp : Z) (a1 a2 : arg (F (fmt_of B))) (len : Z),
    simd_call_fits B m out len [a1; a2] -> simd_call_fits B m tmp len [a1; a2] -> clear_of (A := F (fmt_of B)) out len a1 -> clear_of (A := F (fmt_of B)) out len a2 -> clear_of (A := F (fmt_of B)) out len (APtr tmp) -> samples (farith n) finite m a1 len -> samples (farith n) finite m a2 len -> 
    same_in_turn equal_numbers m (plus_vec_simd (farith n) (fops c B n) B m out a1 a2 len)
      [fun m => min_vec_simd (farith n) (fops c B n) B m out a1 a2 len;
       fun m => max_vec_simd (farith n) (fops c B n) B m tmp a1 a2 len;
       fun m => plus_vec_simd (farith n) (fops c B n) B m out (APtr out) (APtr tmp) len] out len.
Proof.
  intros c B n m out tmp a1 a2 len H1 H2 K0 K1 K2 K3 K4. fits_simd H1. fits_simd H2.
  assert (simd_fit B m out len (APtr tmp)) by apart. assert (simd_fit B m out len (APtr out)) by apart.
  edestruct (turn_cons m (fun m => min_vec_simd (farith n) (fops c B n) B m out a1 a2 len) [fun m => max_vec_simd (farith n) (fops c B n) B m tmp a1 a2 len; fun m => plus_vec_simd (farith n) (fops c B n) B m out (APtr out) (APtr tmp) len]) as (m1 & L1 & E1); [cbv beta; apply C18_min_vec_simd_lemma; fitc|].
  assert (accessible m1 out len) by refit L1.
  assert (accessible m1 tmp len) by refit L1.
  assert (simd_fit B m1 tmp len a1) by refit L1.
  assert (simd_fit B m1 tmp len a2) by refit L1.
  assert (simd_fit B m1 out len (APtr out)) by refit L1.
  assert (simd_fit B m1 out len (APtr tmp)) by refit L1.
  edestruct (turn_cons m1 (fun m => max_vec_simd (farith n) (fops c B n) B m tmp a1 a2 len) [fun m => plus_vec_simd (farith n) (fops c B n) B m out (APtr out) (APtr tmp) len]) as (m2 & L2 & E2); [cbv beta; apply C18_max_vec_simd_lemma; fitc|].
  eapply same_last; [apply C18_plus_vec_simd_lemma; fitc|rewrite E1; exact E2|cbv beta; apply C18_plus_vec_simd_lemma; refit L2|].
  turns n L1 L2. apply min_plus_max; assumption.
Qed.

Lemma C91_difference_vec_lemma : 
  forall (t : fmt) (n : nans t) (m : mem (F t)) (out : Z) (a1 a2 : arg (F t)) (len : Z),
    call_fits m out len [a1; a2] -> clear_of out len a2 -> neighbours (farith n) m a1 a2 len ->
    gives_back equal_numbers (farith n) m a1 [fun m => minus_vec (farith n) (fops_scalar n) m out a1 a2 len; fun m => plus_vec (farith n) (fops_scalar n) m out (APtr out) a2 len] out len.
Proof.
  intros t n m out a1 a2 len H1 K0 K1. fits H1. assert (arg_fit m out len (APtr out)) by apart.
  edestruct (turn_cons m (fun m => minus_vec (farith n) (fops_scalar n) m out a1 a2 len) [fun m => plus_vec (farith n) (fops_scalar n) m out (APtr out) a2 len]) as (m1 & L1 & E1); [cbv beta; apply C18_minus_vec_lemma; fitc|].
  eapply gives_last; [exact E1|cbv beta; apply C18_plus_vec_lemma; refit L1|].
  intros i Hi V. cbv beta in V |- *. rewrite (left_tmp (farith n) _ _ _ _ _ i L1) in V |- * by exact Hi. cbv beta in V |- *. rewrite (left_sample (farith n) _ _ _ _ _ a2 i L1) in V |- * by assumption.
  destruct (sample (farith n) m a1 i) as [x|] eqn:Ex, (sample (farith n) m a2 i) as [y|] eqn:Ey; cbn [lift2] in V |- *; try congruence.
  exists x. eexists. split; [reflexivity|]. split; [reflexivity|]. destruct (K1 i x y Hi Ex Ey) as (D1 & D2 & D3). exact (sterbenz_back n x y D1 D2 D3).
Qed.

Lemma C91_difference_vec_simd_lemma : 
  forall (c : cfg) (B : backend) (n : nans (fmt_of B)) (m : mem (F (fmt_of B))) (out : Z) (a1 a2 : arg (F (fmt_of B))) (len : Z),
    simd_call_fits B m out len [a1; a2] -> clear_of out len a2 -> neighbours (farith n) m a1 a2 len ->
    gives_back equal_numbers (farith n) m a1 [fun m => minus_vec_simd (farith n) (fops c B n) B m out a1 a2 len; fun m => plus_vec_simd (farith n) (fops c B n) B m out (APtr out) a2 len] out len.
Proof.
  intros c B n m out a1 a2 len H1 K0 K1. fits_simd H1. assert (simd_fit B m out len (APtr out)) by apart.
  edestruct (turn_cons m (fun m => minus_vec_simd (farith n) (fops c B n) B m out a1 a2 len) [fun m => plus_vec_simd (farith n) (fops c B n) B m out (APtr out) a2 len]) as (m1 & L1 & E1); [cbv beta; apply C18_minus_vec_simd_lemma; fitc|].
  eapply gives_last; [exact E1|cbv beta; apply C18_plus_vec_simd_lemma; refit L1|].
  intros i Hi V. cbv beta in V |- *. rewrite (left_tmp (farith n) _ _ _ _ _ i L1) in V |- * by exact Hi. cbv beta in V |- *. rewrite (left_sample (farith n) _ _ _ _ _ a2 i L1) in V |- * by assumption.
  destruct (sample (farith n) m a1 i) as [x|] eqn:Ex, (sample (farith n) m a2 i) as [y|] eqn:Ey; cbn [lift2] in V |- *; try congruence.
  exists x. eexists. split; [reflexivity|]. split; [reflexivity|]. destruct (K1 i x y Hi Ex Ey) as (D1 & D2 & D3). exact (sterbenz_back n x y D1 D2 D3).
Qed.

Lemma C91_square_root_vec_lemma : 
  forall (B : backend) (n : nans (fmt_of B)) (m : mem (F (fmt_of B))) (out tmp p len : Z), 
    call_fits m out len [APtr p] -> call_fits m tmp len [APtr p] -> arg_fit m out len (APtr tmp) ->
    samples (farith n) squarable m (APtr p) len ->
    same_in_steps same_bits (abs_vec B m out p len) (square_vec B n m tmp p len) (fun m2 => signed_sqrt_vec B n m2 out tmp len) out len.
Proof.
  intros B n m out tmp p len H1 H2 H3 K. fits H1. fits H2.
  eapply steps_of_leaves; [apply (unary_leaves (farith n)); fitc|apply (unary_leaves (farith n)); fitc|]. intros m2 L. eexists. split; [apply (unary_leaves (farith n)); refit L|].
  intros i u v Hi U V. cbv beta in U, V. change (m2 (tmp + i)) with (sample (farith n) m2 (APtr tmp) i) in V. rewrite (left_tmp (farith n) _ _ _ _ _ i L) in V by exact Hi. cbv beta in V.
  destruct (m (p + i)) as [x|] eqn:Ex; [|discriminate U]. cbn [lift1] in U, V. injection U as <-. injection V as <-. pose proof (K i x Hi Ex) as Sx. unfold same_bits.
  exact (proj2 (sqrt_of_square n GEN x Sx)).
Qed.

Lemma C91_square_root_vec_simd_lemma : 
  forall (c : cfg) (B : backend) (n : nans (fmt_of B)) (m : mem (F (fmt_of B))) (out tmp p len : Z), isa_of B <> NEON -> 
    simd_call_fits B m out len [APtr p] -> simd_call_fits B m tmp len [APtr p] -> simd_fit B m out len (APtr tmp) ->
    samples (farith n) squarable m (APtr p) len ->
    same_in_steps same_bits (abs_vec_simd c B n m out p len) (square_vec_simd B n m tmp p len) (fun m2 => signed_sqrt_vec_simd c B n m2 out tmp len) out len.
Proof.
  intros c B n m out tmp p len HB H1 H2 H3 K. fits_simd H1. fits_simd H2.
  eapply steps_of_leaves; [apply unary_simd_leaves; fitc|apply unary_simd_leaves; fitc|]. intros m2 L. eexists. split; [apply unary_simd_leaves; refit L|].
  intros i u v Hi U V. cbv beta in U, V. change (m2 (tmp + i)) with (sample (farith n) m2 (APtr tmp) i) in V. rewrite (left_tmp (farith n) _ _ _ _ _ i L) in V by exact Hi. cbv beta in V.
  destruct (m (p + i)) as [x|] eqn:Ex; [|discriminate U]. cbn [lift1] in U, V. injection U as <-. injection V as <-. pose proof (K i x Hi Ex) as Sx. unfold same_bits.
  rewrite vabs_fabs. destruct (sqrt_of_square n (isa_of B) x Sx) as [N E]. unfold vsquare. rewrite C37_lane_equals_scalar_lemma by assumption. exact E.
Qed.

Lemma C91_minus_self_vec_lemma : 
  forall (t : fmt) (n : nans t) (m : mem (F t)) (out : Z) (a : arg (F t)) (len : Z), 
    call_fits m out len [a] -> samples (farith n) finite m a len ->
    leaves m (minus_vec (farith n) (fops_scalar n) m out a a len) out len (fun _ => Some (f_ofZ t 0)).
Proof.
  intros t n m out a len H1 K. fits H1.
  destruct (C18_minus_vec_lemma _ (farith n) (fops_scalar n) m out a a len) as (m' & E & W & W'); [fitc..|].
  exists m'. split; [exact E|]. split; [|exact W']. intros i Hi. split; [|discriminate]. destruct (W i Hi) as [W1 W2]. rewrite W1. cbv beta in W2 |- *.
  destruct (sample (farith n) m a i) as [x|] eqn:Ex; [|exfalso; apply W2; reflexivity]. pose proof (K i x Hi Ex) as Kx. cbn [lift2 o_sub o_div fops fops_scalar]. f_equal.
  exact (sub_self n x Kx).
Qed.

Lemma C91_minus_self_vec_simd_lemma : 
  forall (c : cfg) (B : backend) (n : nans (fmt_of B)) (m : mem (F (fmt_of B))) (out : Z) (a : arg (F (fmt_of B))) (len : Z), 
    simd_call_fits B m out len [a] -> samples (farith n) finite m a len ->
    leaves m (minus_vec_simd (farith n) (fops c B n) B m out a a len) out len (fun _ => Some (f_ofZ (fmt_of B) 0)).
Proof.
  intros c B n m out a len H1 K. fits_simd H1.
  destruct (C18_minus_vec_simd_lemma _ (farith n) (fops c B n) B m out a a len) as (m' & E & W & W'); [fitc..|].
  exists m'. split; [exact E|]. split; [|exact W']. intros i Hi. split; [|discriminate]. destruct (W i Hi) as [W1 W2]. rewrite W1. cbv beta in W2 |- *.
  destruct (sample (farith n) m a i) as [x|] eqn:Ex; [|exfalso; apply W2; reflexivity]. pose proof (K i x Hi Ex) as Kx. cbn [lift2 o_sub o_div fops fops_scalar]. f_equal.
  exact (sub_self n x Kx).
Qed.

Lemma C91_over_self_vec_lemma : 
  forall (t : fmt) (n : nans t) (m : mem (F t)) (out : Z) (a : arg (F t)) (len : Z), 
    call_fits m out len [a] -> samples (farith n) finite_nonzero m a len ->
    leaves m (over_vec (farith n) (fops_scalar n) m out a a len) out len (fun _ => Some (f_ofZ t 1)).
Proof.
  intros t n m out a len H1 K. fits H1.
  destruct (C18_over_vec_lemma _ (farith n) (fops_scalar n) m out a a len) as (m' & E & W & W'); [fitc..|].
  exists m'. split; [exact E|]. split; [|exact W']. intros i Hi. split; [|discriminate]. destruct (W i Hi) as [W1 W2]. rewrite W1. cbv beta in W2 |- *.
  destruct (sample (farith n) m a i) as [x|] eqn:Ex; [|exfalso; apply W2; reflexivity]. pose proof (K i x Hi Ex) as Kx. cbn [lift2 o_sub o_div fops fops_scalar]. f_equal.
  exact (div_self n x (proj1 Kx) (proj2 Kx)).
Qed.

Lemma C91_over_self_vec_simd_lemma : 
  forall (c : cfg) (B : backend) (n : nans (fmt_of B)) (m : mem (F (fmt_of B))) (out : Z) (a : arg (F (fmt_of B))) (len : Z), divides B = true -> 
    simd_call_fits B m out len [a] -> samples (farith n) finite_nonzero m a len ->
    leaves m (over_vec_simd (farith n) (fops c B n) B m out a a len) out len (fun _ => Some (f_ofZ (fmt_of B) 1)).
Proof.
  intros c B n m out a len HB H1 K. fits_simd H1.
  destruct (C18_over_vec_simd_lemma _ (farith n) (fops c B n) B m out a a len) as (m' & E & W & W'); [fitc..|].
  exists m'. split; [exact E|]. split; [|exact W']. intros i Hi. split; [|discriminate]. destruct (W i Hi) as [W1 W2]. rewrite W1. cbv beta in W2 |- *.
  destruct (sample (farith n) m a i) as [x|] eqn:Ex; [|exfalso; apply W2; reflexivity]. pose proof (K i x Hi Ex) as Kx. cbn [lift2 o_sub o_div fops fops_scalar]. f_equal.
  exact (div_self n x (proj1 Kx) (proj2 Kx)).
Qed.

Lemma C91_floor_frac_refuted_lemma : 
  forall (n : nans F32), exists (m : mem (F F32)) (out tmp p len : Z),
    call_fits m out len [APtr p] /\ call_fits m tmp len [APtr p] /\ clear_of (A := F F32) out len (APtr p) /\ clear_of (A := F F32) out len (APtr tmp) /\ samples (farith n) finite m (APtr p) len /\
    ~ gives_back equal_numbers (farith n) m (APtr p) [fun m => floor_vec SSE32 n m out p len; fun m => frac_vec SSE32 n m tmp p len;
       fun m => plus_vec (farith n) (fops_scalar n) m out (APtr out) (APtr tmp) len] out len.
Proof.
  intros n. set (x := f_lit F32 (-1) (-60)). set (m := block 0 48 (fun _ => x)). exists m, 0, 16, 32, 16.
  assert (H1 : call_fits m 0 16 [APtr 32]) by (unfold m; parts_tac). assert (H2 : call_fits m 16 16 [APtr 32]) by (unfold m; parts_tac).
  split; [exact H1|]. split; [exact H2|]. split; [cbn; lia|]. split; [cbn; lia|].
  assert (Sm : forall i, 0 <= i < 16 -> sample (farith n) m (APtr 32) i = Some x) by (intros i Hi; cbn [sample]; unfold m; rewrite block_in by lia; reflexivity).
  split; [intros i y Hi E; rewrite Sm in E by exact Hi; assert (y = x) as -> by congruence; reflexivity|].
  fits H1. fits H2. assert (T1 : arg_fit m 0 16 (APtr 16)) by (unfold m; parts_tac). assert (T2 : arg_fit m 0 16 (APtr 0)) by (unfold m; parts_tac).
  edestruct (turn_cons m (fun m => floor_vec SSE32 n m 0 32 16) [fun m => frac_vec SSE32 n m 16 32 16; fun m => plus_vec (farith n) (fops_scalar n) m 0 (APtr 0) (APtr 16) 16]) as (m1 & L1 & E1); [cbv beta; apply (unary_leaves (farith n)); fitc|].
  assert (accessible m1 0 16) by refit L1. assert (accessible m1 16 16) by refit L1. assert (arg_fit m1 16 16 (APtr 32)) by refit L1. assert (arg_fit m1 0 16 (APtr 16)) by refit L1. assert (arg_fit m1 0 16 (APtr 0)) by refit L1.
  edestruct (turn_cons m1 (fun m => frac_vec SSE32 n m 16 32 16) [fun m => plus_vec (farith n) (fops_scalar n) m 0 (APtr 0) (APtr 16) 16]) as (m2 & L2 & E2); [cbv beta; apply (unary_leaves (farith n)); fitc|].
  destruct (C18_plus_vec_lemma _ (farith n) (fops_scalar n) m2 0 (APtr 0) (APtr 16) 16) as (m3 & D & W & _); [refit L2..|].
  intros (m' & E & G). pose proof (eq_trans (eq_sym E) (eq_trans E1 E2)) as Q. cbn [in_turn] in Q. rewrite D in Q. cbn [bind] in Q. assert (m' = m3) as -> by congruence.
  assert (Hi : 0 <= 0 < 16) by lia. destruct (G 0 Hi) as (u & v & U & V & S). destruct (W 0 Hi) as [W1 _]. rewrite W1 in V. rewrite (Sm 0 Hi) in U. assert (u = x) as -> by congruence.
  revert V. set (i := 0) in *. change (0 <= i < 16) in Hi. clear - L1 L2 Hi Sm S. rd n L1 L2 i; [|discriminate]. intros V. rewrite (Sm i Hi) in E. assert (s = x) as -> by congruence.
  assert (Z : Some v = Some (fadd n (s_floor n x) (s_frac n x))) by (symmetry; exact V). assert (v = fadd n (s_floor n x) (s_frac n x)) as -> by congruence. clear - S. unfold equal_numbers in S. subst x. vm_compute in S. discriminate S.
Qed.
