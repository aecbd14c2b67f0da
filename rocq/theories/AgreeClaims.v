(** Proofs of the statements of Prop_Agree.v. *)
From Coq Require Import ZArith Reals Ratan List Lia Bool Lra Psatz.
From Flocq Require Import Core IEEE754.Binary IEEE754.Bits.
From Verif Require Import
  Base Mem Backend Args Drivers Functors Lanes Float LaneOps FloatOps ScalarMath VecMath FloatFuns IntVec TransMath TransFuns Libm Spec SpecReduce SpecLane SpecMath SpecLib SpecAgree
  AgreeFacts.
Import ListNotations.
Local Open Scope Z_scope.

Lemma C79_math_lemma : 
  forall (c : cfg) (B : backend) (w : world (fmt_of B)) (k : nans F64) (f : ufun) (x : F (fmt_of B)),
    math_backend c B -> library 1e-6 (w_lib w) -> w_cxx11 w = true -> isfin x = true -> ordinary f (val x) ->
    agree 2e-6 (s_ufun w f x) (v_ufun c B w k f x).
Proof.
  intros c B w k f x HB HL HW Fx H. exact (ufun_agree c B w k f x HB HL HW Fx H).
Qed.

Lemma C79_pow_lemma : 
  forall (c : cfg) (B : backend) (w : world (fmt_of B)) (f : bfun) (x y : F (fmt_of B)),
    math_backend c B -> accurate 1e-6 (w_lib w) -> isfin x = true -> isfin y = true -> ordinary2 f (val x) (val y) ->
    agree 5e-5 (s_bfun w f x y) (v_bfun c B w f x y).
Proof.
  intros c B w f x y HB HL Fx Fy H. exact (bfun_agree c B w f x y HB HL Fx Fy H).
Qed.

Lemma C79_unit_lemma : 
  forall (c : cfg) (B : backend) (w : world (fmt_of B)) (k : nans F64) (u : unit_fun) (x : F (fmt_of B)),
    math_backend c B -> accurate 1e-6 (w_lib w) -> w_cxx11 w = true -> isfin x = true -> ordinary_unit u (val x) ->
    unit_agree u (s_unit w u x) (v_unit c B w k u x).
Proof.
  intros c B w k u x HB HL HW Fx H. exact (unit_fun_agree c B w k u x HB HL HW Fx H).
Qed.

Lemma C79_math_vec_lemma : 
  forall (c : cfg) (B : backend) (w : world (fmt_of B)) (k : nans F64) (f : ufun) (m : mem (F (fmt_of B))) (out inp len : Z),
    math_backend c B -> library 1e-6 (w_lib w) -> w_cxx11 w = true -> legal_simd_length B len -> aligned B out -> accessible m out len -> simd_fit B m out len (APtr inp) ->
    each (fun x => isfin x = true /\ ordinary f (val x)) m inp len ->
    alike (agree 2e-6) m (math_vec B w f m out inp len) (math_vec_simd c B w k f m out inp len) out len.
Proof.
  intros c B w k f m out inp len HB HL HW H1 H2 H3 H4 HQ. exact (vec_agree c B w k f m out inp len HB HL HW H1 H2 H3 H4 HQ).
Qed.

Lemma C79_pow_vec_lemma : 
  forall (c : cfg) (B : backend) (w : world (fmt_of B)) (f : bfun) (m : mem (F (fmt_of B))) (out : Z) (a1 a2 : arg (F (fmt_of B))) (len : Z),
    math_backend c B -> accurate 1e-6 (w_lib w) -> legal_simd_length B len -> aligned B out -> accessible m out len -> simd_fit B m out len a1 -> plain a1 -> simd_fit B m out len a2 -> plain a2 ->
    (forall i x y, 0 <= i < len -> sample (farith (w_nan w)) m a1 i = Some x -> sample (farith (w_nan w)) m a2 i = Some y ->
       isfin x = true /\ isfin y = true /\ ordinary2 f (val x) (val y)) ->
    alike (agree 5e-5) m (math2_vec B w f m out a1 a2 len) (math2_vec_simd c B w f m out a1 a2 len) out len.
Proof.
  intros c B w f m out a1 a2 len HB HL H1 H2 H3 H4 P4 H5 P5 HQ. exact (vec2_agree c B w f m out a1 a2 len HB HL H1 H2 H3 H4 P4 H5 P5 HQ).
Qed.

Lemma C79_unit_vec_lemma : 
  forall (c : cfg) (B : backend) (w : world (fmt_of B)) (k : nans F64) (u : unit_fun) (m : mem (F (fmt_of B))) (out inp len : Z),
    math_backend c B -> accurate 1e-6 (w_lib w) -> w_cxx11 w = true -> legal_simd_length B len -> aligned B out -> accessible m out len -> simd_fit B m out len (APtr inp) ->
    each (fun x => isfin x = true /\ ordinary_unit u (val x)) m inp len ->
    alike (unit_agree u) m (unit_vec B w u m out inp len) (unit_vec_simd c B w k u m out inp len) out len.
Proof.
  intros c B w k u m out inp len HB HL HW H1 H2 H3 H4 HQ. exact (unit_vec_agree c B w k u m out inp len HB HL HW H1 H2 H3 H4 HQ).
Qed.

Lemma C79_acos_minus_half_refuted_lemma : 
  forall (c : cfg) (B : backend) (w : world (fmt_of B)) (k : nans F64), math_backend c B ->
    (forall x, isfin x = true -> (Rabs (val x) <= 1)%R -> near 1e-6 (m_acos (w_lib w) x) (acos (val x))) ->
    exists x, isfin x = true /\ (Rabs (val x) <= 1)%R /\ ~ within 1.9 (s_ufun w Acos x) (v_ufun c B w k Acos x).
Proof.
  intros c B w k HB HL. exact (acos_disagree c B w k HB HL).
Qed.

Lemma C79_sin_large_refuted_lemma : 
  forall (c : cfg) (B : backend) (w : world (fmt_of B)) (k : nans F64), math_backend c B ->
    (forall x, isfin x = true -> isfin (m_sin (w_lib w) x) = true /\ (Rabs (val (m_sin (w_lib w) x)) <= 1)%R) ->
    exists x, isfin x = true /\ ~ within 999999 (s_ufun w Sin x) (v_ufun c B w k Sin x).
Proof.
  intros c B w k HB HL. exact (sin_disagree c B w k HB HL).
Qed.
