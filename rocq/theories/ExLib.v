(** Concrete data for the examples of Prop_Lib.v.  Not part of the model. *)
From Coq Require Import ZArith Reals List Lia Lra Bool.
From Flocq Require Import Core IEEE754.Binary IEEE754.Bits.
From Verif Require Import Base Mem Backend Args Lanes Float LaneOps Libm Spec SpecLane SpecMath SpecLib FloatFacts FloatRound LibUnit LibMore ExData ExFloat.
Import ListNotations.
Local Open Scope Z_scope.

Lemma lit64v m e : Z.abs m <= 9007199254740992 -> -1074 <= e < 900 -> isfin (f_lit F64 m e) = true /\ val (f_lit F64 m e) = (IZR m * bpow radix2 e)%R.
Proof.
  intros H1 H2. assert (P : prec F64 = 53) by reflexivity. assert (E : emax F64 = 1024) by reflexivity. assert (N : emin F64 = -1074) by reflexivity.
  destruct (f_lit_exact (t := F64) m e) as (A & B & _); [rewrite P; exact H1|rewrite N; lia|rewrite P, E; lia|]. auto.
Qed.
Lemma ideal_log_2 : near (half_ulp F32) (m_log (ideal F32) (f_ofZ F32 2)) (ln 2).
Proof.
  destruct (f_lit_exact (t := F32) 2 0) as (A & B & _); [cbv; discriminate|cbv; discriminate|reflexivity|].
  assert (V : val (f_ofZ F32 2) = 2%R) by (etransitivity; [exact B|]; change (bpow radix2 0) with 1%R; ring).
  rewrite <- V. apply ideal_accurate; [exact A|]. rewrite V. lra.
Qed.
Ltac fitl := cbv zeta; unfold simd_fit; cbn [w_lib w_cxx11 w_lib32]; repeat match goal with |- _ /\ _ => split end;
  lazymatch goal with
  | |- accurate _ _ => apply ideal_accurate
  | |- near _ (m_log _ _) _ => apply ideal_log_2
  | |- delegates _ _ => intros [?|[? _]]; discriminate
  | |- _ <> ALTIVEC32 => discriminate
  | |- legal_simd_length _ _ => split; [split; reflexivity|apply Z.mod_divide; [discriminate|reflexivity]]
  | |- isfin (f_lit F64 ?m ?e) = true => apply (lit64v m e); lia
  | |- context [val (f_lit F64 ?m ?e)] => rewrite (proj2 (lit64v m e ltac:(lia) ltac:(lia)));
      repeat match goal with |- context [bpow radix2 ?q] => let v := eval vm_compute in (Z.pow_pos 2 (Z.to_pos (Z.abs q))) in
        first [change (bpow radix2 q) with 1%R | change (bpow radix2 q) with (/ IZR v)%R ] end;
      unfold Rabs; repeat destruct Rcase_abs; first [lra|intros ?; lra]
  | |- context [half_ulp F64] => change (half_ulp F64) with (/ 9007199254740992)%R; try change (bpow radix2 (-50)) with (/ 1125899906842624)%R; lra
  | |- plain _ => exact I
  | |- _ = _ => reflexivity
  | |- _ => fit_leaf
  end.
