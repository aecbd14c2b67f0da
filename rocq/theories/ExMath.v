(** Concrete data for the examples beside the theorems about transcendental
    functions.  Not part of the model. *)
From Coq Require Import ZArith Reals List Lia Lra Bool.
From Flocq Require Import Core IEEE754.Binary IEEE754.Bits.
From Verif Require Import Base Mem Backend Args Lanes Float LaneOps Spec SpecLane SpecMath ExData ExFloat ExLane FloatFacts FloatRound RoundMore VecMore2 ErrFacts MathMore.
Import ListNotations.
Local Open Scope Z_scope.

Lemma lit32 m e : Z.abs m <= 16777216 -> -149 <= e < 100 -> isfin (f_lit F32 m e) = true /\ val (f_lit F32 m e) = (IZR m * bpow radix2 e)%R.
Proof.
  intros H1 H2. assert (P : prec F32 = 24) by reflexivity. assert (E : emax F32 = 128) by reflexivity. assert (N : emin F32 = -149) by reflexivity.
  destruct (f_lit_exact (t := F32) m e) as (A & B & _); [rewrite P; exact H1|rewrite N; lia|rewrite P, E; lia|]. auto.
Qed.
Lemma xval_lit m e : Z.abs m <= 16777216 -> -149 <= e < 100 -> xval (f_lit F32 m e) = (IZR m * bpow radix2 e)%R.
Proof. intros H1 H2. destruct (lit32 m e H1 H2) as [A B]. unfold xval. rewrite A. exact B. Qed.
Lemma tinyb : (bpow radix2 (-126) <= / 1000000)%R.
Proof. apply Rle_trans with (bpow radix2 (-20)); [apply bpow_le; lia|]. change (bpow radix2 (-20)) with (/ 1048576)%R. lra. Qed.
Ltac valm :=
  rewrite ?xval_lit by lia; repeat match goal with |- context [val (f_lit F32 ?m ?e)] => rewrite (proj2 (lit32 m e ltac:(lia) ltac:(lia))) end;
  pose proof tinyb; repeat match goal with |- context [bpow radix2 ?e] => lazymatch e with -126 => fail | _ => let v := eval vm_compute in (Z.pow_pos 2 (Z.to_pos (Z.abs e))) in
    first [ change (bpow radix2 e) with (IZR v) | change (bpow radix2 e) with (/ IZR v)%R | change (bpow radix2 e) with 1%R ] end end;
  unfold Rabs; repeat destruct Rcase_abs; repeat split; try lra.
Ltac fitm := cbv zeta; unfold unary_fit, binary_fit, simd_fit;
  repeat match goal with |- _ /\ _ => split end;
  lazymatch goal with
  | |- math_isa _ _ => right; split; reflexivity
  | |- math_backend _ _ => left; reflexivity
  | |- legal_simd_length _ _ => split; [split; reflexivity|apply Z.mod_divide; [discriminate|reflexivity]]
  | |- number _ => vm_compute; reflexivity
  | |- each number _ _ _ => each_tac (@numb F32)
  | |- isfin _ = _ => vm_compute; reflexivity
  | |- isnan _ = _ => vm_compute; reflexivity
  | |- sgn _ = _ => vm_compute; reflexivity
  | |- normal_positive _ => split; [vm_compute; reflexivity|valm]
  | |- (_ <= _)%R => valm
  | |- (_ < _)%R => valm
  | |- _ <> _ => valm
  | |- _ => fit_leaf
  end.
Lemma some_inj {A} (a b : A) : Some a = Some b -> a = b.
Proof. intros Q. injection Q. auto. Qed.
