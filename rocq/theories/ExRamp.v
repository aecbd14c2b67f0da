(** Example data for the ramp properties. *)
From Coq Require Import ZArith Reals List Lia Lra.
From Flocq Require Import Core IEEE754.Binary IEEE754.Bits.
From Verif Require Import Base Mem Backend Args Float LaneOps Spec SpecReduce SpecRamp FloatFacts FloatRound RampFloat ExData ExFloat.
Import ListNotations.
Local Open Scope Z_scope.

Lemma not_a_float_example : ~ is_a_float (IZR (lanes SSE64) * (IZR (2 ^ 24 + 1) * bpow radix2 0))%R.
Proof.
  intros (y & Hy & E). pose proof (val_format y) as G. rewrite E in G.
  replace (IZR (lanes SSE64) * (IZR (2 ^ 24 + 1) * bpow radix2 0))%R with (IZR 33554434) in G by (cbn; lra).
  unfold generic_format, F2R, cexp in G. cbn [Fnum Fexp] in G.
  rewrite (mag_unique radix2 _ 26) in G.
  - change (fexp F32 26) with 2 in G. change (bpow radix2 2) with 4%R in G. rewrite <- mult_IZR in G. apply eq_IZR in G. lia.
  - rewrite Rabs_pos_eq by (apply IZR_le; lia). change (bpow radix2 (26 - 1)) with 33554432%R. change (bpow radix2 26) with 67108864%R. lra.
Qed.

Lemma exact_ramp_example : exact_ramp AVX32 32 (f_lit F32 5 (-3)) (f_lit F32 (-3) (-4)).
Proof.
  exists (-4), 10, (-3).
  destruct (f_lit_exact (t := F32) 5 (-3)) as (A1 & A2 & A3); [vm_compute; discriminate..|reflexivity|].
  destruct (f_lit_exact (t := F32) (-3) (-4)) as (B1 & B2 & B3); [vm_compute; discriminate..|reflexivity|].
  destruct (f_lit_exact (t := F32) (8 * -3) (-4)) as (C1 & C2 & C3); [vm_compute; discriminate..|reflexivity|].
  split; [cbn; lia|]. split; [split; [exact A1|rewrite A2; cbn; lra]|]. split; [split; assumption|].
  split; [intros _; exact A3|]. change (2 ^ sig_bits F32) with 16777216. split; [intros; lia|]. split; [cbn; lia|].
  exists (f_lit F32 (8 * -3) (-4)). auto.
Qed.

Ltac fitr :=
  cbv zeta; unfold arg_fit, simd_fit;
  repeat match goal with |- _ /\ _ => split end;
  lazymatch goal with
  | |- legal_simd_length _ _ => split; [split; reflexivity|apply Z.mod_divide; [discriminate|reflexivity]]
  | |- exact_arg _ _ (ARamp _ _) => exact exact_ramp_example
  | |- exact_arg _ _ _ => exact I
  | |- _ => fit_leaf
  end.
