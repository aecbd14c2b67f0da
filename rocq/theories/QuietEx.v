(** Example data for Prop_Quiet.v. *)
From Coq Require Import ZArith Reals List Lia Bool.
From Flocq Require Import Core IEEE754.Binary IEEE754.Bits.
From Verif Require Import Base Mem Backend Args Lanes Float FloatOps Libm Spec SpecLib SpecAgree SpecNeutral SpecSwap SpecParts SpecQuiet
  SwapFacts ChainFacts ExData AgreeFacts QuietFacts.
Import ListNotations.
Local Open Scope Z_scope.

(** Example data: zeros of either sign, and other samples from 80 on. *)
Definition hush : mem (F F32) := block 0 160 (fun a => if a <? 80 then (if Z.even a then f_ofZ F32 0 else fneg (f_ofZ F32 0)) else f_lit F32 (a + 1) (-3)).
Lemma hush_silent n p : 0 <= p -> p <= 64 -> silent (farith n) hush (APtr p) 16.
Proof.
  intros H1 H2 i x Hi E. cbn [sample] in E. unfold hush in E. rewrite block_in in E by lia. destruct (Z.ltb_spec (p + i) 80); [|lia].
  assert (x = if Z.even (p + i) then f_ofZ F32 0 else fneg (f_ofZ F32 0)) as -> by congruence. apply iszero_zero. destruct (Z.even (p + i)); reflexivity.
Qed.
Lemma three_finite n m : samples (farith n) finite m (AScal (f_ofZ F32 3)) 16.
Proof. intros i x _ E. cbn [sample] in E. assert (x = f_ofZ F32 3) as -> by congruence. reflexivity. Qed.
(** Example data: a machine with a correctly rounding C library. *)
Definition good_world (n : nans F32) : world F32 := World _ (ideal F32) n (ideal F32) n true.
Lemma good_library n : library 1e-6 (w_lib (good_world n)).
Proof. apply ideal_ok. Qed.
Ltac quiet_tac := unfold call_fits, simd_call_fits;
  repeat match goal with |- _ /\ _ => split | |- Forall _ _ => constructor end;
  lazymatch goal with
  | |- silent _ _ _ _ => apply hush_silent; lia
  | |- samples _ finite _ _ _ => apply three_finite
  | |- library _ _ => apply good_library
  | |- harmless_simd _ _ => split; first [reflexivity|exact Logic.I|discriminate]
  | |- harmless _ => first [reflexivity|exact Logic.I]
  | |- _ => chain_tac
  end.
