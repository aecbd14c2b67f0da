(** The driver lemmas in the form in which Prop_Drivers.v states them. *)
From Coq Require Import ZArith List Lia Bool.
From Verif Require Import Base Mem Loop Backend Args Drivers Spec LoopFacts MemFacts KaryFacts
  DriverFacts RampFacts FaultFacts.
Import ListNotations.
Local Open Scope Z_scope.

Section Claims.
Context {A : Type} (ar : arith A) (B : backend).
Local Notation step := (Z.of_nat (vsize B)).

Lemma legal_bounds n : legal_simd_length B n -> loop_unit B <= n < two32 /\ rounded B n = n.
Proof.
  intros [[H1 H2] [q Hq]]. rewrite two32_eq. pose proof (loop_unit_pos B). split; [|].
  - split; [|assumption]. assert (1 <= q) by nia. nia.
  - unfold rounded. subst n. rewrite Z.div_mul; lia.
Qed.

Lemma fit_simd_arg m out n a : simd_fit B m out n a -> plain a -> simd_arg ar B m out n a.
Proof.
  intros (H1 & H2 & H3) H. repeat split; auto. apply lanes_match_not_ramp. exact H.
Qed.

Lemma fit_simd_arg_exact m out n a : exact_arith ar -> simd_fit B m out n a -> simd_arg ar B m out n a.
Proof.
  intros E (H1 & H2 & H3). repeat split; auto. apply lanes_match_exact. exact E.
Qed.

Lemma leaves_ext m r out n (v w : Z -> option A) :
  (forall i, 0 <= i < n -> v i = w i) -> leaves m r out n v -> leaves m r out n w.
Proof.
  intros H (m' & E & W1 & W2). exists m'. split; [exact E|]. split; [|exact W2].
  intros i Hi. rewrite <- H by assumption. apply W1. assumption.
Qed.

Lemma leaves_same m r1 r2 out n (v : Z -> option A) :
  leaves m r1 out n v -> leaves m r2 out n v -> same_effect r1 r2.
Proof.
  intros (m1 & E1 & W1) (m2 & E2 & W2). exists m1, m2. split; [exact E1|]. split; [exact E2|].
  intro a. eapply writes_exactly_unique; eassumption.
Qed.

Lemma vecs_of_legal n : legal_simd_length B n ->
  (0 < Z.to_nat (n / step))%nat /\ Z.of_nat (Z.to_nat (n / step)) * step = n.
Proof.
  intros [[H1 H2] [q Hq]]. destruct (vecs_per_loop_spec B) as [E HV].
  pose proof (vsize_pos B). set (V := vecs_per_loop B) in *.
  assert (n / step = q * Z.of_nat V).
  { subst n. rewrite <- E. rewrite Z.mul_assoc. apply Z.div_mul. lia. }
  assert (0 < q) by (pose proof (loop_unit_pos B); nia).
  split; [|rewrite Z2Nat.id; nia]. nia.
Qed.
End Claims.
