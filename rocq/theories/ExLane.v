(** Concrete data for the examples beside the theorems about lanes.  Not part
    of the model. *)
From Coq Require Import ZArith Reals List Lia Bool.
From Flocq Require Import Core IEEE754.Binary IEEE754.Bits.
From Verif Require Import Base Mem Backend Args Lanes Float LaneOps Spec SpecLane ExData ExFloat.
Import ListNotations.
Local Open Scope Z_scope.

Lemma each_block {A} (P : A -> Prop) (pb : A -> bool) lo hi (v : Z -> A) p n :
  lo <= p -> p + n <= hi -> 0 <= n ->
  (forall x, pb x = true -> P x) ->
  forallb (fun k => pb (v (p + Z.of_nat k))) (seq 0 (Z.to_nat n)) = true ->
  each P (block lo hi v) p n.
Proof.
  intros H1 H2 H3 HP Hb i x Hi E. rewrite block_in in E by lia. injection E as <-. apply HP.
  rewrite forallb_forall in Hb. specialize (Hb (Z.to_nat i)). rewrite Z2Nat.id in Hb by lia. apply Hb. apply in_seq. lia.
Qed.
Lemma numb {t} (x : F t) : negb (isnan x) = true -> number x.
Proof. unfold number. destruct (isnan x); [discriminate|reflexivity]. Qed.
Lemma finb {t} (x : F t) : isfin x = true -> isfin x = true. Proof. auto. Qed.
Lemma nnzb {t} (x : F t) : negb (isnan x) && negb (bits x =? 2 ^ (mw t + ew t)) = true -> number x /\ not_neg_zero x.
Proof.
  intros H. apply andb_true_iff in H. destruct H as [H1 H2]. split; [apply numb; exact H1|].
  apply negb_true_iff, Z.eqb_neq in H2. exact H2.
Qed.
Ltac each_tac L := eapply (each_block _ _); [lia|cbn; lia|lia|exact L|vm_compute; reflexivity].
Ltac fitl :=
  cbv zeta; unfold arg_fit, simd_fit;
  repeat match goal with |- _ /\ _ => split end;
  lazymatch goal with
  | |- legal_simd_length _ _ => split; [split; reflexivity|apply Z.mod_divide; [discriminate|reflexivity]]
  | |- each number _ _ _ => each_tac (@numb F32)
  | |- each_arg number _ (APtr _) _ => each_tac (@numb F32)
  | |- each_arg number _ (AScal _) _ => vm_compute; reflexivity
  | |- number _ => vm_compute; reflexivity
  | |- exists _, _ => idtac
  | |- ~ _ => idtac
  | |- forall _, _ => idtac
  | |- _ \/ _ => idtac
  | |- _ = _ => vm_compute; reflexivity
  | |- _ => fit_leaf
  end.
