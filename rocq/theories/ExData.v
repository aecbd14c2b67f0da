(** Concrete data for the examples beside the theorems.  Not part of the model. *)
From Coq Require Import ZArith List Lia Bool.
From Verif Require Import Base Mem Backend Args Spec Functors.
Import ListNotations.
Local Open Scope Z_scope.

(** Integer arithmetic. *)
Definition zarith : arith Z := MkArith 0 Z.add Z.mul (fun n => n) (fun x => x).

(** A memory with valid cells lo, ..., hi-1 holding [v] of their address. *)
Definition block {A} (lo hi : Z) (v : Z -> A) : mem A :=
  fun a => if (lo <=? a) && (a <? hi) then Some (v a) else None.

Lemma block_in {A} lo hi (v : Z -> A) a : lo <= a < hi -> block lo hi v a = Some (v a).
Proof.
  intros H. unfold block.
  destruct (Z.leb_spec lo a); [|lia]. destruct (Z.ltb_spec a hi); [|lia]. reflexivity.
Qed.

Lemma block_out {A} lo hi (v : Z -> A) a : a < lo \/ hi <= a -> block lo hi v a = None.
Proof.
  intros H. unfold block.
  destruct (Z.leb_spec lo a); [|reflexivity]. destruct (Z.ltb_spec a hi); [lia|reflexivity].
Qed.

Lemma accessible_block {A} lo hi (v : Z -> A) p n :
  lo <= p -> p + n <= hi -> accessible (block lo hi v) p n.
Proof. intros H1 H2 i Hi. eexists. apply block_in. lia. Qed.

Lemma zarith_exact : exact_arith zarith.
Proof. constructor; intros; cbn [zarith a_zero a_add a_mul a_ofZ a_narrow]; ring || lia. Qed.

(** Discharges the hypotheses of a theorem on concrete data; goals of the form
    [exists m', ...] (the outcome) are left, one at most. *)
(** Operations on integers for examples. *)
Definition zops : ops Z := {|
  o_zero := 0; o_one := 1; o_add := Z.add; o_sub := Z.sub; o_mul := Z.mul; o_div := Z.div;
  o_max := Z.max; o_min := Z.min; o_madd := fun x y z => x * y + z;
  o_lt := fun x y => if x <? y then 1 else 0; o_le := fun x y => if x <=? y then 1 else 0;
  o_gt := fun x y => if y <? x then 1 else 0; o_ge := fun x y => if y <=? x then 1 else 0;
  o_eq := fun x y => if x =? y then 1 else 0; o_ne := fun x y => if x =? y then 0 else 1 |}.

Ltac fit_leaf :=
  lazymatch goal with
  | |- True => exact I
  | |- _ < _ => cbn; lia
  | |- _ <= _ => cbn; lia
  | |- (_ < _)%nat => lia
  | |- accessible _ _ _ => apply accessible_block; cbn; lia
  | |- arg_accessible _ _ _ => first [exact I | apply accessible_block; cbn; lia]
  | |- overlap_ok _ _ _ => cbn; lia
  | |- arg_aligned _ _ => first [exact I | (apply Z.mod_divide; [discriminate|reflexivity])]
  | |- aligned _ _ => apply Z.mod_divide; [discriminate|reflexivity]
  | |- (_ | _) => apply Z.mod_divide; [discriminate|reflexivity]
  | |- plain _ => exact I
  | |- traps _ => exact I
  | |- lanewise1 _ _ _ => intros ? ?; reflexivity
  | |- lanewise2 _ _ _ => intros ? ? ? ?; reflexivity
  | |- lanewise3 _ _ _ => intros ? ? ? ? ? ?; reflexivity
  | |- lanewise4 _ _ _ => intros ? ? ? ? ? ? ? ?; reflexivity
  | |- exact_arith _ => exact zarith_exact
  | |- exists _, _ => idtac
  | |- _ => try reflexivity
  end.
Ltac fit :=
  cbv zeta; unfold arg_fit, simd_fit, legal_simd_length;
  repeat match goal with |- _ /\ _ => split end; fit_leaf.
