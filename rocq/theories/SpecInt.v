(** Specification vocabulary for the integer vectors. *)

From Coq Require Import ZArith List.
From Verif Require Import Base.
Local Open Scope Z_scope.

(** A 32-bit pattern. *)
Definition pattern (z : Z) : Prop := 0 <= z < 4294967296.
(** Two integers that differ by a multiple of 2^32. *)
Definition same_mod32 (a b : Z) : Prop := exists q, a = b + q * 4294967296.
(** The pattern [z] is the two's complement form of [k]. *)
Definition reads (z k : Z) : Prop :=
  pattern z /\ -2147483648 <= k < 2147483648 /\ same_mod32 z k.
(** All ones, or zero. *)
Definition truth (P : Prop) (z : Z) : Prop := (P -> z = 4294967295) /\ (~ P -> z = 0).
(** A vector of [n] patterns. *)
Definition vector (n : nat) (v : list Z) : Prop := length v = n /\ Forall pattern v.
(** [v] holds in each lane a result that [P] relates to that lane's operands. *)
Definition lanes2 (P : Z -> Z -> Z -> Prop) (l r v : list Z) : Prop :=
  length v = length l /\
  forall i a b, nth_error l i = Some a -> nth_error r i = Some b ->
    exists c, nth_error v i = Some c /\ P a b c.
(** The same for one operand. *)
Definition lanes1 {A B} (P : A -> B -> Prop) (l : list A) (v : list B) : Prop :=
  length v = length l /\
  forall i a, nth_error l i = Some a -> exists c, nth_error v i = Some c /\ P a c.
