(** Outcomes of modelled C++ functions and sequencing.

    Not tied to a particular line of /repo: this is the meta-language of the
    model.  A C++ function is a total Gallina function returning [Ok] of its
    result or [Fault] of the undefined behaviour / trap it runs into. *)

From Coq Require Import ZArith List Lia.
Import ListNotations.
Local Open Scope Z_scope.

(** The ways a modelled function can go wrong (model meta-language; no source
    lines).  Each is a distinct outcome, never a default value. *)
Inductive fault : Set :=
| OutOfBounds (a : Z)      (* access to an element address that is not valid memory *)
| Misaligned (a : Z)       (* aligned vector access at an address that is not aligned *)
| Uninitialised            (* use of a vec that was declared but never written *)
| OverlappingCopy          (* memcpy on overlapping buffers *)
| BadConversion            (* float -> integer conversion of an unrepresentable value *)
| OutOfFuel.               (* artefact of the model; proved unreachable *)

(** Result of a modelled function (model meta-language; no source lines). *)
Inductive res (A : Type) : Type :=
| Ok (a : A)
| Fault (e : fault).
Arguments Ok {A} a.
Arguments Fault {A} e.

(** Sequencing: C++'s `;` (model meta-language; no source lines). *)
Definition bind {A B : Type} (x : res A) (k : A -> res B) : res B :=
  match x with
  | Ok a => k a
  | Fault e => Fault e
  end.

Notation "x <- e ;; k" := (bind e (fun x => k))
  (at level 61, e at next level, right associativity).
Notation "' p <- e ;; k" := (bind e (fun x => match x with p => k end))
  (at level 61, p pattern, e at next level, right associativity).

(** [k] successive executions of a loop body (model meta-language; no source
    lines). *)
Fixpoint iter_res {S : Type} (k : nat) (body : S -> res S) (s : S) : res S :=
  match k with
  | O => Ok s
  | Datatypes.S k' => s' <- body s ;; iter_res k' body s'
  end.

(** Lane-wise combination of two / three / four vectors; the vector
    intrinsics used in /repo/vec/*.hpp act this way.  Lanes beyond the shorter
    operand are dropped; all uses have equal lengths. *)
Fixpoint map2 {A B C : Type} (f : A -> B -> C) (l1 : list A) (l2 : list B) : list C :=
  match l1, l2 with
  | a :: r1, b :: r2 => f a b :: map2 f r1 r2
  | _, _ => []
  end.

(** See [map2]; model meta-language; no source lines. *)
Fixpoint map3 {A B C D : Type} (f : A -> B -> C -> D)
    (l1 : list A) (l2 : list B) (l3 : list C) : list D :=
  match l1, l2, l3 with
  | a :: r1, b :: r2, c :: r3 => f a b c :: map3 f r1 r2 r3
  | _, _, _ => []
  end.

(** See [map2]; model meta-language; no source lines. *)
Fixpoint map4 {A B C D E : Type} (f : A -> B -> C -> D -> E)
    (l1 : list A) (l2 : list B) (l3 : list C) (l4 : list D) : list E :=
  match l1, l2, l3, l4 with
  | a :: r1, b :: r2, c :: r3, d :: r4 => f a b c d :: map4 f r1 r2 r3 r4
  | _, _, _, _ => []
  end.
