(** Specification vocabulary: one call against two calls through a buffer. *)
From Coq Require Import ZArith List.
From Flocq Require Import Core.
From Verif Require Import Base Mem Backend Args Lanes Float LaneOps VecMath Spec.
Local Open Scope Z_scope.

(** One call returns, and so do two calls one after the other, the second in the
    memory the first has left; the samples they leave in out[0..len-1] are
    related by [P], pair by pair. *)
Definition same_in_steps {A} (P : A -> A -> Prop) (one first : res (mem A)) (second : mem A -> res (mem A)) (out len : Z) : Prop :=
  exists m1 m2 m3, one = Ok m1 /\ first = Ok m2 /\ second m2 = Ok m3 /\
    forall i, 0 <= i < len -> exists u v, m1 (out + i) = Some u /\ m3 (out + i) = Some v /\ P u v.

(** A buffer has no element in common with tmp[0..len-1]. *)
Definition clear_of {A} (tmp len : Z) (a : arg A) : Prop :=
  match a with APtr p => p + len <= tmp \/ tmp + len <= p | _ => True end.

(** The same bits. *)
Definition same_bits {t} (x y : F t) : Prop := bits x = bits y.

(** Whether madd rounds once only on this back-end: always on Altivec, with the
    FMA extension on x86. *)
Definition fuses (c : cfg) (B : backend) : bool :=
  match isa_of B with GEN | NEON => false | SSE | AVX => has_fma c | ALTIVEC => true end.
