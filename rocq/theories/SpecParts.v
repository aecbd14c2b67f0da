(** Specification vocabulary: samples taken apart by some calls and put together
    again by others. *)
From Coq Require Import ZArith Reals List.
From Flocq Require Import Core.
From Verif Require Import Base Mem Backend Args Float Spec SpecGain.
Import ListNotations.
Local Open Scope Z_scope.

(** Calls one after the other, each in the memory the one before has left. *)
Fixpoint in_turn {A} (calls : list (mem A -> res (mem A))) (m : mem A) : res (mem A) :=
  match calls with
  | [] => Ok m
  | call :: rest => m' <- call m ;; in_turn rest m'
  end.

(** The calls return, and leave in out[i] a sample related by [P] to the i-th
    sample that the argument had in the memory [m]. *)
Definition gives_back {A} (P : A -> A -> Prop) (ar : arith A) (m : mem A) (a : arg A) (calls : list (mem A -> res (mem A))) (out len : Z) : Prop :=
  exists m', in_turn calls m = Ok m' /\
    forall i, 0 <= i < len -> exists u v, sample ar m a i = Some u /\ m' (out + i) = Some v /\ P u v.

(** One call returns, and so do the others, one after the other; the samples they
    leave in out[0..len-1] are related by [P], pair by pair. *)
Definition same_in_turn {A} (P : A -> A -> Prop) (m : mem A) (one : res (mem A)) (calls : list (mem A -> res (mem A))) (out len : Z) : Prop :=
  exists m1 m2, one = Ok m1 /\ in_turn calls m = Ok m2 /\
    forall i, 0 <= i < len -> exists u v, m1 (out + i) = Some u /\ m2 (out + i) = Some v /\ P u v.

(** Neither a NaN nor infinite. *)
Definition finite {t} (x : F t) : Prop := isfin x = true.
(** Finite and other than zero. *)
Definition finite_nonzero {t} (x : F t) : Prop := isfin x = true /\ val x <> 0%R.
(** The square neither overflows nor underflows. *)
Definition squarable {t} (x : F t) : Prop :=
  isfin x = true /\ no_underflow t (val x * val x) /\ (Rabs (val x) < bpow radix2 (emax t / 2))%R.
(** Both finite, of the same sign, and neither more than twice the other. *)
Definition neighbours {t} (ar : arith (F t)) (m : mem (F t)) (a b : arg (F t)) (len : Z) : Prop :=
  forall i x y, 0 <= i < len -> sample ar m a i = Some x -> sample ar m b i = Some y ->
    isfin x = true /\ isfin y = true /\
    ((val y / 2 <= val x <= 2 * val y)%R \/ (2 * val y <= val x <= val y / 2)%R).
