(** Specification vocabulary for the rounding functions. *)

From Coq Require Import ZArith Reals.
From Flocq Require Import Core.
From Verif Require Import Base Mem Float SpecLane.
Local Open Scope R_scope.

(** [k] is the greatest integer not above [r]. *)
Definition floor_of (r : R) (k : Z) : Prop := IZR k <= r < IZR k + 1.
(** [k] is the least integer not below [r]. *)
Definition ceil_of (r : R) (k : Z) : Prop := IZR k - 1 < r <= IZR k.
(** [k] is [r] without its fractional digits. *)
Definition trunc_of (r : R) (k : Z) : Prop :=
  (0 <= r -> floor_of r k) /\ (r <= 0 -> ceil_of r k).
(** [r] lies half way between two integers. *)
Definition tie (r : R) : Prop := exists j : Z, r = IZR j + / 2.
(** [k] is an integer nearest to [r]; of two the even one. *)
Definition nearest_even (r : R) (k : Z) : Prop :=
  Rabs (r - IZR k) <= / 2 /\ (Rabs (r - IZR k) = / 2 -> Z.even k = true).
(** [k] is an integer nearest to [r]; of two the one further from 0. *)
Definition nearest_away (r : R) (k : Z) : Prop :=
  Rabs (r - IZR k) <= / 2 /\ (Rabs (r - IZR k) = / 2 -> Rabs r < Rabs (IZR k)).

(** The float [y] is the integer [k]. *)
Definition is_int {t} (y : F t) (k : Z) : Prop := isfin y = true /\ val y = IZR k.

(** A finite number of magnitude at most 2^23. *)
Definition within_2_23 {t} (x : F t) : Prop := isfin x = true /\ Rabs (val x) <= IZR (2 ^ 23).
