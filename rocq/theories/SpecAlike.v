(** Specification vocabulary for reductions over buffers that hold the same
    samples in another order, with other signs, or scaled. *)
From Coq Require Import ZArith Reals List.
From Flocq Require Import Core.
From Verif Require Import Base Float.
Local Open Scope Z_scope.

(** [y] is minus [x]; two NaNs count as opposite, and so do zeros of whatever sign. *)
Definition opposite {t} (x y : F t) : Prop :=
  (isnan x = true /\ isnan y = true) \/ feq y (fneg x) = true.

(** The samples of [l'] are those of [l], some of them negated. *)
Definition same_but_signs {t} (l l' : list (F t)) : Prop := Forall2 (fun x y => y = x \/ y = fneg x) l l'.

(** The samples of [l'] are those of [l] times 2^k, exactly. *)
Definition scaled_by_power {t} (k : Z) (l l' : list (F t)) : Prop :=
  Forall2 (fun x y => isfin x = true /\ isfin y = true /\ val y = (val x * bpow radix2 k)%R) l l'.
