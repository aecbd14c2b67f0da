(** Specification vocabulary: one call after another. *)

From Coq Require Import ZArith Reals.
From Flocq Require Import Core IEEE754.Binary IEEE754.Bits.
From Verif Require Import Base Mem Float.
Local Open Scope Z_scope.

(** The call [f] from inp to mid and then the call [g] from mid to out both
    return; every out[i] is related by [P] to the sample inp[i] from before the
    calls, and nothing outside mid[0..len-1] and out[0..len-1] changes. *)
Definition there_and_back (P : F F32 -> F F32 -> Prop) (f g : mem (F F32) -> res (mem (F F32))) (m : mem (F F32)) (out mid inp len : Z) : Prop :=
  exists m1 m2, f m = Ok m1 /\ g m1 = Ok m2 /\
    (forall i x, 0 <= i < len -> m (inp + i) = Some x -> exists y, m2 (out + i) = Some y /\ P x y) /\
    (forall a, a < mid \/ mid + len <= a -> a < out \/ out + len <= a -> m2 a = m a).
(** [y] is finite and at most [d] away from the real number [r]. *)
Definition off_by (d : R) (y : F F32) (r : R) : Prop := isfin y = true /\ (Rabs (val y - r) <= d)%R.
