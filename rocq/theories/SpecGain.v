(** Specification vocabulary: calls whose input samples differ by a power of two. *)
From Coq Require Import ZArith Reals List.
From Flocq Require Import Core.
From Verif Require Import Base Mem Backend Args Float Spec.
Local Open Scope Z_scope.

(** At every sample, [b] is [a] times 2^k, exactly; both are finite. *)
Definition scales {t} (ar : arith (F t)) (m : mem (F t)) (k : Z) (a b : arg (F t)) (len : Z) : Prop :=
  forall i x y, 0 <= i < len -> sample ar m a i = Some x -> sample ar m b i = Some y ->
    isfin x = true /\ isfin y = true /\ val y = (val x * bpow radix2 k)%R.

(** The result of the second call is 2^k times that of the first, exactly, where
    neither overflows. *)
Definition times_power {t} (k : Z) (x y : F t) : Prop :=
  isfin x = true -> isfin y = true -> val y = (val x * bpow radix2 k)%R.

(** The smallest normal number of the format. *)
Definition smallest_normal (t : fmt) : R := bpow radix2 (2 - emax t).
(** [r] does not underflow: it is zero or at least as large as the smallest normal number. *)
Definition no_underflow (t : fmt) (r : R) : Prop := (r = 0 \/ smallest_normal t <= Rabs r)%R.

(** As [times_power], where the results are above the smallest normal number, too. *)
Definition times_power_normal {t} (k : Z) (x y : F t) : Prop :=
  isfin x = true -> isfin y = true -> (smallest_normal t < Rabs (val x))%R -> (smallest_normal t < Rabs (val y))%R ->
  val y = (val x * bpow radix2 k)%R.

(** The samples of the two arguments are finite, and their products do not underflow. *)
Definition products_fit {t} (ar : arith (F t)) (m : mem (F t)) (a b : arg (F t)) (len : Z) : Prop :=
  forall i x y, 0 <= i < len -> sample ar m a i = Some x -> sample ar m b i = Some y ->
    isfin x = true /\ isfin y = true /\ no_underflow t (val x * val y).
(** The same of the quotients; no division by zero. *)
Definition quotients_fit {t} (ar : arith (F t)) (m : mem (F t)) (a b : arg (F t)) (len : Z) : Prop :=
  forall i x y, 0 <= i < len -> sample ar m a i = Some x -> sample ar m b i = Some y ->
    isfin x = true /\ isfin y = true /\ val y <> 0%R /\ no_underflow t (val x / val y).
(** The same of x*y + z. *)
Definition muladds_fit {t} (ar : arith (F t)) (m : mem (F t)) (a b d : arg (F t)) (len : Z) : Prop :=
  forall i x y z, 0 <= i < len -> sample ar m a i = Some x -> sample ar m b i = Some y -> sample ar m d i = Some z ->
    no_underflow t (val x * val y + val z).
