(** Specification vocabulary for order: functions that rise or fall, and buffers
    whose samples keep the order of the input. *)

From Coq Require Import ZArith Reals.
From Flocq Require Import Core IEEE754.Binary IEEE754.Bits.
From Verif Require Import Base Mem Float.
Local Open Scope Z_scope.

(** On the finite floats whose value is in [S] the function has finite values and
    never goes down when its argument goes up. *)
Definition rising (S : R -> Prop) (f : F F32 -> F F32) : Prop :=
  forall x y, isfin x = true -> isfin y = true -> S (val x) -> S (val y) -> (val x <= val y)%R ->
    isfin (f x) = true /\ isfin (f y) = true /\ (val (f x) <= val (f y))%R.
(** Likewise, never goes up. *)
Definition falling (S : R -> Prop) (f : F F32 -> F F32) : Prop :=
  forall x y, isfin x = true -> isfin y = true -> S (val x) -> S (val y) -> (val x <= val y)%R ->
    isfin (f x) = true /\ isfin (f y) = true /\ (val (f y) <= val (f x))%R.
(** On the finite floats whose value is in [S] the function has finite values
    from [lo] to [hi]. *)
Definition ranges (S : R -> Prop) (lo hi : R) (f : F F32 -> F F32) : Prop :=
  forall x, isfin x = true -> S (val x) -> isfin (f x) = true /\ (lo <= val (f x) <= hi)%R.
(** The reals from [lo] to [hi]. *)
Definition from_to (lo hi x : R) : Prop := (lo <= x <= hi)%R.

(** Up to 8192 in magnitude and at most a quarter period away from [m] half
    periods: sin has an extremum at each end. *)
Definition half_wave (m : Z) (x : R) : Prop := (Rabs x <= 8192 /\ Rabs (x - IZR m * PI) <= PI / 2)%R.
(** Up to 8192 in magnitude and from [m] to [m + 1] half periods: cos has an
    extremum at each end. *)
Definition half_turn (m : Z) (x : R) : Prop := (Rabs x <= 8192 /\ IZR m * PI <= x <= (IZR m + 1) * PI)%R.

(** The samples of a buffer are finite with values in [S]. *)
Definition all_in (S : R -> Prop) (m : mem (F F32)) (a len : Z) : Prop :=
  forall i x, 0 <= i < len -> m (a + i) = Some x -> isfin x = true /\ S (val x).
(** The call succeeds, changes nothing outside out[0..len-1], and the samples
    of the output, all finite, are in the order of those of the input (from
    before the call): a greater or equal input sample has a greater or equal
    output sample. *)
Definition same_order (m : mem (F F32)) (r : res (mem (F F32))) (out inp len : Z) : Prop :=
  exists m', r = Ok m' /\ (forall a, a < out \/ out + len <= a -> m' a = m a) /\
    forall i j x y, 0 <= i < len -> 0 <= j < len -> m (inp + i) = Some x -> m (inp + j) = Some y -> (val x <= val y)%R ->
      exists u v, m' (out + i) = Some u /\ m' (out + j) = Some v /\ isfin u = true /\ isfin v = true /\ (val u <= val v)%R.
(** Likewise in the opposite order. *)
Definition reverse_order (m : mem (F F32)) (r : res (mem (F F32))) (out inp len : Z) : Prop :=
  exists m', r = Ok m' /\ (forall a, a < out \/ out + len <= a -> m' a = m a) /\
    forall i j x y, 0 <= i < len -> 0 <= j < len -> m (inp + i) = Some x -> m (inp + j) = Some y -> (val x <= val y)%R ->
      exists u v, m' (out + i) = Some u /\ m' (out + j) = Some v /\ isfin u = true /\ isfin v = true /\ (val v <= val u)%R.
(** The call succeeds, changes nothing outside out[0..len-1], and leaves finite
    samples from [lo] to [hi] there. *)
Definition all_between (lo hi : R) (m : mem (F F32)) (r : res (mem (F F32))) (out len : Z) : Prop :=
  exists m', r = Ok m' /\ (forall a, a < out \/ out + len <= a -> m' a = m a) /\
    forall i, 0 <= i < len -> exists u, m' (out + i) = Some u /\ isfin u = true /\ (lo <= val u <= hi)%R.
