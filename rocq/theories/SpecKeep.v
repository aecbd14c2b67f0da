(** Specification vocabulary: calls that keep the order of the samples, and calls
    that have nothing left to do the second time. *)

From Coq Require Import ZArith Reals List Lia.
From Flocq Require Import Core IEEE754.Binary IEEE754.Bits.
From Verif Require Import Base Mem Backend Args Lanes Float LaneOps VecMath FloatOps Spec SpecLane SpecRound.
Local Open Scope Z_scope.

(** The call returns, changes nothing outside out[0..len-1], and the output
    samples are in the order of the input samples (from before the call), by the
    comparison of IEEE 754, infinities included. *)
Definition order_kept {t} (m : mem (F t)) (r : res (mem (F t))) (out inp len : Z) : Prop :=
  exists m', r = Ok m' /\ (forall a, a < out \/ out + len <= a -> m' a = m a) /\
    forall i j x y, 0 <= i < len -> 0 <= j < len -> m (inp + i) = Some x -> m (inp + j) = Some y -> fle x y = true ->
      exists u v, m' (out + i) = Some u /\ m' (out + j) = Some v /\ fle u v = true.

(** Calling [f] on a buffer and once more, in place, on what it left is the same
    as calling it once.  [f m out inp len] is the call. *)
Definition once_is_enough {A} (f : mem A -> Z -> Z -> Z -> res (mem A)) (m : mem A) (out inp len : Z) : Prop :=
  exists m', f m out inp len = Ok m' /\ same_effect (f m out inp len) (f m' out out len).
(** The same, the numbers left being equal but perhaps zeros of the other sign. *)
Definition once_is_enough_numbers {t} (f : mem (F t) -> Z -> Z -> Z -> res (mem (F t))) (m : mem (F t)) (out inp len : Z) : Prop :=
  exists m', f m out inp len = Ok m' /\ same_numbers (f m out inp len) (f m' out out len) out len.

(** What a scalar call needs of its buffers. *)
Definition scalar_fit {A} (m : mem A) (out inp len : Z) : Prop :=
  0 < len < 2 ^ 32 /\ accessible m out len /\ arg_fit m out len (APtr inp).

(** NaN, or at least 0. *)
Definition not_negative {t} (x : F t) : Prop := isnan x = true \/ fle (f_ofZ t 0) x = true.

(** The back-end floors (and takes ceilings) by adding and subtracting 2^23. *)
Definition magic_floor (c : cfg) (B : backend) : Prop :=
  B = NEON32 \/ (B = SSE32 /\ has_sse41 c = false).
(** The back-end rounds that way. *)
Definition magic_round (c : cfg) (B : backend) : Prop :=
  magic_floor c B \/ B = ALTIVEC32.
(** A number, and within 2^23 where the back-end rounds that way. *)
Definition roundable (magic : Prop) {t} (x : F t) : Prop := isnan x = false /\ (magic -> within_2_23 x).
(** Finite, and either not negative or at most -1/2. *)
Definition not_slightly_negative {t} (x : F t) : Prop := isfin x = true /\ (0 <= val x \/ val x <= - / 2)%R.

(** All three calls return, and every number is taken to three samples in this order. *)
Definition in_order {t} (m : mem (F t)) (r1 r2 r3 : res (mem (F t))) (out inp len : Z) : Prop :=
  exists m1 m2 m3, r1 = Ok m1 /\ r2 = Ok m2 /\ r3 = Ok m3 /\
    forall i x, 0 <= i < len -> m (inp + i) = Some x -> isnan x = false ->
      exists u v w, m1 (out + i) = Some u /\ m2 (out + i) = Some v /\ m3 (out + i) = Some w /\ fle u v = true /\ fle v w = true.
