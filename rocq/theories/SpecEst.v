(** Specification vocabulary for division and square root by estimates. *)

From Coq Require Import ZArith Reals List Lia.
From Flocq Require Import Core IEEE754.Binary IEEE754.Bits.
From Verif Require Import Base Mem Backend Args Lanes Float LaneOps Spec SpecLane SpecMath.
Local Open Scope R_scope.

(** A divisor that is neither subnormal nor too large for its reciprocal to be
    normal. *)
Definition safe_divisor (b : F F32) : Prop :=
  isfin b = true /\ bpow radix2 (-126) <= Rabs (val b) <= bpow radix2 125.
(** The same, and a quotient far from overflow and underflow. *)
Definition safe_quotient (a b : F F32) : Prop :=
  isfin a = true /\ safe_divisor b /\ bpow radix2 (-125) <= Rabs (val a / val b) <= bpow radix2 126.
(** Infinite, or at least 2^126 in magnitude. *)
Definition huge (x : F F32) : Prop :=
  isnan x = false /\ (isfin x = true -> bpow radix2 126 <= Rabs (val x)).
(** Zero of either sign. *)
Definition is_zero (x : F F32) : Prop := isfin x = true /\ val x = 0.
(** Infinity of either sign. *)
Definition is_inf (x : F F32) : Prop := isfin x = false /\ isnan x = false.

(** What the Altivec manual promises of the reciprocal estimate: a relative
    error of at most 1/4096, infinity for zero and zero for infinity. *)
Record re_spec (vec_re : F F32 -> F F32) : Prop := {
  re_close : forall x, safe_divisor x -> close (/ 4096) (vec_re x) (/ val x);
  re_zero : forall x, is_zero x -> is_inf (vec_re x);
  re_inf : forall x, is_inf x -> is_zero (vec_re x)
}.
(** The same for the estimate of 1/sqrt. *)
Record rsqrte_spec (vec_rsqrte : F F32 -> F F32) : Prop := {
  rsqrte_close : forall x, normal_positive x -> close (/ 4096) (vec_rsqrte x) (/ sqrt (val x));
  rsqrte_zero : forall x, is_zero x -> is_inf (vec_rsqrte x);
  rsqrte_inf : forall x, is_inf x -> sgn x = false -> is_zero (vec_rsqrte x)
}.
