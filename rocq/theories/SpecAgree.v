(** Specification vocabulary: agreement of the vectorised functions with the
    scalar ones. *)

From Coq Require Import ZArith Reals Ratan List Lia.
From Flocq Require Import Core IEEE754.Binary IEEE754.Bits.
From Verif Require Import Base Mem Backend Args Lanes Float LaneOps Libm Spec SpecLane SpecMath SpecLib.
Local Open Scope Z_scope.

(** The functions of simd_math.hpp on the real numbers. *)
Definition real_fun (f : ufun) : R -> R :=
  match f with
  | Sin => sin | Cos => cos | Tan => tan | Asin => asin | Acos => acos | Atan => atan | Tanh => tanh
  | Log => ln | Log2 => log_base 2 | Log10 => log_base 10 | Exp => exp
  end.

(** Zero, or not so small that the result comes near the subnormal numbers. *)
Definition not_tiny (r : R) : Prop := r = 0%R \/ (bpow radix2 (-100) <= Rabs r)%R.

(** Arguments for which the two versions are compared: at least what the test
    suite samples. *)
Definition ordinary (f : ufun) (r : R) : Prop :=
  match f with
  | Sin => not_tiny r /\ (Rabs r <= 3.2)%R
  | Cos => (Rabs r <= 3.2)%R
  | Tan => not_tiny r /\ (Rabs r <= 1.5)%R
  | Asin => not_tiny r /\ (Rabs r <= 1)%R
  | Acos => (Rabs r <= 1)%R /\ (r <> - 0.5)%R
  | Atan | Tanh => not_tiny r
  | Log | Log2 | Log10 => (bpow radix2 (-126) <= r)%R
  | Exp => (-87 <= r <= 87)%R
  end.

(** A C library with a relative error of at most [e] for these arguments. *)
Definition library {t} (e : R) (L : libm t) : Prop :=
  forall f x, isfin x = true -> ordinary f (val x) ->
    near e (match f with
            | Sin => m_sin L x | Cos => m_cos L x | Tan => m_tan L x | Asin => m_asin L x | Acos => m_acos L x | Atan => m_atan L x
            | Tanh => m_tanh L x | Log => m_log L x | Log2 => m_log2 L x | Log10 => m_log10 L x | Exp => m_exp L x
            end) (real_fun f (val x)).

(** Boost's CLOSE_FRACTION, as used by the test suite: the difference is at most
    the fraction [d] of either number. *)
Definition agree {t} (d : R) (x y : F t) : Prop :=
  isfin x = true /\ isfin y = true /\ (Rabs (val x - val y) <= d * Rabs (val x))%R /\ (Rabs (val x - val y) <= d * Rabs (val y))%R.
(** The difference is at most [d]. *)
Definition within {t} (d : R) (x y : F t) : Prop :=
  isfin x = true /\ isfin y = true /\ (Rabs (val x - val y) <= d)%R.

(** Two calls on the same memory [m]: both return, their outputs are related
    sample by sample, and both leave everything else as it was. *)
Definition alike {A} (P : A -> A -> Prop) (m : mem A) (r1 r2 : res (mem A)) (out len : Z) : Prop :=
  exists m1 m2, r1 = Ok m1 /\ r2 = Ok m2 /\
    (forall i, 0 <= i < len -> exists u v, m1 (out + i) = Some u /\ m2 (out + i) = Some v /\ P u v) /\
    (forall a, a < out \/ out + len <= a -> m1 a = m a /\ m2 a = m a).

(** The same for pow and signed_pow: a base that is not subnormal, positive for
    pow, and a result between e^-87 and e^87. *)
Definition ordinary2 (f : bfun) (x y : R) : Prop :=
  match f with
  | Pow => (bpow radix2 (-126) <= x)%R
  | SignedPow => (bpow radix2 (-126) <= Rabs x)%R
  end /\ (Rabs (y * ln (Rabs x)) <= 87)%R.
(** The same for the unit conversions. *)
Definition ordinary_unit (u : unit_fun) (r : R) : Prop :=
  match u with
  | Midi2freq => (0 <= r <= 127)%R
  | Midi2ratio | Db2amp => (Rabs r <= 127)%R
  | Oct2freq => (0 <= r <= 10)%R
  | Freq2midi | Freq2oct => (1 <= Rabs r <= 30000)%R
  | Ratio2midi => (bpow radix2 (-126) <= r)%R
  | Amp2db => (bpow radix2 (-126) <= Rabs r)%R
  end.
(** How far the two versions of a unit conversion may be apart: a fraction, or
    3e-4 keys, or 3e-5 octaves. *)
Definition unit_agree {t} (u : unit_fun) : F t -> F t -> Prop :=
  match u with
  | Freq2midi => within 3e-4
  | Freq2oct => within 3e-5
  | Db2amp => agree 2e-5
  | _ => agree 1e-5
  end.
