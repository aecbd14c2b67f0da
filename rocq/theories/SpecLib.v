(** Specification vocabulary for the functions that call the C library. *)

From Coq Require Import ZArith Reals List Lia.
From Flocq Require Import Core IEEE754.Binary IEEE754.Bits.
From Verif Require Import Base Mem Backend Args Lanes Float LaneOps Libm Spec SpecLane SpecMath.
Local Open Scope Z_scope.

(** [x] is within a relative error of [e] of the real number [y]; as [close],
    for either format. *)
Definition near {t} (e : R) (x : F t) (y : R) : Prop :=
  isfin x = true /\ (Rabs (val x - y) <= e * Rabs y)%R.

(** The back-ends that hand the transcendental functions to the C library,
    element by element: all but float on AVX and on SSE with SSE2. *)
Definition delegates (c : cfg) (B : backend) : Prop := ~ math_backend c B.

(** A C library whose logarithms and powers of positive numbers have a relative
    error of at most [e]; powers as far as the result is between 2^-126 and
    2^126. *)
Record accurate {t} (e : R) (L : libm t) : Prop := {
  acc_log : forall x, isfin x = true -> (0 < val x)%R -> near e (m_log L x) (ln (val x));
  acc_log2 : forall x, isfin x = true -> (0 < val x)%R -> near e (m_log2 L x) (log_base 2 (val x));
  acc_log10 : forall x, isfin x = true -> (0 < val x)%R -> near e (m_log10 L x) (log_base 10 (val x));
  acc_pow : forall x y, isfin x = true -> isfin y = true -> (0 < val x)%R -> (Rabs (val y * log_base 2 (val x)) <= 126)%R ->
    near e (m_pow L x y) (Rpower (val x) (val y))
}.

(** Half a unit in the last place, relative. *)
Definition half_ulp (t : fmt) : R := match t with F32 => bpow radix2 (-24) | F64 => bpow radix2 (-53) end.

(** Error of the conversions, from the shortened constants 0.083333333333 and
    0.0022727272727 of the code: relative, per semitone from the origin; ... *)
Definition semitone_err (t : fmt) : R := match t with F32 => 9e-9 | F64 => 2.4e-13 end.
(** ... absolute, in keys; ... *)
Definition key_err (t : fmt) : R := match t with F32 => 6e-6 | F64 => 2.1e-10 end.
(** ... absolute, in octaves; ... *)
Definition octave_err (t : fmt) : R := match t with F32 => 5e-7 | F64 => 1.75e-11 end.
(** ... absolute, in keys, from a key to Hz and back. *)
Definition round_trip_err (t : fmt) : R := match t with F32 => 1e-4 | F64 => 6e-10 end.

(** The C library that rounds the exact results to the nearest number.  It is
    only used to show that [accurate] can be met. *)
Definition nearest (t : fmt) (r : R) : F t :=
  f_lit t (ZnearestE (scaled_mantissa radix2 (SpecFloat.fexp (prec t) (emax t)) r)) (cexp radix2 (SpecFloat.fexp (prec t) (emax t)) r).
(** See [nearest]. *)
Definition ideal (t : fmt) : libm t :=
  Libm t (fun x => nearest t (sin (val x))) (fun x => nearest t (cos (val x))) (fun x => nearest t (tan (val x)))
    (fun x => nearest t (asin (val x))) (fun x => nearest t (acos (val x))) (fun x => nearest t (atan (val x)))
    (fun x => nearest t (tanh (val x))) (fun x => nearest t (ln (val x))) (fun x => nearest t (log_base 2 (val x)))
    (fun x => nearest t (log_base 10 (val x))) (fun x => nearest t (exp (val x))) (fun x y => nearest t (Rpower (val x) (val y))).
