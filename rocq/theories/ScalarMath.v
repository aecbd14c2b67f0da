(** Scalar functions: /repo/detail/math.hpp, /repo/softclip.hpp. *)

From Coq Require Import ZArith Bool List Lia.
From Flocq Require Import Core IEEE754.Binary IEEE754.Bits.
From Verif Require Import Base Float.
Local Open Scope Z_scope.

Section Scalar.
Context {t : fmt} (n : nans t).

(** detail::sign, math.hpp 201-210. *)
Definition s_sign (f : F t) : F t :=
  if fgt f (f_ofZ t 0) then f_ofZ t 1
  else if feq f (f_ofZ t 0) then f_ofZ t 0
  else f_ofZ t (-1).

(** detail::square, math.hpp 212-216. *)
Definition s_square (f : F t) : F t := fmul n f f.
(** detail::cube, math.hpp 218-222. *)
Definition s_cube (f : F t) : F t := fmul n (fmul n f f) f.

(** detail::round, math.hpp 243-257: ::round and ::roundf, which every
    compiler but Visual C++ uses. *)
Definition s_round (arg : F t) : F t := fround_away n arg.
(** detail::round, math.hpp 237-241: the template those two specialise. *)
Definition s_round_fallback (arg : F t) : F t := ffloor n (fadd n arg (f_lit t 1 (-1))).

(** detail::floor, detail::ceil, math.hpp 175-176. *)
Definition s_floor (arg : F t) : F t := ffloor n arg.
(** See [s_floor]; detail/math.hpp 176. *)
Definition s_ceil (arg : F t) : F t := fceil n arg.
(** detail::frac, math.hpp 259-263. *)
Definition s_frac (arg : F t) : F t := fsub n arg (s_floor arg).

(** Conversion of a floating point number to a 64-bit long: undefined when the
    truncated value does not fit (or there is none);
    the cast of detail/math.hpp 297. *)
Definition to_long (arg : F t) : res Z :=
  let z := Btrunc (prec t) (emax t) arg in
  if isfin arg && (- 2 ^ 63 <=? z) && (z <? 2 ^ 63) then Ok z else Fault BadConversion.
(** detail::trunc, math.hpp 294-298: `(float_type)(long)arg`, long having 64
    bits. *)
Definition s_trunc (arg : F t) : res (F t) := z <- to_long arg;; Ok (f_ofZ t z).

(** detail::signed_sqrt, math.hpp 301-308. *)
Definition s_signed_sqrt (in0 : F t) : F t :=
  if fge in0 (f_ofZ t 0) then fsqrt n in0 else fneg (fsqrt n (fneg in0)).

(** detail::undenormalize, math.hpp 319-334. *)
Definition s_undenormalize (arg : F t) : F t :=
  let min_positive_value := f_min t in
  if fgt arg (f_ofZ t 0) then
    if flt arg min_positive_value then f_ofZ t 0 else arg
  else
    if fgt arg (fneg min_positive_value) then f_ofZ t 0 else arg.

(** detail::reciprocal, math.hpp 336-340. *)
Definition s_reciprocal (x : F t) : F t := fdiv n (f_ofZ t 1) x.

(** softclip::s_run, softclip.hpp 40-48. *)
Definition s_softclip (arg : F t) : F t :=
  let abs := fabs arg in
  if flt abs (f_lit t 1 (-1)) then arg
  else fdiv n (fsub n abs (f_lit t 1 (-2))) arg.
End Scalar.
