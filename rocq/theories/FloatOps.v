(** The templates of the library at F = float and F = double. *)

From Coq Require Import ZArith List Lia.
From Flocq Require Import Core IEEE754.Binary IEEE754.Bits.
From Verif Require Import Base Mem Backend Lanes Float LaneOps Reduce.
Import ListNotations.
Local Open Scope Z_scope.

(** Operations the peak meters and horizontal functions use on float / double
    samples and on lanes of back-end [B] (simd_peakmeter.hpp 37-150,
    simd_horizontal_functions.hpp 35-214; operators vec_base.hpp 205-214,
    vec_sse.hpp 324-366 and kin). *)
Definition fred (c : cfg) (B : backend) (n : nans (fmt_of B)) : redops (F (fmt_of B)) := {|
  d_zero := f_ofZ (fmt_of B) 0;
  d_lmin := f_min (fmt_of B);
  d_lmax := f_max (fmt_of B);
  d_add := fadd n;
  d_mul := fmul n;
  d_fabs := fabs;
  d_vabs := vabs c (isa_of B);
  d_smax := smax;
  d_smin := smin;
  d_vmax := vmax (isa_of B) n;
  d_vmin := vmin (isa_of B) n
|}.

(** The same for the scalar functions, which do not depend on a back-end;
    simd_peakmeter.hpp 37-107, simd_horizontal_functions.hpp 35-192 and simd_memory.hpp 192-223 use them. *)
Definition fred_scalar {t : fmt} (n : nans t) : redops (F t) := {|
  d_zero := f_ofZ t 0;
  d_lmin := f_min t;
  d_lmax := f_max t;
  d_add := fadd n;
  d_mul := fmul n;
  d_fabs := fabs;
  d_vabs := fabs;
  d_smax := smax;
  d_smin := smin;
  d_vmax := smax;
  d_vmin := smin
|}.

(** Arithmetic of float / double for the buffer-level code (see [arith]);
    simd_peakmeter.hpp 37-107, simd_horizontal_functions.hpp 35-192 and simd_memory.hpp 192-223 use them. *)
Definition farith {t : fmt} (n : nans t) : arith (F t) := {|
  a_zero := f_ofZ t 0;
  a_add := fadd n;
  a_mul := fmul n;
  a_ofZ := f_ofZ t;
  a_narrow := f_narrow n
|}.
