(** One lane of the unary functions of vec<F>: the helpers of
    /repo/detail/vec_math.hpp and the choice each specialisation makes. *)

From Coq Require Import ZArith Bool List Lia.
From Flocq Require Import Core IEEE754.Binary IEEE754.Bits.
From Verif Require Import Base Backend Lanes Float LaneOps ScalarMath.
Local Open Scope Z_scope.

Section Helpers.
Context {t : fmt} (c : cfg) (I : isa) (n : nans t).

(** detail::vec_sign, vec_math.hpp 38-52. *)
Definition vec_sign (arg : F t) : F t :=
  let nonzero := vmask I NE arg gen_zero in
  let sign := band arg (gen_sign_mask c I) in
  let abs_ret := band nonzero (gen_one c I) in
  bor sign abs_ret.

(** detail::vec_round_float, vec_math.hpp 54-65; the constant is 0x1.0p23f. *)
Definition vec_round_float (arg : F t) : F t :=
  let sign := band arg (gen_sign_mask c I) in
  let abs_arg := bxor sign arg in
  let two_to_23 := f_ofZ t (2 ^ 23) in
  let rounded := fsub n (fadd n abs_arg two_to_23) two_to_23 in
  bxor sign rounded.

(** detail::vec_floor_float, vec_math.hpp 67-77. *)
Definition vec_floor_float (arg : F t) : F t :=
  let rounded := vec_round_float arg in
  let rounded_larger := vmask I GT rounded arg in
  let add := band rounded_larger (gen_one c I) in
  fsub n rounded add.

(** detail::vec_ceil_float, vec_math.hpp 79-89. *)
Definition vec_ceil_float (arg : F t) : F t :=
  let rounded := vec_round_float arg in
  let rounded_smaller := vmask I LT rounded arg in
  let add := band rounded_smaller (gen_one c I) in
  fadd n rounded add.

(** detail::vec_signed_sqrt, vec_math.hpp 549-558, with the correctly rounded
    square root of x86. *)
Definition vec_signed_sqrt (arg : F t) : F t :=
  let sign_arg1 := band arg (gen_sign_mask c I) in
  let abs_arg1 := bxor arg sign_arg1 in
  let result := fsqrt n abs_arg1 in
  bor sign_arg1 result.

(** detail::vec_undenormalize, vec_math.hpp 582-594. *)
Definition vec_undenormalize (arg : F t) : F t :=
  let min_positive_value := f_min t in
  let abs_arg := vabs c I arg in
  let abs_arg_lt_min := vmask I LT abs_arg min_positive_value in
  select c I arg gen_zero abs_arg_lt_min.

(** detail::softclip on vectors, softclip.hpp 67-81. *)
Definition vec_softclip (arg : F t) : F t :=
  let const05 := gen_05 c I in
  let const025 := f_lit t 1 (-2) in
  let abs_ := vabs c I arg in
  let selecter := vmask I LT abs_ const05 in
  let alt_ret := fdiv n (fsub n abs_ const025) arg in
  select c I alt_ret arg selecter.
End Helpers.

Section Choice.
Context {t : fmt} (c : cfg) (I : isa) (n : nans t).

(** sign(vec): vec_sse.hpp 447-450, vec_sse2.hpp 317-320, vec_avx_float.hpp
    341-344, vec_avx_double.hpp 297-300, vec_neon.hpp 436-439, vec_altivec.hpp
    384-387; the generic vec applies detail::sign, vec_base.hpp 321. *)
Definition vsign (x : F t) : F t :=
  match I with GEN => s_sign x | _ => vec_sign c I x end.

(** square(vec): vec_sse.hpp 452-455, vec_sse2.hpp 322-325, vec_avx_float.hpp
    346-349, vec_avx_double.hpp 302-305, vec_neon.hpp 378-381, vec_base.hpp
    322; Altivec's product is vec_madd(a, b, 0), vec_altivec.hpp 226-229 and
    389-392. *)
Definition vmul (a b : F t) : F t :=
  match I with ALTIVEC => ffma n a b (f_ofZ t 0) | _ => fmul n a b end.
(** See [vmul]; vec_sse.hpp 452-455 etc., as in [vmul]. *)
Definition vsquare (x : F t) : F t := vmul x x.

(** cube(vec): a*(a*a) in vec_sse.hpp 462-465, vec_sse2.hpp 332-335,
    vec_avx_double.hpp 312-315, vec_neon.hpp 383-386, vec_altivec.hpp 423-426;
    (a*a)*a in vec_avx_float.hpp 356-359 and detail::cube (vec_base.hpp 323). *)
Definition vcube (x : F t) : F t :=
  match I, t with
  | GEN, _ | AVX, F32 => vmul (vmul x x) x
  | _, _ => vmul x (vmul x x)
  end.

(** round(vec): vec_sse.hpp 483-490 (SSE4.1 or vec_round_float), vec_sse2.hpp
    353-360 (SSE4.1 or detail::round), vec_avx_float.hpp 377-380,
    vec_avx_double.hpp 333-336, vec_neon.hpp 404-407, vec_altivec.hpp 444-448,
    vec_base.hpp 311. *)
Definition vround (x : F t) : F t :=
  match I, t with
  | GEN, _ => s_round n x
  | SSE, F32 => if has_sse41 c then fround_even n x else vec_round_float c I n x
  | SSE, F64 => if has_sse41 c then fround_even n x else s_round n x
  | AVX, _ => fround_even n x
  | NEON, _ | ALTIVEC, _ => vec_round_float c I n x
  end.

(** floor(vec): vec_sse.hpp 498-505, vec_sse2.hpp 368-375, vec_avx_float.hpp
    388-391, vec_avx_double.hpp 344-347, vec_neon.hpp 415-418 (vec_floor_float),
    vec_altivec.hpp 456-459 (vec_floor), vec_base.hpp 313. *)
Definition vfloor (x : F t) : F t :=
  match I, t with
  | SSE, F32 => if has_sse41 c then ffloor n x else vec_floor_float c I n x
  | NEON, _ => vec_floor_float c I n x
  | _, _ => ffloor n x
  end.

(** ceil(vec): vec_sse.hpp 507-514, vec_sse2.hpp 377-384, vec_avx_float.hpp
    393-396, vec_avx_double.hpp 349-352, vec_neon.hpp 420-423, vec_altivec.hpp
    461-464, vec_base.hpp 312. *)
Definition vceil (x : F t) : F t :=
  match I, t with
  | SSE, F32 => if has_sse41 c then fceil n x else vec_ceil_float c I n x
  | NEON, _ => vec_ceil_float c I n x
  | _, _ => fceil n x
  end.

(** frac(vec): vec_sse.hpp 492-496, vec_sse2.hpp 362-366, vec_avx_float.hpp
    382-386, vec_avx_double.hpp 338-342, vec_neon.hpp 409-413, vec_altivec.hpp
    450-454, vec_base.hpp 314. *)
Definition vfrac (x : F t) : F t := fsub n x (vfloor x).

(** vec_ctu followed by vec_ctf: saturating conversion to unsigned int and
    back, vec_altivec.hpp 466-469, 477-480, vec_int_altivec.hpp 117-120; a NaN
    converts to 0. *)
Definition altivec_trunc (x : F t) : F t :=
  let z := Btrunc (prec t) (emax t) x in
  let u := if isnan x then 0
           else if isfin x then Z.max 0 (Z.min (2 ^ 32 - 1) z)
           else if sgn x then 0 else 2 ^ 32 - 1 in
  f_ofZ t u.

(** trunc(vec): vec_sse.hpp 516-523, vec_sse2.hpp 386-393 (SSE4.1 or
    detail::trunc), vec_avx_float.hpp 398-401, vec_avx_double.hpp 354-357,
    vec_neon.hpp 431 (detail::trunc), vec_altivec.hpp 466-469, vec_base.hpp 315. *)
Definition vtrunc (x : F t) : res (F t) :=
  match I with
  | GEN | NEON => s_trunc x
  | SSE => if has_sse41 c then Ok (fround_zero n x) else s_trunc x
  | AVX => Ok (fround_zero n x)
  | ALTIVEC => Ok (altivec_trunc x)
  end.

(** signed_sqrt(vec): vec_sse.hpp 531-534, vec_sse2.hpp 417-420,
    vec_avx_float.hpp 462-465, vec_avx_double.hpp 381-384; detail::signed_sqrt
    on the generic vec and on Altivec (vec_base.hpp 309, vec_altivec.hpp 583).
    NEON's square root is an estimate (vec_neon.hpp 459-473) and modelled in
    Estimate.v; its line here is unused. *)
Definition vsigned_sqrt (x : F t) : F t :=
  match I with GEN | ALTIVEC => s_signed_sqrt n x | _ => vec_signed_sqrt c I n x end.

(** undenormalize(vec): vec_sse.hpp 624-627, vec_sse2.hpp 422-425,
    vec_avx_float.hpp 477-480, vec_avx_double.hpp 385-388, vec_base.hpp 328.
    NEON and Altivec have none; their lines are unused. *)
Definition vundenormalize (x : F t) : F t :=
  match I with GEN => s_undenormalize x | _ => vec_undenormalize c I x end.

(** The functor softclip on vectors, softclip.hpp 50-88: branch-free with
    __SSE__ or __AVX__, s_run on each element otherwise. *)
Definition vsoftclip (x : F t) : F t :=
  match I with SSE | AVX => vec_softclip c I n x | _ => s_softclip n x end.

(** reciprocal(vec) where it is 1/x: vec_base.hpp 293 (generic, SSE2 double,
    AVX double).  The others: see [vec_reciprocal_newton]. *)
Definition vreciprocal (x : F t) : F t := s_reciprocal n x.
End Choice.
