(** Buffer functions at F = float and F = double: the operations of samples and
    of vector lanes, the comparison functions of simd_binary_arithmetic.hpp,
    the unary functions of simd_unary_arithmetic.hpp, softclip.hpp and
    simd_math.hpp. *)

From Coq Require Import ZArith List Lia.
From Flocq Require Import Core IEEE754.Binary IEEE754.Bits.
From Verif Require Import Base Mem Backend Args Drivers Functors Lanes Float LaneOps FloatOps ScalarMath VecMath.
Import ListNotations.
Local Open Scope Z_scope.

(** A C++ bool converted to F; simd_binary_arithmetic.hpp 173-178. *)
Definition of_bool t (b : bool) : F t := if b then f_ofZ t 1 else f_ofZ t 0.

(** Operations on samples: the built-in operators, std::max and std::min
    (/repo/vec.hpp 48-58), comparisons converted to F
    (simd_binary_arithmetic.hpp 106-159). *)
Definition fops_scalar {t} (n : nans t) : ops (F t) := {|
  o_zero := f_ofZ t 0;
  o_one := f_ofZ t 1;
  o_add := fadd n;
  o_sub := fsub n;
  o_mul := fmul n;
  o_div := fdiv n;
  o_max := smax;
  o_min := smin;
  o_madd := fun a b x => fadd n (fmul n a b) x;
  o_lt := fun a b => of_bool t (flt a b);
  o_le := fun a b => of_bool t (fle a b);
  o_gt := fun a b => of_bool t (fgt a b);
  o_ge := fun a b => of_bool t (fge a b);
  o_eq := fun a b => of_bool t (feq a b);
  o_ne := fun a b => of_bool t (fne a b)
|}.

(** Operations on one lane of vec<F> of back-end [B]: vec_base.hpp 205-328,
    vec_sse.hpp 324-393, vec_sse2.hpp 219-265, vec_avx_float.hpp 217-290,
    vec_avx_double.hpp 198-249, vec_neon.hpp 247-322, vec_altivec.hpp 225-332.
    Division on NEON and Altivec is a multiplication with an estimated
    reciprocal and is modelled in Estimate.v (the field is unused for them). *)
Definition fops (c : cfg) (B : backend) (n : nans (fmt_of B)) : ops (F (fmt_of B)) :=
  let I := isa_of B in {|
  o_zero := f_ofZ (fmt_of B) 0;
  o_one := f_ofZ (fmt_of B) 1;
  o_add := fadd n;
  o_sub := fsub n;
  o_mul := vmul I n;
  o_div := fdiv n;
  o_max := vmax I n;
  o_min := vmin I n;
  o_madd := madd c I n;
  o_lt := oprel c I LT;
  o_le := oprel c I LE;
  o_gt := oprel c I GT;
  o_ge := oprel c I GE;
  o_eq := oprel c I EQ;
  o_ne := oprel c I NE
|}.

(** The operation of a relation; simd_binary_arithmetic.hpp 173-178. *)
Definition o_rel {T} (o : ops T) (r : rel) : T -> T -> T :=
  match r with
  | LT => o_lt o | LE => o_le o | GT => o_gt o | GE => o_ge o | EQ => o_eq o | NE => o_ne o
  end.
(** less_vec, less_equal_vec, greater_vec, greater_equal_vec, equal_vec and
    notequal_vec, simd_binary_arithmetic.hpp 173-178. *)
Definition compare_vec {t} (n : nans t) (r : rel) :=
  binary_vec (farith n) (o_rel (fops_scalar n) r).
(** less_vec_simd and the others, simd_binary_arithmetic.hpp 173-178. *)
Definition compare_vec_simd (c : cfg) (B : backend) (n : nans (fmt_of B)) (r : rel) :=
  binary_vec_simd (farith n) B (o_rel (vops B (fops c B n)) r).

Section Unary.
Context (c : cfg) (B : backend) (n : nans (fmt_of B)).
Local Notation Fb := (F (fmt_of B)).
Local Notation I := (isa_of B).

(** foo_vec and foo_vec_simd of a unary functor: NOVA_SIMD_DEFINE_UNARY_WRAPPER,
    /repo/detail/define_macros.hpp 172-190. *)
Definition simd_of (f : Fb -> Fb) := unary_vec_simd (farith n) B (map f).

(** abs_vec, simd_unary_arithmetic.hpp lines 52, 67. *)
Definition abs_vec := unary_vec (A := Fb) fabs.
(** abs_vec_simd, simd_unary_arithmetic.hpp lines 52, 67. *)
Definition abs_vec_simd := simd_of (vabs c I).
(** sgn_vec, simd_unary_arithmetic.hpp lines 53, 68. *)
Definition sgn_vec := unary_vec (A := Fb) s_sign.
(** sgn_vec_simd, simd_unary_arithmetic.hpp lines 53, 68. *)
Definition sgn_vec_simd := simd_of (vsign c I).
(** square_vec, simd_unary_arithmetic.hpp lines 54, 69. *)
Definition square_vec := unary_vec (A := Fb) (s_square n).
(** square_vec_simd, simd_unary_arithmetic.hpp lines 54, 69. *)
Definition square_vec_simd := simd_of (vsquare I n).
(** cube_vec, simd_unary_arithmetic.hpp lines 55, 70. *)
Definition cube_vec := unary_vec (A := Fb) (s_cube n).
(** cube_vec_simd, simd_unary_arithmetic.hpp lines 55, 70. *)
Definition cube_vec_simd := simd_of (vcube I n).
(** round_vec, simd_unary_arithmetic.hpp lines 58, 72. *)
Definition round_vec := unary_vec (A := Fb) (s_round n).
(** round_vec_simd, simd_unary_arithmetic.hpp lines 58, 72. *)
Definition round_vec_simd := simd_of (vround c I n).
(** frac_vec, simd_unary_arithmetic.hpp lines 59, 73. *)
Definition frac_vec := unary_vec (A := Fb) (s_frac n).
(** frac_vec_simd, simd_unary_arithmetic.hpp lines 59, 73. *)
Definition frac_vec_simd := simd_of (vfrac c I n).
(** ceil_vec, simd_unary_arithmetic.hpp lines 60, 74. *)
Definition ceil_vec := unary_vec (A := Fb) (s_ceil n).
(** ceil_vec_simd, simd_unary_arithmetic.hpp lines 60, 74. *)
Definition ceil_vec_simd := simd_of (vceil c I n).
(** floor_vec, simd_unary_arithmetic.hpp lines 61, 75. *)
Definition floor_vec := unary_vec (A := Fb) (s_floor n).
(** floor_vec_simd, simd_unary_arithmetic.hpp lines 61, 75. *)
Definition floor_vec_simd := simd_of (vfloor c I n).
(** undenormalize_vec, simd_unary_arithmetic.hpp lines 63, 78. *)
Definition undenormalize_vec := unary_vec (A := Fb) s_undenormalize.
(** undenormalize_vec_simd, simd_unary_arithmetic.hpp lines 63, 78. *)
Definition undenormalize_vec_simd := simd_of (vundenormalize c I).
(** softclip_vec, softclip.hpp line 93. *)
Definition softclip_vec := unary_vec (A := Fb) (s_softclip n).
(** softclip_vec_simd, softclip.hpp line 93. *)
Definition softclip_vec_simd := simd_of (vsoftclip c I n).
(** signed_sqrt_vec, simd_math.hpp line 69. *)
Definition signed_sqrt_vec := unary_vec (A := Fb) (s_signed_sqrt n).
(** signed_sqrt_vec_simd, simd_math.hpp line 69. *)
Definition signed_sqrt_vec_simd := simd_of (vsigned_sqrt c I n).
End Unary.
