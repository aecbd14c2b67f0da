(** Buffer functions with transcendental lane functions (/repo/simd_math.hpp)
    and the unit conversions (/repo/simd_unit_conversion.hpp) for float on SSE
    (with SSE2) and AVX.  The functions foo_vec without SIMD call the C library
    and are modelled in Libm.v. *)

From Coq Require Import ZArith List Lia.
From Flocq Require Import Core IEEE754.Binary IEEE754.Bits.
From Verif Require Import Base Mem Backend Args Drivers Functors Lanes Float LaneOps FloatOps VecMath IntVec TransMath.
Import ListNotations.
Local Open Scope Z_scope.

(** * Unit conversions on one lane *)
Section Units.
Context (c : cfg) (I : isa) (n : nans F32) (m : nans F64).
Local Notation "x +. y" := (fadd n x y) (at level 50, left associativity).
Local Notation "x -. y" := (fsub n x y) (at level 50, left associativity).
Local Notation "x *. y" := (fmul n x y) (at level 40, left associativity).
(** detail::abs_log2, simd_unit_conversion.hpp 34-41. *)
Definition abs_log2 (arg : F F32) : F F32 := vec_log2 c I n m (vabs c I arg).
(** detail::midi2freq, simd_unit_conversion.hpp 43-51. *)
Definition midi2freq (midi : F F32) : F F32 :=
  f_ofZ F32 440 *. vec_pow c I n (f_ofZ F32 2) ((midi -. f_ofZ F32 69) *. litd 83333333333 12).
(** detail::freq2midi, simd_unit_conversion.hpp 53-60. *)
Definition freq2midi (freq : F F32) : F F32 :=
  abs_log2 (freq *. litd 22727272727 13) *. f_ofZ F32 12 +. f_ofZ F32 69.
(** detail::midi2ratio, simd_unit_conversion.hpp 62-69. *)
Definition midi2ratio (midi : F F32) : F F32 := vec_pow c I n (f_ofZ F32 2) (midi *. litd 83333333333 12).
(** detail::ratio2midi, simd_unit_conversion.hpp 71-78. *)
Definition ratio2midi (ratio : F F32) : F F32 := f_ofZ F32 12 *. vec_log2 c I n m ratio.
(** detail::oct2freq, simd_unit_conversion.hpp 80-87. *)
Definition oct2freq (note : F F32) : F F32 :=
  f_ofZ F32 440 *. vec_pow c I n (f_ofZ F32 2) (note -. litd 475 2).
(** detail::freq2oct, simd_unit_conversion.hpp 90-97. *)
Definition freq2oct (freq : F F32) : F F32 := abs_log2 (freq *. litd 22727272727 13) +. litd 475 2.
(** detail::amp2db, simd_unit_conversion.hpp 99-106. *)
Definition amp2db (amp : F F32) : F F32 := vec_log10 c I n m (vabs c I amp) *. f_ofZ F32 20.
(** detail::db2amp, simd_unit_conversion.hpp 108-115. *)
Definition db2amp (db : F F32) : F F32 := vec_pow c I n (f_ofZ F32 10) (db *. litd 5 2).
End Units.

(** * Buffers *)
Section Buffers.
Context (c : cfg) (B : backend) (n : nans F32) (k : nans F64).
Local Notation I := (isa_of B).
(** foo_vec_simd of a unary functor on float: NOVA_SIMD_DEFINE_UNARY_WRAPPER,
    /repo/detail/define_macros.hpp 172-190. *)
Definition simd_of32 (f : F F32 -> F F32) := unary_vec_simd (farith n) B (map f).
(** foo_vec_simd of a binary functor on float: NOVA_SIMD_DEFINE_BINARY_WRAPPER,
    /repo/detail/define_macros.hpp 192-244. *)
Definition simd2_of32 (f : F F32 -> F F32 -> F F32) := binary_vec_simd (farith n) B (map2 f).
(** sin_vec_simd, simd_math.hpp line 55. *)
Definition sin_vec_simd := simd_of32 (vec_sin_float c I n).
(** cos_vec_simd, simd_math.hpp line 56. *)
Definition cos_vec_simd := simd_of32 (vec_cos_float c I n).
(** tan_vec_simd, simd_math.hpp line 57. *)
Definition tan_vec_simd := simd_of32 (vec_tan_float c I n).
(** asin_vec_simd, simd_math.hpp line 58. *)
Definition asin_vec_simd := simd_of32 (vec_asin_float c I n).
(** acos_vec_simd, simd_math.hpp line 59. *)
Definition acos_vec_simd := simd_of32 (vec_acos_float c I n).
(** atan_vec_simd, simd_math.hpp line 60. *)
Definition atan_vec_simd := simd_of32 (vec_atan_float c I n).
(** tanh_vec_simd, simd_math.hpp line 62. *)
Definition tanh_vec_simd := simd_of32 (vec_tanh_float c I n).
(** log_vec_simd, simd_math.hpp line 64. *)
Definition log_vec_simd := simd_of32 (vec_log_float c I n).
(** exp_vec_simd, simd_math.hpp line 67. *)
Definition exp_vec_simd := simd_of32 (vec_exp_float c I n).
(** log2_vec_simd, simd_math.hpp line 65. *)
Definition log2_vec_simd := simd_of32 (vec_log2 c I n k).
(** log10_vec_simd, simd_math.hpp line 66. *)
Definition log10_vec_simd := simd_of32 (vec_log10 c I n k).
(** pow_vec_simd, simd_math.hpp line 90. *)
Definition pow_vec_simd := simd2_of32 (vec_pow c I n).
(** spow_vec_simd, simd_math.hpp line 91. *)
Definition spow_vec_simd := simd2_of32 (vec_signed_pow c I n).
(** midi2freq_vec_simd, simd_unit_conversion.hpp line 120. *)
Definition midi2freq_vec_simd := simd_of32 (midi2freq c I n).
(** freq2midi_vec_simd, simd_unit_conversion.hpp line 121. *)
Definition freq2midi_vec_simd := simd_of32 (freq2midi c I n k).
(** midi2ratio_vec_simd, simd_unit_conversion.hpp line 123. *)
Definition midi2ratio_vec_simd := simd_of32 (midi2ratio c I n).
(** ratio2midi_vec_simd, simd_unit_conversion.hpp line 124. *)
Definition ratio2midi_vec_simd := simd_of32 (ratio2midi c I n k).
(** oct2freq_vec_simd, simd_unit_conversion.hpp line 126. *)
Definition oct2freq_vec_simd := simd_of32 (oct2freq c I n).
(** freq2oct_vec_simd, simd_unit_conversion.hpp line 127. *)
Definition freq2oct_vec_simd := simd_of32 (freq2oct c I n k).
(** amp2db_vec_simd, simd_unit_conversion.hpp line 129. *)
Definition amp2db_vec_simd := simd_of32 (amp2db c I n k).
(** db2amp_vec_simd, simd_unit_conversion.hpp line 130. *)
Definition db2amp_vec_simd := simd_of32 (db2amp c I n).
End Buffers.
