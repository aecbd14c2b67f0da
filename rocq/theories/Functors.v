(** The functors behind the binary, ternary and 4-ary buffer functions:
    /repo/simd_binary_arithmetic.hpp, simd_ternary_arithmetic.hpp,
    simd_mix.hpp.  They are C++ templates over the operand type, here functions
    of a record of operations; the same functor runs on samples and on vectors. *)

From Coq Require Import ZArith List.
From Verif Require Import Base Backend Args Drivers.
Import ListNotations.
Local Open Scope Z_scope.

(** The operations of an operand type: for samples those of float and double
    and std::max, std::min (/repo/vec.hpp lines 48-58), for vectors the
    operators and friend functions of vec<F> (/repo/vec/vec_base.hpp 205-328
    and the files of the specialisations). *)
Record ops (T : Type) := {
  o_zero : T;              (* conversion from 0.0 *)
  o_one : T;               (* conversion from 1.f *)
  o_add : T -> T -> T;
  o_sub : T -> T -> T;
  o_mul : T -> T -> T;
  o_div : T -> T -> T;
  o_max : T -> T -> T;     (* max_ *)
  o_min : T -> T -> T;     (* min_ *)
  o_madd : T -> T -> T -> T;  (* madd; only used on vectors *)
  o_lt : T -> T -> T;      (* the relational operators, converted to T *)
  o_le : T -> T -> T;
  o_gt : T -> T -> T;
  o_ge : T -> T -> T;
  o_eq : T -> T -> T;
  o_ne : T -> T -> T
}.
Arguments o_zero {T}. Arguments o_one {T}. Arguments o_add {T}. Arguments o_sub {T}.
Arguments o_mul {T}. Arguments o_div {T}. Arguments o_max {T}. Arguments o_min {T}.
Arguments o_madd {T}. Arguments o_lt {T}. Arguments o_le {T}. Arguments o_gt {T}.
Arguments o_ge {T}. Arguments o_eq {T}. Arguments o_ne {T}.

(** The operations of vec<F>, from those of one lane: every operator applies
    one instruction to all lanes (lines as in [ops]; vec(float) is set_vec). *)
Definition vops {A} (B : backend) (o : ops A) : ops (list A) := {|
  o_zero := set_vec B (o_zero o);
  o_one := set_vec B (o_one o);
  o_add := map2 (o_add o);
  o_sub := map2 (o_sub o);
  o_mul := map2 (o_mul o);
  o_div := map2 (o_div o);
  o_max := map2 (o_max o);
  o_min := map2 (o_min o);
  o_madd := map3 (o_madd o);
  o_lt := map2 (o_lt o);
  o_le := map2 (o_le o);
  o_gt := map2 (o_gt o);
  o_ge := map2 (o_ge o);
  o_eq := map2 (o_eq o);
  o_ne := map2 (o_ne o)
|}.

Section Functors.
Context {T : Type} (o : ops T).

(** simd_binary_arithmetic.hpp 77-86. *)
Definition clip2_functor (f limit : T) : T :=
  let zero := o_zero o in
  let neg := o_sub o zero limit in
  o_max o neg (o_min o f limit).

(** simd_ternary_arithmetic.hpp 40-48. *)
Definition clip_functor (value low high : T) : T := o_max o (o_min o value high) low.
(** simd_ternary_arithmetic.hpp 52-56: the overload for samples. *)
Definition muladd_functor (value mul add : T) : T := o_add o (o_mul o value mul) add.
(** simd_ternary_arithmetic.hpp 58-62: the overload for vectors. *)
Definition muladd_vec_functor (value mul add : T) : T := o_madd o value mul add.
(** simd_ternary_arithmetic.hpp 65-73. *)
Definition ampmod_functor (signal modulator amount : T) : T :=
  let one := o_one o in
  o_mul o signal (o_add o one (o_mul o modulator amount)).

(** simd_mix.hpp 38-45. *)
Definition scaled_mix2_functor (sig0 factor0 sig1 factor1 : T) : T :=
  o_add o (o_mul o sig0 factor0) (o_mul o sig1 factor1).
(** simd_mix.hpp 49-53. *)
Definition sum2_functor (sig0 sig1 : T) : T := o_add o sig0 sig1.
(** simd_mix.hpp 55-59. *)
Definition sum3_functor (sig0 sig1 sig2 : T) : T := o_add o (o_add o sig0 sig1) sig2.
(** simd_mix.hpp 61-65. *)
Definition sum4_functor (sig0 sig1 sig2 sig3 : T) : T :=
  o_add o (o_add o sig0 sig1) (o_add o sig2 sig3).
End Functors.

(** The wrappers: NOVA_SIMD_DEFINE_*_WRAPPER, /repo/detail/define_macros.hpp,
    instantiated in simd_mix.hpp 70-74 and simd_ternary_arithmetic.hpp 78-80,
    simd_binary_arithmetic.hpp 165-180. *)
Section Wrappers.
Context {A : Type} (ar : arith A) (o : ops A).

(** mix_vec, simd_mix.hpp line 70. *)
Definition mix_vec := quaternary_vec ar (scaled_mix2_functor o).
(** sum_vec of two inputs, simd_mix.hpp line 72. *)
Definition sum_vec2 := binary_vec ar (sum2_functor o).
(** sum_vec of three inputs, simd_mix.hpp line 73. *)
Definition sum_vec3 := ternary_vec ar (sum3_functor o).
(** sum_vec of four inputs, simd_mix.hpp line 74. *)
Definition sum_vec4 := quaternary_vec ar (sum4_functor o).
(** clip_vec, simd_ternary_arithmetic.hpp line 78. *)
Definition clip_vec := ternary_vec ar (clip_functor o).
(** muladd_vec, simd_ternary_arithmetic.hpp line 79. *)
Definition muladd_vec := ternary_vec ar (muladd_functor o).
(** ampmod_vec, simd_ternary_arithmetic.hpp line 80. *)
Definition ampmod_vec := ternary_vec ar (ampmod_functor o).
(** clip2_vec, simd_binary_arithmetic.hpp line 180. *)
Definition clip2_vec := binary_vec ar (clip2_functor o).
(** plus_vec, minus_vec, times_vec, over_vec, min_vec, max_vec,
    simd_binary_arithmetic.hpp lines 165-172. *)
Definition plus_vec := binary_vec ar (o_add o).
(** See [plus_vec]; simd_binary_arithmetic.hpp line 167. *)
Definition minus_vec := binary_vec ar (o_sub o).
(** See [plus_vec]; simd_binary_arithmetic.hpp line 168. *)
Definition times_vec := binary_vec ar (o_mul o).
(** See [plus_vec]; simd_binary_arithmetic.hpp line 169. *)
Definition over_vec := binary_vec ar (o_div o).
(** See [plus_vec]; simd_binary_arithmetic.hpp line 171. *)
Definition min_vec := binary_vec ar (o_min o).
(** See [plus_vec]; simd_binary_arithmetic.hpp line 172. *)
Definition max_vec := binary_vec ar (o_max o).

Context (B : backend).
(** mix_vec_simd and the others: same lines, functor at the vector type;
    simd_mix.hpp line 70. *)
Definition mix_vec_simd := quaternary_vec_simd ar B (scaled_mix2_functor (vops B o)).
(** See [mix_vec_simd]; simd_mix.hpp line 72. *)
Definition sum_vec2_simd := binary_vec_simd ar B (sum2_functor (vops B o)).
(** See [mix_vec_simd]; simd_mix.hpp line 73. *)
Definition sum_vec3_simd := ternary_vec_simd ar B (sum3_functor (vops B o)).
(** See [mix_vec_simd]; simd_mix.hpp line 74. *)
Definition sum_vec4_simd := quaternary_vec_simd ar B (sum4_functor (vops B o)).
(** See [mix_vec_simd]; simd_ternary_arithmetic.hpp line 78. *)
Definition clip_vec_simd := ternary_vec_simd ar B (clip_functor (vops B o)).
(** See [mix_vec_simd]; the vector overload of the functor is chosen;
    simd_ternary_arithmetic.hpp line 79. *)
Definition muladd_vec_simd := ternary_vec_simd ar B (muladd_vec_functor (vops B o)).
(** See [mix_vec_simd]; simd_ternary_arithmetic.hpp line 80. *)
Definition ampmod_vec_simd := ternary_vec_simd ar B (ampmod_functor (vops B o)).
(** See [mix_vec_simd]; simd_binary_arithmetic.hpp line 180. *)
Definition clip2_vec_simd := binary_vec_simd ar B (clip2_functor (vops B o)).
(** See [mix_vec_simd]; simd_binary_arithmetic.hpp line 165. *)
Definition plus_vec_simd := binary_vec_simd ar B (o_add (vops B o)).
(** See [mix_vec_simd]; simd_binary_arithmetic.hpp line 167. *)
Definition minus_vec_simd := binary_vec_simd ar B (o_sub (vops B o)).
(** See [mix_vec_simd]; simd_binary_arithmetic.hpp line 168. *)
Definition times_vec_simd := binary_vec_simd ar B (o_mul (vops B o)).
(** See [mix_vec_simd]; simd_binary_arithmetic.hpp line 169. *)
Definition over_vec_simd := binary_vec_simd ar B (o_div (vops B o)).
(** See [mix_vec_simd]; simd_binary_arithmetic.hpp line 171. *)
Definition min_vec_simd := binary_vec_simd ar B (o_min (vops B o)).
(** See [mix_vec_simd]; simd_binary_arithmetic.hpp line 172. *)
Definition max_vec_simd := binary_vec_simd ar B (o_max (vops B o)).
End Wrappers.
