(** One lane of the transcendental functions of vec<float> on SSE (with SSE2)
    and AVX: /repo/detail/vec_math.hpp 121-608.  vec_sse.hpp 539-602 and
    vec_avx_float.hpp 407-475 call them; double vectors, NEON and the generic
    vec call the C library for each element instead (vec_sse2.hpp 399-415,
    vec_avx_double.hpp 363-379, vec_neon.hpp 441-457, vec_generic.hpp 165-183)
    and are modelled in Libm.v.  The calls of Altivec to the same templates
    (vec_altivec.hpp 487-561) are switched off with #if 0, and Altivec calls the
    C library too (563-585); the line ALTIVEC is unused here.

    Operators between a vec and a number convert the number to float and
    broadcast it (vec_sse.hpp 336-355, vec_avx_float.hpp 236-252).  Each
    operator is one IEEE operation, rounded to nearest: no contraction. *)

From Coq Require Import ZArith Bool List Lia.
From Flocq Require Import Core IEEE754.Binary IEEE754.Bits.
From Verif Require Import Base Backend Lanes Float LaneOps ScalarMath VecMath IntVec.
Local Open Scope Z_scope.

(** * Decimal literals *)
(** The number p / 10^q rounded to nearest, as compilers round literals: enough
    bits of the quotient, the last one standing for the rest;
    C++ and IEEE-754 semantics, no source lines, used for the literals of vec_math.hpp 100-560. *)
Definition f_dec t (p q : Z) : F t :=
  let den := 10 ^ q in
  let k := Z.log2 den + 70 in
  let num := p * 2 ^ k in
  f_lit t (2 * (num / den) + (if num mod den =? 0 then 0 else 1)) (- k - 1).
(** A literal with suffix f;
    C++ and IEEE-754 semantics, no source lines, used for the literals of vec_math.hpp 100-560. *)
Definition litf (p q : Z) : F F32 := f_dec F32 p q.
(** Conversion of a finite double to float;
    C++ and IEEE-754 semantics, no source lines, used for the literals of vec_math.hpp 100-560. *)
Definition to_float (x : F F64) : F F32 :=
  match x with
  | B754_finite _ _ s m e _ => f_lit F32 (cond_Zopp s (Z.pos m)) e
  | _ => f_ofZ F32 0
  end.
(** A literal without suffix, a double, converted to float;
    C++ and IEEE-754 semantics, no source lines, used for the literals of vec_math.hpp 100-560. *)
Definition litd (p q : Z) : F F32 := to_float (f_dec F64 p q).

Section Trans.
Context (c : cfg) (I : isa) (n : nans F32).
Local Notation "x +. y" := (fadd n x y) (at level 50, left associativity).
Local Notation "x -. y" := (fsub n x y) (at level 50, left associativity).
Local Notation "x *. y" := (fmul n x y) (at level 40, left associativity).
Local Notation "x /. y" := (fdiv n x y) (at level 40, left associativity).

(** detail::vec_exp_float, vec_math.hpp 121-164. *)
Definition vec_exp_float (arg : F F32) : F F32 :=
  let x := arg in
  let z := vround c I n (litf 144269504088896341 17 *. x) in
  let k := itruncate I z in
  let x := x -. z *. litf 693359375 9 in
  let x := x -. z *. fneg (litf 212194440 12) in
  let p := gen_one c I +.
    x *. (litf 100000035762786865234375 23 +.
    x *. (litf 4999996721744537353515625 25 +.
    x *. (litf 16665561497211456298828125 26 +.
    x *. (litf 4167006909847259521484375 26 +.
    x *. (litf 8420792408287525177001953125 30 +.
    x *. litf 1386119984090328216552734375 30))))) in
  let approx := ldexp_float I p k in
  let maxlogf := litf 8872283905206835 14 in
  let minlogf := fneg (litf 880 1) in
  let max_float := f_max F32 in
  let zero := gen_zero in
  let too_large := vmask I GT arg maxlogf in
  let too_small := vmask I LT arg minlogf in
  let ret := select c I approx max_float too_large in
  select c I ret zero too_small.

(** detail::vec_log_float, vec_math.hpp 166-200. *)
Definition vec_log_float (x : F F32) : F F32 :=
  let (x, e) := frexp_float I x in
  let sqrt_05 := litf 707106781186547524 18 in
  let x_smaller_sqrt_05 := vmask I LT x sqrt_05 in
  let e := iadd e (bits x_smaller_sqrt_05) in
  let x_add := band x x_smaller_sqrt_05 in
  let x := x +. (x_add -. gen_one c I) in
  let y :=
    ((((((((litd 70376836292 12 *. x
    -. litd 11514610310 11) *. x
    +. litd 11676998740 11) *. x
    -. litd 12420140846 11) *. x
    +. litd 14249322787 11) *. x
    -. litd 16668057665 11) *. x
    +. litd 20000714765 11) *. x
    -. litd 24999993993 11) *. x
    +. litd 33333331174 11) *. x *. x *. x in
  let fe := iconvert I e in
  let y := y +. fe *. fneg (litd 212194440 12) in
  let y := y -. litd 5 1 *. x *. x in
  let z := x +. y in
  z +. litd 693359375 9 *. fe.

(** detail::vec_exp_tanh_float, vec_math.hpp 203-234. *)
Definition vec_exp_tanh_float (arg : F F32) : F F32 :=
  let x := arg in
  let z := vround c I n (litf 144269504088896341 17 *. x) in
  let k := itruncate I z in
  let x := x -. z *. litf 693359375 9 in
  let x := x -. z *. fneg (litf 212194440 12) in
  let p := f_ofZ F32 1 +.
    x *. (litf 100000035762786865234375 23 +.
    x *. (litf 4999996721744537353515625 25 +.
    x *. (litf 16665561497211456298828125 26 +.
    x *. (litf 4167006909847259521484375 26 +.
    x *. (litf 8420792408287525177001953125 30 +.
    x *. litf 1386119984090328216552734375 30))))) in
  ldexp_float I p k.

(** The constants of the range reduction of vec_sin_float, vec_cos_float and
    vec_tan_float: four_over_pi (vec_math.hpp 243, 293, 341), DP1, DP2, DP3
    (264-266, 313-315, 357-359). *)
Definition four_over_pi : F F32 := litd 127323954473516268615107010698011489627567716592367 50.
(** See [four_over_pi]; vec_math.hpp 264, 313, 357. *)
Definition DP1 : F F32 := litd 78515625 8.
(** See [four_over_pi]; vec_math.hpp 265, 314, 358. *)
Definition DP2 : F F32 := litd 24187564849853515625 23.
(** See [four_over_pi]; vec_math.hpp 266, 315, 359. *)
Definition DP3 : F F32 := litd 377489497744594108 25.

(** detail::vec_sin_float, vec_math.hpp 237-285. *)
Definition vec_sin_float (arg : F F32) : F F32 :=
  let sign := band arg (gen_sign_mask c I) in
  let abs_arg := band arg (gen_abs_mask c I) in
  let y := abs_arg *. four_over_pi in
  let j := itruncate I y in
  let j := iand (iadd j (u32 1)) (u32 (-2)) in
  let y := iconvert I j in
  let swap_sign_bit := of_bits F32 (islli I (iand j (u32 4)) 29) in
  let sign := bxor sign swap_sign_bit in
  let poly_mask := of_bits F32 (ieq (iand j (u32 2)) (u32 0)) in
  let base := abs_arg -. y *. DP1 -. y *. DP2 -. y *. DP3 in
  let z := base *. base in
  let p1 := ((litd 2443315711809948 20 *. z
    -. litd 1388731625493765 18) *. z
    +. litd 4166664568298827 17) *. z *. z
    -. litf 5 1 *. z +. f_ofZ F32 1 in
  let p2 := ((fneg (litd 19515295891 14) *. z
    +. litd 83321608736 13) *. z
    -. litd 16666654611 11) *. z *. base +. base in
  let approximation := select c I p1 p2 poly_mask in
  bxor approximation sign.

(** detail::vec_cos_float, vec_math.hpp 287-334. *)
Definition vec_cos_float (arg : F F32) : F F32 :=
  let abs_arg := band arg (gen_abs_mask c I) in
  let y := abs_arg *. four_over_pi in
  let j := itruncate I y in
  let j := iand (iadd j (u32 1)) (u32 (-2)) in
  let y := iconvert I j in
  let jm2 := isub j (u32 2) in
  let sign := of_bits F32 (islli I (iandnot I jm2 (u32 4)) 29) in
  let poly_mask := of_bits F32 (ieq (iand jm2 (u32 2)) (u32 0)) in
  let base := abs_arg -. y *. DP1 -. y *. DP2 -. y *. DP3 in
  let z := base *. base in
  let p1 := ((litd 2443315711809948 20 *. z
    -. litd 1388731625493765 18) *. z
    +. litd 4166664568298827 17) *. z *. z
    -. litf 5 1 *. z +. f_ofZ F32 1 in
  let p2 := ((fneg (litd 19515295891 14) *. z
    +. litd 83321608736 13) *. z
    -. litd 16666654611 11) *. z *. base +. base in
  let approximation := select c I p1 p2 poly_mask in
  bxor approximation sign.

(** detail::vec_tan_float, vec_math.hpp 336-374. *)
Definition vec_tan_float (arg : F F32) : F F32 :=
  let sign := band arg (gen_sign_mask c I) in
  let abs_arg := band arg (gen_abs_mask c I) in
  let y := abs_arg *. four_over_pi in
  let j := itruncate I y in
  let j := iand (iadd j (u32 1)) (u32 (-2)) in
  let y := iconvert I j in
  let poly_mask := of_bits F32 (ieq (iand j (u32 2)) (u32 0)) in
  let base := abs_arg -. y *. DP1 -. y *. DP2 -. y *. DP3 in
  let x := base in
  let x2 := x *. x in
  let approx :=
    x +. x *. x2 *. (litd 3333315551280975341796875 25 +. x2 *. (litd 1333882510662078857421875 25 +.
    x2 *. (litd 53409568965435028076171875 27 +. x2 *. (litd 2443529665470123291015625 26 +.
    x2 *. (litd 31127030961215496063232421875 31 +. x2 *. litd 93892104923725128173828125 28))))) in
  let recip := fneg (litd 10 1) /. approx in
  let approximation := select c I recip approx poly_mask in
  bxor approximation sign.

(** detail::vec_asin_float, vec_math.hpp 376-406. *)
Definition vec_asin_float (arg : F F32) : F F32 :=
  let abs_arg := band arg (gen_abs_mask c I) in
  let sign := band arg (gen_sign_mask c I) in
  let one := gen_one c I in
  let half := gen_05 c I in
  let zero := gen_zero in
  let arg_greater_05 := vmask I GT abs_arg (litd 5 1) in
  let arg_reduced := fsqrt n ((one -. abs_arg) *. half) in
  let approx_arg := select c I abs_arg arg_reduced arg_greater_05 in
  let x := approx_arg in
  let x2 := x *. x in
  let approx_poly := x +. x *. x2 *. (litd 166667520999908447265625 24 +. x2 *. (litd 74953101575374603271484375 27 +.
    x2 *. (litd 454690195620059967041015625 28 +. x2 *. (litd 2418550290167331695556640625 29 +.
    x2 *. litd 421570129692554473876953125 28)))) in
  let approx_poly_reduced := litd 157079637050628662109375 23 -. approx_poly -. approx_poly in
  let approx := select c I approx_poly approx_poly_reduced arg_greater_05 in
  let approx := bxor approx sign in
  select c I approx zero (vmask I GT abs_arg one).

(** detail::vec_acos_float, vec_math.hpp 408-441. *)
Definition vec_acos_float (arg : F F32) : F F32 :=
  let abs_arg := band arg (gen_abs_mask c I) in
  let one := gen_one c I in
  let half := gen_05 c I in
  let zero := gen_zero in
  let arg_greater_05 := vmask I GT abs_arg half in
  let asin_arg_greater_05 := fsqrt n ((one -. abs_arg) *. half) in
  let asin_arg := select c I arg asin_arg_greater_05 arg_greater_05 in
  let asin := vec_asin_float asin_arg in
  let two_asin := asin +. asin in
  let ret_m1_m05 := litd 31415927410125732421875 22 -. two_asin in
  let ret_m05_05 := litd 157079637050628662109375 23 -. asin in
  let ret_05_1 := two_asin in
  let ret_m05_1 := select c I ret_m05_05 ret_05_1 (vmask I GT arg half) in
  let ret := select c I ret_m1_m05 ret_m05_1 (vmask I GT arg (fneg (litd 5 1))) in
  select c I ret zero (vmask I GT abs_arg one).

(** detail::vec_atan_float, vec_math.hpp 443-479. *)
Definition vec_atan_float (arg : F F32) : F F32 :=
  let sign_arg := band arg (gen_sign_mask c I) in
  let abs_arg := band arg (gen_abs_mask c I) in
  let one := gen_one c I in
  let zero := gen_zero in
  let arg_range0 := abs_arg in
  let arg_range1 := (abs_arg -. one) /. (abs_arg +. one) in
  let arg_range2 := vneg c I one /. abs_arg in
  let offset_range0 := zero in
  let offset_range1 := litd 78539816339744830961566084581987572104929234984377 50 in
  let offset_range2 := litd 157079632679489661923132169163975144209858469968754 50 in
  let mask_range_01 := vmask I GT abs_arg (litd 41421356237309504880168872420969807856967187537695 50) in
  let mask_range_12 := vmask I GT abs_arg (litd 241421356237309504880168872420969807856967187537698 50) in
  let approx_arg := select c I arg_range0 (select c I arg_range1 arg_range2 mask_range_12) mask_range_01 in
  let approx_offset := select c I offset_range0 (select c I offset_range1 offset_range2 mask_range_12) mask_range_01 in
  let x := approx_arg in
  let x2 := x *. x in
  let approx := approx_offset +.
    x +. x *. x2 *. (fneg (litd 333329498767852783203125 24) +. x2 *. (litd 19977732002735137939453125 26 +.
    x2 *. (fneg (litd 1387787759304046630859375 25) +. x2 *. litd 8054284751415252685546875 26))) in
  bxor approx sign_arg.

(** detail::vec_tanh_float, vec_math.hpp 482-525. *)
Definition vec_tanh_float (arg : F F32) : F F32 :=
  let sign_arg := band arg (gen_sign_mask c I) in
  let abs_arg := bxor arg sign_arg in
  let one := gen_one c I in
  let two := litf 2 0 in
  let maxlogf_2 := litf 22 0 in
  let limit_small := litf 625 3 in
  let result_medium_abs := one -. two /. (vec_exp_tanh_float (abs_arg +. abs_arg) +. one) in
  let abs_big := vmask I GT abs_arg maxlogf_2 in
  let result_limit_abs := one in
  let f1 := fneg (litd 570498872745 14) in
  let f2 := litd 206390887954 13 in
  let f3 := fneg (litd 537397155531 13) in
  let f4 := litd 133314422036 12 in
  let f5 := fneg (litd 333332819422 12) in
  let arg_sqr := abs_arg *. abs_arg in
  let result_small := ((((f1 *. arg_sqr
    +. f2) *. arg_sqr
    +. f3) *. arg_sqr
    +. f4) *. arg_sqr
    +. f5) *. arg_sqr *. arg
    +. arg in
  let abs_small := vmask I LT abs_arg limit_small in
  let result_lm_abs := select c I result_medium_abs result_limit_abs abs_big in
  let result_lm := bor result_lm_abs sign_arg in
  select c I result_lm result_small abs_small.

(** detail::vec_pow, vec_math.hpp 538-547. *)
Definition vec_pow (arg1 arg2 : F F32) : F F32 :=
  let zero := gen_zero in
  let arg1_zero := vmask I EQ arg1 zero in
  let result := vec_exp_float (arg2 *. vec_log_float arg1) in
  select c I result zero arg1_zero.

(** detail::vec_signed_pow, vec_math.hpp 527-536. *)
Definition vec_signed_pow (arg1 arg2 : F F32) : F F32 :=
  let sign_arg1 := band arg1 (gen_sign_mask c I) in
  let abs_arg1 := bxor arg1 sign_arg1 in
  let result := vec_pow abs_arg1 arg2 in
  bor sign_arg1 result.

(** `1.0/std::log(2.0)` and `1.0/std::log(10.0)` as float, vec_math.hpp 563-564
    and 570-571, with a C library whose logarithms of 2 and 10 are the nearest
    doubles. *)
Definition rlog (m : nans F64) (log_base : F F64) : F F32 :=
  to_float (fdiv m (f_ofZ F64 1) log_base).
(** detail::vec_log2, vec_math.hpp 560-565. *)
Definition vec_log2 (m : nans F64) (arg : F F32) : F F32 :=
  vec_log_float arg *. rlog m (f_dec F64 693147180559945309417232121458 30).
(** detail::vec_log10, vec_math.hpp 567-572. *)
Definition vec_log10 (m : nans F64) (arg : F F32) : F F32 :=
  vec_log_float arg *. rlog m (f_dec F64 2302585092994045684017991454684 30).

(** detail::vec_reciprocal_newton, vec_math.hpp 596-608, with the estimate of
    the reciprocal (rcpps, vec_sse.hpp 362-365, vec_avx_float.hpp 259-262) as a
    parameter. *)
Definition vec_reciprocal_newton (fast_reciprocal : F F32 -> F F32) (arg : F F32) : F F32 :=
  let one := gen_one c I in
  let approx := fast_reciprocal arg in
  let diff := one -. approx *. arg in
  madd c I n diff approx approx.
End Trans.
