(** Division and square root by estimates: NEON (/repo/vec/vec_neon.hpp) and
    Altivec (/repo/vec/vec_altivec.hpp), one lane. *)

From Coq Require Import ZArith List Lia Bool.
From Flocq Require Import Core IEEE754.Binary IEEE754.Bits.
From Verif Require Import Base Mem Backend Args Drivers Lanes Float LaneOps FloatOps VecMath IntVec TransMath TransFuns.
Local Open Scope Z_scope.

Section Neon.
Context (n : nans F32).

(** Fields of a float, as the estimate instructions of vec_neon.hpp 250 and 462
    read them: sign, biased exponent, fraction. *)
Definition sign_field (x : F F32) : Z := bits x / 2 ^ 31.
(** See [sign_field]. *)
Definition exp_field (x : F F32) : Z := (bits x / 2 ^ 23) mod 2 ^ 8.
(** See [sign_field]. *)
Definition frac_field (x : F F32) : Z := bits x mod 2 ^ 23.

(** RecipEstimate (called by the instruction of vec_neon.hpp 250) of the ARM
    architecture reference manual: a 9-bit reciprocal
    of a number in 256..511. *)
Definition recip_estimate (a : Z) : Z := (2 ^ 19 / (2 * a + 1) + 1) / 2.

(** vrecpeq_f32, one lane (used in vec_neon.hpp 250, 258, 264): FPRecipEstimate
    of the manual, with subnormal operands and results flushed to zero as
    Advanced SIMD does. *)
Definition vrecpe (x : F F32) : F F32 :=
  let s := negb (sign_field x =? 0) in
  if exp_field x =? 255 then
    (if frac_field x =? 0 then B754_zero 24 128 s else proj1_sig (nan_div n (f_ofZ F32 1) x))
  else if exp_field x =? 0 then B754_infinity 24 128 s
  else if 253 <=? exp_field x then B754_zero 24 128 s
  else of_bits F32 (sign_field x * 2 ^ 31 + (253 - exp_field x) * 2 ^ 23 +
                    (recip_estimate (256 + frac_field x / 2 ^ 15) - 256) * 2 ^ 15).

(** vrecpsq_f32, one lane (vec_neon.hpp 251, 265): 2 - a*b, where infinity times zero counts as zero;
    the product is rounded first in AArch32 and not in AArch64 ([fused]). *)
Definition vrecps (fused : bool) (a b : F F32) : F F32 :=
  let inf x := (exp_field x =? 255) && (frac_field x =? 0) in
  let zero x := exp_field x =? 0 in
  if (inf a && zero b) || (zero a && inf b) then f_ofZ F32 2
  else if fused then ffma n (fneg a) b (f_ofZ F32 2)
  else fsub n (f_ofZ F32 2) (fmul n a b).

(** fast_reciprocal(vec), vec_neon.hpp 256-260. *)
Definition neon_fast_reciprocal (arg : F F32) : F F32 := vrecpe arg.
(** reciprocal(vec), vec_neon.hpp 262-267. *)
Definition neon_reciprocal (fused : bool) (arg : F F32) : F F32 :=
  let reciprocal := vrecpe arg in
  fmul n reciprocal (vrecps fused arg reciprocal).

(** operator/ of vec: vdivq_f32, vec_neon.hpp 248-253 and 293. *)
Definition neon_div (fused : bool) (lhs rhs : F F32) : F F32 :=
  let reciprocal := vrecpe rhs in
  let reciprocal := fmul n reciprocal (vrecps fused rhs reciprocal) in
  fmul n lhs reciprocal.

(** The search loop of RecipSqrtEstimate (vec_neon.hpp 462): the largest b reached from 512 by
    steps of one while a*(b+1)^2 < 2^28; at most 1024 steps. *)
Fixpoint rsqrt_search (fuel : nat) (a b : Z) : Z :=
  match fuel with
  | O => b
  | S fuel => if a * (b + 1) * (b + 1) <? 2 ^ 28 then rsqrt_search fuel a (b + 1) else b
  end.
(** RecipSqrtEstimate (called by the instruction of vec_neon.hpp 462) of the
    ARM architecture reference manual: argument in
    128..511, result in 256..511. *)
Definition rsqrt_estimate (a : Z) : Z :=
  let a := if a <? 256 then 2 * a + 1 else 2 * (2 * (a / 2) + 1) in
  (rsqrt_search 1024 a 512 + 1) / 2.

(** vrsqrteq_f32, one lane (vec_neon.hpp 462): FPRSqrtEstimate of the manual,
    subnormal operands flushed to zero. *)
Definition vrsqrte (x : F F32) : F F32 :=
  let s := negb (sign_field x =? 0) in
  if (exp_field x =? 255) && negb (frac_field x =? 0) then proj1_sig (nan_sqrt n x)
  else if exp_field x =? 0 then B754_infinity 24 128 s
  else if s then proj1_sig (nan_sqrt n x)
  else if exp_field x =? 255 then B754_zero 24 128 false
  else
    let scaled := if Z.even (exp_field x) then 256 + frac_field x / 2 ^ 15 else 128 + frac_field x / 2 ^ 16 in
    of_bits F32 ((380 - exp_field x) / 2 * 2 ^ 23 + (rsqrt_estimate scaled - 256) * 2 ^ 15).

(** sqrt(vec): vsqrtq_f32, vec_neon.hpp 460-473. *)
Definition neon_sqrt (arg : F F32) : F F32 := fmul n arg (vrsqrte arg).

(** signed_sqrt(vec), vec_neon.hpp 475-478: detail::vec_signed_sqrt,
    vec_math.hpp 549-558, with this square root. *)
Definition neon_signed_sqrt (c : cfg) (arg : F F32) : F F32 :=
  let sign_arg1 := band arg (gen_sign_mask c NEON) in
  let abs_arg1 := bxor arg sign_arg1 in
  let result := neon_sqrt abs_arg1 in
  bor sign_arg1 result.

(** over_vec_simd on float with NEON, simd_binary_arithmetic.hpp 68 and 169
    (see [simd2_of32]). *)
Definition neon_over_vec_simd (fused : bool) := simd2_of32 NEON32 n (neon_div fused).
(** reciprocal_vec_simd, simd_unary_arithmetic.hpp 56 and 79. *)
Definition neon_reciprocal_vec_simd (fused : bool) := simd_of32 NEON32 n (neon_reciprocal fused).
(** signed_sqrt_vec_simd, simd_math.hpp 69. *)
Definition neon_signed_sqrt_vec_simd (c : cfg) := simd_of32 NEON32 n (neon_signed_sqrt c).
End Neon.

Section Altivec.
Context (n : nans F32).
(** vec_re and vec_rsqrte (vec_altivec.hpp 236, 403), the hardware estimates. *)
Context (vec_re vec_rsqrte : F F32 -> F F32).

(** vec_madd (used in vec_altivec.hpp 228, 239): a*b+c rounded once. *)
Definition vec_madd (a b x : F F32) : F F32 := ffma n a b x.
(** vec_nmsub (used in vec_altivec.hpp 239, 408): -(a*b-c), rounded once. *)
Definition vec_nmsub (a b x : F F32) : F F32 := fneg (ffma n a b (fneg x)).
(** vec_mul, vec_altivec.hpp 226-229. *)
Definition altivec_mul (lhs rhs : F F32) : F F32 := vec_madd lhs rhs gen_zero.

(** vec_reciprocal, vec_altivec.hpp 231-240. *)
Definition altivec_reciprocal (c : cfg) (arg : F F32) : F F32 :=
  let estimate := vec_re arg in
  vec_madd (vec_nmsub estimate arg (gen_one c ALTIVEC)) estimate estimate.

(** fast_reciprocal(vec), vec_altivec.hpp 287-291. *)
Definition altivec_fast_reciprocal (arg : F F32) : F F32 := vec_re arg.

(** operator/ of vec: vec_div, vec_altivec.hpp 242-245 and 280. *)
Definition altivec_div (c : cfg) (lhs rhs : F F32) : F F32 := altivec_mul lhs (altivec_reciprocal c rhs).

(** vec_rsqrt, vec_altivec.hpp 395-409. *)
Definition altivec_rsqrt (c : cfg) (arg : F F32) : F F32 :=
  let zero := gen_zero in
  let oneHalf := gen_05 c ALTIVEC in
  let one := gen_one c ALTIVEC in
  let estimate := vec_rsqrte arg in
  let estimateSquared := vec_madd estimate estimate zero in
  let halfEstimate := vec_madd estimate oneHalf zero in
  vec_madd (vec_nmsub arg estimateSquared one) halfEstimate estimate.

(** sqrt(vec): vec_sqrt, vec_altivec.hpp 411-421. *)
Definition altivec_sqrt (c : cfg) (arg : F F32) : F F32 := altivec_mul arg (altivec_rsqrt c arg).

(** over_vec_simd on float with Altivec, simd_binary_arithmetic.hpp 68 and 169
    (see [simd2_of32]). *)
Definition altivec_over_vec_simd (c : cfg) := simd2_of32 ALTIVEC32 n (altivec_div c).
(** reciprocal_vec_simd, simd_unary_arithmetic.hpp 56 and 79. *)
Definition altivec_reciprocal_vec_simd (c : cfg) := simd_of32 ALTIVEC32 n (altivec_reciprocal c).
End Altivec.
