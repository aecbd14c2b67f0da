(** One lane of the operators and elementary functions of vec<F>
    (/repo/vec/*.hpp) and the lane-wise helpers of /repo/detail/vec_math.hpp.

    Every one of them applies the same operation to each lane independently, so
    the model gives the operation on one lane; [map], [map2], [map3] lift it. *)

From Coq Require Import ZArith Bool List Lia.
From Flocq Require Import Core IEEE754.Binary IEEE754.Bits.
From Verif Require Import Base Backend Lanes Float.
Local Open Scope Z_scope.

(** The instruction families; float and double variants differ only in the
    element type; the files of vec.hpp and /repo/vec, as in [backend]. *)
Inductive isa : Set := GEN | SSE | AVX | NEON | ALTIVEC.

(** Family of a specialisation;
    vec_generic.hpp 65, vec_sse.hpp 57, vec_sse2.hpp 50, vec_avx_float.hpp 42,
    vec_avx_double.hpp 44, vec_neon.hpp 39, vec_altivec.hpp 43. *)
Definition isa_of (B : backend) : isa :=
  match B with
  | GEN32 | GEN64 => GEN
  | SSE32 | SSE64 => SSE
  | AVX32 | AVX64 => AVX
  | NEON32 => NEON
  | ALTIVEC32 => ALTIVEC
  end.

(** Element type of a specialisation;
    vec_generic.hpp 65, vec_sse.hpp 57, vec_sse2.hpp 50, vec_avx_float.hpp 42,
    vec_avx_double.hpp 44, vec_neon.hpp 39, vec_altivec.hpp 43. *)
Definition fmt_of (B : backend) : fmt :=
  match B with
  | GEN32 | SSE32 | AVX32 | NEON32 | ALTIVEC32 => F32
  | GEN64 | SSE64 | AVX64 => F64
  end.

(** * Integer lanes *)

(** One lane of _mm_slli_epi32 / _mm_slli_epi64 on [w]-bit lanes;
    used in simd_utils.hpp 43-64 and vec_sse.hpp 65-69. *)
Definition slli (w x k : Z) : Z := if k <? w then (x * 2 ^ k) mod 2 ^ w else 0.
(** One lane of _mm_srli_epi32 / _mm_srli_epi64;
    used in simd_utils.hpp 43-64 and vec_sse.hpp 65-69. *)
Definition srli (w x k : Z) : Z := if k <? w then x / 2 ^ k else 0.
(** All ones: one lane of _mm_cmpeq_epi32(x, x); simd_utils.hpp 42. *)
Definition ones (w : Z) : Z := 2 ^ w - 1.

Section Lane.
Context {t : fmt}.
Local Notation w := (width t).

(** * Bitwise operations: _mm_and_ps, _mm_or_ps, _mm_xor_ps, _mm_andnot_ps,
      vec_sse.hpp 396-404, vec_sse2.hpp 268-276, vec_avx_float.hpp 294-302,
      vec_avx_double.hpp 255-263, vec_neon.hpp 327-336, vec_altivec.hpp 338-346. *)
Definition band (x y : F t) : F t := of_bits t (Z.land (bits x) (bits y)).
(** See [band]; vec_sse.hpp 396-404 etc. *)
Definition bor (x y : F t) : F t := of_bits t (Z.lor (bits x) (bits y)).
(** See [band]; vec_sse.hpp 396-404 etc. *)
Definition bxor (x y : F t) : F t := of_bits t (Z.lxor (bits x) (bits y)).
(** Complement: vmvnq_u32, vec_nor(x, x); vec_neon.hpp 343. *)
Definition bnot (x : F t) : F t := of_bits t (ones w - bits x).

(** andnot(lhs, rhs): vec_sse.hpp 406-409, vec_sse2.hpp 278-281,
    vec_avx_float.hpp 306-309 (x86: not lhs, and rhs); vec_neon.hpp 340-344 and
    vec_altivec.hpp 348-351 (lhs, and not rhs).  The generic vec and AVX double
    have none; their lines here are unused. *)
Definition andnot (I : isa) (lhs rhs : F t) : F t :=
  match I with
  | NEON | ALTIVEC => band lhs (bnot rhs)
  | _ => band (bnot lhs) rhs
  end.

(** * Comparisons *)

(** The six relations; used by the comparisons of vec_sse.hpp 380-394 etc. *)
Inductive rel : Set := LT | LE | GT | GE | EQ | NE.

(** The C++ relation on samples: std::less etc., vec_base.hpp 249-277. *)
Definition srel (r : rel) (a b : F t) : bool :=
  match r with
  | LT => flt a b | LE => fle a b | GT => fgt a b | GE => fge a b | EQ => feq a b | NE => fne a b
  end.

(** The relation a vector comparison decides.  SSE: cmplt, cmple, cmpgt,
    cmpge, cmpeq, cmpneq (vec_sse.hpp 388-393, vec_sse2.hpp 260-265), the gt/ge
    forms being lt/le with swapped operands.  AVX: the predicates LT_OS, LE_OS,
    NLE_US, NLT_US, EQ_OQ, NEQ_UQ (vec_avx_float.hpp 285-290,
    vec_avx_double.hpp 244-249).  NEON: vec_neon.hpp 302-322; Altivec:
    vec_altivec.hpp 303-332 (le is ge with swapped operands). *)
Definition vrel (I : isa) (r : rel) (a b : F t) : bool :=
  match I with
  | GEN => srel r a b
  | SSE | NEON =>
      match r with
      | LT => flt a b | LE => fle a b | GT => flt b a | GE => fle b a
      | EQ => feq a b | NE => negb (feq a b)
      end
  | AVX =>
      match r with
      | LT => flt a b | LE => fle a b
      | GT => negb (fle a b) | GE => negb (flt a b)
      | EQ => feq a b | NE => negb (feq a b)
      end
  | ALTIVEC =>
      match r with
      | LT => flt a b | LE => fge b a | GT => fgt a b | GE => fge a b
      | EQ => feq a b | NE => negb (feq a b)
      end
  end.

(** A comparison result: all ones or all zeros;
    used by the comparisons of vec_sse.hpp 380-394 etc. *)
Definition mask (b : bool) : F t := of_bits t (if b then ones w else 0).

(** mask_lt .. mask_neq: vec_sse.hpp 413-424, vec_sse2.hpp 283-294,
    vec_avx_float.hpp 311-322, vec_avx_double.hpp 267-278, vec_neon.hpp 347-361,
    vec_altivec.hpp 355-366.  The generic vec has none; there the relational
    operators serve as masks, with 1.0 and 0.0. *)
Definition vmask (I : isa) (r : rel) (a b : F t) : F t :=
  match I with
  | GEN => if srel r a b then f_ofZ t 1 else f_ofZ t 0
  | _ => mask (vrel I r a b)
  end.

(** * Constants *)

(** gen_ones: _mm_cmpeq_ps(x, x) of zero, vec_sse.hpp 130-135, vec_sse2.hpp
    95-100, vec_avx_float.hpp 95-100, vec_avx_double.hpp 89-94;
    set_bitmask(0xFFFFFFFF), vec_altivec.hpp 114-117; the generic vec has the
    number 1.0, vec_generic.hpp 115-118.  vec_neon.hpp has no gen_ones; the
    line is unused. *)
Definition gen_ones (I : isa) : F t :=
  match I with
  | GEN => f_ofZ t 1
  | ALTIVEC | NEON => of_bits t (ones w)
  | SSE | AVX => mask (feq (t := t) (f_ofZ t 0) (f_ofZ t 0))
  end.

(** gen_zero;
    vec_generic.hpp 110, vec_sse.hpp 137, vec_sse2.hpp 90, vec_avx_float.hpp
    102, vec_avx_double.hpp 84, vec_neon.hpp 88, vec_altivec.hpp 119. *)
Definition gen_zero : F t := f_ofZ t 0.

Context (c : cfg) (I : isa).

(** gen_sign_mask: by shifts in vec_sse.hpp 65-69 (with __SSE2__) and
    vec_sse2.hpp 58-67; as a literal in vec_sse.hpp 90-93, vec_avx_float.hpp
    55-58, vec_avx_double.hpp 54-57, vec_neon.hpp 64-69, vec_altivec.hpp 74-77. *)
Definition gen_sign_mask : F t :=
  let literal := match t with F32 => of_bits t 0x80000000 | F64 => of_bits t 0x8000000000000000 end in
  match I, t with
  | SSE, F32 => if has_sse2 c then of_bits t (slli w (srli w (bits (gen_ones SSE)) 31) 31) else literal
  | SSE, F64 => of_bits t (slli w (srli w (ones w) 63) 63)
  | _, _ => literal
  end.

(** gen_abs_mask: vec_sse.hpp 71-75, 95-98, vec_sse2.hpp 69-78,
    vec_avx_float.hpp 60-63, vec_avx_double.hpp 59-62, vec_neon.hpp 71-76,
    vec_altivec.hpp 79-82. *)
Definition gen_abs_mask : F t :=
  let literal := match t with F32 => of_bits t 0x7fffffff | F64 => of_bits t 0x7fffffffffffffff end in
  match I, t with
  | SSE, F32 => if has_sse2 c then of_bits t (srli w (slli w (bits (gen_ones SSE)) 1) 1) else literal
  | SSE, F64 => of_bits t (srli w (slli w (ones w) 1) 1)
  | _, _ => literal
  end.

(** gen_one: vec_sse.hpp 77-81, 100-103, vec_sse2.hpp 80-83,
    vec_avx_float.hpp 65-68, vec_avx_double.hpp 74-77, vec_neon.hpp 78-81,
    vec_altivec.hpp 84-87. *)
Definition gen_one : F t :=
  match I, t with
  | SSE, F32 => if has_sse2 c then of_bits t (slli w (srli w (bits (gen_ones SSE)) 25) 23)
                else f_ofZ t 1
  | _, _ => f_ofZ t 1
  end.

(** gen_05: vec_sse.hpp 83-87, 105-108, vec_sse2.hpp 85-88,
    vec_avx_float.hpp 70-73, vec_avx_double.hpp 79-82, vec_neon.hpp 83-86,
    vec_altivec.hpp 89-92. *)
Definition gen_05 : F t :=
  match I, t with
  | SSE, F32 => if has_sse2 c then of_bits t (slli w (srli w (bits (gen_ones SSE)) 26) 24)
                else f_lit t 1 (-1)
  | _, _ => f_lit t 1 (-1)
  end.

(** gen_exp_mask, float only: vec_sse.hpp 120-123, vec_avx_float.hpp 85-88,
    vec_neon.hpp 93-96, vec_altivec.hpp 104-107. *)
Definition gen_exp_mask : F t := of_bits t 0x7F800000.
(** gen_exp_mask_1, float only: vec_sse.hpp 125-128, vec_avx_float.hpp
    90-93, vec_neon.hpp 98-101, vec_altivec.hpp 109-112. *)
Definition gen_exp_mask_1 : F t := of_bits t 0x3F000000.

(** The relational operators of vec: mask and gen_one, vec_sse.hpp 381-393,
    vec_sse2.hpp 253-265, vec_avx_float.hpp 278-290, vec_avx_double.hpp
    237-249, vec_neon.hpp 308-322, vec_altivec.hpp 317-332; std::less etc.
    converted to F for the generic vec, vec_base.hpp 249-277. *)
Definition oprel (r : rel) (a b : F t) : F t :=
  match I with
  | GEN => if srel r a b then f_ofZ t 1 else f_ofZ t 0
  | _ => band (mask (vrel I r a b)) gen_one
  end.

(** select(lhs, rhs, bitmask): vec_sse.hpp 428-436 and vec_sse2.hpp 298-306
    (blendv with __SSE4_1__, otherwise detail::vec_select, vec_math.hpp
    574-579); vec_avx_float.hpp 326-330, vec_avx_double.hpp 282-286 (blendv);
    vec_neon.hpp 364-367 (vbsl); vec_altivec.hpp 370-373 (vec_sel);
    vec_generic.hpp 154-162.  blendv looks at the sign bit of the mask. *)
Definition select (lhs rhs bitmask : F t) : F t :=
  let blendv := if sgn bitmask then rhs else lhs in
  match I with
  | GEN => if fne bitmask (f_ofZ t 0) then rhs else lhs
  | SSE => if has_sse41 c then blendv
           else bor (andnot SSE bitmask lhs) (band bitmask rhs)
  | AVX => blendv
  | NEON => bor (band bitmask lhs) (band (bnot bitmask) rhs)
  | ALTIVEC => bor (band lhs (bnot bitmask)) (band rhs bitmask)
  end.

Context (n : nans t).

(** std::max (/repo/vec.hpp 48-52, detail/math.hpp 231-235). *)
Definition smax (a b : F t) : F t := if flt a b then b else a.
(** std::min (/repo/vec.hpp 54-58, detail/math.hpp 225-229). *)
Definition smin (a b : F t) : F t := if flt b a then b else a.

(** max_(vec, vec).  Generic: std::max (vec_base.hpp 325).  x86 maxps:
    a > b ? a : b, so the second operand when a NaN is involved or both are
    zeros (vec_sse.hpp 470-473, vec_sse2.hpp 340-343, vec_avx_float.hpp
    364-367, vec_avx_double.hpp 320-323).  NEON vmax and Altivec vec_max: NaN
    if an operand is, +0 for zeros of different sign (vec_neon.hpp 391-394,
    vec_altivec.hpp 431-434). *)
Definition vmax (a b : F t) : F t :=
  match I with
  | GEN => smax a b
  | SSE | AVX => if fgt a b then a else b
  | NEON | ALTIVEC =>
      if isnan a || isnan b then proj1_sig (nan_max n a b)
      else if flt a b then b else if flt b a then a else if sgn a then b else a
  end.

(** min_(vec, vec): vec_base.hpp 326, vec_sse.hpp 475-478, vec_sse2.hpp
    345-348, vec_avx_float.hpp 369-372, vec_avx_double.hpp 325-328,
    vec_neon.hpp 396-399, vec_altivec.hpp 436-439. *)
Definition vmin (a b : F t) : F t :=
  match I with
  | GEN => smin a b
  | SSE | AVX => if flt a b then a else b
  | NEON | ALTIVEC =>
      if isnan a || isnan b then proj1_sig (nan_max n a b)
      else if flt a b then a else if flt b a then b else if sgn a then a else b
  end.

(** abs(vec): and with the abs mask on x86 (vec_sse.hpp 442-445, vec_sse2.hpp
    312-315, vec_avx_float.hpp 336-339, vec_avx_double.hpp 292-295); vabsq_f32
    and vec_abs clear the sign (vec_neon.hpp 373-376, vec_altivec.hpp 379-382);
    std::fabs for the generic vec (vec_base.hpp 320). *)
Definition vabs (x : F t) : F t :=
  match I with
  | SSE | AVX => band gen_abs_mask x
  | _ => fabs x
  end.

(** Unary minus of vec: xor with the sign mask, vec_sse.hpp 357-360,
    vec_avx_float.hpp 254-257, vec_altivec.hpp 282-285. *)
Definition vneg (x : F t) : F t := bxor x gen_sign_mask.

(** madd: a*b+c (NOVA_SIMD_DEFINE_MADD, vec_base.hpp 388-392) or
    fused when __FMA__ is defined, vec_sse.hpp 372-379, vec_sse2.hpp 244-251,
    vec_avx_float.hpp 269-276, vec_avx_double.hpp 228-235; Altivec vec_madd is
    fused (vec_altivec.hpp 298-301), NEON vmla is not (vec_neon.hpp 297-300). *)
Definition madd (a b x : F t) : F t :=
  match I with
  | GEN | NEON => fadd n (fmul n a b) x
  | SSE | AVX => if has_fma c then ffma n a b x else fadd n (fmul n a b) x
  | ALTIVEC => ffma n a b x
  end.
End Lane.
