(** Integer vectors: /repo/vec/vec_int_sse2.hpp, vec_int_avx.hpp,
    vec_int_neon.hpp, vec_int_altivec.hpp, and their use in ldexp_float and
    frexp_float of /repo/detail/vec_math.hpp.

    A lane is its bit pattern, an integer from 0 to 2^32-1; a vector is the list
    of its lanes.  The generic vec has no integer vector; the line GEN of each
    definition is unused. *)

From Coq Require Import ZArith Bool List Lia.
From Flocq Require Import Core IEEE754.Binary IEEE754.Bits.
From Verif Require Import Base Backend Lanes Float LaneOps.
Import ListNotations.
Local Open Scope Z_scope.

(** A 32-bit pattern. *)
Definition u32 (z : Z) : Z := z mod 2 ^ 32.
(** The pattern read as a signed number. *)
Definition s32 (z : Z) : Z := if z <? 2 ^ 31 then z else z - 2 ^ 32.
(** Comparison results: all ones or zero. *)
Definition imask (b : bool) : Z := if b then 2 ^ 32 - 1 else 0.

(** Number of lanes of an int_vec. *)
Definition ilanes (I : isa) : nat := match I with AVX => 8%nat | _ => 4%nat end.
(** int_vec(int): vec_int_sse2.hpp 33-35, vec_int_avx.hpp 36-38,
    vec_int_neon.hpp 32-34, vec_int_altivec.hpp 35-47. *)
Definition int_set (I : isa) (k : Z) : list Z := repeat (u32 k) (ilanes I).

(** * One lane *)
(** operator+: _mm_add_epi32, vaddq_u32, vec_add; vec_int_sse2.hpp 57-60,
    vec_int_neon.hpp 56-59, vec_int_altivec.hpp 73-76. *)
Definition iadd (x y : Z) : Z := u32 (x + y).
(** operator-: vec_int_sse2.hpp 62-65, vec_int_neon.hpp 61-64,
    vec_int_altivec.hpp 78-81. *)
Definition isub (x y : Z) : Z := u32 (x - y).
(** mask_lt, mask_gt, mask_eq: _mm_cmplt_epi32 etc. compare signed numbers
    (vec_int_sse2.hpp 67-75); vcltq_u32 etc. (vec_int_neon.hpp 66-74) and
    vec_cmplt etc. on __vector unsigned int (vec_int_altivec.hpp 83-91) compare
    unsigned ones. *)
Definition ilt (I : isa) (x y : Z) : Z :=
  imask (match I with NEON | ALTIVEC => x <? y | _ => s32 x <? s32 y end).
(** See [ilt]. *)
Definition igt (I : isa) (x y : Z) : Z :=
  imask (match I with NEON | ALTIVEC => x >? y | _ => s32 x >? s32 y end).
(** See [ilt]. *)
Definition ieq (x y : Z) : Z := imask (x =? y).
(** operator&: vec_int_sse2.hpp 79-83, vec_int_avx.hpp 83-87, vec_int_neon.hpp
    78-81, vec_int_altivec.hpp 95-98. *)
Definition iand (x y : Z) : Z := Z.land x y.
(** andnot: vec_int_sse2.hpp 85-88 and vec_int_avx.hpp 89-93 (not lhs, and
    rhs); vec_int_neon.hpp 83-86 and vec_int_altivec.hpp 100-103 (lhs, and not
    rhs). *)
Definition iandnot (I : isa) (x y : Z) : Z :=
  match I with
  | NEON | ALTIVEC => Z.land x (2 ^ 32 - 1 - y)
  | _ => Z.land (2 ^ 32 - 1 - x) y
  end.
(** slli by a count from 0 to 127: _mm_slli_epi32 gives 0 from 32 on
    (vec_int_sse2.hpp 90-95, vec_int_avx.hpp 96-109), so does vshlq_u32
    (vec_int_neon.hpp 88-92); vec_sl uses the count modulo 32
    (vec_int_altivec.hpp 105-109). *)
Definition islli (I : isa) (x count : Z) : Z :=
  slli 32 x (match I with ALTIVEC => count mod 32 | _ => count end).
(** srli: vec_int_sse2.hpp 97-102, vec_int_avx.hpp 111-124, vec_int_neon.hpp
    94-98, vec_int_altivec.hpp 111-115. *)
Definition isrli (I : isa) (x count : Z) : Z :=
  srli 32 x (match I with ALTIVEC => count mod 32 | _ => count end).
(** convert_to_float: _mm_cvtepi32_ps, _mm256_cvtepi32_ps, vcvtq_f32_s32 read
    signed numbers (vec_int_sse2.hpp 104-107, vec_int_avx.hpp 126-129,
    vec_int_neon.hpp 100-103); vec_ctf on __vector unsigned int reads unsigned
    ones (vec_int_altivec.hpp 117-120). *)
Definition iconvert (I : isa) (x : Z) : F F32 :=
  f_ofZ F32 (match I with ALTIVEC => x | _ => s32 x end).
(** vec::truncate_to_int: cvttps2dq, 0x80000000 when out of range or NaN
    (vec_sse.hpp 675-679, vec_avx_float.hpp 490-494); vcvtq_s32_f32, saturating,
    NaN gives 0 (vec_neon.hpp 487-490); vec_ctu, saturating, unsigned, NaN
    gives 0 (vec_altivec.hpp 477-480). *)
Definition itruncate (I : isa) (x : F F32) : Z :=
  let z := Btrunc 24 128 x in
  let saturate lo hi :=
    if isnan x then 0
    else if isfin x then Z.max lo (Z.min hi z) else if sgn x then lo else hi in
  match I with
  | NEON => u32 (saturate (- 2 ^ 31) (2 ^ 31 - 1))
  | ALTIVEC => saturate 0 (2 ^ 32 - 1)
  | _ => if isfin x && (- 2 ^ 31 <=? z) && (z <? 2 ^ 31) then u32 z else 2 ^ 31
  end.

(** * Vectors *)
(** APPLY_SSE_FUNCTION: the SSE2 function on the lower and on the upper four
    lanes, vec_int_avx.hpp 55-71. *)
Definition apply_sse (f : list Z -> list Z -> list Z) (lhs rhs : list Z) : list Z :=
  let newlow := f (firstn 4 lhs) (firstn 4 rhs) in
  let newhi := f (skipn 4 lhs) (skipn 4 rhs) in
  newlow ++ newhi.
(** operator+, operator-, mask_lt, mask_gt, mask_eq on vectors: by halves on
    AVX, vec_int_avx.hpp 73-79. *)
Definition int_binary (I : isa) (f : Z -> Z -> Z) (lhs rhs : list Z) : list Z :=
  match I with
  | AVX => apply_sse (map2 f) lhs rhs
  | _ => map2 f lhs rhs
  end.
(** slli and srli on vectors: by halves on AVX, vec_int_avx.hpp 96-124. *)
Definition int_shift (I : isa) (f : Z -> Z -> Z) (v : list Z) (count : Z) : list Z :=
  match I with
  | AVX => map (fun x => f x count) (firstn 4 v) ++ map (fun x => f x count) (skipn 4 v)
  | _ => map (fun x => f x count) v
  end.

(** The operators of int_vec; see the lane functions for their lines. *)
Definition int_add (I : isa) := int_binary I iadd.
(** See [int_add]. *)
Definition int_sub (I : isa) := int_binary I isub.
(** See [int_add]. *)
Definition int_mask_lt (I : isa) := int_binary I (ilt I).
(** See [int_add]. *)
Definition int_mask_gt (I : isa) := int_binary I (igt I).
(** See [int_add]. *)
Definition int_mask_eq (I : isa) := int_binary I ieq.
(** operator& and andnot: one instruction on every back-end. *)
Definition int_and (I : isa) := map2 iand.
(** See [int_and]. *)
Definition int_andnot (I : isa) := map2 (iandnot I).
(** See [int_shift]. *)
Definition int_slli (I : isa) := int_shift I (islli I).
(** See [int_shift]. *)
Definition int_srli (I : isa) := int_shift I (isrli I).
(** See [iconvert]. *)
Definition int_convert (I : isa) := map (iconvert I).
(** See [itruncate]. *)
Definition int_truncate (I : isa) := map (itruncate I).

(** * ldexp_float and frexp_float on one lane, vec_math.hpp 91-104 and 106-119.
    They are used on SSE and AVX only (the others have no gen_exp_mask). *)
Definition ldexp_float (I : isa) (x : F F32) (n : Z) : F F32 :=
  let exponent_mask := gen_exp_mask in
  let exponent := band exponent_mask x in
  let x_wo_x := andnot I exponent_mask x in
  let new_exp := iadd (islli I n (16 + 7)) (bits exponent) in
  let new_exp_float := of_bits F32 new_exp in
  bor x_wo_x new_exp_float.
(** frexp_float: the significand, and the exponent as an integer lane. *)
Definition frexp_float (I : isa) (x : F F32) : F F32 * Z :=
  let exponent_mask := gen_exp_mask in
  let exponent := band exponent_mask x in
  let x_wo_x := andnot I exponent_mask x in
  let exp_int := bits exponent in
  let exp := isub (isrli I exp_int (16 + 7)) (u32 126) in
  (bor x_wo_x gen_exp_mask_1, exp).
