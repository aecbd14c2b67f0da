(** /repo/simd_utils.hpp: free functions on one SSE register of four floats. *)

From Coq Require Import ZArith List Lia.
From Flocq Require Import Core IEEE754.Binary IEEE754.Bits.
From Verif Require Import Base Backend Lanes Float LaneOps.
Import ListNotations.
Local Open Scope Z_scope.

(** detail::extract_0, simd_utils.hpp 102-107: _mm_store_ss writes lane 0. *)
Definition extract_0 {A} (arg : list A) : res A := lane arg 0.

(** detail::extract_3, simd_utils.hpp 109-115. *)
Definition extract_3 {A} (arg : list A) : res A :=
  last <- shuffle_ps arg arg (mm_shuffle 2 1 0 3) ;;
  lane last 0.

Section M128.
Context (c : cfg) (n : nans F32).

(** detail::horizontal_min(__m128), simd_utils.hpp 117-126. *)
Definition utils_horizontal_min (args : list (F F32)) : res (F F32) :=
  let xmm0 := args in
  xmm1 <- shuffle_ps xmm0 xmm0 (mm_shuffle 2 2 2 2) ;;
  let xmm0 := map2 (vmin SSE n) xmm0 xmm1 in
  xmm1 <- shuffle_ps xmm0 xmm0 (mm_shuffle 1 1 1 1) ;;
  xmm0 <- op_ss (vmin SSE n) xmm0 xmm1 ;;
  extract_0 xmm0.

(** detail::horizontal_max(__m128), simd_utils.hpp 128-137. *)
Definition utils_horizontal_max (args : list (F F32)) : res (F F32) :=
  let xmm0 := args in
  xmm1 <- shuffle_ps xmm0 xmm0 (mm_shuffle 2 2 2 2) ;;
  let xmm0 := map2 (vmax SSE n) xmm0 xmm1 in
  xmm1 <- shuffle_ps xmm0 xmm0 (mm_shuffle 1 1 1 1) ;;
  xmm0 <- op_ss (vmax SSE n) xmm0 xmm1 ;;
  extract_0 xmm0.

(** _mm_cmpeq_epi32(x, x), simd_utils.hpp 42, 49, 56, 63: all bits set. *)
Definition cmpeq_self : Z := ones 32.
(** detail::gen_sign_mask, simd_utils.hpp 39-44 and, without __SSE2__, 71-76.
    One lane; all lanes are the same. *)
Definition utils_sign_mask : F F32 :=
  of_bits F32 (if has_sse2 c then slli 32 (srli 32 cmpeq_self 31) 31 else 0x80000000).
(** detail::gen_abs_mask, simd_utils.hpp 46-51, 78-83. *)
Definition utils_abs_mask : F F32 :=
  of_bits F32 (if has_sse2 c then srli 32 (slli 32 cmpeq_self 1) 1 else 0x7fffffff).
(** detail::gen_one, simd_utils.hpp 53-58, 85-88. *)
Definition utils_one : F F32 :=
  if has_sse2 c then of_bits F32 (slli 32 (srli 32 cmpeq_self 25) 23) else f_ofZ F32 1.
(** detail::gen_05, simd_utils.hpp 60-65, 90-93. *)
Definition utils_05 : F F32 :=
  if has_sse2 c then of_bits F32 (slli 32 (srli 32 cmpeq_self 26) 24) else f_lit F32 1 (-1).
(** detail::gen_025, simd_utils.hpp 97-100. *)
Definition utils_025 : F F32 := f_lit F32 1 (-2).

(** detail::select_vector, one lane: blendv with __SSE4_1__, simd_utils.hpp
    141-145, and/andnot/or otherwise, 149-154. *)
Definition select_vector (val0 val1 sel : F F32) : F F32 :=
  if has_sse41 c then (if sgn sel then val1 else val0)
  else bor (andnot SSE sel val0) (band val1 sel).
End M128.
