(** The specialisations of [vec<F>]: /repo/vec/*.hpp. *)

From Coq Require Import ZArith List Lia.
From Verif Require Import Base Mem.
Import ListNotations.
Local Open Scope Z_scope.

(** The eight specialisations of vec<FloatType>;
    vec_generic.hpp 65-188, vec_sse.hpp 57, vec_sse2.hpp 50, vec_avx_float.hpp
    42, vec_avx_double.hpp 44, vec_neon.hpp 39, vec_altivec.hpp 43. *)
Inductive backend : Set :=
| GEN32      (* /repo/vec/vec_generic.hpp lines 65-188, FloatType = float *)
| GEN64      (* /repo/vec/vec_generic.hpp lines 65-188, FloatType = double *)
| SSE32      (* /repo/vec/vec_sse.hpp, vec<float> on __m128 *)
| SSE64      (* /repo/vec/vec_sse2.hpp, vec<double> on __m128d *)
| AVX32      (* /repo/vec/vec_avx_float.hpp, vec<float> on __m256 *)
| AVX64      (* /repo/vec/vec_avx_double.hpp, vec<double> on __m256d *)
| NEON32     (* /repo/vec/vec_neon.hpp, vec<float> on float32x4_t *)
| ALTIVEC32. (* /repo/vec/vec_altivec.hpp, vec<float> on __vector float *)

(** `static const int size`: vec_generic.hpp 74, vec_sse.hpp 147,
    vec_sse2.hpp 108, vec_avx_float.hpp 112, vec_avx_double.hpp 101,
    vec_neon.hpp 118, vec_altivec.hpp 129. *)
Definition vsize (B : backend) : nat :=
  match B with
  | GEN32 | GEN64 | SSE32 | AVX64 | NEON32 | ALTIVEC32 => 4
  | SSE64 => 2
  | AVX32 => 8
  end.

(** sizeof(float_type) of the specialisation;
    vec_generic.hpp 72, vec_sse.hpp 61, vec_sse2.hpp 55, vec_avx_float.hpp 52,
    vec_avx_double.hpp 52, vec_neon.hpp 42, vec_altivec.hpp 47. *)
Definition elem_bytes (B : backend) : Z :=
  match B with
  | GEN32 | SSE32 | AVX32 | NEON32 | ALTIVEC32 => 4
  | GEN64 | SSE64 | AVX64 => 8
  end.

(** `objects_per_cacheline = 64/sizeof(float_type)`, the line after `size` in
    each specialisation; also unroll_constraints::samples_per_loop,
    /repo/simd_unroll_constraints.hpp lines 28-32. *)
Definition samples_per_loop (B : backend) : Z := 64 / elem_bytes B.

(** Number of vectors per unrolled loop body: the recursion depth of
    compile_time_unroller<F, per_loop>, /repo/detail/unroll_helpers.hpp
    lines 33-178 (N counts down from per_loop in steps of size). *)
Definition vecs_per_loop (B : backend) : nat :=
  Z.to_nat (samples_per_loop B / Z.of_nat (vsize B)).

(** What aligned vector accesses do with a misaligned address;
    used by [aligned_rule], vec_sse.hpp 179-197 etc. *)
Inductive align_rule : Set :=
| AnyAlign   (* no requirement *)
| Trap       (* general-protection fault *)
| Truncate.  (* low address bits are ignored *)

(** load_aligned / store_aligned: vec_base.hpp 96-99, 109-112 (generic: plain
    element loop); vec_sse.hpp 179-182, 194-197, vec_sse2.hpp 145-148, 160-163,
    vec_avx_float.hpp 143-146, 159-162, vec_avx_double.hpp 137-140, 153-156
    (movaps and kin trap); vec_neon.hpp 155-158, 165-168 (vld1q/vst1q, element
    aligned); vec_altivec.hpp 159-162, 175-178 (lvx/stvx ignore the low four
    bits of the address). *)
Definition aligned_rule (B : backend) : align_rule :=
  match B with
  | GEN32 | GEN64 | NEON32 => AnyAlign
  | SSE32 | SSE64 | AVX32 | AVX64 => Trap
  | ALTIVEC32 => Truncate
  end.

(** load / store without the _aligned suffix: as above, movups and kin do not
    trap; vec_altivec.hpp 154-157, 170-173 use the same lvx/stvx. *)
Definition unaligned_rule (B : backend) : align_rule :=
  match B with
  | ALTIVEC32 => Truncate
  | _ => AnyAlign
  end.

(** Address the hardware uses for a vector access, or the trap.
    The vector register is vsize elements wide, so a pointer is aligned to it
    when its element address is a multiple of vsize;
    vec_sse.hpp 179-197 etc., as in [aligned_rule]. *)
Definition vaddr (r : align_rule) (B : backend) (a : Z) : res Z :=
  match r with
  | AnyAlign => Ok a
  | Trap => if a mod Z.of_nat (vsize B) =? 0 then Ok a else Fault (Misaligned a)
  | Truncate => Ok (a - a mod Z.of_nat (vsize B))
  end.

(** vec::load_aligned (lines as in [aligned_rule]); vec_sse.hpp 179-182 etc. *)
Definition vload_aligned {A} (B : backend) (m : mem A) (a : Z) : res (list A) :=
  a' <- vaddr (aligned_rule B) B a ;; load_n (vsize B) m a'.

(** vec::load (lines as in [unaligned_rule]); vec_sse.hpp 174-177 etc. *)
Definition vload {A} (B : backend) (m : mem A) (a : Z) : res (list A) :=
  a' <- vaddr (unaligned_rule B) B a ;; load_n (vsize B) m a'.

(** vec::store_aligned (lines as in [aligned_rule]); vec_sse.hpp 194-197 etc. *)
Definition vstore_aligned {A} (B : backend) (m : mem A) (a : Z) (v : list A) : res (mem A) :=
  a' <- vaddr (aligned_rule B) B a ;; store_list m a' v.

(** vec::store (lines as in [unaligned_rule]); vec_sse.hpp 189-192 etc. *)
Definition vstore {A} (B : backend) (m : mem A) (a : Z) (v : list A) : res (mem A) :=
  a' <- vaddr (unaligned_rule B) B a ;; store_list m a' v.

(** vec::is_aligned on a byte address: vec_generic.hpp 105-108 masks with
    sizeof(float)-1, all others (vec_sse.hpp 151-154 etc.) with
    size*sizeof(F)-1. *)
Definition is_aligned (B : backend) (byte_addr : Z) : bool :=
  match B with
  | GEN32 | GEN64 => Z.land byte_addr (4 - 1) =? 0
  | _ => Z.land byte_addr (Z.of_nat (vsize B) * elem_bytes B - 1) =? 0
  end.

(** Arithmetic on the element type F, as used by the buffer-level code.
    [a_ofZ] is the conversion of an int to F (`vec<F>::size * slope`,
    /repo/simd_memory.hpp line 206; `slope * 8`, vec_avx_float.hpp line 198).
    [a_narrow] is the conversion F -> float -> F done by
    /repo/detail/wrap_argument_vector.hpp lines 94-95 (identity for F = float). *)
Record arith (A : Type) : Type := MkArith {
  a_zero : A;
  a_add : A -> A -> A;
  a_mul : A -> A -> A;
  a_ofZ : Z -> A;
  a_narrow : A -> A
}.
Arguments MkArith {A} _ _ _ _ _.
Arguments a_zero {A} _.
Arguments a_add {A} _ _ _.
Arguments a_mul {A} _ _ _.
Arguments a_ofZ {A} _ _.
Arguments a_narrow {A} _ _.

Section Arith.
Context {A : Type} (ar : arith A).
Local Infix "+!" := (a_add ar) (at level 50, left associativity).
Local Infix "*!" := (a_mul ar) (at level 40, left associativity).

(** vec::operator+ / += : vec_base.hpp 205-227, _mm_add_ps etc. (lane-wise). *)
Definition vadd (v w : list A) : list A := map2 (a_add ar) v w.

(** vec::operator* / *= : vec_base.hpp 215-243, _mm_mul_ps etc. (lane-wise).
    Simplified for Altivec, whose vec_mul (vec_altivec.hpp 226-229) adds +0 to
    the product and so turns -0 into +0. *)
Definition vmul (v w : list A) : list A := map2 (a_mul ar) v w.

(** vec::set_vec / vec(F): vec_base.hpp 144-150, vec_sse.hpp 244-247 etc. *)
Definition set_vec (B : backend) (x : A) : list A := repeat x (vsize B).

(** The loop of vec_base::set_slope, vec_base.hpp 152-164:
    lanes and the final `diff`. *)
Fixpoint base_set_slope (k : nat) (start diff slope : A) : list A * A :=
  match k with
  | O => ([], diff)
  | S k' =>
      let (l, d) := base_set_slope k' start (diff +! slope) slope in
      ((start +! diff) :: l, d)
  end.

(** vec::set_slope: new lanes and the returned increment;
    the lines of each specialisation stand at its case, e.g. vec_sse.hpp 249-257. *)
Definition set_slope (B : backend) (start slope : A) : list A * A :=
  match B with
  | GEN32 | GEN64 =>  (* vec_base.hpp 152-164 *)
      base_set_slope 4 start (a_zero ar) slope
  | SSE32 =>  (* vec_sse.hpp 249-257 *)
      let slope2 := slope +! slope in
      let v1 := start +! slope in
      let v2 := start +! slope2 in
      let v3 := start +! slope2 +! slope in
      ([start; v1; v2; v3], slope2 +! slope2)
  | SSE64 =>  (* vec_sse2.hpp 185-190 *)
      ([start; start +! slope], slope +! slope)
  | AVX32 =>  (* vec_avx_float.hpp 188-199 *)
      let v1 := start +! slope in
      let v2 := v1 +! slope in
      let v3 := v2 +! slope in
      let v4 := v3 +! slope in
      let v5 := v4 +! slope in
      let v6 := v5 +! slope in
      let v7 := v6 +! slope in
      ([start; v1; v2; v3; v4; v5; v6; v7], slope *! a_ofZ ar 8)
  | AVX64 =>  (* vec_avx_double.hpp 177-184 *)
      let v1 := start +! slope in
      let v2 := v1 +! slope in
      let v3 := v2 +! slope in
      ([start; v1; v2; v3], slope +! slope +! slope +! slope)
  | NEON32 =>  (* vec_neon.hpp 209-217 *)
      ([start; start +! slope; start +! slope +! slope; start +! slope +! slope +! slope],
       slope +! slope +! slope +! slope)
  | ALTIVEC32 =>  (* vec_altivec.hpp 204-211 *)
      let v1 := start +! slope in
      let v2 := start +! slope +! slope in
      let v3 := start +! slope +! slope +! slope in
      ([start; v1; v2; v3], slope +! slope +! slope +! slope)
  end.

(** The loop of vec_base::set_exp, vec_base.hpp 166-177. *)
Fixpoint base_set_exp (k : nat) (value curve : A) : list A * A :=
  match k with
  | O => ([], value)
  | S k' => let (l, r) := base_set_exp k' (value *! curve) curve in (value :: l, r)
  end.

(** vec::set_exp: new lanes and the returned next value;
    the lines of each specialisation stand at its case, e.g. vec_sse.hpp 259-266. *)
Definition set_exp (B : backend) (start curve : A) : list A * A :=
  match B with
  | GEN32 | GEN64 =>  (* vec_base.hpp 166-177 *)
      base_set_exp 4 start curve
  | SSE32 | AVX64 | ALTIVEC32 =>  (* vec_sse.hpp 259-266, vec_avx_double.hpp 186-193, vec_altivec.hpp 213-220 *)
      let v1 := start *! curve in
      let v2 := v1 *! curve in
      let v3 := v2 *! curve in
      ([start; v1; v2; v3], v3 *! curve)
  | SSE64 =>  (* vec_sse2.hpp 192-197 *)
      let v1 := start *! curve in
      ([start; v1], v1 *! curve)
  | AVX32 =>  (* vec_avx_float.hpp 201-212 *)
      let v1 := start *! curve in
      let v2 := v1 *! curve in
      let v3 := v2 *! curve in
      let v4 := v3 *! curve in
      let v5 := v4 *! curve in
      let v6 := v5 *! curve in
      let v7 := v6 *! curve in
      ([start; v1; v2; v3; v4; v5; v6; v7], v7 *! curve)
  | NEON32 =>  (* vec_neon.hpp 219-227 *)
      ([start; start *! curve; start *! curve *! curve; start *! curve *! curve *! curve],
       start *! curve *! curve *! curve *! curve)
  end.

End Arith.
