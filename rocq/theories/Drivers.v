(** The generic buffer drivers behind every foo_vec / foo_vec_simd. *)

From Coq Require Import ZArith List Lia.
From Verif Require Import Base Mem Loop Backend Args.
Import ListNotations.
Local Open Scope Z_scope.

(** * Scalar drivers *)

Section ScalarDrivers.
Context {A : Type} (ar : arith A).

(** `*out++ = f( *in++ )`, /repo/detail/math.hpp line 106. *)
Definition sbody1 (f : A -> A) (s : mem A * Z * Z) : res (mem A * Z * Z) :=
  let '(m, out, inp) := s in
  x <- load m inp ;;
  m' <- store m out (f x) ;;
  Ok (m', out + 1, inp + 1).

(** Run-time unary apply_on_vector, /repo/detail/math.hpp lines 100-108. *)
Definition apply_on_vector1 (f : A -> A) (m : mem A) (out inp n : Z) : res (mem A) :=
  '(m', _, _) <- do_while (sbody1 f) n (m, out, inp) ;; Ok m'.

(** Loop body of /repo/detail/math.hpp lines 117-122. *)
Definition sbody2 (f : A -> A -> A) (s : mem A * Z * arg A * arg A)
    : res (mem A * Z * arg A * arg A) :=
  let '(m, out, in1, in2) := s in
  x1 <- arg_get m in1 ;;
  x2 <- arg_get m in2 ;;
  m' <- store m out (f x1 x2) ;;
  Ok (m', out + 1, arg_incr ar in1, arg_incr ar in2).

(** Run-time binary apply_on_vector, /repo/detail/math.hpp lines 110-124. *)
Definition apply_on_vector2 (f : A -> A -> A) (m : mem A) (out : Z) (in1 in2 : arg A) (n : Z)
    : res (mem A) :=
  '(m', _, _, _) <- do_while (sbody2 f) n (m, out, in1, in2) ;; Ok m'.

(** Loop body of /repo/detail/math.hpp lines 134-140. *)
Definition sbody3 (f : A -> A -> A -> A) (s : mem A * Z * arg A * arg A * arg A)
    : res (mem A * Z * arg A * arg A * arg A) :=
  let '(m, out, in1, in2, in3) := s in
  x1 <- arg_get m in1 ;;
  x2 <- arg_get m in2 ;;
  x3 <- arg_get m in3 ;;
  m' <- store m out (f x1 x2 x3) ;;
  Ok (m', out + 1, arg_incr ar in1, arg_incr ar in2, arg_incr ar in3).

(** Run-time ternary apply_on_vector, /repo/detail/math.hpp lines 126-142. *)
Definition apply_on_vector3 (f : A -> A -> A -> A) (m : mem A) (out : Z)
    (in1 in2 in3 : arg A) (n : Z) : res (mem A) :=
  '(m', _, _, _, _) <- do_while (sbody3 f) n (m, out, in1, in2, in3) ;; Ok m'.

(** Loop body of /repo/detail/math.hpp lines 153-160. *)
Definition sbody4 (f : A -> A -> A -> A -> A) (s : mem A * Z * arg A * arg A * arg A * arg A)
    : res (mem A * Z * arg A * arg A * arg A * arg A) :=
  let '(m, out, in1, in2, in3, in4) := s in
  x1 <- arg_get m in1 ;;
  x2 <- arg_get m in2 ;;
  x3 <- arg_get m in3 ;;
  x4 <- arg_get m in4 ;;
  m' <- store m out (f x1 x2 x3 x4) ;;
  Ok (m', out + 1, arg_incr ar in1, arg_incr ar in2, arg_incr ar in3, arg_incr ar in4).

(** Run-time quaternary apply_on_vector, /repo/detail/math.hpp lines 144-162. *)
Definition apply_on_vector4 (f : A -> A -> A -> A -> A) (m : mem A) (out : Z)
    (in1 in2 in3 in4 : arg A) (n : Z) : res (mem A) :=
  '(m', _, _, _, _, _) <- do_while (sbody4 f) n (m, out, in1, in2, in3, in4) ;; Ok m'.

(** Compile-time-length apply_on_vector for VectorSize = [k],
    /repo/detail/math.hpp lines 33-95 (`for (i = 0; i != VectorSize; ++i)`);
    unlike the run-time unary form, the unary one (33-44) takes a wrapper. *)
Definition ct_sbody1 (f : A -> A) (s : mem A * Z * arg A) : res (mem A * Z * arg A) :=
  let '(m, out, in1) := s in
  x1 <- arg_get m in1 ;;
  m' <- store m out (f x1) ;;
  Ok (m', out + 1, arg_incr ar in1).

(** /repo/detail/math.hpp lines 33-44. *)
Definition ct_apply_on_vector1 (k : nat) (f : A -> A) (m : mem A) (out : Z) (in1 : arg A) : res (mem A) :=
  '(m', _, _) <- iter_res k (ct_sbody1 f) (m, out, in1) ;; Ok m'.

(** /repo/detail/math.hpp lines 46-59. *)
Definition ct_apply_on_vector2 (k : nat) (f : A -> A -> A) (m : mem A) (out : Z)
    (in1 in2 : arg A) : res (mem A) :=
  '(m', _, _, _) <- iter_res k (sbody2 f) (m, out, in1, in2) ;; Ok m'.

(** /repo/detail/math.hpp lines 61-76. *)
Definition ct_apply_on_vector3 (k : nat) (f : A -> A -> A -> A) (m : mem A) (out : Z)
    (in1 in2 in3 : arg A) : res (mem A) :=
  '(m', _, _, _, _) <- iter_res k (sbody3 f) (m, out, in1, in2, in3) ;; Ok m'.

(** /repo/detail/math.hpp lines 78-95. *)
Definition ct_apply_on_vector4 (k : nat) (f : A -> A -> A -> A -> A) (m : mem A) (out : Z)
    (in1 in2 in3 in4 : arg A) : res (mem A) :=
  '(m', _, _, _, _, _) <- iter_res k (sbody4 f) (m, out, in1, in2, in3, in4) ;; Ok m'.
End ScalarDrivers.

(** * Vector drivers *)

Section VectorDrivers.
Context {A : Type} (ar : arith A) (B : backend).
Local Notation vec := (list A).
Local Notation step := (Z.of_nat (vsize B)).

(** `vec_type loaded_next; if (N != offset) loaded_next = in.consume();`
    /repo/detail/unroll_helpers.hpp lines 91-93 (and 107-113 etc.).
    [more] is the compile-time test N != offset; [None] is the vector left
    uninitialised on the last iteration. *)
Definition preload (more : bool) (m : mem A) (a : varg A) : res (option vec * varg A) :=
  if more
  then '(v, a') <- varg_consume ar B m a ;; Ok (Some v, a')
  else Ok (None, a).

(** Use of a previously loaded vector; using one that was never loaded is UB
    (/repo/detail/unroll_helpers.hpp: loaded_in1 in `f(loaded_in1)`, line 95). *)
Definition use (v : option vec) : res vec :=
  match v with
  | Some x => Ok x
  | None => Fault Uninitialised
  end.

(** mp_iteration_1, /repo/detail/unroll_helpers.hpp lines 89-98 and base case
    180-189.  [k] is N / size: the template recursion goes from N to N - size
    and stops at 0; an N that is not a multiple of size does not compile.
    The wrapper is passed by reference, so its final state is returned. *)
Fixpoint mp_iteration_1 (k : nat) (m : mem A) (out : Z) (l1 : option vec) (in1 : varg A)
    (f : vec -> vec) : res (mem A * varg A) :=
  match k with
  | O => Ok (m, in1)
  | S k' =>
      '(n1, in1) <- preload (negb (Nat.eqb k' 0)) m in1 ;;
      v1 <- use l1 ;;
      m <- vstore_aligned B m out (f v1) ;;
      mp_iteration_1 k' m (out + step) n1 in1 f
  end.

(** mp_iteration_2, /repo/detail/unroll_helpers.hpp lines 104-118, base case
    190-197. *)
Fixpoint mp_iteration_2 (k : nat) (m : mem A) (out : Z) (l1 : option vec) (in1 : varg A)
    (l2 : option vec) (in2 : varg A) (f : vec -> vec -> vec) : res (mem A * varg A * varg A) :=
  match k with
  | O => Ok (m, in1, in2)
  | S k' =>
      '(n1, in1) <- preload (negb (Nat.eqb k' 0)) m in1 ;;
      '(n2, in2) <- preload (negb (Nat.eqb k' 0)) m in2 ;;
      v1 <- use l1 ;;
      v2 <- use l2 ;;
      m <- vstore_aligned B m out (f v1 v2) ;;
      mp_iteration_2 k' m (out + step) n1 in1 n2 in2 f
  end.

(** mp_iteration_3, /repo/detail/unroll_helpers.hpp lines 125-145, base case
    198-208. *)
Fixpoint mp_iteration_3 (k : nat) (m : mem A) (out : Z) (l1 : option vec) (in1 : varg A)
    (l2 : option vec) (in2 : varg A) (l3 : option vec) (in3 : varg A)
    (f : vec -> vec -> vec -> vec) : res (mem A * varg A * varg A * varg A) :=
  match k with
  | O => Ok (m, in1, in2, in3)
  | S k' =>
      '(n1, in1) <- preload (negb (Nat.eqb k' 0)) m in1 ;;
      '(n2, in2) <- preload (negb (Nat.eqb k' 0)) m in2 ;;
      '(n3, in3) <- preload (negb (Nat.eqb k' 0)) m in3 ;;
      v1 <- use l1 ;;
      v2 <- use l2 ;;
      v3 <- use l3 ;;
      m <- vstore_aligned B m out (f v1 v2 v3) ;;
      mp_iteration_3 k' m (out + step) n1 in1 n2 in2 n3 in3 f
  end.

(** mp_iteration_4, /repo/detail/unroll_helpers.hpp lines 153-177, base case
    210-219. *)
Fixpoint mp_iteration_4 (k : nat) (m : mem A) (out : Z) (l1 : option vec) (in1 : varg A)
    (l2 : option vec) (in2 : varg A) (l3 : option vec) (in3 : varg A)
    (l4 : option vec) (in4 : varg A)
    (f : vec -> vec -> vec -> vec -> vec) : res (mem A * varg A * varg A * varg A * varg A) :=
  match k with
  | O => Ok (m, in1, in2, in3, in4)
  | S k' =>
      '(n1, in1) <- preload (negb (Nat.eqb k' 0)) m in1 ;;
      '(n2, in2) <- preload (negb (Nat.eqb k' 0)) m in2 ;;
      '(n3, in3) <- preload (negb (Nat.eqb k' 0)) m in3 ;;
      '(n4, in4) <- preload (negb (Nat.eqb k' 0)) m in4 ;;
      v1 <- use l1 ;;
      v2 <- use l2 ;;
      v3 <- use l3 ;;
      v4 <- use l4 ;;
      m <- vstore_aligned B m out (f v1 v2 v3 v4) ;;
      mp_iteration_4 k' m (out + step) n1 in1 n2 in2 n3 in3 n4 in4 f
  end.

(** compile_time_unroller<F, k*size>::run, one argument,
    /repo/detail/unroll_helpers.hpp lines 45-48. *)
Definition run1 (k : nat) (m : mem A) (out : Z) (in1 : varg A) (f : vec -> vec)
    : res (mem A * varg A) :=
  '(v1, in1) <- varg_consume ar B m in1 ;;
  mp_iteration_1 k m out (Some v1) in1 f.

(** Two arguments, unroll_helpers.hpp lines 50-57.  C++ leaves the order of the two consume()
    calls open; both only read memory, so only the fault reported could
    differ. *)
Definition run2 (k : nat) (m : mem A) (out : Z) (in1 in2 : varg A) (f : vec -> vec -> vec)
    : res (mem A * varg A * varg A) :=
  '(v1, in1) <- varg_consume ar B m in1 ;;
  '(v2, in2) <- varg_consume ar B m in2 ;;
  mp_iteration_2 k m out (Some v1) in1 (Some v2) in2 f.

(** Three arguments, unroll_helpers.hpp lines 59-68. *)
Definition run3 (k : nat) (m : mem A) (out : Z) (in1 in2 in3 : varg A)
    (f : vec -> vec -> vec -> vec) : res (mem A * varg A * varg A * varg A) :=
  '(v1, in1) <- varg_consume ar B m in1 ;;
  '(v2, in2) <- varg_consume ar B m in2 ;;
  '(v3, in3) <- varg_consume ar B m in3 ;;
  mp_iteration_3 k m out (Some v1) in1 (Some v2) in2 (Some v3) in3 f.

(** Four arguments, unroll_helpers.hpp lines 70-81. *)
Definition run4 (k : nat) (m : mem A) (out : Z) (in1 in2 in3 in4 : varg A)
    (f : vec -> vec -> vec -> vec -> vec)
    : res (mem A * varg A * varg A * varg A * varg A) :=
  '(v1, in1) <- varg_consume ar B m in1 ;;
  '(v2, in2) <- varg_consume ar B m in2 ;;
  '(v3, in3) <- varg_consume ar B m in3 ;;
  '(v4, in4) <- varg_consume ar B m in4 ;;
  mp_iteration_4 k m out (Some v1) in1 (Some v2) in2 (Some v3) in3 (Some v4) in4 f.

(** generate_simd_loop, one argument, /repo/detail/unroll_helpers.hpp lines
    223-235: `n /= per_loop; do { run; out += per_loop; } while (--n);`. *)
Definition generate_simd_loop1 (f : vec -> vec) (m : mem A) (out : Z) (in1 : varg A) (n : Z)
    : res (mem A) :=
  '(m', _, _) <-
    do_while (fun s : mem A * Z * varg A =>
                let '(m, out, in1) := s in
                '(m, in1) <- run1 (vecs_per_loop B) m out in1 f ;;
                Ok (m, out + samples_per_loop B, in1))
             (n / samples_per_loop B) (m, out, in1) ;;
  Ok m'.

(** Two arguments, unroll_helpers.hpp lines 237-250. *)
Definition generate_simd_loop2 (f : vec -> vec -> vec) (m : mem A) (out : Z)
    (in1 in2 : varg A) (n : Z) : res (mem A) :=
  '(m', _, _, _) <-
    do_while (fun s : mem A * Z * varg A * varg A =>
                let '(m, out, in1, in2) := s in
                '(m, in1, in2) <- run2 (vecs_per_loop B) m out in1 in2 f ;;
                Ok (m, out + samples_per_loop B, in1, in2))
             (n / samples_per_loop B) (m, out, in1, in2) ;;
  Ok m'.

(** Three arguments, unroll_helpers.hpp lines 252-266. *)
Definition generate_simd_loop3 (f : vec -> vec -> vec -> vec) (m : mem A) (out : Z)
    (in1 in2 in3 : varg A) (n : Z) : res (mem A) :=
  '(m', _, _, _, _) <-
    do_while (fun s : mem A * Z * varg A * varg A * varg A =>
                let '(m, out, in1, in2, in3) := s in
                '(m, in1, in2, in3) <- run3 (vecs_per_loop B) m out in1 in2 in3 f ;;
                Ok (m, out + samples_per_loop B, in1, in2, in3))
             (n / samples_per_loop B) (m, out, in1, in2, in3) ;;
  Ok m'.

(** Four arguments, unroll_helpers.hpp lines 268-283. *)
Definition generate_simd_loop4 (f : vec -> vec -> vec -> vec -> vec) (m : mem A) (out : Z)
    (in1 in2 in3 in4 : varg A) (n : Z) : res (mem A) :=
  '(m', _, _, _, _, _) <-
    do_while (fun s : mem A * Z * varg A * varg A * varg A * varg A =>
                let '(m, out, in1, in2, in3, in4) := s in
                '(m, in1, in2, in3, in4) <- run4 (vecs_per_loop B) m out in1 in2 in3 in4 f ;;
                Ok (m, out + samples_per_loop B, in1, in2, in3, in4))
             (n / samples_per_loop B) (m, out, in1, in2, in3, in4) ;;
  Ok m'.
End VectorDrivers.

(** * Entry points *)

Section EntryPoints.
Context {A : Type} (ar : arith A) (B : backend).
Local Notation vec := (list A).
Local Notation wrap := (wrap_vector_arg ar B).

(** unary_functor::perform_vec, i.e. NAME_vec(out, arg, n):
    /repo/detail/define_macros.hpp lines 38-42, 172-178. *)
Definition unary_vec (f : A -> A) (m : mem A) (out inp n : Z) : res (mem A) :=
  apply_on_vector1 f m out inp n.

(** binary_functor::perform_vec: define_macros.hpp lines 61-65, 192-198. *)
Definition binary_vec (f : A -> A -> A) (m : mem A) (out : Z) (a1 a2 : arg A) (n : Z) : res (mem A) :=
  apply_on_vector2 ar f m out a1 a2 n.

(** ternary_functor::perform_vec: define_macros.hpp lines 95-99, 214-223. *)
Definition ternary_vec (f : A -> A -> A -> A) (m : mem A) (out : Z) (a1 a2 a3 : arg A) (n : Z)
    : res (mem A) :=
  apply_on_vector3 ar f m out a1 a2 a3 n.

(** quarternary_functor::perform_vec: define_macros.hpp lines 131-136, 247-258. *)
Definition quaternary_vec (f : A -> A -> A -> A -> A) (m : mem A) (out : Z)
    (a1 a2 a3 a4 : arg A) (n : Z) : res (mem A) :=
  apply_on_vector4 ar f m out a1 a2 a3 a4 n.

(** unary_functor::perform_vec_simd(out, arg, n): define_macros.hpp 44-48,
    180-184. *)
Definition unary_vec_simd (f : vec -> vec) (m : mem A) (out inp n : Z) : res (mem A) :=
  generate_simd_loop1 ar B f m out (wrap (APtr inp)) n.

(** binary_functor::perform_vec_simd: define_macros.hpp 67-74, 200-204. *)
Definition binary_vec_simd (f : vec -> vec -> vec) (m : mem A) (out : Z) (a1 a2 : arg A) (n : Z)
    : res (mem A) :=
  generate_simd_loop2 ar B f m out (wrap a1) (wrap a2) n.

(** ternary_functor::perform_vec_simd: define_macros.hpp 101-109, 225-233. *)
Definition ternary_vec_simd (f : vec -> vec -> vec -> vec) (m : mem A) (out : Z)
    (a1 a2 a3 : arg A) (n : Z) : res (mem A) :=
  generate_simd_loop3 ar B f m out (wrap a1) (wrap a2) (wrap a3) n.

(** quarternary_functor::perform_vec_simd: define_macros.hpp 138-147, 260-269. *)
Definition quaternary_vec_simd (f : vec -> vec -> vec -> vec -> vec) (m : mem A) (out : Z)
    (a1 a2 a3 a4 : arg A) (n : Z) : res (mem A) :=
  generate_simd_loop4 ar B f m out (wrap a1) (wrap a2) (wrap a3) (wrap a4) n.

(** unary_functor::perform_vec_simd<n>(out, arg): define_macros.hpp 50-55,
    185-189; [k] = n / size. *)
Definition unary_vec_simd_ct (k : nat) (f : vec -> vec) (m : mem A) (out inp : Z) : res (mem A) :=
  '(m', _) <- run1 ar B k m out (VPtr inp) f ;; Ok m'.

(** binary_functor::perform_vec_simd<n>: define_macros.hpp 76-89, 206-210. *)
Definition binary_vec_simd_ct (k : nat) (f : vec -> vec -> vec) (m : mem A) (out : Z)
    (a1 a2 : arg A) : res (mem A) :=
  '(m', _, _) <- run2 ar B k m out (wrap a1) (wrap a2) f ;; Ok m'.

(** ternary_functor::perform_vec_simd<n>: define_macros.hpp 111-125, 235-244. *)
Definition ternary_vec_simd_ct (k : nat) (f : vec -> vec -> vec -> vec) (m : mem A) (out : Z)
    (a1 a2 a3 : arg A) : res (mem A) :=
  '(m', _, _, _) <- run3 ar B k m out (wrap a1) (wrap a2) (wrap a3) f ;; Ok m'.

(** quarternary_functor::perform_vec_simd<n>: define_macros.hpp 149-164, 271-281. *)
Definition quaternary_vec_simd_ct (k : nat) (f : vec -> vec -> vec -> vec -> vec) (m : mem A)
    (out : Z) (a1 a2 a3 a4 : arg A) : res (mem A) :=
  '(m', _, _, _, _) <- run4 ar B k m out (wrap a1) (wrap a2) (wrap a3) (wrap a4) f ;; Ok m'.
End EntryPoints.
