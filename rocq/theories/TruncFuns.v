(** trunc over buffers (simd_unary_arithmetic.hpp 62, 76): the drivers of
    Drivers.v for a functor that can be undefined on a sample. *)

From Coq Require Import ZArith List Lia.
From Flocq Require Import Core IEEE754.Binary IEEE754.Bits.
From Verif Require Import Base Mem Loop Backend Args Drivers Lanes Float LaneOps FloatOps ScalarMath VecMath.
Import ListNotations.
Local Open Scope Z_scope.

Section Drivers.
Context {A : Type} (ar : arith A) (B : backend).
Local Notation vec := (list A).
Local Notation step := (Z.of_nat (vsize B)).

(** `*out++ = f( *in++ )`, /repo/detail/math.hpp line 106. *)
Definition tbody (f : A -> res A) (s : mem A * Z * Z) : res (mem A * Z * Z) :=
  let '(m, out, inp) := s in
  x <- load m inp ;;
  y <- f x ;;
  m' <- store m out y ;;
  Ok (m', out + 1, inp + 1).
(** Run-time unary apply_on_vector, /repo/detail/math.hpp lines 100-108. *)
Definition tapply (f : A -> res A) (m : mem A) (out inp n : Z) : res (mem A) :=
  '(m', _, _) <- do_while (tbody f) n (m, out, inp) ;; Ok m'.

(** The loop of vec_base::apply_unary, vec_base.hpp 187-188: the elements in
    order. *)
Fixpoint telements (f : A -> res A) (v : vec) : res vec :=
  match v with
  | [] => Ok []
  | x :: r => y <- f x ;; ys <- telements f r ;; Ok (y :: ys)
  end.
(** mp_iteration_1, /repo/detail/unroll_helpers.hpp lines 89-98, 180-189. *)
Fixpoint tmp_iteration (k : nat) (m : mem A) (out : Z) (l1 : option vec) (in1 : varg A) (f : vec -> res vec) : res (mem A * varg A) :=
  match k with
  | O => Ok (m, in1)
  | S k' =>
      '(n1, in1) <- preload ar B (negb (Nat.eqb k' 0)) m in1 ;;
      v1 <- use l1 ;;
      w <- f v1 ;;
      m <- vstore_aligned B m out w ;;
      tmp_iteration k' m (out + step) n1 in1 f
  end.
(** compile_time_unroller::run, unroll_helpers.hpp lines 45-48. *)
Definition trun (k : nat) (m : mem A) (out : Z) (in1 : varg A) (f : vec -> res vec) : res (mem A * varg A) :=
  '(v1, in1) <- varg_consume ar B m in1 ;;
  tmp_iteration k m out (Some v1) in1 f.
(** Body of generate_simd_loop, unroll_helpers.hpp lines 231-234. *)
Definition tloop_body (f : vec -> res vec) (s : mem A * Z * varg A) : res (mem A * Z * varg A) :=
  let '(m, out, in1) := s in
  '(m, in1) <- trun (vecs_per_loop B) m out in1 f ;;
  Ok (m, out + samples_per_loop B, in1).
(** generate_simd_loop, unroll_helpers.hpp lines 223-235. *)
Definition tloop (f : vec -> res vec) (m : mem A) (out inp n : Z) : res (mem A) :=
  '(m', _, _) <- do_while (tloop_body f) (n / samples_per_loop B) (m, out, VPtr inp) ;; Ok m'.
End Drivers.

Section Trunc.
Context (c : cfg) (B : backend) (n : nans (fmt_of B)).
(** trunc_vec, simd_unary_arithmetic.hpp 62, 76 and define_macros.hpp 38-42. *)
Definition trunc_vec : mem (F (fmt_of B)) -> Z -> Z -> Z -> res (mem (F (fmt_of B))) := tapply s_trunc.
(** trunc_vec_simd, the same and define_macros.hpp 44-48. *)
Definition trunc_vec_simd : mem (F (fmt_of B)) -> Z -> Z -> Z -> res (mem (F (fmt_of B))) :=
  tloop (farith n) B (telements (vtrunc c (isa_of B) n)).
(** trunc_vec_simd<n>, the same and define_macros.hpp 50-55; [k] = n / size. *)
Definition trunc_vec_simd_ct (k : nat) (m : mem (F (fmt_of B))) (out inp : Z) : res (mem (F (fmt_of B))) :=
  '(m', _) <- trun (farith n) B k m out (VPtr inp) (telements (vtrunc c (isa_of B) n)) ;; Ok m'.
End Trunc.
