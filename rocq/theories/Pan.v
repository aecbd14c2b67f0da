(** pan2: /repo/simd_pan.hpp. *)

From Coq Require Import ZArith List Lia.
From Verif Require Import Base Mem Loop Backend.
Import ListNotations.
Local Open Scope Z_scope.

Section Pan.
Context {A : Type} (ar : arith A).

(** pan2_vec with constant factors, simd_pan.hpp lines 34-43. *)
Definition pan2_vec (m : mem A) (out0 out1 inp : Z) (f0 f1 : A) (n : Z) : res (mem A) :=
  '(m', _, _, _) <- do_while (fun s : mem A * Z * Z * Z =>
                          let '(m, out0, out1, inp) := s in
                          sig <- load m inp ;;
                          m <- store m out0 (a_mul ar sig f0) ;;
                          m <- store m out1 (a_mul ar sig f1) ;;
                          Ok (m, out0 + 1, out1 + 1, inp + 1))
                       n (m, out0, out1, inp) ;;
  Ok m'.

(** pan2_vec with ramped factors, simd_pan.hpp lines 45-56. *)
Definition pan2_slope_vec (m : mem A) (out0 out1 inp : Z) (f0 slope0 f1 slope1 : A) (n : Z) : res (mem A) :=
  '(m', _, _, _, _, _) <- do_while (fun s : mem A * Z * Z * Z * A * A =>
                          let '(m, out0, out1, inp, f0, f1) := s in
                          sig <- load m inp ;;
                          m <- store m out0 (a_mul ar sig f0) ;;
                          m <- store m out1 (a_mul ar sig f1) ;;
                          Ok (m, out0 + 1, out1 + 1, inp + 1, a_add ar f0 slope0, a_add ar f1 slope1))
                       n (m, out0, out1, inp, f0, f1) ;;
  Ok m'.

Context (B : backend).
Local Notation vec := (list A).
Local Notation step := (Z.of_nat (vsize B)).

(** detail::pan2<F, k*size>::mp_iteration, constant factors, simd_pan.hpp
    lines 61-78. *)
Fixpoint pan2_mp (k : nat) (m : mem A) (out0 out1 inp : Z) (f0 f1 : vec) : res (mem A) :=
  match k with
  | O => Ok m
  | S k' =>
      vin <- vload_aligned B m inp ;;
      m <- vstore_aligned B m out0 (vmul ar vin f0) ;;
      m <- vstore_aligned B m out1 (vmul ar vin f1) ;;
      pan2_mp k' m (out0 + step) (out1 + step) (inp + step) f0 f1
  end.

(** Ramped factors, simd_pan.hpp lines 80-95; the factors are references. *)
Fixpoint pan2_slope_mp (k : nat) (m : mem A) (out0 out1 inp : Z) (f0 slope0 f1 slope1 : vec)
    : res (mem A * vec * vec) :=
  match k with
  | O => Ok (m, f0, f1)
  | S k' =>
      vin <- vload_aligned B m inp ;;
      m <- vstore_aligned B m out0 (vmul ar vin f0) ;;
      m <- vstore_aligned B m out1 (vmul ar vin f1) ;;
      pan2_slope_mp k' m (out0 + step) (out1 + step) (inp + step)
        (vadd ar f0 slope0) slope0 (vadd ar f1 slope1) slope1
  end.

(** pan2_vec_simd(out0, out1, in, factor0, factor1, n), simd_pan.hpp lines
    112-123. *)
Definition pan2_vec_simd (m : mem A) (out0 out1 inp : Z) (f0 f1 : A) (n : Z) : res (mem A) :=
  '(m', _, _, _) <- do_while (fun s : mem A * Z * Z * Z =>
                          let '(m, out0, out1, inp) := s in
                          m <- pan2_mp (vecs_per_loop B) m out0 out1 inp (set_vec B f0) (set_vec B f1) ;;
                          Ok (m, out0 + samples_per_loop B, out1 + samples_per_loop B,
                              inp + samples_per_loop B))
                       (n / samples_per_loop B) (m, out0, out1, inp) ;;
  Ok m'.

(** pan2_vec_simd<n>, constant factors, simd_pan.hpp lines 125-131; [k] = n /
    size. *)
Definition pan2_vec_simd_ct (k : nat) (m : mem A) (out0 out1 inp : Z) (f0 f1 : A) : res (mem A) :=
  pan2_mp k m out0 out1 inp (set_vec B f0) (set_vec B f1).

(** pan2_vec_simd(..., slopes, n), simd_pan.hpp lines 133-147. *)
Definition pan2_slope_vec_simd (m : mem A) (out0 out1 inp : Z) (f0 slope0 f1 slope1 : A) (n : Z)
    : res (mem A) :=
  let (vf0, s0) := set_slope ar B f0 slope0 in
  let (vf1, s1) := set_slope ar B f1 slope1 in
  '(m', _, _, _, _, _) <- do_while (fun s : mem A * Z * Z * Z * vec * vec =>
                          let '(m, out0, out1, inp, vf0, vf1) := s in
                          '(m, vf0, vf1) <- pan2_slope_mp (vecs_per_loop B) m out0 out1 inp
                                              vf0 (set_vec B s0) vf1 (set_vec B s1) ;;
                          Ok (m, out0 + samples_per_loop B, out1 + samples_per_loop B,
                              inp + samples_per_loop B, vf0, vf1))
                       (n / samples_per_loop B) (m, out0, out1, inp, vf0, vf1) ;;
  Ok m'.

(** pan2_vec_simd<n>(..., slopes), simd_pan.hpp lines 149-157. *)
Definition pan2_slope_vec_simd_ct (k : nat) (m : mem A) (out0 out1 inp : Z) (f0 slope0 f1 slope1 : A)
    : res (mem A) :=
  let (vf0, s0) := set_slope ar B f0 slope0 in
  let (vf1, s1) := set_slope ar B f1 slope1 in
  '(m', _, _) <- pan2_slope_mp k m out0 out1 inp vf0 (set_vec B s0) vf1 (set_vec B s1) ;;
  Ok m'.
End Pan.
