(** Buffer functions of /repo/simd_memory.hpp.  The asserts on n (lines 45,
    195, 219) are not modelled: the model is the NDEBUG build.  Not modelled,
    because no instantiation compiles: the ramped addvec overloads (lines
    370-376 assign to a `const F`; 457-470 and 485-491 call a one-argument
    vec::set that does not exist). *)

From Coq Require Import ZArith List Lia Bool.
From Verif Require Import Base Mem Loop Backend.
Import ListNotations.
Local Open Scope Z_scope.

Section MemFuns.
Context {A : Type} (ar : arith A).

(** zerovec, simd_memory.hpp lines 36-40: memset(dest, 0, n*sizeof(F)).  All bytes zero is
    the value +0, [a_zero]. *)
Definition zerovec (m : mem A) (dest n : Z) : res (mem A) :=
  store_list m dest (repeat (a_zero ar) (Z.to_nat n)).

(** setvec, simd_memory.hpp lines 42-49. *)
Definition setvec (m : mem A) (dest : Z) (f : A) (n : Z) : res (mem A) :=
  '(m', _) <- do_while (fun s : mem A * Z =>
                          let '(m, dest) := s in
                          m' <- store m dest f ;; Ok (m', dest + 1)) n (m, dest) ;;
  Ok m'.

(** set_slope_vec, simd_memory.hpp lines 192-199. *)
Definition set_slope_vec (m : mem A) (dest : Z) (f slope : A) (n : Z) : res (mem A) :=
  '(m', _, _) <- do_while (fun s : mem A * Z * A =>
                          let '(m, dest, f) := s in
                          m' <- store m dest f ;; Ok (m', dest + 1, a_add ar f slope))
                       n (m, dest, f) ;;
  Ok m'.

(** set_exp_vec, simd_memory.hpp lines 216-223. *)
Definition set_exp_vec (m : mem A) (dest : Z) (f curve : A) (n : Z) : res (mem A) :=
  '(m', _, _) <- do_while (fun s : mem A * Z * A =>
                          let '(m, dest, f) := s in
                          m' <- store m dest f ;; Ok (m', dest + 1, a_mul ar f curve))
                       n (m, dest, f) ;;
  Ok m'.

(** copyvec, simd_memory.hpp lines 270-274: memcpy(dest, src, n*sizeof(F)), whose behaviour is
    undefined on overlapping buffers. *)
Definition copyvec (m : mem A) (dest src n : Z) : res (mem A) :=
  if (0 <? n) && (dest <? src + n) && (src <? dest + n)
  then Fault OverlappingCopy
  else l <- load_n (Z.to_nat n) m src ;; store_list m dest l.

(** addvec(out, in, n), simd_memory.hpp lines 354-360. *)
Definition addvec (m : mem A) (out inp n : Z) : res (mem A) :=
  '(m', _, _) <- do_while (fun s : mem A * Z * Z =>
                          let '(m, out, inp) := s in
                          x <- load m out ;;
                          y <- load m inp ;;
                          m' <- store m out (a_add ar x y) ;;
                          Ok (m', out + 1, inp + 1))
                       n (m, out, inp) ;;
  Ok m'.

(** addvec(out, scalar, n), simd_memory.hpp lines 362-368. *)
Definition addvec_scalar (m : mem A) (out : Z) (f : A) (n : Z) : res (mem A) :=
  '(m', _) <- do_while (fun s : mem A * Z =>
                          let '(m, out) := s in
                          x <- load m out ;;
                          m' <- store m out (a_add ar x f) ;;
                          Ok (m', out + 1))
                       n (m, out) ;;
  Ok m'.

Context (B : backend).
Local Notation vec := (list A).
Local Notation step := (Z.of_nat (vsize B)).

(** detail::store_aligned<aligned>, simd_memory.hpp lines 54-61. *)
Definition store_al (al : bool) (m : mem A) (a : Z) (v : vec) : res (mem A) :=
  if al then vstore_aligned B m a v else vstore B m a v.

(** `if (src_aligned) val.load_aligned(src); else val.load(src);`,
    simd_memory.hpp lines 285-289 and 297-301. *)
Definition load_al (al : bool) (m : mem A) (a : Z) : res vec :=
  if al then vload_aligned B m a else vload B m a.

(** detail::setvec<F, k*size, aligned>::mp_iteration, simd_memory.hpp lines
    63-80. *)
Fixpoint setvec_mp (al : bool) (k : nat) (m : mem A) (dst : Z) (val : vec) : res (mem A) :=
  match k with
  | O => Ok m
  | S k' =>
      m <- store_al al m dst val ;;
      setvec_mp al k' m (dst + step) val
  end.

(** detail::setvec_simd<F, aligned>, simd_memory.hpp lines 82-94. *)
Definition detail_setvec_simd (al : bool) (m : mem A) (dest : Z) (val : vec) (n : Z) : res (mem A) :=
  '(m', _) <- do_while (fun s : mem A * Z =>
                          let '(m, dest) := s in
                          m <- setvec_mp al (vecs_per_loop B) m dest val ;;
                          Ok (m, dest + samples_per_loop B))
                       (n / samples_per_loop B) (m, dest) ;;
  Ok m'.

(** zerovec_simd(dest, n), lines 98-103; clear() zeroes every lane
    (vec_base.hpp 119-123, _mm_setzero_ps etc.). *)
Definition zerovec_simd (m : mem A) (dest n : Z) : res (mem A) :=
  detail_setvec_simd true m dest (set_vec B (a_zero ar)) n.

(** zerovec_simd<n>(dest), simd_memory.hpp lines 105-110; [k] = n / size. *)
Definition zerovec_simd_ct (k : nat) (m : mem A) (dest : Z) : res (mem A) :=
  setvec_mp true k m dest (set_vec B (a_zero ar)).

(** zerovec_na_simd(dest, n), simd_memory.hpp lines 112-117. *)
Definition zerovec_na_simd (m : mem A) (dest n : Z) : res (mem A) :=
  detail_setvec_simd false m dest (set_vec B (a_zero ar)) n.

(** zerovec_na_simd<n>(dest), simd_memory.hpp lines 119-124. *)
Definition zerovec_na_simd_ct (k : nat) (m : mem A) (dest : Z) : res (mem A) :=
  setvec_mp false k m dest (set_vec B (a_zero ar)).

(** setvec_simd(dest, f, n), simd_memory.hpp lines 128-133. *)
Definition setvec_simd (m : mem A) (dest : Z) (f : A) (n : Z) : res (mem A) :=
  detail_setvec_simd true m dest (set_vec B f) n.

(** setvec_simd<n>(dest, f), simd_memory.hpp lines 135-140. *)
Definition setvec_simd_ct (k : nat) (m : mem A) (dest : Z) (f : A) : res (mem A) :=
  setvec_mp true k m dest (set_vec B f).

(** setvec_na_simd(dest, f, n), simd_memory.hpp lines 142-147. *)
Definition setvec_na_simd (m : mem A) (dest : Z) (f : A) (n : Z) : res (mem A) :=
  detail_setvec_simd false m dest (set_vec B f) n.

(** setvec_na_simd<n>(dest, f), simd_memory.hpp lines 149-154. *)
Definition setvec_na_simd_ct (k : nat) (m : mem A) (dest : Z) (f : A) : res (mem A) :=
  setvec_mp false k m dest (set_vec B f).

(** detail::set_ramp<F, k*size>::slope_mp_iteration, simd_memory.hpp lines 160-170, base case
    180-187.  vbase is a reference: its final value is returned. *)
Fixpoint slope_mp (k : nat) (m : mem A) (dst : Z) (vbase vslope : vec) : res (mem A * vec) :=
  match k with
  | O => Ok (m, vbase)
  | S k' =>
      m <- vstore_aligned B m dst vbase ;;
      slope_mp k' m (dst + step) (vadd ar vbase vslope) vslope
  end.

(** detail::set_ramp<F, k*size>::exp_mp_iteration, simd_memory.hpp lines 172-177. *)
Fixpoint exp_mp (k : nat) (m : mem A) (dst : Z) (vbase vcurve : vec) : res (mem A * vec) :=
  match k with
  | O => Ok (m, vbase)
  | S k' =>
      m <- vstore_aligned B m dst vbase ;;
      exp_mp k' m (dst + step) (vmul ar vbase vcurve) vcurve
  end.

(** set_slope_vec_simd, simd_memory.hpp lines 201-214.  The value set_slope returns is not
    used; the vector increment is `vec<F>::size * slope`. *)
Definition set_slope_vec_simd (m : mem A) (dest : Z) (f slope : A) (n : Z) : res (mem A) :=
  let vbase := fst (set_slope ar B f slope) in
  let vslope := set_vec B (a_mul ar (a_ofZ ar step) slope) in
  '(m', _, _) <- do_while (fun s : mem A * Z * vec =>
                          let '(m, dest, vbase) := s in
                          '(m, vbase) <- slope_mp (vecs_per_loop B) m dest vbase vslope ;;
                          Ok (m, dest + samples_per_loop B, vbase))
                       (n / samples_per_loop B) (m, dest, vbase) ;;
  Ok m'.

(** detail::pow_i<e, Type>::run and ipow, simd_memory.hpp lines 225-253.  ipow<0> does not
    compile (infinite template recursion); 0 is mapped to the base here and
    never used. *)
Fixpoint pow_i (e : nat) (base : A) : A :=
  match e with
  | O | S O => base
  | S e' => a_mul ar base (pow_i e' base)
  end.

(** set_exp_vec_simd, simd_memory.hpp lines 255-267. *)
Definition set_exp_vec_simd (m : mem A) (dest : Z) (f curve : A) (n : Z) : res (mem A) :=
  let vcurve := set_vec B (pow_i (vsize B) curve) in
  let vbase := fst (set_exp ar B f curve) in
  '(m', _, _) <- do_while (fun s : mem A * Z * vec =>
                          let '(m, dest, vbase) := s in
                          '(m, vbase) <- exp_mp (vecs_per_loop B) m dest vbase vcurve ;;
                          Ok (m, dest + samples_per_loop B, vbase))
                       (n / samples_per_loop B) (m, dest, vbase) ;;
  Ok m'.

(** detail::copyvec<F, sa, da, k*size>::mp_iteration(dst, src, loaded), simd_memory.hpp lines
    293-305, base case 308-313: the next vector is loaded before the current
    one is stored, on the last iteration too. *)
Fixpoint copy_mp (sa da : bool) (k : nat) (m : mem A) (dst src : Z) (loaded : vec) : res (mem A) :=
  match k with
  | O => Ok m
  | S k' =>
      val <- load_al sa m src ;;
      m <- store_al da m dst loaded ;;
      copy_mp sa da k' m (dst + step) (src + step) val
  end.

(** detail::copyvec::mp_iteration(dst, src), simd_memory.hpp lines 281-291. *)
Definition copy_run (sa da : bool) (k : nat) (m : mem A) (dst src : Z) : res (mem A) :=
  val <- load_al sa m src ;;
  copy_mp sa da k m dst (src + step) val.

(** COPYVEC_FUNCTION, run-time form, simd_memory.hpp lines 317-329. *)
Definition copyvec_simd_gen (sa da : bool) (m : mem A) (dest src n : Z) : res (mem A) :=
  '(m', _, _) <- do_while (fun s : mem A * Z * Z =>
                          let '(m, dest, src) := s in
                          m <- copy_run sa da (vecs_per_loop B) m dest src ;;
                          Ok (m, dest + samples_per_loop B, src + samples_per_loop B))
                       (n / samples_per_loop B) (m, dest, src) ;;
  Ok m'.

(** copyvec_aa_simd, simd_memory.hpp line 337 (and copyvec_simd, lines 342-346). *)
Definition copyvec_aa_simd := copyvec_simd_gen true true.
(** copyvec_na_simd, simd_memory.hpp line 338: source not aligned, destination
    aligned. *)
Definition copyvec_na_simd := copyvec_simd_gen false true.
(** copyvec_an_simd, simd_memory.hpp line 339: source aligned, destination not
    aligned. *)
Definition copyvec_an_simd := copyvec_simd_gen true false.
(** copyvec_nn_simd, simd_memory.hpp line 340. *)
Definition copyvec_nn_simd := copyvec_simd_gen false false.
(** copyvec_simd, simd_memory.hpp lines 342-346. *)
Definition copyvec_simd := copyvec_aa_simd.

(** copyvec_aa_simd<n> and copyvec_simd<n>, simd_memory.hpp lines 331-335, 337, 348-352; [k] =
    n / size. *)
Definition copyvec_aa_simd_ct := copy_run true true.
(** copyvec_na_simd<n>, simd_memory.hpp line 338. *)
Definition copyvec_na_simd_ct := copy_run false true.
(** copyvec_an_simd<n>, simd_memory.hpp line 339. *)
Definition copyvec_an_simd_ct := copy_run true false.
(** copyvec_nn_simd<n>, simd_memory.hpp line 340. *)
Definition copyvec_nn_simd_ct := copy_run false false.

(** detail::addvec<F, k*size>::mp_iteration(dst, src), simd_memory.hpp lines
    381-394. *)
Fixpoint addvec_mp (k : nat) (m : mem A) (dst src : Z) : res (mem A) :=
  match k with
  | O => Ok m
  | S k' =>
      v1 <- vload_aligned B m dst ;;
      v2 <- vload_aligned B m src ;;
      m <- vstore_aligned B m dst (vadd ar v1 v2) ;;
      addvec_mp k' m (dst + step) (src + step)
  end.

(** mp_iteration(dst, vec), simd_memory.hpp lines 396-403. *)
Fixpoint addvec_scalar_mp (k : nat) (m : mem A) (dst : Z) (vin : vec) : res (mem A) :=
  match k with
  | O => Ok m
  | S k' =>
      v1 <- vload_aligned B m dst ;;
      m <- vstore_aligned B m dst (vadd ar v1 vin) ;;
      addvec_scalar_mp k' m (dst + step) vin
  end.

(** addvec_simd(out, in, n), simd_memory.hpp lines 431-442. *)
Definition addvec_simd (m : mem A) (out inp n : Z) : res (mem A) :=
  '(m', _, _) <- do_while (fun s : mem A * Z * Z =>
                          let '(m, out, inp) := s in
                          m <- addvec_mp (vecs_per_loop B) m out inp ;;
                          Ok (m, out + samples_per_loop B, inp + samples_per_loop B))
                       (n / samples_per_loop B) (m, out, inp) ;;
  Ok m'.

(** addvec_simd(out, scalar, n), simd_memory.hpp lines 444-455. *)
Definition addvec_scalar_simd (m : mem A) (out : Z) (f : A) (n : Z) : res (mem A) :=
  '(m', _) <- do_while (fun s : mem A * Z =>
                          let '(m, out) := s in
                          m <- addvec_scalar_mp (vecs_per_loop B) m out (set_vec B f) ;;
                          Ok (m, out + samples_per_loop B))
                       (n / samples_per_loop B) (m, out) ;;
  Ok m'.

(** addvec_simd<n>(out, in), simd_memory.hpp lines 472-476. *)
Definition addvec_simd_ct (k : nat) (m : mem A) (out inp : Z) : res (mem A) :=
  addvec_mp k m out inp.

(** addvec_simd<n>(out, scalar), simd_memory.hpp lines 478-483. *)
Definition addvec_scalar_simd_ct (k : nat) (m : mem A) (out : Z) (f : A) : res (mem A) :=
  addvec_scalar_mp k m out (set_vec B f).

End MemFuns.
