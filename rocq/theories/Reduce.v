(** Peak meters and horizontal reductions over buffers:
    /repo/simd_peakmeter.hpp and /repo/simd_horizontal_functions.hpp. *)

From Coq Require Import ZArith List Lia.
From Verif Require Import Base Mem Loop Backend Lanes.
Import ListNotations.
Local Open Scope Z_scope.

(** The operations the reductions use, for one sample and for one lane of
    vec<F>; the code is a template over F;
    simd_peakmeter.hpp 37-150, simd_horizontal_functions.hpp 35-214. *)
Record redops (A : Type) := {
  d_zero : A;                (* F(0) *)
  d_lmin : A;                (* std::numeric_limits<F>::min() *)
  d_lmax : A;                (* std::numeric_limits<F>::max() *)
  d_add : A -> A -> A;       (* + on F and on lanes *)
  d_mul : A -> A -> A;       (* * on F and on lanes *)
  d_fabs : A -> A;           (* std::fabs *)
  d_vabs : A -> A;           (* abs(vec) *)
  d_smax : A -> A -> A;      (* std::max *)
  d_smin : A -> A -> A;      (* std::min *)
  d_vmax : A -> A -> A;      (* max_(vec, vec) *)
  d_vmin : A -> A -> A       (* min_(vec, vec) *)
}.
Arguments d_zero {A}. Arguments d_lmin {A}. Arguments d_lmax {A}. Arguments d_add {A}.
Arguments d_mul {A}. Arguments d_fabs {A}. Arguments d_vabs {A}. Arguments d_smax {A}.
Arguments d_smin {A}. Arguments d_vmax {A}. Arguments d_vmin {A}.

Section Reduce.
Context {A : Type} (d : redops A).

(** A variable declared without a value: reading it before the first
    assignment is undefined; `F last` of simd_peakmeter.hpp 37-52. *)
Definition initialised {X} (x : option X) : res X :=
  match x with Some v => Ok v | None => Fault Uninitialised end.

(** peak_vec, simd_peakmeter.hpp lines 37-52.  Returns the memory and the
    function's result. *)
Definition peak_vec (m : mem A) (inp peak : Z) (n : Z) : res (mem A * A) :=
  local_peak <- load m peak ;;
  '(_, last, local_peak) <-
     do_while (fun s : Z * option A * A =>
                 let '(inp, _, local_peak) := s in
                 x <- load m inp ;;
                 let last := d_fabs d x in
                 Ok (inp + 1, Some last, d_smax d local_peak last))
       n (inp, None, local_peak) ;;
  m' <- store m peak local_peak ;;
  last <- initialised last ;;
  Ok (m', last).

(** peak_rms_vec, simd_peakmeter.hpp lines 90-107. *)
Definition peak_rms_vec (m : mem A) (inp peak squared_sum : Z) (n : Z) : res (mem A) :=
  local_peak <- load m peak ;;
  local_sum <- load m squared_sum ;;
  '(_, local_peak, local_sum) <-
     do_while (fun s : Z * A * A =>
                 let '(inp, local_peak, local_sum) := s in
                 x <- load m inp ;;
                 let last := d_fabs d x in
                 Ok (inp + 1, d_smax d local_peak last, d_add d local_sum (d_mul d x x)))
       n (inp, local_peak, local_sum) ;;
  m' <- store m peak local_peak ;;
  store m' squared_sum local_sum.

(** horizontal_max_vec, simd_horizontal_functions.hpp lines 35-46. *)
Definition horizontal_max_vec (m : mem A) (inp n : Z) : res A :=
  '(_, current) <-
     do_while (fun s : Z * A => let '(inp, current) := s in
                 x <- load m inp ;; Ok (inp + 1, d_smax d current x))
       n (inp, d_lmin d) ;;
  Ok current.

(** horizontal_min_vec, simd_horizontal_functions.hpp lines 70-81. *)
Definition horizontal_min_vec (m : mem A) (inp n : Z) : res A :=
  '(_, current) <-
     do_while (fun s : Z * A => let '(inp, current) := s in
                 x <- load m inp ;; Ok (inp + 1, d_smin d current x))
       n (inp, d_lmin d) ;;
  Ok current.

(** horizontal_sum_vec, simd_horizontal_functions.hpp lines 104-115. *)
Definition horizontal_sum_vec (m : mem A) (inp n : Z) : res A :=
  '(_, current) <-
     do_while (fun s : Z * A => let '(inp, current) := s in
                 x <- load m inp ;; Ok (inp + 1, d_add d current x))
       n (inp, d_zero d) ;;
  Ok current.

(** horizontal_minmax_vec, simd_horizontal_functions.hpp lines 138-153; the
    results are (rmin, rmax). *)
Definition horizontal_minmax_vec (m : mem A) (inp n : Z) : res (A * A) :=
  '(_, cmax, cmin) <-
     do_while (fun s : Z * A * A => let '(inp, cmax, cmin) := s in
                 x <- load m inp ;; Ok (inp + 1, d_smax d cmax x, d_smin d cmin x))
       n (inp, d_lmin d, d_lmax d) ;;
  Ok (cmin, cmax).

(** horizontal_maxsum_vec, simd_horizontal_functions.hpp lines 177-192; the
    results are (rmax, rsum). *)
Definition horizontal_maxsum_vec (m : mem A) (inp n : Z) : res (A * A) :=
  '(_, cmax, csum) <-
     do_while (fun s : Z * A * A => let '(inp, cmax, csum) := s in
                 x <- load m inp ;; Ok (inp + 1, d_smax d cmax x, d_add d csum x))
       n (inp, d_lmin d, d_zero d) ;;
  Ok (cmax, csum).

Context (c : cfg) (B : backend).
Local Notation vec := (list A).
Local Notation step := (Z.of_nat (vsize B)).

(** peak_vec_simd, simd_peakmeter.hpp lines 54-88. *)
Definition peak_vec_simd (junk : nat -> A) (m : mem A) (inp peak : Z) (n : Z) : res (mem A * A) :=
  maximum <- load_first B (d_zero d) junk m peak ;;
  let unroll := 4 * step in
  '(_, maximum, abs3) <-
     do_while (fun s : Z * vec * option vec =>
                 let '(inp, maximum, _) := s in
                 in0 <- vload_aligned B m inp ;;
                 in1 <- vload_aligned B m (inp + step) ;;
                 in2 <- vload_aligned B m (inp + 2 * step) ;;
                 in3 <- vload_aligned B m (inp + 3 * step) ;;
                 let abs0 := map (d_vabs d) in0 in
                 let abs1 := map (d_vabs d) in1 in
                 let abs2 := map (d_vabs d) in2 in
                 let abs3 := map (d_vabs d) in3 in
                 let local_max := map2 (d_vmax d) (map2 (d_vmax d) abs0 abs1)
                                                  (map2 (d_vmax d) abs2 abs3) in
                 Ok (inp + unroll, map2 (d_vmax d) maximum local_max, Some abs3))
       (n / unroll) (inp, maximum, None) ;;
  p <- horizontal_max B (d_smax d) (d_vmax d) maximum ;;
  m' <- store m peak p ;;
  abs3 <- initialised abs3 ;;
  last <- get c B abs3 (vsize B - 1) ;;
  Ok (m', last).

(** peak_rms_vec_simd, simd_peakmeter.hpp lines 109-150. *)
Definition peak_rms_vec_simd (junk : nat -> A) (m : mem A) (inp peak squared_sum : Z) (n : Z)
    : res (mem A) :=
  maximum <- load_first B (d_zero d) junk m peak ;;
  local_sum <- load_first B (d_zero d) junk m squared_sum ;;
  let unroll := 4 * step in
  '(_, maximum, local_sum) <-
     do_while (fun s : Z * vec * vec =>
                 let '(inp, maximum, local_sum) := s in
                 in0 <- vload_aligned B m inp ;;
                 in1 <- vload_aligned B m (inp + step) ;;
                 in2 <- vload_aligned B m (inp + 2 * step) ;;
                 in3 <- vload_aligned B m (inp + 3 * step) ;;
                 let abs0 := map (d_vabs d) in0 in
                 let sqr0 := map (fun x => d_mul d x x) in0 in
                 let abs1 := map (d_vabs d) in1 in
                 let sqr1 := map (fun x => d_mul d x x) in1 in
                 let abs2 := map (d_vabs d) in2 in
                 let sqr2 := map (fun x => d_mul d x x) in2 in
                 let abs3 := map (d_vabs d) in3 in
                 let sqr3 := map (fun x => d_mul d x x) in3 in
                 let local_max := map2 (d_vmax d) (map2 (d_vmax d) abs0 abs1)
                                                  (map2 (d_vmax d) abs2 abs3) in
                 let sum := map2 (d_add d) (map2 (d_add d) (map2 (d_add d) sqr0 sqr1) sqr2) sqr3 in
                 Ok (inp + unroll, map2 (d_vmax d) maximum local_max, map2 (d_add d) local_sum sum))
       (n / unroll) (inp, maximum, local_sum) ;;
  p <- horizontal_max B (d_smax d) (d_vmax d) maximum ;;
  m' <- store m peak p ;;
  q <- horizontal_sum c B (d_zero d) (d_add d) local_sum ;;
  store m' squared_sum q.

(** horizontal_max_vec_simd, simd_horizontal_functions.hpp lines 48-67. *)
Definition horizontal_max_vec_simd (m : mem A) (inp n : Z) : res A :=
  '(_, current) <-
     do_while (fun s : Z * vec => let '(inp, current) := s in
                 v <- vload_aligned B m inp ;; Ok (inp + step, map2 (d_vmax d) current v))
       (n / step) (inp, set_vec B (d_lmin d)) ;;
  horizontal_max B (d_smax d) (d_vmax d) current.

(** horizontal_min_vec_simd, simd_horizontal_functions.hpp lines 83-102. *)
Definition horizontal_min_vec_simd (m : mem A) (inp n : Z) : res A :=
  '(_, current) <-
     do_while (fun s : Z * vec => let '(inp, current) := s in
                 v <- vload_aligned B m inp ;; Ok (inp + step, map2 (d_vmin d) current v))
       (n / step) (inp, set_vec B (d_lmin d)) ;;
  horizontal_min B (d_smin d) (d_vmin d) current.

(** horizontal_sum_vec_simd, simd_horizontal_functions.hpp lines 117-135. *)
Definition horizontal_sum_vec_simd (m : mem A) (inp n : Z) : res A :=
  '(_, current) <-
     do_while (fun s : Z * vec => let '(inp, current) := s in
                 v <- vload_aligned B m inp ;; Ok (inp + step, map2 (d_add d) current v))
       (n / step) (inp, set_vec B (d_zero d)) ;;
  horizontal_sum c B (d_zero d) (d_add d) current.

(** horizontal_minmax_vec_simd, simd_horizontal_functions.hpp lines 155-175;
    (rmin, rmax). *)
Definition horizontal_minmax_vec_simd (m : mem A) (inp n : Z) : res (A * A) :=
  '(_, cmax, cmin) <-
     do_while (fun s : Z * vec * vec => let '(inp, cmax, cmin) := s in
                 v <- vload_aligned B m inp ;;
                 Ok (inp + step, map2 (d_vmax d) cmax v, map2 (d_vmin d) cmin v))
       (n / step) (inp, set_vec B (d_lmin d), set_vec B (d_lmax d)) ;;
  rmin <- horizontal_min B (d_smin d) (d_vmin d) cmin ;;
  rmax <- horizontal_max B (d_smax d) (d_vmax d) cmax ;;
  Ok (rmin, rmax).

(** horizontal_maxsum_vec_simd, simd_horizontal_functions.hpp lines 194-214;
    (rmax, rsum). *)
Definition horizontal_maxsum_vec_simd (m : mem A) (inp n : Z) : res (A * A) :=
  '(_, cmax, csum) <-
     do_while (fun s : Z * vec * vec => let '(inp, cmax, csum) := s in
                 v <- vload_aligned B m inp ;;
                 Ok (inp + step, map2 (d_vmax d) cmax v, map2 (d_add d) csum v))
       (n / step) (inp, set_vec B (d_lmin d), set_vec B (d_zero d)) ;;
  rsum <- horizontal_sum c B (d_zero d) (d_add d) csum ;;
  rmax <- horizontal_max B (d_smax d) (d_vmax d) cmax ;;
  Ok (rmax, rsum).
End Reduce.
