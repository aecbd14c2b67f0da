(** Specification vocabulary for the reductions.  Independent of the loops,
    vectors and shuffles of the model. *)

From Coq Require Import ZArith Reals List Lia.
From Verif Require Import Base Mem Backend Float Reduce.
Import ListNotations.
Local Open Scope Z_scope.

(** The buffer at [p] starts with the elements of [l]. *)
Definition holds {A} (m : mem A) (p : Z) (l : list A) : Prop :=
  forall i x, nth_error l i = Some x -> m (p + Z.of_nat i) = Some x.

(** The [n] elements at [p] are those of [l], and [n] is a length a loop can
    be run for. *)
Definition filled {A} (m : mem A) (p n : Z) (l : list A) : Prop :=
  holds m p l /\ Z.of_nat (length l) = n /\ 0 < n < 2 ^ 32.

(** Number of elements of one vector. *)
Definition lanes (B : backend) : Z :=
  match B with
  | GEN32 | SSE32 | NEON32 | ALTIVEC32 => 4
  | GEN64 | AVX64 => 4
  | SSE64 => 2
  | AVX32 => 8
  end.

(** Whole vectors, and whole groups of four vectors. *)
Definition whole_vectors (B : backend) (n : Z) : Prop := (lanes B | n).
(** See [whole_vectors]. *)
Definition whole_quads (B : backend) (n : Z) : Prop := (4 * lanes B | n).

(** [r] is numerically the largest of the NaN-free list [l]; +0 and -0 count
    as equal. *)
Definition is_max {t} (r : F t) (l : list (F t)) : Prop :=
  (forall x, In x l -> fle x r = true) /\ (exists x, In x l /\ feq x r = true).
(** [r] is numerically the smallest. *)
Definition is_min {t} (r : F t) (l : list (F t)) : Prop :=
  (forall x, In x l -> fle r x = true) /\ (exists x, In x l /\ feq x r = true).

(** No element is a NaN. *)
Definition no_nan {t} (l : list (F t)) : Prop := Forall (fun x => isnan x = false) l.

(** The elements of [l] are the integers [ks]. *)
Definition integers {t} (l : list (F t)) (ks : list Z) : Prop :=
  Forall2 (fun x k => isfin x = true /\ val x = IZR k) l ks.

(** Sum of integers, and of their absolute values. *)
Definition zsum (ks : list Z) : Z := fold_right Z.add 0 ks.
(** See [zsum]. *)
Definition zsum_abs (ks : list Z) : Z := fold_right (fun k s => Z.abs k + s) 0 ks.

(** Memory [m'] is [m] but for the cell [a], which holds [x]. *)
Definition sets_cell {A} (m m' : mem A) (a : Z) (x : A) : Prop :=
  m' a = Some x /\ forall b, b <> a -> m' b = m b.

(** Exact arithmetic for the reductions: addition and maximum are associative
    and commutative, zero is neutral, absolute values are not below zero, and
    vector operations compute what the scalar ones do.  Met by the integers,
    the rationals and the reals. *)
Record exact_reductions {A} (d : redops A) : Prop := {
  er_add_comm : forall x y, d_add d x y = d_add d y x;
  er_add_assoc : forall x y z, d_add d x (d_add d y z) = d_add d (d_add d x y) z;
  er_add_zero : forall x, d_add d (d_zero d) x = x;
  er_max_comm : forall x y, d_smax d x y = d_smax d y x;
  er_max_assoc : forall x y z, d_smax d x (d_smax d y z) = d_smax d (d_smax d x y) z;
  er_max_same : forall x, d_smax d x x = x;
  er_abs_zero : forall x, d_smax d (d_zero d) (d_fabs d x) = d_fabs d x;
  er_vmax : forall x y, d_vmax d x y = d_smax d x y;
  er_vmin : forall x y, d_vmin d x y = d_smin d x y;
  er_vabs : forall x, d_vabs d x = d_fabs d x
}.

(** Sum and maximum of a list, starting from [x]. *)
Definition sum_from {A} (d : redops A) (x : A) (l : list A) : A := fold_left (d_add d) l x.
(** See [sum_from]. *)
Definition max_from {A} (d : redops A) (x : A) (l : list A) : A := fold_left (d_smax d) l x.
(** See [sum_from]. *)
Definition min_from {A} (d : redops A) (x : A) (l : list A) : A := fold_left (d_smin d) l x.

(** Consecutive calls over adjacent blocks of [ns] elements. *)
Fixpoint block_after_block {A X} (call : mem A -> Z -> Z -> res (mem A * X)) (m : mem A) (p : Z) (ns : list Z)
    : res (mem A) :=
  match ns with
  | [] => Ok m
  | n :: ns => '(m', _) <- call m p n ;; block_after_block call m' (p + n) ns
  end.

(** A peak-meter call over in[0, n) has stored the maximum of the old peak and
    all |in[i]| in the cell [pk], changed nothing else, and returned
    |in[n-1]|. *)
Definition peak_updated {t} (m : mem (F t)) (r : res (mem (F t) * F t)) (p pk n : Z) (old : F t) (l : list (F t)) : Prop :=
  exists m' new z, r = Ok (m', fabs z) /\ m (p + n - 1) = Some z /\ sets_cell m m' pk new /\
                   is_max new (old :: map fabs l).

(** What the upper lanes of an AVX register hold after load_first is undefined;
    this says they happen to be zero. *)
Definition upper_lanes_zero {A} (B : backend) (zero : A) (junk : nat -> A) : Prop :=
  B = AVX32 \/ B = AVX64 -> forall i, junk i = zero.

(** The multiple of four at or below an address. *)
Definition floor4 (p : Z) : Z := 4 * (p / 4).
