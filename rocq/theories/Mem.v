(** Memory: buffers of [float] or [double] elements. *)

From Coq Require Import ZArith List Lia.
From Verif Require Import Base.
Import ListNotations.
Local Open Scope Z_scope.

(** A memory maps element addresses (pointer value divided by sizeof(F)) to
    their contents; [None] marks an address that must not be accessed.
    Models the `F *` buffers every function in /repo takes (e.g. README lines
    112-160).  Simplified: one element type per memory; pointers are aligned
    to the element size; readable and writable cells coincide. *)
Definition mem (A : Type) : Type := Z -> option A.

(** Read one element: `*p` (e.g. /repo/detail/wrap_arguments.hpp line 46). *)
Definition load {A} (m : mem A) (a : Z) : res A :=
  match m a with
  | Some x => Ok x
  | None => Fault (OutOfBounds a)
  end.

(** The memory after writing one valid element;
    `*out++ = x` of detail/math.hpp 106 and every other store. *)
Definition upd {A} (m : mem A) (a : Z) (x : A) : mem A :=
  fun b => if b =? a then Some x else m b.

(** Write one element: `*p = x` (e.g. /repo/detail/math.hpp line 106). *)
Definition store {A} (m : mem A) (a : Z) (x : A) : res (mem A) :=
  match m a with
  | Some _ => Ok (upd m a x)
  | None => Fault (OutOfBounds a)
  end.

(** Read [k] consecutive elements: the element loop of
    /repo/vec/vec_base.hpp lines 79-85, and the memory footprint of
    _mm_loadu_ps and its kin.  A hardware vector load is atomic; here it is a
    sequence of element reads, which differs only in which address a fault
    reports. *)
Fixpoint load_n {A} (k : nat) (m : mem A) (a : Z) : res (list A) :=
  match k with
  | O => Ok []
  | S k' => x <- load m a ;; r <- load_n k' m (a + 1) ;; Ok (x :: r)
  end.

(** Write consecutive elements: /repo/vec/vec_base.hpp lines 101-107 and the
    footprint of _mm_storeu_ps and its kin (see [load_n] on atomicity; memory
    contents after a fault are not observable in the model). *)
Fixpoint store_list {A} (m : mem A) (a : Z) (l : list A) : res (mem A) :=
  match l with
  | [] => Ok m
  | x :: r => m' <- store m a x ;; store_list m' (a + 1) r
  end.
