(** Specification vocabulary for the buffer functions.  Independent of the
    drivers, unrollers and vector classes of the model. *)

From Coq Require Import ZArith List Lia.
From Verif Require Import Base Mem Backend Args.
Import ListNotations.
Local Open Scope Z_scope.

(** The cells p[0], ..., p[n-1] are valid memory. *)
Definition accessible {A} (m : mem A) (p n : Z) : Prop :=
  forall i, 0 <= i < n -> exists x, m (p + i) = Some x.

(** What the documentation says an argument denotes at sample [i] (README
    lines 133-177): a pointer denotes the element p[i], a scalar its value, a
    ramp the value reached from the base by adding the slope [i] times. *)
Definition sample {A} (ar : arith A) (m : mem A) (a : arg A) (i : Z) : option A :=
  match a with
  | APtr p => m (p + i)
  | AScal x => Some x
  | ARamp base slope => Some (Nat.iter (Z.to_nat i) (fun y => a_add ar y slope) base)
  end.

(** A pointer argument points to [n] valid elements. *)
Definition arg_accessible {A} (m : mem A) (a : arg A) (n : Z) : Prop :=
  match a with
  | APtr p => accessible m p n
  | _ => True
  end.

(** The input buffer is the output buffer, starts above it, or ends before it. *)
Definition overlap_ok {A} (out : Z) (a : arg A) (n : Z) : Prop :=
  match a with
  | APtr p => out <= p \/ p + n <= out
  | _ => True
  end.

(** Alignment a buffer needs, in elements: none for the generic and the NEON
    version, the width of the vector register otherwise. *)
Definition align_req (B : backend) : Z :=
  match B with
  | GEN32 | GEN64 | NEON32 => 1
  | SSE32 => 4
  | SSE64 => 2
  | AVX32 => 8
  | AVX64 => 4
  | ALTIVEC32 => 4
  end.

(** Element address [p] is aligned for back-end [B]. *)
Definition aligned (B : backend) (p : Z) : Prop := (align_req B | p).

(** A pointer argument is aligned. *)
Definition arg_aligned {A} (B : backend) (a : arg A) : Prop :=
  match a with
  | APtr p => aligned B p
  | _ => True
  end.

(** The documented unit of SIMD lengths (README line 118). *)
Definition loop_unit (B : backend) : Z :=
  match B with
  | GEN32 | SSE32 | AVX32 | NEON32 | ALTIVEC32 => 16
  | GEN64 | SSE64 | AVX64 => 8
  end.

(** [n] is a legal length for a SIMD call. *)
Definition legal_simd_length (B : backend) (n : Z) : Prop :=
  0 < n < 2 ^ 32 /\ (loop_unit B | n).

(** Memory [m'] is [m] with out[i] set to [v i] (which is defined) for all
    i < n, and nothing else changed. *)
Definition writes_exactly {A} (m m' : mem A) (out n : Z) (v : Z -> option A) : Prop :=
  (forall i, 0 <= i < n -> m' (out + i) = v i /\ v i <> None) /\
  (forall a, a < out \/ out + n <= a -> m' a = m a).

(** Function application on possibly undefined samples. *)
Definition lift1 {A} (f : A -> A) (x : option A) : option A :=
  match x with Some x => Some (f x) | _ => None end.
(** See [lift1]. *)
Definition lift2 {A} (f : A -> A -> A) (x y : option A) : option A :=
  match x, y with Some x, Some y => Some (f x y) | _, _ => None end.
(** See [lift1]. *)
Definition lift3 {A} (f : A -> A -> A -> A) (x y z : option A) : option A :=
  match x, y, z with Some x, Some y, Some z => Some (f x y z) | _, _, _ => None end.
(** See [lift1]. *)
Definition lift4 {A} (f : A -> A -> A -> A -> A) (x y z w : option A) : option A :=
  match x, y, z, w with
  | Some x, Some y, Some z, Some w => Some (f x y z w) | _, _, _, _ => None end.

(** A vector functor computes the scalar functor in every lane. *)
Definition lanewise1 {A} (B : backend) (vf : list A -> list A) (f : A -> A) : Prop :=
  forall u, length u = vsize B -> vf u = map f u.
(** See [lanewise1]. *)
Definition lanewise2 {A} (B : backend) (vf : list A -> list A -> list A) (f : A -> A -> A) : Prop :=
  forall u v, length u = vsize B -> length v = vsize B -> vf u v = map2 f u v.
(** See [lanewise1]. *)
Definition lanewise3 {A} (B : backend) (vf : list A -> list A -> list A -> list A)
    (f : A -> A -> A -> A) : Prop :=
  forall u v w, length u = vsize B -> length v = vsize B -> length w = vsize B ->
    vf u v w = map3 f u v w.
(** See [lanewise1]. *)
Definition lanewise4 {A} (B : backend) (vf : list A -> list A -> list A -> list A -> list A)
    (f : A -> A -> A -> A -> A) : Prop :=
  forall u v w x, length u = vsize B -> length v = vsize B -> length w = vsize B ->
    length x = vsize B -> vf u v w x = map4 f u v w x.

(** Exact arithmetic: the operations form a commutative semiring, integers
    embed into it, and the narrowing conversion loses nothing.  Met by the
    integers, the rationals and the reals. *)
Record exact_arith {A} (ar : arith A) : Prop := {
  ex_add_comm : forall x y, a_add ar x y = a_add ar y x;
  ex_add_assoc : forall x y z, a_add ar x (a_add ar y z) = a_add ar (a_add ar x y) z;
  ex_add_zero : forall x, a_add ar x (a_zero ar) = x;
  ex_mul_comm : forall x y, a_mul ar x y = a_mul ar y x;
  ex_mul_assoc : forall x y z, a_mul ar x (a_mul ar y z) = a_mul ar (a_mul ar x y) z;
  ex_mul_one : forall x, a_mul ar x (a_ofZ ar 1) = x;
  ex_mul_zero : forall x, a_mul ar x (a_zero ar) = a_zero ar;
  ex_distr : forall x y z, a_mul ar x (a_add ar y z) = a_add ar (a_mul ar x y) (a_mul ar x z);
  ex_ofZ_zero : a_ofZ ar 0 = a_zero ar;
  ex_ofZ_succ : forall n, 0 <= n -> a_ofZ ar (n + 1) = a_add ar (a_ofZ ar n) (a_ofZ ar 1);
  ex_narrow : forall x, a_narrow ar x = x
}.

(** [i] times [x], and the [i]-th power of [x], in an arithmetic. *)
Definition times {A} (ar : arith A) (i : Z) (x : A) : A :=
  Nat.iter (Z.to_nat i) (fun y => a_add ar y x) (a_zero ar).
(** See [times]. *)
Definition power {A} (ar : arith A) (x : A) (i : Z) : A :=
  Nat.iter (Z.to_nat i) (fun y => a_mul ar y x) (a_ofZ ar 1).

(** A call leaves memory with out[i] = v i for i < n and nothing else changed. *)
Definition leaves {A} (m : mem A) (r : res (mem A)) (out n : Z) (v : Z -> option A) : Prop :=
  exists m', r = Ok m' /\ writes_exactly m m' out n v.

(** A call ends in an invalid memory access. *)
Definition memory_fault {A} (r : res A) : Prop :=
  exists a, r = Fault (OutOfBounds a) \/ r = Fault (Misaligned a).

(** Both calls return normally and leave the same memory. *)
Definition same_effect {A} (r1 r2 : res (mem A)) : Prop :=
  exists m1 m2, r1 = Ok m1 /\ r2 = Ok m2 /\ forall a, m1 a = m2 a.

(** What a scalar call over [n] samples needs of an argument. *)
Definition arg_fit {A} (m : mem A) (out n : Z) (a : arg A) : Prop :=
  arg_accessible m a n /\ overlap_ok out a n.

(** What a SIMD call over [n] samples needs of an argument. *)
Definition simd_fit {A} (B : backend) (m : mem A) (out n : Z) (a : arg A) : Prop :=
  arg_accessible m a n /\ overlap_ok out a n /\ arg_aligned B a.

(** The argument is a pointer or a scalar. *)
Definition plain {A} (a : arg A) : Prop :=
  match a with ARamp _ _ => False | _ => True end.

(** What an argument contributes at sample [i], ramps in closed form:
    base + slope * i. *)
Definition line {A} (ar : arith A) (m : mem A) (a : arg A) (i : Z) : option A :=
  match a with
  | APtr p => m (p + i)
  | AScal x => Some x
  | ARamp base slope => Some (a_add ar base (a_mul ar slope (a_ofZ ar i)))
  end.

(** A vector functor returns as many lanes as a vector has. *)
Definition vfun1 {A} (B : backend) (vf : list A -> list A) : Prop :=
  forall u, length u = vsize B -> length (vf u) = vsize B.
(** See [vfun1]. *)
Definition vfun2 {A} (B : backend) (vf : list A -> list A -> list A) : Prop :=
  forall u v, length u = vsize B -> length v = vsize B -> length (vf u v) = vsize B.
(** See [vfun1]. *)
Definition vfun3 {A} (B : backend) (vf : list A -> list A -> list A -> list A) : Prop :=
  forall u v w, length u = vsize B -> length v = vsize B -> length w = vsize B ->
    length (vf u v w) = vsize B.
(** See [vfun1]. *)
Definition vfun4 {A} (B : backend) (vf : list A -> list A -> list A -> list A -> list A) : Prop :=
  forall u v w x, length u = vsize B -> length v = vsize B -> length w = vsize B ->
    length x = vsize B -> length (vf u v w x) = vsize B.

(** The back-ends whose aligned loads and stores trap: SSE and AVX. *)
Definition traps (B : backend) : Prop :=
  match B with SSE32 | SSE64 | AVX32 | AVX64 => True | _ => False end.

(** A vector access with the aligned ([al]) or unaligned instruction may be
    made at [p]: aligned accesses need alignment, and Altivec has no others. *)
Definition access_ok (B : backend) (al : bool) (p : Z) : Prop :=
  al = true \/ B = ALTIVEC32 -> aligned B p.

(** Memory [m'] is [m] with out0[i] = v0 i and out1[i] = v1 i (defined) for
    i < n, and nothing else changed. *)
Definition writes_both {A} (m m' : mem A) (out0 out1 n : Z) (v0 v1 : Z -> option A) : Prop :=
  (forall i, 0 <= i < n -> m' (out0 + i) = v0 i /\ v0 i <> None /\
                           m' (out1 + i) = v1 i /\ v1 i <> None) /\
  (forall a, (a < out0 \/ out0 + n <= a) -> (a < out1 \/ out1 + n <= a) -> m' a = m a).

(** A call leaves such a memory. *)
Definition leaves_both {A} (m : mem A) (r : res (mem A)) (out0 out1 n : Z) (v0 v1 : Z -> option A) : Prop :=
  exists m', r = Ok m' /\ writes_both m m' out0 out1 n v0 v1.

(** The two buffers have no element in common. *)
Definition disjoint (p q n : Z) : Prop := p + n <= q \/ q + n <= p.
