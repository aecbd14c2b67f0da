(** Specification vocabulary for processing in blocks and for calls on separate
    buffers. *)
From Coq Require Import ZArith List Lia.
From Verif Require Import Base Mem Backend Args Spec.
Import ListNotations.
Local Open Scope Z_scope.

(** What the caller passes for the rest of a signal once [k] samples are done:
    a pointer [k] elements further, the same scalar, a ramp that starts where
    [k] additions of the slope have led. *)
Definition advanced {A} (ar : arith A) (a : arg A) (k : Z) : arg A :=
  match a with
  | APtr p => APtr (p + k)
  | AScal x => AScal x
  | ARamp base slope => ARamp (Nat.iter (Z.to_nat k) (fun y => a_add ar y slope) base) slope
  end.

(** One call for each block of the given lengths, in order, from offset [off]
    on; [call off n] processes [n] samples at [off]. *)
Fixpoint in_blocks {A} (call : Z -> Z -> mem A -> res (mem A)) (off : Z) (lens : list Z) (m : mem A) : res (mem A) :=
  match lens with
  | [] => Ok m
  | n :: rest => m' <- call off n m ;; in_blocks call (off + n) rest m'
  end.

(** The length of all blocks together. *)
Definition total (lens : list Z) : Z := fold_right Z.add 0 lens.

(** A non-empty sequence of non-empty blocks of at most 2^32-1 samples in all. *)
Definition blocks (lens : list Z) : Prop :=
  lens <> [] /\ Forall (fun n => 0 < n) lens /\ total lens < 2 ^ 32.

(** The same with lengths that are multiples of [u]. *)
Definition blocks_of (u : Z) (lens : list Z) : Prop :=
  blocks lens /\ Forall (fun n => (u | n)) lens.

(** A pointer or a scalar. *)
Definition steady {A} (a : arg A) : Prop := match a with ARamp _ _ => False | _ => True end.

(** A vector access at [p] touches no address below [p]: only Altivec rounds a
    misaligned address down. *)
Definition in_place (B : backend) (p : Z) : Prop := B = ALTIVEC32 -> aligned B p.
(** The same for an argument. *)
Definition arg_in_place {A} (B : backend) (a : arg A) : Prop :=
  match a with APtr p => in_place B p | _ => True end.

(** The operation maps vectors of the register's size to such vectors. *)
Definition sized1 {A} (B : backend) (f : list A -> list A) : Prop :=
  forall u, length u = vsize B -> length (f u) = vsize B.
(** Two operands. *)
Definition sized2 {A} (B : backend) (f : list A -> list A -> list A) : Prop :=
  forall u v, length u = vsize B -> length v = vsize B -> length (f u v) = vsize B.
(** Three operands. *)
Definition sized3 {A} (B : backend) (f : list A -> list A -> list A -> list A) : Prop :=
  forall u v w, length u = vsize B -> length v = vsize B -> length w = vsize B -> length (f u v w) = vsize B.
(** Four operands. *)
Definition sized4 {A} (B : backend) (f : list A -> list A -> list A -> list A -> list A) : Prop :=
  forall u v w x, length u = vsize B -> length v = vsize B -> length w = vsize B -> length x = vsize B ->
    length (f u v w x) = vsize B.

(** The element addresses p[0], ..., p[n-1]. *)
Definition range (p n : Z) (a : Z) : Prop := p <= a < p + n.
(** The element addresses an argument denotes. *)
Definition arg_range {A} (x : arg A) (n : Z) (a : Z) : Prop :=
  match x with APtr p => range p n a | _ => False end.

(** Two outcomes of a call that agree: the same fault, or memories equal at the
    addresses [S]. *)
Definition agree_on {A} (S : Z -> Prop) (r1 r2 : res (mem A)) : Prop :=
  match r1, r2 with
  | Ok m1, Ok m2 => forall a, S a -> m1 a = m2 a
  | Fault e1, Fault e2 => e1 = e2
  | _, _ => False
  end.

(** A call reads no address outside [R] and [W] and writes none outside [W]:
    what it does depends on the contents at [R] and [W] only, and everything
    outside [W] stays as it was. *)
Definition confined {A} (call : mem A -> res (mem A)) (R W : Z -> Prop) : Prop :=
  (forall m m', call m = Ok m' -> forall a, ~ W a -> m' a = m a) /\
  (forall m1 m2, (forall a, R a \/ W a -> m1 a = m2 a) -> agree_on W (call m1) (call m2)).

(** No address belongs to both. *)
Definition apart (S T : Z -> Prop) : Prop := forall a, S a -> T a -> False.

(** Both orders end in the same memory, or neither returns normally. *)
Definition commute {A} (c1 c2 : mem A -> res (mem A)) (m : mem A) : Prop :=
  match bind (c1 m) c2, bind (c2 m) c1 with
  | Ok m1, Ok m2 => forall a, m1 a = m2 a
  | Fault _, Fault _ => True
  | _, _ => False
  end.

(** A call with the addresses it may read and those it may write. *)
Definition job (A : Type) : Type := ((mem A -> res (mem A)) * (Z -> Prop) * (Z -> Prop))%type.
(** Jobs performed in the order of the list. *)
Fixpoint perform {A} (jobs : list (job A)) (m : mem A) : res (mem A) :=
  match jobs with
  | [] => Ok m
  | (call, _, _) :: rest => m' <- call m ;; perform rest m'
  end.
(** Neither job writes where the other reads or writes. *)
Definition independent {A} (j1 j2 : job A) : Prop :=
  let '(_, R1, W1) := j1 in let '(_, R2, W2) := j2 in
  apart W1 (fun a => R2 a \/ W2 a) /\ apart W2 (fun a => R1 a \/ W1 a).
(** The same memory, or a fault in both. *)
Definition same_effect {A} (r1 r2 : res (mem A)) : Prop :=
  match r1, r2 with
  | Ok m1, Ok m2 => forall a, m1 a = m2 a
  | Fault _, Fault _ => True
  | _, _ => False
  end.
