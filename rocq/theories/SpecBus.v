(** Specification vocabulary: mixing any number of buffers into one. *)
From Coq Require Import ZArith List.
From Verif Require Import Base Mem Backend Args Float Spec SpecChain SpecSwap.
Local Open Scope Z_scope.

(** What mixing the buffers [ps] into out[0..len-1] needs: all are there, and out
    has no element in common with any of them. *)
Definition bus_fits {A} (m : mem A) (out len : Z) (ps : list Z) : Prop :=
  0 < len < 2 ^ 32 /\ accessible m out len /\ Forall (fun p => accessible m p len /\ clear_of (A := A) out len (APtr p)) ps.
(** The same for the SIMD functions: a legal length, and alignment. *)
Definition simd_bus_fits {A} (B : backend) (m : mem A) (out len : Z) (ps : list Z) : Prop :=
  legal_simd_length B len /\ aligned B out /\ bus_fits m out len ps /\ Forall (aligned B) ps.

(** The i-th samples of the buffers [ps] are [l]. *)
Definition column {A} (m : mem A) (ps : list Z) (i : Z) (l : list A) : Prop :=
  Forall2 (fun p x => m (p + i) = Some x) ps l.

(** The calls return, change nothing but out[0..len-1], and leave in out[i] a
    sample [r] with [P l r], [l] being the i-th samples of the buffers [ps]. *)
Definition mixes {A} (P : list A -> A -> Prop) (m : mem A) (result : res (mem A)) (out len : Z) (ps : list Z) : Prop :=
  exists m', result = Ok m' /\ (forall a, a < out \/ out + len <= a -> m' a = m a) /\
    forall i, 0 <= i < len -> exists l r, column m ps i l /\ m' (out + i) = Some r /\ P l r.

(** Equal as numbers, or both NaNs. *)
Definition same_number {t} (x y : F t) : Prop := equal_numbers x y \/ (isnan x = true /\ isnan y = true).
