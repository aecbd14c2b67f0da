(** Specification vocabulary: trunc over buffers. *)

From Coq Require Import ZArith Reals List Lia.
From Flocq Require Import Core IEEE754.Binary IEEE754.Bits.
From Verif Require Import Base Mem Backend Args Lanes Float LaneOps Spec SpecLane SpecRound.
Local Open Scope Z_scope.

(** A finite number whose integral part fits a 64-bit long. *)
Definition in_long {t} (x : F t) : Prop := isfin x = true /\ (- IZR (2 ^ 63) - 1 < val x < IZR (2 ^ 63))%R.

(** [y] is [x] without its fractional digits. *)
Definition truncated {t} (x y : F t) : Prop := exists k, is_int y k /\ trunc_of (val x) k.

(** The instruction set of [B] has an instruction that rounds toward zero. *)
Definition has_trunc (c : cfg) (B : backend) : Prop := isa_of B = AVX \/ (isa_of B = SSE /\ has_sse41 c = true).

(** The call returns, every out[i] is related by [P] to inp[i], and nothing
    outside out[0..len-1] changes. *)
Definition yields {A} (P : A -> A -> Prop) (m : mem A) (r : res (mem A)) (out inp len : Z) : Prop :=
  exists m', r = Ok m' /\
    (forall i x, 0 <= i < len -> m (inp + i) = Some x -> exists y, m' (out + i) = Some y /\ P x y) /\
    (forall a, a < out \/ out + len <= a -> m' a = m a).

(** What the SIMD call needs of its buffers. *)
Definition buffers_fit {A} (B : backend) (m : mem A) (out inp len : Z) : Prop :=
  legal_simd_length B len /\ aligned B out /\ accessible m out len /\ simd_fit B m out len (APtr inp).
