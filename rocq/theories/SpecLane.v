(** Specification vocabulary for the functions on single numbers. *)

From Coq Require Import ZArith Reals List Lia.
From Flocq Require Import Core IEEE754.Binary IEEE754.Bits.
From Verif Require Import Base Mem Backend Args Float LaneOps.
Local Open Scope Z_scope.

(** Every element of the buffer p[0..n-1] satisfies [P]. *)
Definition each {A} (P : A -> Prop) (m : mem A) (p n : Z) : Prop :=
  forall i x, 0 <= i < n -> m (p + i) = Some x -> P x.
(** Every value of a pointer or scalar argument satisfies [P]. *)
Definition each_arg {A} (P : A -> Prop) (m : mem A) (a : arg A) (n : Z) : Prop :=
  match a with
  | APtr p => each P m p n
  | AScal x => P x
  | ARamp _ _ => False
  end.

(** [x] is a number (finite or infinite). *)
Definition number {t} (x : F t) : Prop := isnan x = false.
(** Not the zero with a set sign bit. *)
Definition not_neg_zero {t} (x : F t) : Prop := bits x <> 2 ^ (mw t + ew t).

(** Both calls succeed; the elements out[0..n-1] they leave compare equal one
    by one, all other memory is the same. *)
Definition same_numbers {t} (r1 r2 : res (mem (F t))) (out n : Z) : Prop :=
  exists m1 m2, r1 = Ok m1 /\ r2 = Ok m2 /\
    (forall i, 0 <= i < n -> exists x y, m1 (out + i) = Some x /\ m2 (out + i) = Some y /\ feq x y = true) /\
    (forall a, a < out \/ out + n <= a -> m1 a = m2 a).

(** The relation on the real numbers. *)
Definition real_rel (r : rel) (x y : R) : Prop :=
  match r with
  | LT => (x < y)%R | LE => (x <= y)%R | GT => (x > y)%R | GE => (x >= y)%R
  | EQ => x = y | NE => x <> y
  end.

(** What a comparison of two bit patterns says when one is a NaN: only != holds. *)
Definition nan_rel (r : rel) : bool := match r with NE => true | _ => false end.

(** A zero or a subnormal number: magnitude below the smallest normal one. *)
Definition tiny {t} (x : F t) : Prop :=
  isfin x = true /\ (Rabs (val x) < bpow radix2 (match t with F32 => -126 | F64 => -1022 end))%R.

(** Confinement of [v] to [low, high], giving [r]. *)
Definition confined {t} (v low high r : F t) : Prop :=
  fle low r = true /\ fle r high = true /\
  (fle low v = true -> fle v high = true -> feq r v = true) /\
  (flt v low = true -> feq r low = true) /\
  (flt high v = true -> feq r high = true).

(** Value of a number, infinities as the first power of two out of range. *)
Definition xval {t} (x : F t) : R :=
  if isfin x then val x
  else let big := bpow radix2 (match t with F32 => 128 | F64 => 1024 end) in
       if sgn x then (- big)%R else big.
