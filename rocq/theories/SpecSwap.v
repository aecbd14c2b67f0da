(** Specification vocabulary: calls with exchanged arguments and calls with
    samples of inverted polarity. *)
From Coq Require Import ZArith List.
From Flocq Require Import Core.
From Verif Require Import Base Mem Backend Args Float LaneOps Spec.
Local Open Scope Z_scope.

(** The same bits, or both NaN. *)
Definition same_or_nan {t} (x y : F t) : Prop := bits x = bits y \/ (isnan x = true /\ isnan y = true).
(** Equal as numbers. *)
Definition equal_numbers {t} (x y : F t) : Prop := feq x y = true.
(** The results 1 and 0 of a comparison, as samples: one call says yes where the
    other says no. *)
Definition contrary {t} (x y : F t) : Prop :=
  (bits x = bits (f_ofZ t 1) /\ bits y = bits (f_ofZ t 0)) \/ (bits x = bits (f_ofZ t 0) /\ bits y = bits (f_ofZ t 1)).

(** What a call of a scalar function over [len] samples needs. *)
Definition call_fits {A} (m : mem A) (out len : Z) (args : list (arg A)) : Prop :=
  0 < len < 2 ^ 32 /\ accessible m out len /\ Forall (arg_fit m out len) args.
(** What a call of a SIMD function over [len] samples needs; no ramps. *)
Definition simd_call_fits {A} (B : backend) (m : mem A) (out len : Z) (args : list (arg A)) : Prop :=
  legal_simd_length B len /\ aligned B out /\ accessible m out len /\ Forall (fun a => simd_fit B m out len a /\ plain a) args.

(** At every sample, [b] is [a] with the sign bit flipped. *)
Definition inverts {t} (ar : arith (F t)) (m : mem (F t)) (a b : arg (F t)) (len : Z) : Prop :=
  forall i x, 0 <= i < len -> sample ar m a i = Some x -> sample ar m b i = Some (fneg x).
(** Every sample of the argument satisfies [P]. *)
Definition samples {A} (ar : arith A) (P : A -> Prop) (m : mem A) (a : arg A) (len : Z) : Prop :=
  forall i x, 0 <= i < len -> sample ar m a i = Some x -> P x.

(** The relation that holds between [y] and [x] when [r] holds between [x] and [y]. *)
Definition mirrored (r : rel) : rel :=
  match r with LT => GT | LE => GE | GT => LT | GE => LE | EQ => EQ | NE => NE end.
(** The relation that holds between numbers when [r] does not. *)
Definition negated (r : rel) : rel :=
  match r with LT => GE | LE => GT | GT => LE | GE => LT | EQ => NE | NE => EQ end.
(** The back-ends with AVX registers. *)
Definition is_avx (B : backend) : bool := match B with AVX32 | AVX64 => true | _ => false end.
(** The back-ends with a division instruction. *)
Definition divides (B : backend) : bool := match B with NEON32 | ALTIVEC32 => false | _ => true end.
(** At every sample, [a] is at most [b]. *)
Definition below {t} (ar : arith (F t)) (m : mem (F t)) (a b : arg (F t)) (len : Z) : Prop :=
  forall i x y, 0 <= i < len -> sample ar m a i = Some x -> sample ar m b i = Some y -> fle x y = true.
