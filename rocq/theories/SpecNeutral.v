(** Specification vocabulary: parameters that should leave the samples alone. *)

From Coq Require Import ZArith Reals List Lia.
From Flocq Require Import Core IEEE754.Binary IEEE754.Bits.
From Verif Require Import Base Mem Backend Args Float LaneOps Spec.
Local Open Scope Z_scope.

(** 1 and 0 as samples, and the two infinities. *)
Definition one t : F t := f_ofZ t 1.
(** See [one]. *)
Definition zero t : F t := f_ofZ t 0.
(** See [one]. *)
Definition infinite t (negative : bool) : F t := B754_infinity (prec t) (emax t) negative.

(** [x] is +0 or -0. *)
Definition a_zero_of {t} (x : F t) : Prop := isfin x = true /\ val x = 0%R.

(** [y] is [x], bit for bit; if [x] is a NaN, [y] is one too. *)
Definition kept {t} (x y : F t) : Prop :=
  (isnan x = false -> bits y = bits x) /\ (isnan x = true -> isnan y = true).
(** [y] is [x], bit for bit, unless [x] is a NaN. *)
Definition number_kept {t} (x y : F t) : Prop := isnan x = false -> bits y = bits x.
(** As [kept], but -0 becomes +0. *)
Definition kept_unsigned_zero {t} (x y : F t) : Prop :=
  (isnan x = false -> ~ a_zero_of x -> bits y = bits x) /\ (a_zero_of x -> bits y = 0) /\ (isnan x = true -> isnan y = true).
(** As [kept], but a zero may change its sign. *)
Definition kept_some_zero {t} (x y : F t) : Prop :=
  (isnan x = false -> ~ a_zero_of x -> bits y = bits x) /\ (a_zero_of x -> a_zero_of y) /\ (isnan x = true -> isnan y = true).

(** A value that adding +0 does not change: a number other than -0. *)
Definition steady {t} (x : F t) : Prop := isnan x = false /\ (a_zero_of x -> bits x = 0).

(** [b] is [a], or [a] is a ramp that stays where it is and [b] the constant. *)
Definition same_meaning {t} (a b : arg (F t)) : Prop :=
  match a with
  | ARamp x s => b = AScal x /\ steady x /\ a_zero_of s
  | _ => b = a
  end.
