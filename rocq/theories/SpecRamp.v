(** Specification vocabulary for ramps in IEEE arithmetic. *)
From Coq Require Import ZArith Reals List Lia.
From Flocq Require Import Core.
From Verif Require Import Base Mem Backend Args Float LaneOps SpecReduce.
Local Open Scope Z_scope.

(** [x] is the number k * 2^e. *)
Definition on_grid {t} (e : Z) (x : F t) (k : Z) : Prop :=
  isfin x = true /\ val x = (IZR k * bpow radix2 e)%R.

(** [x] is not the negative zero. *)
Definition not_minus_zero {t} (x : F t) : Prop := val x = 0%R -> sgn x = false.

(** Significand length, and the grids 2^e on which format [t] has every
    multiple k * 2^e with |k| <= 2^sig_bits. *)
Definition sig_bits (t : fmt) : Z := match t with F32 => 24 | F64 => 53 end.
(** See [sig_bits]. *)
Definition usable_grid (t : fmt) (e : Z) : Prop :=
  match t with F32 => -149 <= e < 104 | F64 => -1074 <= e < 971 end.

(** The real number [r] is a float. *)
Definition is_a_float (r : R) : Prop := exists y : F F32, isfin y = true /\ val y = r.

(** A ramp over [len] samples all of whose values base + i*slope, and the slope
    of a whole vector, are multiples of one power of two by integers that fit
    the significand; the slope of a whole vector also is a float. *)
Definition exact_ramp {t} (B : backend) (len : Z) (base slope : F t) : Prop :=
  exists e b s,
    usable_grid t e /\ on_grid e base b /\ on_grid e slope s /\ not_minus_zero base /\
    (forall i, 0 <= i < len -> Z.abs (b + i * s) <= 2 ^ sig_bits t) /\
    Z.abs (lanes B * s) <= 2 ^ sig_bits t /\
    is_a_float (IZR (lanes B * s) * bpow radix2 e).

(** An argument that is a pointer, a scalar or such a ramp. *)
Definition exact_arg {t} (B : backend) (len : Z) (a : arg (F t)) : Prop :=
  match a with ARamp base slope => exact_ramp B len base slope | _ => True end.

(** [o] is what argument [a] denotes at sample [i]: p[i], the scalar, or the
    float that is exactly base + i*slope (a zero being +0). *)
Definition denotes {t} (m : mem (F t)) (a : arg (F t)) (i : Z) (o : option (F t)) : Prop :=
  match a with
  | APtr p => o = m (p + i)
  | AScal x => o = Some x
  | ARamp base slope => exists y, o = Some y /\ isfin y = true /\ not_minus_zero y /\
                          val y = (val base + IZR i * val slope)%R
  end.
