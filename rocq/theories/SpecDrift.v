(** Specification vocabulary for accumulated rounding errors. *)
From Coq Require Import ZArith Reals List.
From Flocq Require Import Core.
From Verif Require Import Base Mem Backend Args Float SpecReduce.
Local Open Scope R_scope.

(** Half the distance between 1 and the next number: 2^-24 for float, 2^-53 for
    double. *)
Definition unit_roundoff (t : fmt) : R :=
  bpow radix2 (match t with F32 => -24 | F64 => -53 end).

(** The first power of two too large for the format: 2^128 and 2^1024. *)
Definition overflow_bound (t : fmt) : R :=
  bpow radix2 (match t with F32 => 128 | F64 => 1024 end).

(** Half the smallest positive number: 2^-150 and 2^-1075. *)
Definition half_tiny (t : fmt) : R :=
  bpow radix2 (match t with F32 => -150 | F64 => -1075 end).

(** Growth of a quantity through [k] roundings: (1 + u)^k. *)
Definition growth (t : fmt) (k : nat) : R := (1 + unit_roundoff t) ^ k.

(** No element is infinite or a NaN. *)
Definition all_finite {t} (l : list (F t)) : Prop := Forall (fun x => isfin x = true) l.

(** The exact sum of the elements, of their absolute values, of their squares. *)
Definition real_sum {t} (l : list (F t)) : R := fold_right (fun x s => val x + s) 0 l.
(** See [real_sum]. *)
Definition real_sum_abs {t} (l : list (F t)) : R := fold_right (fun x s => Rabs (val x) + s) 0 l.
(** See [real_sum]. *)
Definition real_sum_sqr {t} (l : list (F t)) : R := fold_right (fun x s => val x * val x + s) 0 l.

(** A SIMD double ramp keeps the slope of a vector as a float: its relative
    error, and the absolute error of very small ones. *)
Definition slope_rel (t : fmt) : R := match t with F32 => 0 | F64 => bpow radix2 (-24) end.
(** See [slope_rel]. *)
Definition slope_tiny (t : fmt) : R := match t with F32 => 0 | F64 => bpow radix2 (-150) end.

(** [o] is what argument [a] denotes at sample [i]: p[i], the scalar, or a float
    that is base + i*slope up to [i] roundings, a slope that is off by [rel]
    times its size, and an absolute error of [tiny] per sample. *)
Definition near_line {t} (rel tiny : R) (m : mem (F t)) (a : arg (F t)) (i : Z) (o : option (F t)) : Prop :=
  match a with
  | APtr p => o = m (p + i)%Z
  | AScal x => o = Some x
  | ARamp base slope =>
      exists y, o = Some y /\ isfin y = true /\
        Rabs (val y - (val base + IZR i * val slope)) <=
          ((1 + rel) * growth t (Z.to_nat i) - 1) * (Rabs (val base) + IZR i * Rabs (val slope)) +
          growth t (Z.to_nat i) * (IZR i * tiny)
  end.

(** A ramp over [len] samples that starts from a finite value with a finite
    slope and, with the errors of [near_line], stays clear of overflow. *)
Definition tame_arg {t} (rel tiny : R) (len : Z) (a : arg (F t)) : Prop :=
  match a with
  | ARamp base slope =>
      isfin base = true /\ isfin slope = true /\
      (1 + rel) * growth t (Z.to_nat len) * (Rabs (val base) + IZR len * Rabs (val slope)) +
        growth t (Z.to_nat len) * (IZR len * tiny) < overflow_bound t
  | _ => True
  end.

(** The slope of a whole vector of doubles, which is kept as a float, is within
    the range of float. *)
Definition slope_in_range {t} (B : backend) (a : arg (F t)) : Prop :=
  match a with
  | ARamp base slope => t = F64 -> IZR (lanes B) * Rabs (val slope) <= bpow radix2 127
  | _ => True
  end.

(** The smallest number with full precision: 2^-126 and 2^-1022. *)
Definition smallest_normal (t : fmt) : R :=
  bpow radix2 (match t with F32 => -126 | F64 => -1022 end).

(** The number [v], computed with [k] roundings, neither overflows nor loses
    precision for being too small. *)
Definition in_range (t : fmt) (k : nat) (v : R) : Prop :=
  growth t k * Rabs v < overflow_bound t /\ smallest_normal t <= (2 - growth t k) * Rabs v.

(** softclip on the real numbers. *)
Definition real_softclip (x : R) : R :=
  if Rlt_dec (Rabs x) (/ 2) then x else (Rabs x - / 4) / x.

(** 2^22 for float, 2^51 for double: the largest numbers that have neighbours
    a quarter away. *)
Definition quarter_limit (t : fmt) : R := bpow radix2 (match t with F32 => 22 | F64 => 51 end).

(** The sum of [l] stays clear of overflow. *)
Definition sum_fits {t} (l : list (F t)) : Prop :=
  growth t (length l - 1) * real_sum_abs l < overflow_bound t.
(** [r] is the sum of [l] up to one rounding less than there are elements, each
    relative to the sum of the absolute values. *)
Definition near_sum {t} (l : list (F t)) (r : F t) : Prop :=
  isfin r = true /\ Rabs (val r - real_sum l) <= (growth t (length l - 1) - 1) * real_sum_abs l.

(** [start] plus the squares of [l] stays clear of overflow. *)
Definition squares_fit {t} (start : F t) (l : list (F t)) : Prop :=
  growth t (length l + 1) * (Rabs (val start) + real_sum_sqr l) +
    growth t (length l) * (INR (length l) * half_tiny t) < overflow_bound t.
(** [r] is [start] plus the squares of [l] up to one rounding more than there
    are elements, and half the smallest positive number per square. *)
Definition near_squares {t} (start : F t) (l : list (F t)) (r : F t) : Prop :=
  isfin r = true /\
  Rabs (val r - (val start + real_sum_sqr l)) <=
    (growth t (length l + 1) - 1) * (Rabs (val start) + real_sum_sqr l) +
    growth t (length l) * (INR (length l) * half_tiny t).

(** [r] is [v] up to [k] roundings. *)
Definition near_product {t} (k : nat) (v : R) (r : F t) : Prop :=
  isfin r = true /\ Rabs (val r - v) <= (growth t k - 1) * Rabs v.
