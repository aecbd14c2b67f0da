(** IEEE-754 binary32 / binary64 values and the arithmetic C++ does on them.

    Values and operations are those of the Flocq library.  Round to nearest,
    ties to even, no flush-to-zero, no excess precision: what x86-64 does by
    default.  Which NaN an operation returns is left open: every operation
    takes it from a [nans] record and theorems quantify over that record. *)

From Coq Require Import ZArith Reals Bool List Lia.
From Flocq Require Import Core IEEE754.Binary IEEE754.Bits.
Local Open Scope Z_scope.

(** `float` and `double`, the two element types (README lines 1-40). *)
Inductive fmt : Set := F32 | F64.

(** Width of the stored significand: 23 for float, 52 for double;
    C++ and IEEE-754 semantics, no source lines. *)
Definition mw (t : fmt) : Z := match t with F32 => 23 | F64 => 52 end.
(** Width of the exponent: 8 for float, 11 for double;
    C++ and IEEE-754 semantics, no source lines. *)
Definition ew (t : fmt) : Z := match t with F32 => 8 | F64 => 11 end.

(** Precision and exponent bound in Flocq's convention. *)
Notation prec t := (mw t + 1).
Notation emax t := (2 ^ (ew t - 1)).

(** A float or double value, infinities and all NaNs included; in bijection
    with the 32 / 64 bit patterns by [bits] and [of_bits]. *)
Notation F t := (binary_float (prec t) (emax t)).

(** Side conditions of Flocq's operations (no source lines). *)
Lemma mw_pos t : 0 < mw t. Proof. destruct t; reflexivity. Qed.
Lemma ew_pos t : 0 < ew t. Proof. destruct t; reflexivity. Qed.
Lemma prec_lt_emax t : prec t < emax t. Proof. destruct t; reflexivity. Qed.
#[global] Instance Hprec t : Prec_gt_0 (prec t). Proof. destruct t; reflexivity. Qed.
#[global] Instance Hmax t : BinarySingleNaN.Prec_lt_emax (prec t) (emax t).
Proof. destruct t; reflexivity. Qed.

(** The bit pattern of a value, as an unsigned number: what a union, a
    reinterpret cast or a bitwise vector instruction sees;
    C++ and IEEE-754 semantics, no source lines. *)
Definition bits {t} (x : F t) : Z := bits_of_binary_float (mw t) (ew t) x.
(** The value of a bit pattern; C++ and IEEE-754 semantics, no source lines. *)
Definition of_bits t (z : Z) : F t :=
  binary_float_of_bits (mw t) (ew t) (mw_pos t) (ew_pos t) (prec_lt_emax t) z.
(** Number of bits: 32 or 64. *)
Notation width t := (mw t + ew t + 1).

(** A NaN result. *)
Notation Nan t := {x : F t | is_nan (prec t) (emax t) x = true}.

(** Which NaN each operation returns (IEEE-754 leaves it open, and compilers
    may swap operands); quantified over in every theorem;
    C++ and IEEE-754 semantics, no source lines. *)
Record nans (t : fmt) := {
  nan_add : F t -> F t -> Nan t;
  nan_sub : F t -> F t -> Nan t;
  nan_mul : F t -> F t -> Nan t;
  nan_div : F t -> F t -> Nan t;
  nan_sqrt : F t -> Nan t;
  nan_fma : F t -> F t -> F t -> Nan t;
  nan_int : F t -> Nan t;
  nan_max : F t -> F t -> Nan t;
  nan_narrow : F t -> Nan F32;
  nan_widen : F F32 -> Nan t
}.
Arguments nan_add {t}. Arguments nan_sub {t}. Arguments nan_mul {t}. Arguments nan_div {t}.
Arguments nan_sqrt {t}. Arguments nan_fma {t}. Arguments nan_int {t}. Arguments nan_max {t}.
Arguments nan_narrow {t}. Arguments nan_widen {t}.

Section Ops.
Context {t : fmt}.
Context (n : nans t).
Local Notation NE := BinarySingleNaN.mode_NE.

(** `x + y` on float / double; one lane of _mm_add_ps and kin;
    used in vec_base.hpp 205-227 and simd_memory.hpp 358. *)
Definition fadd (x y : F t) : F t := Bplus (prec t) (emax t) (Hprec t) (Hmax t) (nan_add n) NE x y.
(** `x - y`; one lane of _mm_sub_ps and kin;
    C++ and IEEE-754 semantics, no source lines. *)
Definition fsub (x y : F t) : F t := Bminus (prec t) (emax t) (Hprec t) (Hmax t) (nan_sub n) NE x y.
(** `x * y`; one lane of _mm_mul_ps and kin; used in vec_base.hpp 215-243. *)
Definition fmul (x y : F t) : F t := Bmult (prec t) (emax t) (Hprec t) (Hmax t) (nan_mul n) NE x y.
(** `x / y`; one lane of _mm_div_ps and kin;
    C++ and IEEE-754 semantics, no source lines. *)
Definition fdiv (x y : F t) : F t := Bdiv (prec t) (emax t) (Hprec t) (Hmax t) (nan_div n) NE x y.
(** std::sqrt; one lane of _mm_sqrt_ps and kin; used in vec_sse.hpp 459. *)
Definition fsqrt (x : F t) : F t := Bsqrt (prec t) (emax t) (Hprec t) (Hmax t) (nan_sqrt n) NE x.
(** One lane of _mm_fmadd_ps and kin: x*y+z rounded once;
    vec_sse.hpp 377, vec_sse2.hpp 249, vec_avx_float.hpp 274,
    vec_avx_double.hpp 233. *)
Definition ffma (x y z : F t) : F t := Bfma (prec t) (emax t) (Hprec t) (Hmax t) (nan_fma n) NE x y z.
(** std::floor, and one lane of _mm_round_ps to minus infinity;
    detail/math.hpp 175; vec_sse.hpp 501. *)
Definition ffloor (x : F t) : F t := Bnearbyint (prec t) (emax t) (Hmax t) (nan_int n) BinarySingleNaN.mode_DN x.
(** std::ceil, and one lane of _mm_round_ps to plus infinity;
    detail/math.hpp 176; vec_sse.hpp 510. *)
Definition fceil (x : F t) : F t := Bnearbyint (prec t) (emax t) (Hmax t) (nan_int n) BinarySingleNaN.mode_UP x.
(** ::round and ::roundf: to nearest, halves away from zero;
    detail/math.hpp 255. *)
Definition fround_away (x : F t) : F t := Bnearbyint (prec t) (emax t) (Hmax t) (nan_int n) BinarySingleNaN.mode_NA x.
(** _mm_round_ps with _MM_FROUND_TO_NEAREST_INT: halves to even;
    vec_sse.hpp 486. *)
Definition fround_even (x : F t) : F t := Bnearbyint (prec t) (emax t) (Hmax t) (nan_int n) BinarySingleNaN.mode_NE x.
(** _mm_round_ps with _MM_FROUND_TO_ZERO; vec_sse.hpp 519. *)
Definition fround_zero (x : F t) : F t := Bnearbyint (prec t) (emax t) (Hmax t) (nan_int n) BinarySingleNaN.mode_ZR x.
End Ops.

Section Plain.
Context {t : fmt}.

(** std::fabs: the sign is cleared, a NaN keeps its payload;
    C++ and IEEE-754 semantics, no source lines. *)
Definition fabs (x : F t) : F t :=
  match x with
  | B754_zero _ _ _ => B754_zero _ _ false
  | B754_infinity _ _ _ => B754_infinity _ _ false
  | B754_nan _ _ _ pl H => B754_nan _ _ false pl H
  | B754_finite _ _ _ m e H => B754_finite _ _ false m e H
  end.

(** Unary minus: the sign is flipped, a NaN keeps its payload;
    C++ and IEEE-754 semantics, no source lines. *)
Definition fneg (x : F t) : F t :=
  match x with
  | B754_zero _ _ s => B754_zero _ _ (negb s)
  | B754_infinity _ _ s => B754_infinity _ _ (negb s)
  | B754_nan _ _ s pl H => B754_nan _ _ (negb s) pl H
  | B754_finite _ _ s m e H => B754_finite _ _ (negb s) m e H
  end.

(** The C++ comparison operators on float / double; all but != are false when
    an operand is NaN; C++ and IEEE-754 semantics, no source lines. *)
Definition flt (x y : F t) : bool :=
  match Bcompare (prec t) (emax t) x y with Some Lt => true | _ => false end.
(** See [flt]; C++ and IEEE-754 semantics, no source lines. *)
Definition fle (x y : F t) : bool :=
  match Bcompare (prec t) (emax t) x y with Some Lt | Some Eq => true | _ => false end.
(** See [flt]; C++ and IEEE-754 semantics, no source lines. *)
Definition fgt (x y : F t) : bool :=
  match Bcompare (prec t) (emax t) x y with Some Gt => true | _ => false end.
(** See [flt]; C++ and IEEE-754 semantics, no source lines. *)
Definition fge (x y : F t) : bool :=
  match Bcompare (prec t) (emax t) x y with Some Gt | Some Eq => true | _ => false end.
(** See [flt]; C++ and IEEE-754 semantics, no source lines. *)
Definition feq (x y : F t) : bool :=
  match Bcompare (prec t) (emax t) x y with Some Eq => true | _ => false end.
(** See [flt]; C++ and IEEE-754 semantics, no source lines. *)
Definition fne (x y : F t) : bool := negb (feq x y).

(** Is the value a NaN; C++ and IEEE-754 semantics, no source lines. *)
Definition isnan (x : F t) : bool := is_nan (prec t) (emax t) x.
(** Is the value finite; C++ and IEEE-754 semantics, no source lines. *)
Definition isfin (x : F t) : bool := is_finite (prec t) (emax t) x.
(** The sign bit; C++ and IEEE-754 semantics, no source lines. *)
Definition sgn (x : F t) : bool := Bsign (prec t) (emax t) x.
(** The real number a finite value stands for;
    C++ and IEEE-754 semantics, no source lines. *)
Definition val (x : F t) : R := B2R (prec t) (emax t) x.
End Plain.

(** Conversion of an integer to F, rounded to nearest (`vec<F>::size * slope`
    converts size; also the decimal literals that are integers);
    C++ and IEEE-754 semantics, no source lines. *)
Definition f_ofZ t (k : Z) : F t :=
  binary_normalize (prec t) (emax t) (Hprec t) (Hmax t) BinarySingleNaN.mode_NE k 0 false.

(** m * 2^e rounded to nearest: how decimal literals of the source are
    written in the model once their correctly rounded value is known;
    C++ and IEEE-754 semantics, no source lines. *)
Definition f_lit t (m e : Z) : F t :=
  binary_normalize (prec t) (emax t) (Hprec t) (Hmax t) BinarySingleNaN.mode_NE m e false.

(** std::numeric_limits<F>::min(), the smallest positive normal value;
    detail/math.hpp 322, vec_math.hpp 586. *)
Definition f_min t : F t := of_bits t (2 ^ mw t).
(** std::numeric_limits<F>::max(), the largest finite value;
    vec_math.hpp 154, simd_horizontal_functions.hpp 143, 159. *)
Definition f_max t : F t := of_bits t ((2 ^ ew t - 1) * 2 ^ mw t - 1).

(** Conversion between the two formats, rounded to nearest (C++ implicit
    conversion, cvtsd2ss / cvtss2sd);
    C++ and IEEE-754 semantics, no source lines. *)
Definition f_conv {t} t' (nan : F t -> Nan t') (x : F t) : F t' :=
  match x with
  | B754_zero _ _ s => B754_zero _ _ s
  | B754_infinity _ _ s => B754_infinity _ _ s
  | B754_nan _ _ _ _ _ => proj1_sig (nan x)
  | B754_finite _ _ s m e _ =>
      binary_normalize (prec t') (emax t') (Hprec t') (Hmax t') BinarySingleNaN.mode_NE (cond_Zopp s (Z.pos m)) e s
  end.

(** F -> float -> F: `float vSlope = data.set_slope(...); slope_.set_vec(vSlope)`,
    /repo/detail/wrap_argument_vector.hpp lines 94-95. *)
Definition f_narrow {t} (n : nans t) (x : F t) : F t :=
  match t return nans t -> F t -> F t with
  | F32 => fun _ x => x
  | F64 => fun n x => f_conv F64 (nan_widen n) (f_conv F32 (nan_narrow n) x)
  end n x.
