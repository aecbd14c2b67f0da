(** Functions that the code leaves to the C library: the std wrappers of
    /repo/detail/math.hpp, the per-element loops of /repo/vec/vec_base.hpp, the
    choice between those and the vectorised functions, and the unit conversions
    of /repo/simd_unit_conversion.hpp for scalars and for every vec.  The C
    library is a parameter. *)

From Coq Require Import ZArith Bool List Lia.
From Flocq Require Import Core IEEE754.Binary IEEE754.Bits.
From Verif Require Import Base Mem Backend Args Drivers Functors Lanes Float LaneOps FloatOps ScalarMath VecMath IntVec TransMath.
Import ListNotations.
Local Open Scope Z_scope.

(** std::sin ... std::pow for one format, as wrapped in math.hpp 174-199 and
    266-291: any functions. *)
Record libm t := Libm {
  m_sin : F t -> F t; m_cos : F t -> F t; m_tan : F t -> F t;
  m_asin : F t -> F t; m_acos : F t -> F t; m_atan : F t -> F t;
  m_tanh : F t -> F t; m_log : F t -> F t; m_log2 : F t -> F t; m_log10 : F t -> F t; m_exp : F t -> F t;
  m_pow : F t -> F t -> F t
}.
Arguments m_sin {t}. Arguments m_cos {t}. Arguments m_tan {t}. Arguments m_asin {t}. Arguments m_acos {t}. Arguments m_atan {t}.
Arguments m_tanh {t}. Arguments m_log {t}. Arguments m_log2 {t}. Arguments m_log10 {t}. Arguments m_exp {t}. Arguments m_pow {t}.

(** What the scalar functions depend on: the C library for the sample type and
    for float, and whether __cplusplus >= 201103L (math.hpp 268). *)
Record world t := World { w_lib : libm t; w_nan : nans t; w_lib32 : libm F32; w_nan32 : nans F32; w_cxx11 : bool }.
Arguments w_lib {t}. Arguments w_nan {t}. Arguments w_lib32 {t}. Arguments w_nan32 {t}. Arguments w_cxx11 {t}.

(** A float operand of an operator whose other operand is F;
    C++ and IEEE-754 semantics, no source lines, used in detail/math.hpp 265-274. *)
Definition widen {t} (n : nans t) (x : F F32) : F t :=
  match t return nans t -> F t with
  | F32 => fun _ => x
  | F64 => fun n => f_conv F64 (nan_widen n) x
  end n.

(** A double literal converted to F: FloatType(0.05) and kin;
    simd_unit_conversion.hpp 43-115. *)
Definition lit_as t (p q : Z) : F t :=
  match t with F32 => litd p q | F64 => f_dec F64 p q end.

Section Scalar.
Context {t : fmt} (w : world t).
(** `const float rlog2 = 1.f/std::log(2.f)`, math.hpp 271. *)
Definition rlog2 : F F32 := fdiv (w_nan32 w) (f_ofZ F32 1) (m_log (w_lib32 w) (f_ofZ F32 2)).
(** detail::log2, math.hpp 265-274.  The specialisations of 276-291 need
    __STDC_VERSION__, which C++ compilers do not define. *)
Definition s_log2 (arg : F t) : F t :=
  if w_cxx11 w then m_log2 (w_lib w) arg
  else fmul (w_nan w) (m_log (w_lib w) arg) (widen (w_nan w) rlog2).
(** detail::signed_pow, math.hpp 310-317. *)
Definition s_signed_pow (in0 in1 : F t) : F t :=
  if fgt in0 (f_ofZ t 0) then m_pow (w_lib w) in0 in1 else fneg (m_pow (w_lib w) (fneg in0) in1).
End Scalar.

(** * Per-element loops of vec_base *)
(** The loop of vec_base::apply_unary, vec_base.hpp 187-188, from index [i]. *)
Fixpoint apply_unary_loop {A} (f : A -> A) (k i : nat) (u : list A) : res (list A) :=
  match k with
  | O => Ok u
  | S k => x <- lane u i ;; u <- set_lane u i (f x) ;; apply_unary_loop f k (S i) u
  end.
(** vec_base::apply_unary, vec_base.hpp 181-190. *)
Definition apply_unary {A} (B : backend) (f : A -> A) (arg : list A) : res (list A) :=
  apply_unary_loop f (vsize B) 0 arg.
(** The loop of vec_base::apply_binary, vec_base.hpp 199-200. *)
Fixpoint apply_binary_loop {A} (f : A -> A -> A) (k i : nat) (a1 a2 ret : list A) : res (list A) :=
  match k with
  | O => Ok ret
  | S k => x <- lane a1 i ;; y <- lane a2 i ;; ret <- set_lane ret i (f x y) ;; apply_binary_loop f k (S i) a1 a2 ret
  end.
(** vec_base::apply_binary, vec_base.hpp 192-202; [ret] is what the
    uninitialised union happens to hold. *)
Definition apply_binary {A} (B : backend) (f : A -> A -> A) (ret arg1 arg2 : list A) : res (list A) :=
  apply_binary_loop f (vsize B) 0 arg1 arg2 ret.

(** The loop of vec_base::collect, vec_base.hpp 359-360. *)
Fixpoint collect_loop {A} (f : A -> A) (k i : nat) (this ret : list A) : res (list A) :=
  match k with
  | O => Ok ret
  | S k => x <- lane this i ;; ret <- set_lane ret i (f x) ;; collect_loop f k (S i) this ret
  end.
(** vec_base::collect, vec_base.hpp 355-362; [ret] as in [apply_binary]. *)
Definition collect {A} (B : backend) (f : A -> A) (ret this : list A) : res (list A) :=
  collect_loop f (vsize B) 0 this ret.

(** * Which function a vec calls *)
(** The unary functions of simd_math.hpp 55-67. *)
Inductive ufun := Sin | Cos | Tan | Asin | Acos | Atan | Tanh | Log | Log2 | Log10 | Exp.
(** The binary functions of simd_math.hpp 90-91. *)
Inductive bfun := Pow | SignedPow.

(** The scalar function, math.hpp 174-199, 265-274, 310-317. *)
Definition s_ufun {t} (w : world t) (f : ufun) : F t -> F t :=
  match f with
  | Sin => m_sin (w_lib w) | Cos => m_cos (w_lib w) | Tan => m_tan (w_lib w)
  | Asin => m_asin (w_lib w) | Acos => m_acos (w_lib w) | Atan => m_atan (w_lib w)
  | Tanh => m_tanh (w_lib w) | Log => m_log (w_lib w) | Log2 => s_log2 w | Log10 => m_log10 (w_lib w) | Exp => m_exp (w_lib w)
  end.
(** See [s_ufun]; detail/math.hpp 174-199, 310-317. *)
Definition s_bfun {t} (w : world t) (f : bfun) : F t -> F t -> F t :=
  match f with Pow => m_pow (w_lib w) | SignedPow => s_signed_pow w end.

(** One lane of the vectorised functions, vec_sse.hpp 539-602 and
    vec_avx_float.hpp 407-475. *)
Definition x_ufun (c : cfg) (I : isa) (n : nans F32) (k : nans F64) (f : ufun) : F F32 -> F F32 :=
  match f with
  | Sin => vec_sin_float c I n | Cos => vec_cos_float c I n | Tan => vec_tan_float c I n
  | Asin => vec_asin_float c I n | Acos => vec_acos_float c I n | Atan => vec_atan_float c I n
  | Tanh => vec_tanh_float c I n | Log => vec_log_float c I n | Log2 => vec_log2 c I n k | Log10 => vec_log10 c I n k
  | Exp => vec_exp_float c I n
  end.
(** See [x_ufun]; vec_sse.hpp 539-602 and vec_avx_float.hpp 407-475. *)
Definition x_bfun (c : cfg) (I : isa) (n : nans F32) (f : bfun) : F F32 -> F F32 -> F F32 :=
  match f with Pow => vec_pow c I n | SignedPow => vec_signed_pow c I n end.

(** One lane of sin(vec) ... exp(vec): vectorised for float on AVX and on SSE
    with SSE2; else vec_base.hpp 295-308 on each element (vec_sse.hpp 608-621,
    vec_sse2.hpp 402-415, vec_avx_double.hpp 366-379, vec_neon.hpp 444-457,
    vec_altivec.hpp 568-581, vec_generic.hpp 170-183). *)
Definition v_ufun (c : cfg) (B : backend) (w : world (fmt_of B)) (k : nans F64) (f : ufun) : F (fmt_of B) -> F (fmt_of B) :=
  match B return world (fmt_of B) -> F (fmt_of B) -> F (fmt_of B) with
  | AVX32 => fun w => x_ufun c AVX (w_nan w) k f
  | SSE32 => fun w => if has_sse2 c then x_ufun c SSE (w_nan w) k f else s_ufun w f
  | _ => fun w => s_ufun w f
  end w.
(** The same for pow and signed_pow, vec_base.hpp 317-318 (vec_sse.hpp 605-606,
    vec_sse2.hpp 399-400, vec_avx_double.hpp 363-364, vec_neon.hpp 441-442,
    vec_altivec.hpp 565-566, vec_generic.hpp 165-166). *)
Definition v_bfun (c : cfg) (B : backend) (w : world (fmt_of B)) (f : bfun) : F (fmt_of B) -> F (fmt_of B) -> F (fmt_of B) :=
  match B return world (fmt_of B) -> F (fmt_of B) -> F (fmt_of B) -> F (fmt_of B) with
  | AVX32 => fun w => x_bfun c AVX (w_nan w) f
  | SSE32 => fun w => if has_sse2 c then x_bfun c SSE (w_nan w) f else s_bfun w f
  | _ => fun w => s_bfun w f
  end w.

(** * Unit conversions, simd_unit_conversion.hpp 34-115 *)
(** The eight functors; simd_unit_conversion.hpp 43-115. *)
Inductive unit_fun := Midi2freq | Freq2midi | Midi2ratio | Ratio2midi | Oct2freq | Freq2oct | Amp2db | Db2amp.
Section Units.
(** The operations a FloatType, F or vec<F>, brings along. *)
Context {t : fmt} (add sub mul : F t -> F t -> F t) (abs log2 log10 : F t -> F t) (pow : F t -> F t -> F t).
Local Notation lit := (lit_as t).
(** detail::abs_log2, simd_unit_conversion.hpp 34-41. *)
Definition u_abs_log2 (arg : F t) : F t := log2 (abs arg).
(** The functors midi2freq, freq2midi, midi2ratio, ratio2midi, oct2freq,
    freq2oct, amp2db and db2amp, simd_unit_conversion.hpp 43-115. *)
Definition u_fun (u : unit_fun) (x : F t) : F t :=
  match u with
  | Midi2freq => mul (lit 440 0) (pow (lit 2 0) (mul (sub x (lit 69 0)) (lit 83333333333 12)))
  | Freq2midi => add (mul (u_abs_log2 (mul x (lit 22727272727 13))) (lit 12 0)) (lit 69 0)
  | Midi2ratio => pow (lit 2 0) (mul x (lit 83333333333 12))
  | Ratio2midi => mul (lit 12 0) (log2 x)
  | Oct2freq => mul (lit 440 0) (pow (lit 2 0) (sub x (lit 475 2)))
  | Freq2oct => add (u_abs_log2 (mul x (lit 22727272727 13))) (lit 475 2)
  | Amp2db => mul (log10 (abs x)) (lit 20 0)
  | Db2amp => pow (lit 10 0) (mul x (lit 5 2))
  end.
End Units.
(** A conversion of one F; simd_unit_conversion.hpp 43-115. *)
Definition s_unit {t} (w : world t) : unit_fun -> F t -> F t :=
  u_fun (fadd (w_nan w)) (fsub (w_nan w)) (fmul (w_nan w)) fabs (s_ufun w Log2) (s_ufun w Log10) (s_bfun w Pow).
(** A conversion of one lane of vec<F>; simd_unit_conversion.hpp 43-115. *)
Definition v_unit (c : cfg) (B : backend) (w : world (fmt_of B)) (k : nans F64) : unit_fun -> F (fmt_of B) -> F (fmt_of B) :=
  u_fun (fadd (w_nan w)) (fsub (w_nan w)) (vmul (isa_of B) (w_nan w)) (vabs c (isa_of B))
    (v_ufun c B w k Log2) (v_ufun c B w k Log10) (v_bfun c B w Pow).

(** * Buffers *)
Section Buffers.
Context (c : cfg) (B : backend) (w : world (fmt_of B)) (k : nans F64).
Local Notation Fb := (F (fmt_of B)).
(** sin_vec ... exp_vec, simd_math.hpp 55-67. *)
Definition math_vec (f : ufun) := unary_vec (A := Fb) (s_ufun w f).
(** sin_vec_simd ... exp_vec_simd, same lines; simd_math.hpp 55-67. *)
Definition math_vec_simd (f : ufun) := unary_vec_simd (farith (w_nan w)) B (map (v_ufun c B w k f)).
(** pow_vec and spow_vec, simd_math.hpp 90-91. *)
Definition math2_vec (f : bfun) := binary_vec (farith (w_nan w)) (s_bfun w f).
(** pow_vec_simd and spow_vec_simd, same lines; simd_math.hpp 90-91. *)
Definition math2_vec_simd (f : bfun) := binary_vec_simd (farith (w_nan w)) B (map2 (v_bfun c B w f)).
(** midi2freq_vec ... db2amp_vec, simd_unit_conversion.hpp 120-130. *)
Definition unit_vec (u : unit_fun) := unary_vec (A := Fb) (s_unit w u).
(** midi2freq_vec_simd ... db2amp_vec_simd, same lines;
    simd_unit_conversion.hpp 120-130. *)
Definition unit_vec_simd (u : unit_fun) := unary_vec_simd (farith (w_nan w)) B (map (v_unit c B w k u)).
End Buffers.
