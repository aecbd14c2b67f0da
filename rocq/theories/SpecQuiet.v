(** Specification vocabulary: silence, that is buffers that hold nothing but
    zeros. *)
From Coq Require Import ZArith Reals List.
From Flocq Require Import Core.
From Verif Require Import Base Mem Backend Args Functors Lanes Float LaneOps FloatOps FloatFuns Libm Spec SpecSwap SpecNeutral.
Local Open Scope Z_scope.

(** Every sample of the argument is +0 or -0. *)
Definition silent {t} (ar : arith (F t)) (m : mem (F t)) (a : arg (F t)) (len : Z) : Prop := samples ar a_zero_of m a len.

(** The call returns, every out[i] satisfies [P], and nothing outside
    out[0..len-1] changes. *)
Definition fills {A} (P : A -> Prop) (m : mem A) (r : res (mem A)) (out len : Z) : Prop :=
  exists m', r = Ok m' /\
    (forall i, 0 <= i < len -> exists y, m' (out + i) = Some y /\ P y) /\
    (forall a, a < out \/ out + len <= a -> m' a = m a).
(** The call leaves silence. *)
Definition leaves_silence {t} : mem (F t) -> res (mem (F t)) -> Z -> Z -> Prop := fills a_zero_of.
(** The call leaves nothing but NaNs. *)
Definition leaves_nans {t} : mem (F t) -> res (mem (F t)) -> Z -> Z -> Prop := fills (fun x => isnan x = true).
(** The call leaves nothing but the number 1. *)
Definition leaves_ones {t} : mem (F t) -> res (mem (F t)) -> Z -> Z -> Prop := fills (fun x => isfin x = true /\ val x = 1%R).

(** The functions of simd_math.hpp that are 0 at 0, and those that are 1 there. *)
Definition zero_at_zero (f : ufun) : bool :=
  match f with Sin | Tan | Asin | Atan | Tanh => true | _ => false end.
(** See [zero_at_zero]. *)
Definition one_at_zero (f : ufun) : bool := match f with Cos | Exp => true | _ => false end.

(** What can be done to a buffer in place. *)
Inductive effect (t : fmt) : Set :=
| Abs | Sgn | Square | Cube | Round | Floor | Ceil | Frac | Undenormalize | Softclip | SignedSqrt
| Gain (g : F t) | Math (f : ufun).
Arguments Abs {t}. Arguments Sgn {t}. Arguments Square {t}. Arguments Cube {t}. Arguments Round {t}. Arguments Floor {t}.
Arguments Ceil {t}. Arguments Frac {t}. Arguments Undenormalize {t}. Arguments Softclip {t}. Arguments SignedSqrt {t}.
Arguments Gain {t}. Arguments Math {t}.
(** The gain is finite, the function is 0 at 0. *)
Definition harmless {t} (e : effect t) : Prop :=
  match e with Gain g => isfin g = true | Math f => zero_at_zero f = true | _ => True end.

(** The same for the SIMD call: NEON estimates square roots, see C67, and NEON and
    Altivec have no undenormalize for vectors. *)
Definition harmless_simd (B : backend) (e : effect (fmt_of B)) : Prop :=
  harmless e /\
  match e with
  | SignedSqrt => isa_of B <> NEON | Undenormalize => isa_of B <> NEON /\ isa_of B <> ALTIVEC | _ => True
  end.

(** The scalar call for an effect on buf[0..len-1]. *)
Definition apply_effect (B : backend) (w : world (fmt_of B)) (buf len : Z) (e : effect (fmt_of B)) (m : mem (F (fmt_of B))) : res (mem (F (fmt_of B))) :=
  let n := w_nan w in
  match e with
  | Abs => abs_vec B m buf buf len | Sgn => sgn_vec B m buf buf len | Square => square_vec B n m buf buf len
  | Cube => cube_vec B n m buf buf len | Round => round_vec B n m buf buf len | Floor => floor_vec B n m buf buf len
  | Ceil => ceil_vec B n m buf buf len | Frac => frac_vec B n m buf buf len | Undenormalize => undenormalize_vec B m buf buf len
  | Softclip => softclip_vec B n m buf buf len | SignedSqrt => signed_sqrt_vec B n m buf buf len
  | Gain g => times_vec (farith n) (fops_scalar n) m buf (APtr buf) (AScal g) len
  | Math f => math_vec B w f m buf buf len
  end.
(** The SIMD call. *)
Definition apply_effect_simd (c : cfg) (B : backend) (w : world (fmt_of B)) (k : nans F64) (buf len : Z) (e : effect (fmt_of B)) (m : mem (F (fmt_of B))) : res (mem (F (fmt_of B))) :=
  let n := w_nan w in
  match e with
  | Abs => abs_vec_simd c B n m buf buf len | Sgn => sgn_vec_simd c B n m buf buf len | Square => square_vec_simd B n m buf buf len
  | Cube => cube_vec_simd B n m buf buf len | Round => round_vec_simd c B n m buf buf len | Floor => floor_vec_simd c B n m buf buf len
  | Ceil => ceil_vec_simd c B n m buf buf len | Frac => frac_vec_simd c B n m buf buf len | Undenormalize => undenormalize_vec_simd c B n m buf buf len
  | Softclip => softclip_vec_simd c B n m buf buf len | SignedSqrt => signed_sqrt_vec_simd c B n m buf buf len
  | Gain g => times_vec_simd (farith n) (fops c B n) B m buf (APtr buf) (AScal g) len
  | Math f => math_vec_simd c B w k f m buf buf len
  end.
