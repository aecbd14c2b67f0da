(** Argument wrappers: /repo/detail/wrap_arguments.hpp and
    /repo/detail/wrap_argument_vector.hpp. *)

From Coq Require Import ZArith List Lia.
From Verif Require Import Base Mem Backend.
Import ListNotations.
Local Open Scope Z_scope.

(** What the caller passes, and the state of the scalar wrappers:
    scalar_pointer_argument (wrap_arguments.hpp 32-57),
    scalar_scalar_argument (59-80), scalar_ramp_argument (82-108).
    wrap_argument / scalar_argument / vector_argument / slope_argument
    (112-178) only build these. *)
Inductive arg (A : Type) : Type :=
| APtr (data : Z)
| AScal (data : A)
| ARamp (data slope : A).
Arguments APtr {A} data.
Arguments AScal {A} data.
Arguments ARamp {A} data slope.

Section Scalar.
Context {A : Type} (ar : arith A).

(** get(): wrap_arguments.hpp 44-47, 69-72, 94-97. *)
Definition arg_get (m : mem A) (a : arg A) : res A :=
  match a with
  | APtr p => load m p
  | AScal x => Ok x
  | ARamp d _ => Ok d
  end.

(** increment(): wrap_arguments.hpp 39-42, 66-67, 89-92. *)
Definition arg_incr (a : arg A) : arg A :=
  match a with
  | APtr p => APtr (p + 1)
  | AScal x => AScal x
  | ARamp d s => ARamp (a_add ar d s) s
  end.
End Scalar.

(** State of the vector wrappers: vector_pointer_argument
    (wrap_argument_vector.hpp 36-64), vector_scalar_argument (66-87),
    vector_ramp_argument (89-117). *)
Inductive varg (A : Type) : Type :=
| VPtr (data : Z)
| VScal (data : A)
| VRamp (data slope : list A).
Arguments VPtr {A} data.
Arguments VScal {A} data.
Arguments VRamp {A} data slope.

Section Vector.
Context {A : Type} (ar : arith A) (B : backend).

(** wrap_vector_arg: wrap_argument_vector.hpp 119-139; the ramp constructor is
    92-96, where the vector increment goes through a `float`. *)
Definition wrap_vector_arg (a : arg A) : varg A :=
  match a with
  | APtr p => VPtr p
  | AScal x => VScal x
  | ARamp base slope =>
      let (data, inc) := set_slope ar B base slope in
      VRamp data (set_vec B (a_narrow ar inc))
  end.

(** consume(): wrap_argument_vector.hpp 55-61, 81-84, 108-113: the current
    vector, and the wrapper's state afterwards. *)
Definition varg_consume (m : mem A) (a : varg A) : res (list A * varg A) :=
  match a with
  | VPtr p =>
      v <- vload_aligned B m p ;;
      Ok (v, VPtr (p + Z.of_nat (vsize B)))
  | VScal x => Ok (set_vec B x, VScal x)
  | VRamp d s => Ok (d, VRamp (vadd ar d s) s)
  end.
End Vector.
