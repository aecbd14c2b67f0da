(** The counting loop used by every run-time-length function in /repo. *)

From Coq Require Import ZArith List Lia.
From Verif Require Import Base.
Local Open Scope Z_scope.

(** 2^32, the modulus of `unsigned int` arithmetic on the supported targets;
    `unsigned int n`, detail/math.hpp 103 and every run-time length. *)
Definition two32 : Z := 4294967296.

(** `--n` on an `unsigned int` (e.g. /repo/detail/math.hpp line 107). *)
Definition dec32 (n : Z) : Z := (n - 1) mod two32.

(** `do body while (--n);` with explicit fuel
    (/repo/detail/math.hpp lines 105-107, /repo/detail/unroll_helpers.hpp
    lines 230-233, /repo/simd_memory.hpp lines 45-48 and many others). *)
Fixpoint do_while_fuel {S : Type} (fuel : nat) (body : S -> res S) (n : Z) (s : S) : res S :=
  match fuel with
  | O => Fault OutOfFuel
  | Datatypes.S fuel' =>
      s' <- body s ;;
      let n' := dec32 n in
      if n' =? 0 then Ok s' else do_while_fuel fuel' body n' s'
  end.

(** `do body while (--n);` for an `unsigned int n` in [0, 2^32)
    (same source lines as [do_while_fuel]).  The fuel is the number of
    iterations until the counter reaches 0; LoopFacts.v proves that it never
    runs out; detail/math.hpp 105-107. *)
Definition do_while {S : Type} (body : S -> res S) (n : Z) (s : S) : res S :=
  do_while_fuel (Z.to_nat (if n =? 0 then two32 else n)) body n s.
