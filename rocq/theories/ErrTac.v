(** Reification of float expressions for the checker of ErrFacts.v. *)
From Coq Require Import ZArith Reals List Lia Lra.
From Flocq Require Import Core IEEE754.Binary IEEE754.Bits.
From Verif Require Import Float ErrFacts.
Import ListNotations.

Ltac idx x l := match l with x :: _ => constr:(O) | _ :: ?r => let i := idx x r in constr:(S i) end.
Ltac reif l t :=
  match t with
  | _ => let i := idx t l in constr:(Var i)
  | fadd _ ?a ?b => let a' := reif l a in let b' := reif l b in constr:(Add a' b')
  | fsub _ ?a ?b => let a' := reif l a in let b' := reif l b in constr:(Sub a' b')
  | fmul _ ?a ?b => let a' := reif l a in let b' := reif l b in constr:(Mul a' b')
  | fdiv _ ?a ?b => let a' := reif l a in let b' := reif l b in constr:(Div a' b')
  | fneg ?a => let a' := reif l a in constr:(Neg a')
  | _ => constr:(Cst t)
  end.
(** [err_bound n fe re be t H]: the bounds [H] of the float [t] over the
    variables [fe], which stand for the reals [re] with bounds [be]. *)
Ltac err_bound n fe re be t H :=
  let e := reif fe t in
  let b := eval vm_compute in (bnd be e) in
  match b with
  | Some ?b => assert (H : holds (fev n fe e) (rev re e) b);
      [apply (bnd_ok n fe re be); [cbn [combine]; repeat (apply Forall2_nil || (apply Forall2_cons; [cbn [fst snd]; assumption|]))|reflexivity|vm_compute; reflexivity]|
       cbn [fev rev nth] in H]
  | None => fail 1 "no bound"
  end.
