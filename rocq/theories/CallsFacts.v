(** Special functions against calls of the general ones. *)
From Coq Require Import ZArith Reals List Lia Lra Bool.
From Flocq Require Import Core IEEE754.Binary IEEE754.Bits.
From Verif Require Import Base Mem Loop Backend Args MemFuns Pan Drivers Functors Lanes Float LaneOps Reduce FloatOps ScalarMath VecMath FloatFuns Spec SpecLane SpecReduce SpecAgree SpecAlike SpecNeutral SpecSwap SpecChain SpecParts
  FloatFacts LaneFacts FloatRound VecFacts VecMore ReduceFacts ReduceRun ReduceFloat ReduceMore AgreeFacts AlikeFacts ExData ExFloat ExMath SwapFacts ChainFacts PartsFacts.
Import ListNotations.
Local Open Scope Z_scope.

Section M.
Context {A : Type} (ar : arith A).
Implicit Types m : mem A.
Lemma same_of_leaves m r1 r2 out len v1 v2 : leaves m r1 out len v1 -> leaves m r2 out len v2 ->
  (forall i, 0 <= i < len -> v1 i = v2 i) -> Spec.same_effect r1 r2.
Proof.
  intros (m1 & E1 & W1 & O1) (m2 & E2 & W2 & O2) H. exists m1, m2. split; [exact E1|]. split; [exact E2|]. intros a.
  destruct (Z_lt_le_dec a out) as [G|G]; [rewrite O1, O2 by lia; reflexivity|].
  destruct (Z_lt_le_dec a (out + len)) as [G'|G']; [|rewrite O1, O2 by lia; reflexivity].
  replace a with (out + (a - out)) by lia. rewrite (proj1 (W1 (a - out) ltac:(lia))), (proj1 (W2 (a - out) ltac:(lia))). apply H. lia.
Qed.
Lemma same_of_both m r (call0 call1 : mem A -> res (mem A)) out0 out1 len v0 v1 w0 :
  leaves_both m r out0 out1 len v0 v1 -> disjoint out0 out1 len -> leaves m (call0 m) out0 len w0 ->
  (forall m1, left_by m m1 out0 len w0 -> exists w1, leaves m1 (call1 m1) out1 len w1 /\ forall i, 0 <= i < len -> w0 i = v0 i /\ w1 i = v1 i) ->
  Spec.same_effect r (in_turn [call0; call1] m).
Proof.
  intros (mr & Er & R & RO) D (m1 & E0 & W & O) H. destruct (H m1 (conj O W)) as (w1 & (m2 & E1 & W1 & O1) & K). clear H. exists mr, m2. split; [exact Er|].
  split; [cbn [in_turn]; rewrite E0; cbn [bind]; rewrite E1; reflexivity|]. intros a. unfold disjoint in D.
  destruct (Z_lt_le_dec a out1) as [G|G]; [|destruct (Z_lt_le_dec a (out1 + len)) as [G'|G']].
  2: { replace a with (out1 + (a - out1)) by lia. assert (Hi : 0 <= a - out1 < len) by lia.
       rewrite (proj1 (W1 _ Hi)), (proj2 (K _ Hi)). destruct (R _ Hi) as (_ & _ & Q & _). exact Q. }
  all: rewrite O1 by lia; destruct (Z_lt_le_dec a out0) as [g|g]; [rewrite O, RO by lia; reflexivity|];
    destruct (Z_lt_le_dec a (out0 + len)) as [g'|g']; [|rewrite O, RO by lia; reflexivity];
    replace a with (out0 + (a - out0)) by lia; assert (Hi : 0 <= a - out0 < len) by lia;
    rewrite (proj1 (W _ Hi)), (proj1 (K _ Hi)); exact (proj1 (R _ Hi)).
Qed.
Lemma filled_left (f : A -> A) m m2 p tmp len l : filled m p len l ->
  left_by m m2 tmp len (fun i => lift1 f (m (p + i))) -> filled m2 tmp len (map f l).
Proof.
  intros (H & L & B) (_ & W). split; [|rewrite map_length; auto]. revert H. unfold holds. intros H k x Hk.
  rewrite nth_error_map in Hk. destruct (nth_error l k) as [y|] eqn:E; [|discriminate]. cbn in Hk. injection Hk as <-.
  assert (Hl : (k < length l)%nat) by (apply nth_error_Some; congruence).
  rewrite (proj1 (W (Z.of_nat k) ltac:(lia))), (H k y E). reflexivity.
Qed.
End M.

Section T.
Context {t : fmt}.
Implicit Types x y r : F t.
Lemma is_max_zero r l : is_max r (f_ofZ t 0 :: map fabs l) -> l <> [] -> is_max r (map fabs l).
Proof.
  intros H N. destruct l as [|x l]; [congruence|]. eapply is_max_drop; [exact H|]. exists (fabs x). split; [left; reflexivity|].
  pose proof (proj1 H (fabs x) (or_intror (or_introl eq_refl))) as K. apply fle_iff in K. destruct K as (K & _).
  apply fle_iff. split; [destruct t; reflexivity|]. split; [exact K|].
  assert (Z0 : ord (f_ofZ t 0) = 0) by (destruct t; vm_compute; reflexivity). rewrite Z0.
  assert (Nx : isnan x = false) by (destruct x; try reflexivity; discriminate K). pose proof (abs_rep x Nx) as [_ R]. lia.
Qed.
Lemma is_max_unique r y l : is_max r l -> is_max y l -> feq r y = true.
Proof.
  intros [U1 (x & Hx & Ex)] [U2 (z & Hz & Ez)].
  specialize (U1 z Hz). specialize (U2 x Hx). apply feq_iff in Ex, Ez. apply fle_iff in U1, U2. apply feq_iff.
  destruct Ex as (? & ? & ?), Ez as (? & ? & ?), U1 as (? & ? & ?), U2 as (? & ? & ?). repeat split; auto. lia.
Qed.
Lemma is_max_less r y a l : is_max r l -> is_max y (a :: l) -> Forall (fun x => flt x a = true) l -> flt r y = true.
Proof.
  intros [_ (x & Hx & Ex)] [U _] H. rewrite Forall_forall in H. specialize (H x Hx). specialize (U a (or_introl eq_refl)).
  apply feq_iff in Ex. apply fle_iff in U. apply flt_iff in H. apply flt_iff. destruct Ex as (? & ? & ?), U as (? & ? & ?), H as (? & ? & ?). repeat split; auto. lia.
Qed.
Lemma no_nan_fabs (l : list (F t)) : no_nan l -> no_nan (map fabs l).
Proof. unfold no_nan. induction 1 as [|x l H _ IH]; cbn [map]; constructor; [|exact IH]. destruct x; exact H. Qed.
End T.

Lemma quads_vectors B len : whole_quads B len -> whole_vectors B len.
Proof. intros [q E]. exists (4 * q). rewrite E. ring. Qed.
(** Example data. *)
Ltac calls_ex :=
  repeat match goal with |- _ /\ _ => split end;
  lazymatch goal with
  | |- call_fits _ _ _ _ => parts_tac
  | |- simd_call_fits _ _ _ _ _ => parts_tac
  | |- exists x, _ => match goal with v := _ |- _ => exists (v 9); split; [right; left; reflexivity|vm_compute; reflexivity] end
  | |- _ <> _ => discriminate
  | |- Forall _ _ => repeat (constructor; [vm_compute; reflexivity|]); constructor
  | |- _ => fitf
  end.
