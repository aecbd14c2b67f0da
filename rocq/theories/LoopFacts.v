From Coq Require Import ZArith List Lia.
From Verif Require Import Base Loop.
Import ListNotations.
Local Open Scope Z_scope.

Lemma do_while_fuel_iter {S} (body : S -> res S) : forall k n s,
  1 <= n < two32 -> k = Z.to_nat n ->
  do_while_fuel k body n s = iter_res k body s.
Proof.
  induction k as [|k IH]; intros n s Hn Hk.
  - lia.
  - cbn [do_while_fuel iter_res].
    destruct (body s) as [s'|e]; cbn [bind]; [|reflexivity].
    assert (Hd : dec32 n = n - 1) by (unfold dec32; apply Z.mod_small; lia).
    rewrite Hd. destruct (Z.eqb_spec (n - 1) 0) as [E|E].
    + assert (k = O) by lia. subst k. reflexivity.
    + apply IH; lia.
Qed.

Lemma do_while_iter {S} (body : S -> res S) n s :
  1 <= n < two32 -> do_while body n s = iter_res (Z.to_nat n) body s.
Proof.
  intros Hn. unfold do_while.
  destruct (Z.eqb_spec n 0); [lia|].
  apply do_while_fuel_iter; auto.
Qed.

Lemma to_nat_pred N : 1 <= N -> Z.to_nat N = Datatypes.S (Z.to_nat (N - 1)).
Proof. lia. Qed.

Lemma do_while_fuel_zero {S} (body : S -> res S) (N : Z) (k : nat) s :
  1 < N -> N = two32 -> k = Z.to_nat N ->
  do_while_fuel k body 0 s = iter_res k body s.
Proof.
  intros H1 HN Hk. rewrite (to_nat_pred N) in Hk by lia.
  assert (Hd : dec32 0 = N - 1) by (rewrite HN; reflexivity).
  remember (Z.to_nat (N - 1)) as k' eqn:Hk'. subst k.
  cbn [do_while_fuel iter_res].
  destruct (body s) as [s'|e]; cbn [bind]; [|reflexivity].
  rewrite Hd. destruct (Z.eqb_spec (N - 1) 0) as [E0|E0]; [lia|].
  apply do_while_fuel_iter; [lia|exact Hk'].
Qed.

Lemma do_while_zero {S} (body : S -> res S) s :
  do_while body 0 s = iter_res (Z.to_nat two32) body s.
Proof.
  apply (do_while_fuel_zero body two32 (Z.to_nat two32) s); reflexivity.
Qed.

Lemma iter_res_add {S} (body : S -> res S) a b s :
  iter_res (a + b) body s = bind (iter_res a body s) (iter_res b body).
Proof.
  revert s. induction a as [|a IH]; intro s; cbn [iter_res Nat.add bind]; [reflexivity|].
  destruct (body s); cbn [bind]; auto.
Qed.

(** Simulation of a loop by a loop over an embedded state. *)
Definition rmap {A B} (g : A -> B) (x : res A) : res B :=
  match x with Ok a => Ok (g a) | Fault e => Fault e end.

Lemma iter_res_embed {S T} (b1 : S -> res S) (b2 : T -> res T) (e : S -> T) :
  (forall s, b2 (e s) = rmap e (b1 s)) ->
  forall k s, iter_res k b2 (e s) = rmap e (iter_res k b1 s).
Proof.
  intros H. induction k as [|k IH]; intro s; cbn [iter_res]; [reflexivity|].
  rewrite H. destruct (b1 s); cbn [rmap bind]; auto.
Qed.

(** Invariant rule: the body maps [P i] states to [P (i+1)] states. *)
Lemma iter_res_inv {S} (body : S -> res S) (P : nat -> S -> Prop) k :
  (forall i s, (i < k)%nat -> P i s -> exists s', body s = Ok s' /\ P (Datatypes.S i) s') ->
  forall s, P O s -> exists s', iter_res k body s = Ok s' /\ P k s'.
Proof.
  intros H.
  assert (G : forall j i s, (i + j = k)%nat -> P i s ->
              exists s', iter_res j body s = Ok s' /\ P k s').
  { induction j as [|j IH]; intros i s Hij Hs; cbn [iter_res].
    - exists s. replace k with i by lia. auto.
    - destruct (H i s) as (s' & E & Hs'); [lia|auto|].
      rewrite E; cbn [bind]. apply (IH (Datatypes.S i)); [lia|auto]. }
  intros s Hs. apply (G k O); auto.
Qed.

(** Partial-correctness rule: if the whole loop ends in [Ok], every prefix did. *)
Lemma iter_res_ok_prefix {S} (body : S -> res S) k s s' :
  iter_res k body s = Ok s' ->
  forall j, (j <= k)%nat -> exists sj, iter_res j body s = Ok sj.
Proof.
  intros H j Hj. replace k with (j + (k - j))%nat in H by lia.
  rewrite iter_res_add in H.
  destruct (iter_res j body s) as [sj|e]; [eauto|discriminate].
Qed.
