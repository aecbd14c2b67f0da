(** Ramps in exact arithmetic. *)
From Coq Require Import ZArith List Lia Bool.
From Verif Require Import Base Mem Loop Backend Args Drivers Spec LoopFacts MemFacts KaryFacts DriverFacts.
Import ListNotations.
Local Open Scope Z_scope.

Section Lanes.
Context {A : Type} (ar : arith A) (B : backend).

Lemma iter_vadd_nth (inc d : A) (l : nat) : (l < vsize B)%nat -> forall J dat,
  length dat = vsize B ->
  nth l (Nat.iter J (fun y => vadd ar y (repeat inc (vsize B))) dat) d
  = Nat.iter J (fun y => a_add ar y inc) (nth l dat d).
Proof.
  intros Hl. induction J as [|J IH]; intros dat Hd; [reflexivity|]. rewrite !iterS.
  unfold vadd at 1. rewrite (nth_map2 _ d inc).
  - rewrite IH by assumption. f_equal. apply nth_repeat.
  - rewrite (iter_vadd_length ar B); auto using repeat_length.
  - rewrite repeat_length. lia.
Qed.

Lemma iter_add_comm {X} (f : X -> X) a b x : Nat.iter a f (Nat.iter b f x) = Nat.iter (a + b) f x.
Proof. induction a; cbn; [reflexivity|]. unfold Nat.iter in *. cbn in *. congruence. Qed.

(** A ramp whose vector data and increment are right has the right lanes. *)
Lemma lanes_match_ramp b s m n :
  (forall d l, (l < vsize B)%nat ->
     nth l (fst (set_slope ar B b s)) d = Nat.iter l (fun y => a_add ar y s) b) ->
  (forall k, Z.of_nat k + Z.of_nat (vsize B) < n ->
     let y := Nat.iter k (fun y => a_add ar y s) b in
     a_add ar y (a_narrow ar (snd (set_slope ar B b s)))
     = Nat.iter (vsize B) (fun y => a_add ar y s) y) ->
  lanes_match ar B m (ARamp b s) n.
Proof.
  intros H1 H2 d J l Hl Hn. cbn [wrap_vector_arg].
  pose proof (set_slope_length ar B b s) as HL.
  destruct (set_slope ar B b s) as [dat inc]. cbn [fst snd] in *. cbn [vchunk].
  unfold set_vec. rewrite iter_vadd_nth by assumption. rewrite H1 by assumption.
  unfold sval; cbn [sample].
  replace (Z.to_nat (Z.of_nat J * Z.of_nat (vsize B) + Z.of_nat l)) with (J * vsize B + l)%nat by lia.
  clear HL H1. induction J as [|J IH]; [reflexivity|].
  rewrite iterS, IH by lia. rewrite H2 by lia. rewrite iter_add_comm. f_equal. lia.
Qed.
End Lanes.

Section Exact.
Context {A : Type} (ar : arith A) (E : exact_arith ar) (B : backend).
Local Infix "+!" := (a_add ar) (at level 50, left associativity).
Local Infix "*!" := (a_mul ar) (at level 40, left associativity).

Lemma ofZ_add_one n x : 0 <= n -> x *! a_ofZ ar (n + 1) = x *! a_ofZ ar n +! x.
Proof.
  intros Hn. rewrite (ex_ofZ_succ ar E) by assumption.
  rewrite (ex_distr ar E). f_equal. apply (ex_mul_one ar E).
Qed.

Lemma zero_add x : a_zero ar +! x = x.
Proof. rewrite (ex_add_comm ar E). apply (ex_add_zero ar E). Qed.

Lemma mul_ofZ_0 x : x *! a_ofZ ar 0 = a_zero ar.
Proof. rewrite (ex_ofZ_zero ar E). apply (ex_mul_zero ar E). Qed.

(** Iterated addition is multiplication by the count. *)
Lemma iter_add_mul s b k :
  Nat.iter k (fun y => y +! s) b = b +! s *! a_ofZ ar (Z.of_nat k).
Proof.
  induction k as [|k IH].
  - cbn. rewrite mul_ofZ_0, (ex_add_zero ar E). reflexivity.
  - rewrite iterS, IH. rewrite Nat2Z.inj_succ. unfold Z.succ.
    rewrite ofZ_add_one by lia. rewrite (ex_add_assoc ar E). reflexivity.
Qed.

Lemma sample_line m a i : 0 <= i -> sample ar m a i = line ar m a i.
Proof.
  intros Hi. destruct a; cbn [sample line]; try reflexivity.
  rewrite iter_add_mul, Z2Nat.id by assumption. reflexivity.
Qed.

Lemma mul_ofZ_S x k : x *! a_ofZ ar (Z.of_nat (S k)) = x *! a_ofZ ar (Z.of_nat k) +! x.
Proof. rewrite Nat2Z.inj_succ. unfold Z.succ. apply ofZ_add_one. lia. Qed.

Lemma mul_ofZ_8 x : x *! a_ofZ ar 8 = x +! x +! x +! x +! x +! x +! x +! x.
Proof.
  change 8 with (Z.of_nat 8). rewrite !mul_ofZ_S. change (Z.of_nat 0) with 0.
  rewrite mul_ofZ_0, zero_add. reflexivity.
Qed.

(** The lanes and the increment of set_slope. *)
Lemma set_slope_lanes b s d l : (l < vsize B)%nat ->
  nth l (fst (set_slope ar B b s)) d = Nat.iter l (fun y => y +! s) b.
Proof.
  intros Hl.
  destruct B; cbn [vsize] in Hl;
    repeat (destruct l as [|l]; [cbn; rewrite ?zero_add, ?(ex_add_assoc ar E), ?(ex_add_zero ar E); reflexivity|]); lia.
Qed.

Lemma set_slope_inc b s y :
  y +! snd (set_slope ar B b s) = Nat.iter (vsize B) (fun y => y +! s) y.
Proof.
  destruct B; cbn; rewrite ?mul_ofZ_8, ?zero_add, ?(ex_add_assoc ar E); reflexivity.
Qed.

Lemma set_slope_inc_mul b s :
  snd (set_slope ar B b s) = s *! a_ofZ ar (Z.of_nat (vsize B)).
Proof.
  pose proof (set_slope_inc b s (a_zero ar)) as H. rewrite iter_add_mul, !zero_add in H. exact H.
Qed.

Lemma lanes_match_exact m a n : lanes_match ar B m a n.
Proof.
  destruct a as [p|x|b s]; try (apply lanes_match_not_ramp; exact I).
  apply lanes_match_ramp.
  - intros. apply set_slope_lanes; assumption.
  - intros k _ y. rewrite (ex_narrow ar E). apply set_slope_inc.
Qed.
End Exact.
