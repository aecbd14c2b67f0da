(** Lanes of set_slope and set_exp, vector loads and stores, literals. *)

From Coq Require Import ZArith Reals List Lia.
From Flocq Require Import Core IEEE754.Binary IEEE754.Bits.
From Verif Require Import Base Mem Loop Backend MemFuns Lanes Float LaneOps Reduce Spec SpecReduce LoopFacts MemFacts KaryFacts DriverFacts RampFacts MemFunFacts BlockFacts FaultFacts
  FloatFacts ReduceFloat ReduceMore.
Import ListNotations.
Local Open Scope Z_scope.

Section Ramps.
Context {A : Type} (ar : arith A) (E : exact_arith ar) (c : cfg) (B : backend).

Lemma nth_error_lane (v : list A) i d : (i < length v)%nat -> nth_error v i = Some (nth i v d).
Proof. intros. apply nth_error_nth'. assumption. Qed.
Lemma iter_add_times b s k : Nat.iter k (fun y => a_add ar y s) b = a_add ar b (times ar (Z.of_nat k) s).
Proof.
  unfold times. rewrite Nat2Z.id. induction k as [|k IH].
  - cbn. symmetry. apply (ex_add_zero ar E).
  - rewrite !iterS, IH. symmetry. apply (ex_add_assoc ar E).
Qed.
Lemma set_slope_lane start slope i : Z.of_nat i < lanes B ->
  get c B (fst (set_slope ar B start slope)) i = Ok (a_add ar start (times ar (Z.of_nat i) slope)) /\
  snd (set_slope ar B start slope) = times ar (lanes B) slope.
Proof.
  intros Hi. rewrite lanes_vsize in Hi. split.
  - destruct (get_nth c B (fst (set_slope ar B start slope)) i (set_slope_length _ _ _ _) ltac:(lia)) as (x & H1 & ->).
    rewrite (nth_error_lane _ _ start) in H1 by (rewrite set_slope_length; lia).
    rewrite (set_slope_lanes ar E B) in H1 by lia. rewrite iter_add_times in H1. congruence.
  - pose proof (set_slope_inc ar E B start slope (a_zero ar)) as H. unfold times. rewrite lanes_vsize, Nat2Z.id.
    rewrite <- H. rewrite (ex_add_comm ar E). symmetry. apply (ex_add_zero ar E).
Qed.
Lemma set_exp_lane start curve i : Z.of_nat i < lanes B ->
  get c B (fst (set_exp ar B start curve)) i = Ok (a_mul ar start (power ar curve (Z.of_nat i))) /\
  snd (set_exp ar B start curve) = a_mul ar start (power ar curve (lanes B)).
Proof.
  intros Hi. rewrite lanes_vsize in *. split.
  - destruct (get_nth c B (fst (set_exp ar B start curve)) i (set_exp_length _ _ _ _) ltac:(lia)) as (x & H1 & ->).
    rewrite (nth_error_lane _ _ start) in H1 by (rewrite set_exp_length; lia).
    rewrite (set_exp_lanes ar B) in H1 by lia. rewrite (iter_mul_power ar E) in H1. congruence.
  - apply (set_exp_next ar B E).
Qed.
End Ramps.

Lemma vload_vstore {A} (al : bool) (B : backend) (m : mem A) p q : access_ok B al p -> access_ok B al q ->
  accessible m p (lanes B) -> accessible m q (lanes B) ->
  exists v, load_al B al m p = Ok v /\ leaves m (store_al B al m q v) q (lanes B) (fun i => m (p + i)).
Proof.
  intros Hp Hq Ap Aq. rewrite lanes_vsize in *. pose proof (vsize_pos B) as HB.
  destruct (Ap 0 ltac:(lia)) as [d _].
  set (g := fun i => match m (p + i) with Some x => x | None => d end).
  assert (Hg : forall i, 0 <= i < Z.of_nat (vsize B) -> m (p + i) = Some (g i)).
  { intros i Hi. unfold g. destruct (Ap i Hi) as [x ->]. reflexivity. }
  exists (lanesf B (fun l => g (Z.of_nat l))). split.
  - apply load_al_spec; [exact Hp|]. intros l Hl. apply Hg. lia.
  - destruct (store_al_spec B al m m q g 1 0 (fun l => g (Z.of_nat l)) Hq) as (m2 & E2 & G2).
    + rewrite Z.mul_1_l. exact Aq.
    + lia.
    + exact (meq_wr_0 m q g).
    + intros l Hl. f_equal.
    + change (Z.of_nat 0 * Z.of_nat (vsize B)) with 0 in E2. rewrite Z.add_0_r in E2.
      rewrite E2. change (Z.of_nat 1) with 1 in G2. rewrite Z.mul_1_l in G2.
      exists m2. split; [reflexivity|]. apply (writes_exactly_of_wr m m2 q _ g); [exact G2|].
      intros i Hi. apply Hg. exact Hi.
Qed.

Lemma f_lit_pow t e : SpecFloat.emin (prec t) (emax t) <= e -> e < emax t -> val (f_lit t 1 e) = bpow radix2 e.
Proof.
  intros H1 H2. pose proof (binary_normalize_correct (prec t) (emax t) (Hprec t) (Hmax t) BinarySingleNaN.mode_NE 1 e false) as H.
  cbv zeta in H. replace (F2R {| Fnum := 1; Fexp := e |}) with (bpow radix2 e) in H by (unfold F2R; cbn [Fnum Fexp]; rewrite Rmult_1_l; reflexivity).
  rewrite round_generic in H.
  - rewrite Rlt_bool_true in H; [apply H|]. rewrite Rabs_pos_eq by apply bpow_ge_0. apply bpow_lt. exact H2.
  - apply BinarySingleNaN.valid_rnd_round_mode.
  - apply generic_format_bpow. unfold SpecFloat.fexp. assert (0 < prec t) by (destruct t; reflexivity). lia.
Qed.
