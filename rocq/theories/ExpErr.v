(** Rounding errors of exponential curves. *)
From Coq Require Import ZArith Reals Bool List Lia Lra Psatz.
From Flocq Require Import Core IEEE754.Binary IEEE754.Bits Relative.
From Verif Require Import Base Mem Loop Backend Args Drivers Lanes Float LaneOps Reduce FloatOps Spec SpecReduce LoopFacts MemFacts
  KaryFacts DriverFacts RampFacts FloatFacts FloatRound RampFloat ErrFacts SumErr SpecDrift BlockFacts MemFuns MemFunFacts.
Import ListNotations.
Local Open Scope R_scope.

Section Exp.
Context {t : fmt} (n : nans t).
Local Notation u := (unit_roundoff t).
Local Notation g := (growth t).
Local Notation ar := (farith n).

Lemma rnd_normal r : smallest_normal t <= Rabs r -> Rabs (rnd t r - r) <= u * Rabs r.
Proof.
  intros H. unfold rnd. change (fexp t) with (FLT_exp (emin t) (prec t)).
  assert (Hp : Prec_gt_0 (prec t)) by (destruct t; reflexivity).
  eapply Rle_trans; [apply relative_error_N_FLT; [exact Hp|]|].
  - eapply Rle_trans; [|exact H]. apply bpow_le. destruct t; cbv; discriminate.
  - apply Rmult_le_compat_r; [apply Rabs_pos|]. unfold unit_roundoff. change (/ 2) with (bpow radix2 (-1)). rewrite <- bpow_plus.
    apply bpow_le. destruct t; cbv; discriminate.
Qed.

(** Proof auxiliary: [y] is [v] up to [k] roundings. *)
Definition apx (k : nat) (y : F t) (v : R) : Prop := isfin y = true /\ Rabs (val y - v) <= (g k - 1) * Rabs v.

Lemma apx_0 x : isfin x = true -> apx 0 x (val x).
Proof. intros H. split; [exact H|]. rewrite Rminus_diag_eq, Rabs_R0, g_0 by reflexivity. lra. Qed.

Lemma prod_arith (a b x y p q : R) : 1 <= p -> 1 <= q ->
  Rabs (x - a) <= (p - 1) * Rabs a -> Rabs (y - b) <= (q - 1) * Rabs b ->
  Rabs (x * y - a * b) <= (p * q - 1) * Rabs (a * b).
Proof.
  intros Hp Hq Hx Hy. rewrite Rabs_mult.
  replace (x * y - a * b) with ((x - a) * (y - b) + (x - a) * b + a * (y - b)) by ring.
  pose proof (Rabs_pos (x - a)). pose proof (Rabs_pos (y - b)). pose proof (Rabs_pos a). pose proof (Rabs_pos b).
  eapply Rle_trans; [apply Rabs_triang|]. eapply Rle_trans; [apply Rplus_le_compat_r, Rabs_triang|]. rewrite !Rabs_mult.
  assert (A1 : Rabs (x - a) * Rabs (y - b) <= ((p - 1) * Rabs a) * ((q - 1) * Rabs b)) by (apply Rmult_le_compat; lra).
  assert (A2 : Rabs (x - a) * Rabs b <= ((p - 1) * Rabs a) * Rabs b) by (apply Rmult_le_compat_r; lra).
  assert (A3 : Rabs a * Rabs (y - b) <= Rabs a * ((q - 1) * Rabs b)) by (apply Rmult_le_compat_l; lra).
  replace ((p * q - 1) * (Rabs a * Rabs b)) with ((p - 1) * Rabs a * ((q - 1) * Rabs b) + (p - 1) * Rabs a * Rabs b + Rabs a * ((q - 1) * Rabs b)) by ring.
  lra.
Qed.

Lemma apx_mul j k x y a b : apx j x a -> apx k y b -> in_range t (S (j + k)) (a * b) -> apx (S (j + k)) (fmul n x y) (a * b).
Proof.
  intros (Fx & Hx) (Fy & Hy) (R1 & R2).
  pose proof (prod_arith a b (val x) (val y) (g j) (g k) (g_1 t j) (g_1 t k) Hx Hy) as P. rewrite <- g_add in P.
  pose proof (g_S t (j + k)) as GS. pose proof (g_1 t (j + k)) as G1.
  assert (U0 : 0 <= u) by (unfold unit_roundoff; apply bpow_ge_0).
  pose proof (Rabs_pos (a * b)) as Pab.
  set (r := val x * val y) in *. set (v := a * b) in *. set (G := g (j + k)) in *. clearbody G.
  assert (L : (2 - G) * Rabs v <= Rabs r).
  { assert (Rabs v <= Rabs (r - v) + Rabs r).
    { replace v with (- (r - v) + r) at 1 by ring. eapply Rle_trans; [apply Rabs_triang|]. rewrite Rabs_Ropp. lra. }
    lra. }
  assert (Up : Rabs r <= G * Rabs v).
  { replace r with ((r - v) + v) by ring. eapply Rle_trans; [apply Rabs_triang|]. lra. }
  assert (GG : G <= g (S (j + k))) by (rewrite GS; nra).
  assert (N : smallest_normal t <= Rabs r).
  { eapply Rle_trans; [exact R2|]. eapply Rle_trans; [|exact L]. apply Rmult_le_compat_r; lra. }
  pose proof (rnd_normal r N) as E.
  assert (B1 : Rabs (rnd t r - v) <= (g (S (j + k)) - 1) * Rabs v).
  { replace (rnd t r - v) with ((rnd t r - r) + (r - v)) by ring. eapply Rle_trans; [apply Rabs_triang|].
    assert (u * Rabs r <= u * (G * Rabs v)) by (apply Rmult_le_compat_l; lra). rewrite GS. lra. }
  assert (B2 : Rabs (rnd t r) < bpow radix2 (emax t)).
  { rewrite <- ob_bpow. eapply Rle_lt_trans; [|exact R1].
    replace (rnd t r) with ((rnd t r - v) + v) by ring. eapply Rle_trans; [apply Rabs_triang|]. lra. }
  destruct (fmul_fin n x y Fx Fy B2) as (M1 & M2 & _). split; [exact M1|]. rewrite M2. exact B1.
Qed.

Lemma scalar_exp f c i : isfin f = true -> isfin c = true ->
  (forall k, (1 <= k <= i)%nat -> in_range t k (val f * val c ^ k)) ->
  apx i (Nat.iter i (fun y => a_mul ar y c) f) (val f * val c ^ i).
Proof.
  intros Ff Fc H. induction i as [|i IH].
  - cbn [Nat.iter pow]. rewrite Rmult_1_r. apply apx_0. exact Ff.
  - rewrite iterS. cbn [farith a_mul]. replace (val f * val c ^ S i) with ((val f * val c ^ i) * val c) by (cbn [pow]; ring).
    rewrite <- (Nat.add_0_r i) at 1. apply apx_mul.
    + apply IH. intros k Hk. apply H. lia.
    + apply apx_0. exact Fc.
    + rewrite Nat.add_0_r. replace (val f * val c ^ i * val c) with (val f * val c ^ S i) by (cbn [pow]; ring). apply H. lia.
Qed.

Lemma pow_exp c w : isfin c = true -> (1 <= w)%nat ->
  (forall k, (1 <= k <= w)%nat -> in_range t (Nat.pred k) (val c ^ k)) ->
  apx (Nat.pred w) (pow_i ar w c) (val c ^ w).
Proof.
  intros Fc Hw. induction w as [|w IH]; [lia|]. intros H. destruct w as [|w].
  - cbn [pow_i Nat.pred pow]. rewrite Rmult_1_r. apply apx_0. exact Fc.
  - change (pow_i ar (S (S w)) c) with (fmul n c (pow_i ar (S w) c)). cbn [Nat.pred].
    change (val c ^ S (S w)) with (val c * val c ^ S w). change (S w) with (S (0 + w)) at 1. apply apx_mul.
    + apply apx_0. exact Fc.
    + apply IH; [lia|]. intros k Hk. apply H. lia.
    + apply (H (S (S w))). lia.
Qed.

Lemma exp_lane B f c d l : (l < vsize B)%nat ->
  nth l (fst (set_exp ar B f c)) d = Nat.iter l (fun y => a_mul ar y c) f.
Proof. intros Hl. destruct B; cbn [vsize] in Hl; repeat (destruct l as [|l]; [reflexivity|]); lia. Qed.

Lemma simd_exp B f c d J l : isfin f = true -> isfin c = true -> (l < vsize B)%nat ->
  (forall k, (1 <= k <= J * vsize B + l)%nat -> in_range t k (val f * val c ^ k)) ->
  (forall k, (1 <= k <= vsize B)%nat -> in_range t (Nat.pred k) (val c ^ k)) ->
  apx (J * vsize B + l) (Nat.iter J (fun y => a_mul ar y (pow_i ar (vsize B) c)) (nth l (fst (set_exp ar B f c)) d))
    (val f * val c ^ (J * vsize B + l)).
Proof.
  intros Ff Fc Hl H Hw. pose proof (vsize_pos B) as HB.
  pose proof (pow_exp c (vsize B) Fc HB Hw) as P. rewrite (exp_lane B f c d l Hl).
  induction J as [|J IH].
  - match goal with |- context [Nat.iter 0 ?G ?x] => change (Nat.iter 0 G x) with x end.
    change (0 * vsize B + l)%nat with l in *. apply scalar_exp; auto.
  - rewrite iterS. cbn [farith a_mul].
    replace (S J * vsize B + l)%nat with (S (J * vsize B + l + Nat.pred (vsize B))) in * by lia.
    replace (val f * val c ^ S (J * vsize B + l + Nat.pred (vsize B))) with ((val f * val c ^ (J * vsize B + l)) * val c ^ vsize B).
    2:{ replace (S (J * vsize B + l + Nat.pred (vsize B))) with (J * vsize B + l + vsize B)%nat by lia.
        rewrite (pow_add (val c) (J * vsize B + l) (vsize B)). ring. }
    apply apx_mul.
    + apply IH. intros k Hk. apply H. lia.
    + exact P.
    + rewrite Rmult_assoc, <- pow_add. replace (J * vsize B + l + vsize B)%nat with (S (J * vsize B + l + Nat.pred (vsize B))) by lia.
      apply H. lia.
Qed.
End Exp.

Section Buffers.
Context (B : backend).
Local Notation t := (fmt_of B).
Context (n : nans t).
Local Notation ar := (farith n).
Local Notation step := (Z.of_nat (vsize B)).

Lemma exp_vec_near (m : mem (F t)) dest f c len : (0 < len < 2 ^ 32)%Z -> accessible m dest len ->
  isfin f = true -> isfin c = true ->
  (forall k, (0 < k < len)%Z -> in_range t (Z.to_nat k) (val f * val c ^ Z.to_nat k)) ->
  exists r, (forall i, (0 <= i < len)%Z -> exists y, r i = Some y /\ apx (Z.to_nat i) y (val f * val c ^ Z.to_nat i)) /\
    leaves m (set_exp_vec ar m dest f c len) dest len r.
Proof.
  intros Hn Ha Ff Fc H. eexists. split; [|apply set_exp_vec_ok; assumption].
  intros i Hi. eexists. split; [reflexivity|]. apply scalar_exp; auto.
  intros k Hk. rewrite <- (Nat2Z.id k). apply H. lia.
Qed.

Lemma exp_vec_simd_near (m : mem (F t)) dest f c len : legal_simd_length B len -> aligned B dest -> accessible m dest len ->
  isfin f = true -> isfin c = true ->
  (forall k, (0 < k < len)%Z -> in_range t (Z.to_nat k) (val f * val c ^ Z.to_nat k)) ->
  (forall k, (0 < k <= lanes B)%Z -> in_range t (Z.to_nat k - 1) (val c ^ Z.to_nat k)) ->
  exists r, (forall i, (0 <= i < len)%Z -> exists y, r i = Some y /\ apx (Z.to_nat i) y (val f * val c ^ Z.to_nat i)) /\
    leaves m (set_exp_vec_simd ar B m dest f c len) dest len r.
Proof.
  intros Hn Hal Ha Ff Fc H Hw. pose proof (vsize_pos B) as HB.
  set (v := fun i : Z => Nat.iter (Z.to_nat (i / step)) (fun y => a_mul ar y (pow_i ar (vsize B) c))
     (nth (Z.to_nat (i mod step)) (fst (set_exp ar B f c)) f)).
  exists (fun i => Some (v i)). split.
  - intros i Hi. eexists. split; [reflexivity|]. unfold v.
    set (J := Z.to_nat (i / step)). set (l := Z.to_nat (i mod step)).
    assert (Ei : i = Z.of_nat (J * vsize B + l)).
    { unfold J, l. rewrite Nat2Z.inj_add, Nat2Z.inj_mul, !Z2Nat.id by (apply Z.mod_pos_bound || apply Z.div_pos; lia).
      pose proof (Z.div_mod i step). lia. }
    assert (Hl : (l < vsize B)%nat).
    { pose proof (Z.mod_pos_bound i step ltac:(lia)). unfold l. lia. }
    assert (EJ : Z.to_nat i = (J * vsize B + l)%nat) by lia. rewrite EJ.
    apply simd_exp; auto.
    + intros k Hk. rewrite <- (Nat2Z.id k). apply H. lia.
    + intros k Hk. specialize (Hw (Z.of_nat k)). rewrite Nat2Z.id in Hw. rewrite Nat.sub_1_r in Hw. apply Hw.
      assert (lanes B = Z.of_nat (vsize B)) by (destruct B; reflexivity). lia.
  - apply (exp_simd_gen ar B m dest f c len v Hn Hal Ha).
    + apply (lanesf_inj_ext B _ _ f); [apply set_exp_length|]. intros j Hj. unfold v.
      rewrite Z.div_small, Z.mod_small, Nat2Z.id by lia. reflexivity.
    + intros i Hi. unfold v. replace (i + step)%Z with (i + 1 * step)%Z by ring. rewrite Z.div_add, Z.mod_add by lia.
      rewrite Z2Nat.inj_add by (apply Z.div_pos || idtac; lia). change (Z.to_nat 1) with 1%nat.
      rewrite Nat.add_1_r, iterS. reflexivity.
Qed.
End Buffers.
