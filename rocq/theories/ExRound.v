(** Concrete data for the examples beside the theorems about rounding and
    integer vectors.  Not part of the model. *)
From Coq Require Import ZArith Reals List Lia Lra Bool.
From Flocq Require Import Core IEEE754.Binary IEEE754.Bits.
From Verif Require Import Base Mem Backend Args Lanes Float LaneOps Spec SpecLane SpecRound SpecInt ExData ExFloat ExLane FloatFacts FloatRound ReduceMore VecMore2 RoundFacts RoundMore RoundMore2.
Import ListNotations.
Local Open Scope Z_scope.

Lemma withinb {t} (x : F t) : fle (fabs x) (f_ofZ t (2 ^ 23)) = true -> within_2_23 x.
Proof.
  intros H. apply fle_iff in H. destruct H as (H1 & _ & H2).
  destruct (ofZ_exact (t := t) (2 ^ 23)) as (A & B & _); [destruct t; cbv; discriminate|].
  assert (Fx : isfin (fabs x) = true).
  { destruct (isfin (fabs x)) eqn:E; [reflexivity|exfalso].
    rewrite (inf_ord (fabs x) E H1), sgn_fabs in H2. destruct t; vm_compute in H2; congruence. }
  split; [rewrite <- isfin_fabs; exact Fx|]. rewrite <- val_fabs, <- B. apply ord_le_val; assumption.
Qed.
Lemma lit_val t m e : (Z.abs m <= 2 ^ prec t) -> (emin t <= e) -> (e + prec t < emax t) -> val (f_lit t m e) = (IZR m * bpow radix2 e)%R.
Proof. intros. apply f_lit_exact; assumption. Qed.
(** A number whose distance to every integer is not one half. *)
Lemma no_tie_quarter r k : (r = IZR k + / 4)%R -> ~ tie r.
Proof.
  intros -> [j Hj]. assert (H : (IZR (4 * k + 1) = IZR (4 * j + 2))%R) by (rewrite !plus_IZR, !mult_IZR; lra). apply eq_IZR in H. lia.
Qed.
(** Whether a finite float is half an odd integer. *)
Definition tieb {t} (x : F t) : bool :=
  match x with
  | B754_finite _ _ _ m e _ => match e with Z.neg p => (Z.pos m) mod (2 ^ Z.pos p) =? 2 ^ (Z.pos p - 1) | _ => false end
  | _ => false
  end.
Lemma tieb_tie {t} (x : F t) : isfin x = true -> tieb x = false -> ~ tie (val x).
Proof.
  intros Hf Hb [j Hj]. destruct x as [s|s|s pl H|s m e H]; try discriminate.
  - cbn in Hj. assert (Q : IZR (2 * j + 1) = 0%R) by (rewrite plus_IZR, mult_IZR; lra). apply eq_IZR in Q. lia.
  - assert (V : val (B754_finite (prec t) (emax t) s m e H : F t) = (IZR (cond_Zopp s (Z.pos m)) * bpow radix2 e)%R) by reflexivity.
    rewrite V in Hj. set (M := cond_Zopp s (Z.pos m)) in *. assert (AM : Z.abs M = Z.pos m) by (unfold M; destruct s; reflexivity).
    destruct e as [|p|p].
    + cbn [bpow] in Hj. assert (Q : IZR (2 * M) = IZR (2 * j + 1)) by (rewrite plus_IZR, !mult_IZR; lra). apply eq_IZR in Q. lia.
    + change (bpow radix2 (Z.pos p)) with (IZR (2 ^ Z.pos p)) in Hj.
      assert (Q : IZR (2 * (M * 2 ^ Z.pos p)) = IZR (2 * j + 1)) by (rewrite plus_IZR, !mult_IZR; lra). apply eq_IZR in Q. lia.
    + change (bpow radix2 (Z.neg p)) with (/ IZR (2 ^ Z.pos p))%R in Hj. cbn [tieb] in Hb. apply Z.eqb_neq in Hb.
      assert (P : 2 ^ Z.pos p = 2 * 2 ^ (Z.pos p - 1)) by (rewrite <- Z.pow_succ_r by lia; f_equal; lia).
      assert (G : 0 < 2 ^ (Z.pos p - 1)) by (apply Z.pow_pos_nonneg; lia).
      assert (Q : IZR M = IZR ((2 * j + 1) * 2 ^ (Z.pos p - 1))).
      { assert (N : IZR (2 ^ Z.pos p) <> 0%R) by (apply not_0_IZR; lia).
        assert (E : (IZR M = (IZR j + / 2) * IZR (2 ^ Z.pos p))%R) by (rewrite <- Hj; field; exact N).
        rewrite E, P, !mult_IZR, plus_IZR, mult_IZR. field. }
      apply eq_IZR in Q. apply Hb. rewrite <- AM, Q, Z.abs_mul, (Z.abs_eq (2 ^ _)) by lia. rewrite P.
      set (q := 2 ^ (Z.pos p - 1)) in *. rewrite Z.mul_mod_distr_r by lia.
      assert (O : Z.abs (2 * j + 1) mod 2 = 1).
      { rewrite Zmod_odd. replace (Z.odd (Z.abs (2 * j + 1))) with true; [reflexivity|].
        symmetry. destruct (Z.abs_eq_or_opp (2 * j + 1)) as [-> | ->]; rewrite ?Z.odd_opp, Z.odd_add, Z.odd_mul; reflexivity. }
      rewrite O. lia.
Qed.
Lemma offtieb {t} (x : F t) : fle (fabs x) (f_ofZ t (2 ^ 23)) && negb (tieb x) = true -> within_2_23 x /\ ~ tie (val x).
Proof.
  intros H. apply andb_true_iff in H. destruct H as [H1 H2]. pose proof (withinb x H1) as W. split; [exact W|].
  apply tieb_tie; [apply W|]. destruct (tieb x); [discriminate|reflexivity].
Qed.
Lemma vectorb n v : (length v =? n)%nat && forallb (fun z => (0 <=? z) && (z <? 4294967296)) v = true -> vector n v.
Proof.
  intros H. apply andb_true_iff in H. destruct H as [H1 H2]. apply Nat.eqb_eq in H1. split; [exact H1|].
  apply Forall_forall. intros z Hz. rewrite forallb_forall in H2. specialize (H2 z Hz). unfold pattern. lia.
Qed.
Lemma readsb z k : (0 <=? z) && (z <? 4294967296) && (-2147483648 <=? k) && (k <? 2147483648) && ((z - k) mod 4294967296 =? 0) = true -> reads z k.
Proof.
  intros H. repeat (apply andb_true_iff in H; destruct H as [H ?]). unfold reads, pattern. repeat split; try lia.
  exists ((z - k) / 4294967296). pose proof (Z.div_mod (z - k) 4294967296). lia.
Qed.
Ltac fitr_leaf :=
  lazymatch goal with
  | |- within_2_23 _ => apply withinb; vm_compute; reflexivity
  | |- each within_2_23 _ _ _ => each_tac (@withinb F32)
  | |- each (fun x => within_2_23 x /\ ~ tie (val x)) _ _ _ => each_tac (@offtieb F32)
  | |- ~ tie _ => apply tieb_tie; [vm_compute; reflexivity|vm_compute; reflexivity]
  | |- vector _ _ => apply vectorb; vm_compute; reflexivity
  | |- reads _ _ => apply readsb; vm_compute; reflexivity
  | |- pattern _ => split; vm_compute; congruence
  | |- legal_simd_length _ _ => split; [split; reflexivity|apply Z.mod_divide; [discriminate|reflexivity]]
  | |- Z.even _ = true => reflexivity
  | |- Z.odd _ = true => reflexivity
  | |- isfin _ = _ => vm_compute; reflexivity
  | |- has_sse41 _ = _ => reflexivity
  | |- sgn _ = _ => vm_compute; reflexivity
  | |- @eq isa _ _ => reflexivity
  | |- flt _ _ = _ => vm_compute; reflexivity
  | |- _ <> _ => discriminate
  | |- _ => idtac
  end.
Ltac fitrn := cbv zeta; unfold arg_fit, simd_fit; repeat match goal with |- _ /\ _ => split end;
  lazymatch goal with
  | |- within_2_23 _ => fitr_leaf
  | |- each _ _ _ _ => fitr_leaf
  | |- ~ tie _ => fitr_leaf
  | |- vector _ _ => fitr_leaf
  | |- reads _ _ => fitr_leaf
  | |- pattern _ => fitr_leaf
  | |- legal_simd_length _ _ => fitr_leaf
  | |- _ = _ => try fitr_leaf
  | |- _ \/ _ => idtac
  | |- ~ _ => fitr_leaf
  | |- (_ <= _)%Z => lia
  | |- (_ < _)%Z => lia
  | |- (_ <= _)%R => idtac
  | |- (_ < _)%R => idtac
  | |- _ => fit_leaf
  end.
