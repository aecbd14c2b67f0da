(** One call against two calls through a buffer. *)
From Coq Require Import ZArith Reals List Lia Lra Bool.
From Flocq Require Import Core IEEE754.Binary IEEE754.Bits.
From Verif Require Import Base Mem Loop Backend Args Drivers Functors Lanes Float LaneOps FloatOps ScalarMath VecMath FloatFuns Spec SpecLane SpecAgree SpecAlike SpecNeutral SpecSwap SpecChain
  FloatFacts LaneFacts FloatRound VecFacts VecMore VecMore2 RoundFacts RoundMore RoundMore2 MathMore SumErr KeepFacts NeutralFacts AlikeFacts DriverClaims2 AgreeFacts ReduceMore ExData ExMath SwapFacts.
Import ListNotations.
Local Open Scope Z_scope.

Section M.
Context {A : Type} (ar : arith A).
(** Proof auxiliary: what the first of two calls has left. *)
Definition left_by (m m2 : mem A) (tmp len : Z) (v : Z -> option A) : Prop :=
  (forall a, a < tmp \/ tmp + len <= a -> m2 a = m a) /\ (forall i, 0 <= i < len -> m2 (tmp + i) = v i /\ v i <> None).
Lemma left_accessible m m2 tmp len v p k : left_by m m2 tmp len v -> accessible m p k -> accessible m2 p k.
Proof.
  intros [L1 L2] H i Hi. destruct (H i Hi) as [x Hx]. destruct (Z_lt_le_dec (p + i) tmp) as [G|G]; [rewrite L1 by lia; eauto|].
  destruct (Z_lt_le_dec (p + i) (tmp + len)) as [G'|G']; [|rewrite L1 by lia; eauto].
  destruct (L2 (p + i - tmp)) as [E N]; [lia|]. replace (tmp + (p + i - tmp)) with (p + i) in E by lia. rewrite E. destruct (v (p + i - tmp)); [eauto|congruence].
Qed.
Lemma left_fit m m2 tmp len v out a : left_by m m2 tmp len v -> arg_fit m out len a -> arg_fit m2 out len a.
Proof. intros L [H1 H2]. split; [|exact H2]. destruct a; try exact Logic.I. exact (left_accessible _ _ _ _ _ _ _ L H1). Qed.
Lemma left_simd_fit B m m2 tmp len v out a : left_by m m2 tmp len v -> simd_fit B m out len a -> simd_fit B m2 out len a.
Proof. intros L (H1 & H2 & H3). split; [|split; assumption]. destruct a; try exact Logic.I. exact (left_accessible _ _ _ _ _ _ _ L H1). Qed.
Lemma left_sample m m2 tmp len v a i : left_by m m2 tmp len v -> clear_of tmp len a -> 0 <= i < len -> sample ar m2 a i = sample ar m a i.
Proof. intros [L _] H Hi. destruct a; try reflexivity. cbn [sample clear_of] in *. apply L. lia. Qed.
Lemma left_tmp m m2 tmp len v i : left_by m m2 tmp len v -> 0 <= i < len -> sample ar m2 (APtr tmp) i = v i.
Proof. intros [_ L] Hi. apply L. exact Hi. Qed.
Lemma steps_of_leaves (P : A -> A -> Prop) m one first second out tmp len v1 v2 :
  leaves m one out len v1 -> leaves m first tmp len v2 ->
  (forall m2, left_by m m2 tmp len v2 -> exists v3, leaves m2 (second m2) out len v3 /\
    forall i u v, 0 <= i < len -> v1 i = Some u -> v3 i = Some v -> P u v) ->
  same_in_steps P one first second out len.
Proof.
  intros (m1 & E1 & W1 & _) (m2 & E2 & W2 & W3) H. destruct (H m2 (conj W3 W2)) as (v3 & (m3 & E3 & W4 & _) & K).
  exists m1, m2, m3. repeat split; try assumption. intros i Hi. destruct (W1 i Hi) as [A1 A2], (W4 i Hi) as [B1 B2].
  destruct (v1 i) as [u|] eqn:V1; [|congruence]. destruct (v3 i) as [v|] eqn:V3; [|congruence]. exists u, v. repeat split; try assumption. exact (K i u v Hi V1 V3).
Qed.
End M.

Section T.
Context {t : fmt} (n : nans t).
Implicit Types x y z : F t.
Lemma madd_unfused c B x y z : fuses c B = false -> madd c (isa_of B) n x y z = fadd n (fmul n x y) z.
Proof. unfold fuses, madd. destruct (isa_of B); intros H; try reflexivity; try discriminate H; rewrite H; reflexivity. Qed.
Lemma unfused_vmul c B x y : fuses c B = false -> vmul (isa_of B) n x y = fmul n x y.
Proof. unfold fuses, vmul. destruct (isa_of B); intros H; try reflexivity. discriminate H. Qed.
Lemma minus_one_fin : isfin (f_ofZ t (-1)) = true /\ val (f_ofZ t (-1)) = (-1)%R /\ sgn (f_ofZ t (-1)) = true.
Proof.
  clear n. assert (E : f_ofZ t (-1) = fneg (f_ofZ t 1)) by (apply bits_inj; destruct t; vm_compute; reflexivity).
  destruct (one_fin (t := t)) as (O1 & O2 & O3). unfold one in *. rewrite E, isfin_fneg, val_fneg, O2, sgn_fneg, O3. repeat split; assumption || lra || reflexivity.
Qed.
Lemma fmul_minus_one x : isnan x = false -> fmul n x (f_ofZ t (-1)) = fneg x.
Proof.
  intros Hx. destruct minus_one_fin as (O1 & O2 & O3). destruct (isfin x) eqn:Fx.
  - assert (E : rnd t (val x * val (f_ofZ t (-1))) = (- val x)%R).
    { rewrite O2. replace (val x * -1)%R with (- val x)%R by ring. rewrite rnd_opp, rnd_val. reflexivity. }
    destruct (fmul_fin n x (f_ofZ t (-1))) as (A1 & A2 & A3); auto.
    { rewrite E, Rabs_Ropp. apply val_lt_emax. }
    rewrite E in A2. rewrite O3, xorb_true_r in A3. apply fin_eq; [exact A1|rewrite isfin_fneg; exact Fx|rewrite A2, val_fneg; reflexivity|rewrite A3, sgn_fneg; reflexivity].
  - destruct x as [s|s|s pl H|s m e H]; try discriminate. clear. destruct t; destruct s; vm_compute; reflexivity.
Qed.
Lemma sub_steps x y : same_or_nan (fsub n x y) (fadd n x (fmul n y (f_ofZ t (-1)))).
Proof.
  destruct (isnan y) eqn:N.
  - right. split; [destruct x, y; try discriminate; cbn; first [reflexivity|apply pn]|apply nan_fadd; right; apply nan_fmul; auto].
  - rewrite fmul_minus_one by exact N. apply fsub_add.
Qed.
Lemma same_of_bits x y : same_bits x y -> same_or_nan x y. Proof. intros H. left. exact H. Qed.
Lemma cube_steps I x : same_or_nan (vcube I n x) (vmul I n (vsquare I n x) x).
Proof. unfold vcube, vsquare. destruct I; try apply vmul_comm; destruct t; first [apply same_refl|apply vmul_comm]. Qed.
Lemma clip2_clip_scalar x l : isnan x = false -> isnan l = false ->
  equal_numbers (smax (fsub n (f_ofZ t 0) l) (smin x l)) (smax (smin x l) (fneg l)).
Proof.
  intros Nx Nl. eapply rep_feq; [apply smax_rep; [apply fsub_zero_l; exact Nl|apply smin_rep; apply rep_self; assumption]|].
  rewrite Z.max_comm. apply smax_rep; [apply smin_rep; apply rep_self; assumption|apply rep_neg, rep_self; exact Nl].
Qed.
Lemma clip2_clip I x l : isnan x = false -> isnan l = false ->
  equal_numbers (vmax I n (fsub n (f_ofZ t 0) l) (vmin I n x l)) (vmax I n (vmin I n x l) (fneg l)).
Proof.
  intros Nx Nl. eapply rep_feq; [apply vmax_rep; [apply fsub_zero_l; exact Nl|apply vmin_rep; apply rep_self; assumption]|].
  rewrite Z.max_comm. apply vmax_rep; [apply vmin_rep; apply rep_self; assumption|apply rep_neg, rep_self; exact Nl].
Qed.
Lemma abs_rep x : isnan x = false -> rep (fabs x) (Z.max (ord x) (- ord x)).
Proof.
  intros N. split; [destruct x; try reflexivity; exact N|]. destruct (sgn x) eqn:S.
  - rewrite fabs_cond, S, ord_fneg. destruct (Z_lt_le_dec 0 (ord x)) as [L|L]; [apply ord_pos_sgn in L; congruence|lia].
  - rewrite fabs_cond, S. destruct (Z_lt_le_dec (ord x) 0) as [L|L]; [apply ord_sgn in L; congruence|lia].
Qed.
Lemma abs_steps I x : isnan x = false -> equal_numbers (fabs x) (vmax I n x (fsub n (f_ofZ t 0) x)).
Proof. intros N. eapply rep_feq; [apply abs_rep; exact N|]. apply vmax_rep; [apply rep_self; exact N|apply fsub_zero_l; exact N]. Qed.
Lemma abs_steps_scalar x : isnan x = false -> equal_numbers (fabs x) (smax x (fsub n (f_ofZ t 0) x)).
Proof. exact (abs_steps GEN x). Qed.
End T.

(** The second call: its arguments fit in the memory the first has left. *)
Ltac refit L := first [assumption | solve [repeat split] | solve [eapply left_accessible; [exact L|tauto]] | solve [eapply left_fit; [exact L|tauto]] | solve [eapply left_simd_fit; [exact L|tauto]] | tauto].
Ltac fitc := first [assumption | solve [repeat split] | tauto].
(** What the second call reads. *)
Ltac steps L :=
  let i := fresh "i" in let Hi := fresh "Hi" in let U := fresh "U" in let V := fresh "V" in
  intros i ? ? Hi; cbv beta; rewrite ?(left_tmp _ _ _ _ _ _ _ L) by assumption; cbv beta;
  repeat match type of L with left_by ?m ?m2 _ _ _ => match goal with |- context [sample ?ar m2 ?a i] =>
    rewrite (left_sample ar m m2 _ _ _ a i L) by first [assumption|exact Logic.I] end end;
  repeat match type of L with left_by ?m _ _ _ _ => match goal with n : nans _ |- context [m (?p + i)] =>
    change (m (p + i)) with (sample (farith n) m (APtr p) i) end end;
  cbn [o_zero o_one o_add o_sub o_mul o_div o_max o_min o_madd fops fops_scalar];
  repeat (match goal with |- context [sample ?ar ?m ?a i] =>
    let s := fresh "s" in let E := fresh "E" in destruct (sample ar m a i) as [s|] eqn:E end);
  cbn [lift1 lift2 lift3 lift4]; intros U V; try discriminate U; try discriminate V; injection U as <-; injection V as <-;
  repeat match goal with H : samples _ _ _ ?a _, E1 : sample _ _ ?a i = Some ?x |- _ =>
    let K := fresh "K" in pose proof (H i x Hi E1) as K; clear H end;
  repeat match goal with E1 : sample _ _ (AScal ?k) i = Some ?x |- _ => cbn [sample] in E1; assert (x = k) as -> by congruence; clear E1 end.
(** Example data: a machine without FMA. *)
Definition no_fma : cfg := {| has_sse2 := true; has_sse3 := true; has_sse41 := true; has_fma := false |}.
Lemma polar_number_16 n p : 0 <= p -> p <= 48 -> samples (farith n) number polar (APtr p) 16.
Proof. intros H1 H2 i x Hi. apply (polar_number n p H1 H2). lia. Qed.
Ltac chain_tac := unfold call_fits, simd_call_fits;
  repeat match goal with |- _ /\ _ => split | |- Forall _ _ => constructor end;
  lazymatch goal with
  | |- samples _ number _ (APtr _) _ => apply polar_number_16; lia
  | |- clear_of _ _ _ => cbn [clear_of]; first [exact Logic.I|lia]
  | |- arg_fit _ _ _ _ => split; [first [exact Logic.I|apply accessible_block; vm_compute; congruence]|first [exact Logic.I|cbn; lia]]
  | |- simd_fit _ _ _ _ _ => split; [first [exact Logic.I|apply accessible_block; vm_compute; congruence]|split; [first [exact Logic.I|cbn; lia]|first [exact Logic.I|apply Z.mod_divide; [discriminate|reflexivity]]]]
  | |- plain _ => exact Logic.I
  | |- accessible _ _ _ => apply accessible_block; vm_compute; congruence
  | |- legal_simd_length _ _ => split; [split; reflexivity|apply Z.mod_divide; [discriminate|reflexivity]]
  | |- aligned _ _ => apply Z.mod_divide; [discriminate|reflexivity]
  | |- _ => first [reflexivity|lia|discriminate]
  end.
