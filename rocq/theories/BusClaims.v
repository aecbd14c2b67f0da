(** Proofs of the statements of Prop_Bus.v. *)
From Coq Require Import ZArith Reals List Lia Bool Lra Permutation.
From Flocq Require Import Core IEEE754.Binary IEEE754.Bits.
From Verif Require Import
  Base Mem Backend Args MemFuns Drivers Functors Lanes Float LaneOps Reduce FloatOps VecMath FloatFuns Spec SpecLane SpecReduce SpecDrift SpecAgree SpecAlike SpecSwap SpecChain SpecParts SpecBus
  FloatFacts LaneFacts FloatRound VecFacts VecMore MemClaims ReduceFloat ReduceMore SumErr AgreeFacts AlikeFacts ExData ExFloat ExMath SwapFacts ChainFacts PartsFacts CallsFacts BusFacts.
Import ListNotations.
Local Open Scope Z_scope.

Lemma C93_bus_lemma : 
  forall A (ar : arith A) (m : mem A) (out len : Z) (ps : list Z), bus_fits m out len ps ->
    mixes (fun l r => r = fold_left (a_add ar) l (a_zero ar)) m (in_turn ((fun m => zerovec ar m out len) :: map (fun p m => addvec ar m out p len) ps) m) out len ps.
Proof.
  intros A ar m out len ps H. apply (mixes_of_leaves ar); [exact H|apply bus_leaves; exact H|]. reflexivity.
Qed.

Lemma C93_bus_simd_lemma : 
  forall A (ar : arith A) (B : backend) (m : mem A) (out len : Z) (ps : list Z), simd_bus_fits B m out len ps ->
    mixes (fun l r => r = fold_left (a_add ar) l (a_zero ar)) m (in_turn ((fun m => zerovec_simd ar B m out len) :: map (fun p m => addvec_simd ar B m out p len) ps) m) out len ps.
Proof.
  intros A ar B m out len ps H. apply (mixes_of_leaves ar); [apply H|apply simd_bus_leaves; exact H|]. reflexivity.
Qed.

Lemma C93_scalar_and_simd_agree_lemma : 
  forall A (ar : arith A) (B : backend) (m : mem A) (out len : Z) (ps : list Z), simd_bus_fits B m out len ps ->
    Spec.same_effect (in_turn ((fun m => zerovec ar m out len) :: map (fun p m => addvec ar m out p len) ps) m) (in_turn ((fun m => zerovec_simd ar B m out len) :: map (fun p m => addvec_simd ar B m out p len) ps) m).
Proof.
  intros A ar B m out len ps H. eapply same_of_leaves; [apply bus_leaves; apply H|apply simd_bus_leaves; exact H|]. reflexivity.
Qed.

Lemma C93_integers_lemma : 
  forall (t : fmt) (n : nans t) (m : mem (F t)) (out len : Z) (ps : list Z), bus_fits m out len ps ->
    mixes (fun l r => forall ks, integers l ks -> zsum_abs ks <= 2 ^ prec t -> isfin r = true /\ val r = IZR (zsum ks)) m
      (in_turn ((fun m => zerovec (farith n) m out len) :: map (fun p m => addvec (farith n) m out p len) ps) m) out len ps.
Proof.
  intros t n m out len ps H. apply (mixes_of_leaves (farith n)); [exact H|apply bus_leaves; exact H|]. intros l ks Hl Hb. exact (sum_int n l ks Hl Hb).
Qed.

Lemma C93_integers_simd_lemma : 
  forall (B : backend) (n : nans (fmt_of B)) (m : mem (F (fmt_of B))) (out len : Z) (ps : list Z), simd_bus_fits B m out len ps ->
    mixes (fun l r => forall ks, integers l ks -> zsum_abs ks <= 2 ^ prec (fmt_of B) -> isfin r = true /\ val r = IZR (zsum ks)) m
      (in_turn ((fun m => zerovec_simd (farith n) B m out len) :: map (fun p m => addvec_simd (farith n) B m out p len) ps) m) out len ps.
Proof.
  intros B n m out len ps H. apply (mixes_of_leaves (farith n)); [apply H|apply simd_bus_leaves; exact H|]. intros l ks Hl Hb. exact (sum_int n l ks Hl Hb).
Qed.

Lemma C93_rounding_lemma : 
  forall (t : fmt) (n : nans t) (m : mem (F t)) (out len : Z) (ps : list Z), bus_fits m out len ps ->
    mixes (fun l r => all_finite l -> sum_fits l -> near_sum l r) m
      (in_turn ((fun m => zerovec (farith n) m out len) :: map (fun p m => addvec (farith n) m out p len) ps) m) out len ps.
Proof.
  intros t n m out len ps H. apply (mixes_of_leaves (farith n)); [exact H|apply bus_leaves; exact H|]. intros l Hl Hb. unfold near_sum, sum_fits in *. rewrite Nat.sub_1_r in *. exact (fold_sum_err0 n l Hl Hb).
Qed.

Lemma C93_rounding_simd_lemma : 
  forall (B : backend) (n : nans (fmt_of B)) (m : mem (F (fmt_of B))) (out len : Z) (ps : list Z), simd_bus_fits B m out len ps ->
    mixes (fun l r => all_finite l -> sum_fits l -> near_sum l r) m
      (in_turn ((fun m => zerovec_simd (farith n) B m out len) :: map (fun p m => addvec_simd (farith n) B m out p len) ps) m) out len ps.
Proof.
  intros B n m out len ps H. apply (mixes_of_leaves (farith n)); [apply H|apply simd_bus_leaves; exact H|]. intros l Hl Hb. unfold near_sum, sum_fits in *. rewrite Nat.sub_1_r in *. exact (fold_sum_err0 n l Hl Hb).
Qed.

Lemma C93_any_order_lemma : 
  forall A (ar : arith A) (m : mem A) (out len : Z) (ps qs : list Z),
    exact_arith ar -> Permutation ps qs -> bus_fits m out len ps ->
    Spec.same_effect (in_turn ((fun m => zerovec ar m out len) :: map (fun p m => addvec ar m out p len) ps) m) (in_turn ((fun m => zerovec ar m out len) :: map (fun p m => addvec ar m out p len) qs) m).
Proof.
  intros A ar m out len ps qs X P H. eapply same_of_leaves; [apply bus_leaves; exact H|apply bus_leaves; exact (fits_perm _ _ _ _ _ P H)|].
  intros i _. apply mixed_perm; assumption.
Qed.

Lemma C93_any_order_refuted_lemma : 
  forall (n : nans F32), exists (m : mem (F F32)) (out len : Z) (ps qs : list Z), Permutation ps qs /\ bus_fits m out len ps /\
    ~ Spec.same_effect (in_turn ((fun m => zerovec (farith n) m out len) :: map (fun p m => addvec (farith n) m out p len) ps) m) (in_turn ((fun m => zerovec (farith n) m out len) :: map (fun p m => addvec (farith n) m out p len) qs) m).
Proof.
  intros n. exists (block 0 8 (fun a => f_lit F32 (if a =? 1 then 16777216 else if a =? 2 then -16777216 else 1) 0)), 0, 1, [1; 2; 3], [1; 3; 2].
  split; [constructor; constructor|]. split; [bus_ex|]. intros (m1 & m2 & E1 & E2 & H). specialize (H 0).
  match type of E1 with ?r = _ => assert (K1 : match r with Ok m => option_map bits (m 0) | Fault _ => None end = Some (bits (f_ofZ F32 1))) by (vm_compute; reflexivity) end.
  match type of E2 with ?r = _ => assert (K2 : match r with Ok m => option_map bits (m 0) | Fault _ => None end = Some (bits (f_ofZ F32 0))) by (vm_compute; reflexivity) end.
  rewrite E1 in K1. rewrite E2 in K2. rewrite H in K1. rewrite K1 in K2. vm_compute in K2. discriminate K2.
Qed.

Lemma C93_bus_of_2_lemma : 
  forall (t : fmt) (n : nans t) (m : mem (F t)) (out p1 p2 len : Z), bus_fits m out len [p1; p2] ->
    same_in_turn same_number m (plus_vec (farith n) (fops_scalar n) m out (APtr p1) (APtr p2) len)
      ((fun m => zerovec (farith n) m out len) :: map (fun p m => addvec (farith n) m out p len) [p1; p2]) out len.
Proof.
  intros t n m out p1 p2 len H. destruct (bus_leaves (farith n) m out len _ H) as (m2 & E2 & W2 & _).
   destruct H as (H1 & H2 & H3). rewrite !Forall_cons_iff in H3.
  assert (L : leaves m (plus_vec (farith n) (fops_scalar n) m out (APtr p1) (APtr p2) len) out len (fun i => lift2 (fun x y => fadd n x y) (m (p1 + i)) (m (p2 + i)))) by (apply C18_plus_vec_lemma; first [assumption|exact Logic.I|apply clear_fit; tauto]).
  destruct L as (m1 & E1 & W1 & _). exists m1, m2. split; [exact E1|]. split; [exact E2|]. intros i Hi. destruct (W1 i Hi) as [V1 V2], (W2 i Hi) as [V3 V4].
  unfold mixed_from in V3, V4. cbn [fold_left] in V3, V4. rewrite V1, V3. clear V1 V3 V4.
  destruct (m (p1 + i)) as [x1|]; [|exfalso; apply V2; reflexivity]. destruct (m (p2 + i)) as [x2|]; [|exfalso; apply V2; reflexivity].
  cbn [lift2 lift2]. do 2 eexists. split; [reflexivity|]. split; [reflexivity|]. apply add_same. apply zero_plus.
Qed.

Lemma C93_bus_of_3_lemma : 
  forall (t : fmt) (n : nans t) (m : mem (F t)) (out p1 p2 p3 len : Z), bus_fits m out len [p1; p2; p3] ->
    same_in_turn same_number m (sum_vec3 (farith n) (fops_scalar n) m out (APtr p1) (APtr p2) (APtr p3) len)
      ((fun m => zerovec (farith n) m out len) :: map (fun p m => addvec (farith n) m out p len) [p1; p2; p3]) out len.
Proof.
  intros t n m out p1 p2 p3 len H. destruct (bus_leaves (farith n) m out len _ H) as (m2 & E2 & W2 & _).
   destruct H as (H1 & H2 & H3). rewrite !Forall_cons_iff in H3.
  assert (L : leaves m (sum_vec3 (farith n) (fops_scalar n) m out (APtr p1) (APtr p2) (APtr p3) len) out len (fun i => lift3 (fun x y z => fadd n (fadd n x y) z) (m (p1 + i)) (m (p2 + i)) (m (p3 + i)))) by (apply C18_sum_vec3_lemma; first [assumption|exact Logic.I|apply clear_fit; tauto]).
  destruct L as (m1 & E1 & W1 & _). exists m1, m2. split; [exact E1|]. split; [exact E2|]. intros i Hi. destruct (W1 i Hi) as [V1 V2], (W2 i Hi) as [V3 V4].
  unfold mixed_from in V3, V4. cbn [fold_left] in V3, V4. rewrite V1, V3. clear V1 V3 V4.
  destruct (m (p1 + i)) as [x1|]; [|exfalso; apply V2; reflexivity]. destruct (m (p2 + i)) as [x2|]; [|exfalso; apply V2; reflexivity]. destruct (m (p3 + i)) as [x3|]; [|exfalso; apply V2; reflexivity].
  cbn [lift2 lift3]. do 2 eexists. split; [reflexivity|]. split; [reflexivity|]. apply add_same. apply add_same. apply zero_plus.
Qed.

Lemma C93_bus_of_2_simd_lemma : 
  forall (c : cfg) (B : backend) (n : nans (fmt_of B)) (m : mem (F (fmt_of B))) (out p1 p2 len : Z), simd_bus_fits B m out len [p1; p2] ->
    same_in_turn same_number m (plus_vec_simd (farith n) (fops c B n) B m out (APtr p1) (APtr p2) len)
      ((fun m => zerovec_simd (farith n) B m out len) :: map (fun p m => addvec_simd (farith n) B m out p len) [p1; p2]) out len.
Proof.
  intros c B n m out p1 p2 len H. destruct (simd_bus_leaves (farith n) B m out len _ H) as (m2 & E2 & W2 & _).
  destruct H as (Hl & Ha & H & Hp). rewrite !Forall_cons_iff in Hp. destruct H as (H1 & H2 & H3). rewrite !Forall_cons_iff in H3.
  assert (L : leaves m (plus_vec_simd (farith n) (fops c B n) B m out (APtr p1) (APtr p2) len) out len (fun i => lift2 (fun x y => fadd n x y) (m (p1 + i)) (m (p2 + i)))) by (apply C18_plus_vec_simd_lemma; first [assumption|exact Logic.I|apply clear_simd_fit; tauto]).
  destruct L as (m1 & E1 & W1 & _). exists m1, m2. split; [exact E1|]. split; [exact E2|]. intros i Hi. destruct (W1 i Hi) as [V1 V2], (W2 i Hi) as [V3 V4].
  unfold mixed_from in V3, V4. cbn [fold_left] in V3, V4. rewrite V1, V3. clear V1 V3 V4.
  destruct (m (p1 + i)) as [x1|]; [|exfalso; apply V2; reflexivity]. destruct (m (p2 + i)) as [x2|]; [|exfalso; apply V2; reflexivity].
  cbn [lift2 lift2]. do 2 eexists. split; [reflexivity|]. split; [reflexivity|]. apply add_same. apply zero_plus.
Qed.

Lemma C93_bus_of_3_simd_lemma : 
  forall (c : cfg) (B : backend) (n : nans (fmt_of B)) (m : mem (F (fmt_of B))) (out p1 p2 p3 len : Z), simd_bus_fits B m out len [p1; p2; p3] ->
    same_in_turn same_number m (sum_vec3_simd (farith n) (fops c B n) B m out (APtr p1) (APtr p2) (APtr p3) len)
      ((fun m => zerovec_simd (farith n) B m out len) :: map (fun p m => addvec_simd (farith n) B m out p len) [p1; p2; p3]) out len.
Proof.
  intros c B n m out p1 p2 p3 len H. destruct (simd_bus_leaves (farith n) B m out len _ H) as (m2 & E2 & W2 & _).
  destruct H as (Hl & Ha & H & Hp). rewrite !Forall_cons_iff in Hp. destruct H as (H1 & H2 & H3). rewrite !Forall_cons_iff in H3.
  assert (L : leaves m (sum_vec3_simd (farith n) (fops c B n) B m out (APtr p1) (APtr p2) (APtr p3) len) out len (fun i => lift3 (fun x y z => fadd n (fadd n x y) z) (m (p1 + i)) (m (p2 + i)) (m (p3 + i)))) by (apply C18_sum_vec3_simd_lemma; first [assumption|exact Logic.I|apply clear_simd_fit; tauto]).
  destruct L as (m1 & E1 & W1 & _). exists m1, m2. split; [exact E1|]. split; [exact E2|]. intros i Hi. destruct (W1 i Hi) as [V1 V2], (W2 i Hi) as [V3 V4].
  unfold mixed_from in V3, V4. cbn [fold_left] in V3, V4. rewrite V1, V3. clear V1 V3 V4.
  destruct (m (p1 + i)) as [x1|]; [|exfalso; apply V2; reflexivity]. destruct (m (p2 + i)) as [x2|]; [|exfalso; apply V2; reflexivity]. destruct (m (p3 + i)) as [x3|]; [|exfalso; apply V2; reflexivity].
  cbn [lift2 lift3]. do 2 eexists. split; [reflexivity|]. split; [reflexivity|]. apply add_same. apply add_same. apply zero_plus.
Qed.
