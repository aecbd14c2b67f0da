(** Proofs of the statements of Prop_Lane.v. *)
From Coq Require Import ZArith Reals List Lia Bool Lra.
From Flocq Require Import Core IEEE754.Binary IEEE754.Bits.
From Verif Require Import
  Base Mem Backend Args Drivers Functors Lanes Float LaneOps FloatOps ScalarMath VecMath FloatFuns Spec SpecLane
  FloatFacts LaneFacts LaneMore FloatRound ReduceMore VecFacts VecMore VecMore2 DriverClaims DriverClaims2 MemClaims ExFloat.
Import ListNotations.
Local Open Scope Z_scope.

Lemma C28_lane_is_one_or_zero_lemma : 
  forall t (c : cfg) (I : isa) (r : rel) (a b : F t),
    oprel c I r a b = f_ofZ t 1 \/ oprel c I r a b = f_ofZ t 0.
Proof.
  intros t c I r a b. rewrite oprel_val. destruct (vrel I r a b); auto.
Qed.

Lemma C28_lane_equals_scalar_lemma : 
  forall t (c : cfg) (I : isa) (r : rel) (a b : F t),
    I <> AVX \/ (number a /\ number b) ->
    oprel c I r a b = if srel r a b then f_ofZ t 1 else f_ofZ t 0.
Proof.
  intros t c I r a b H. rewrite oprel_val, vrel_srel.
  replace (avx_hole I r a b) with false; [rewrite orb_false_r; reflexivity|].
  destruct I; try reflexivity. destruct H as [H|[Ha Hb]]; [congruence|]. unfold number in *.
  destruct r; try reflexivity; cbn [avx_hole]; rewrite Ha, Hb; reflexivity.
Qed.

Lemma C28_comparison_of_finite_numbers_lemma : 
  forall t (c : cfg) (I : isa) (r : rel) (a b : F t),
    isfin a = true -> isfin b = true ->
    (real_rel r (val a) (val b) -> oprel c I r a b = f_ofZ t 1) /\
    (~ real_rel r (val a) (val b) -> oprel c I r a b = f_ofZ t 0).
Proof.
  intros t c I r a b Ha Hb. rewrite C28_lane_equals_scalar_lemma by (right; split; apply fin_not_nan; assumption).
  pose proof (srel_real r a b Ha Hb) as H. destruct (srel r a b); split; intros K; try reflexivity; exfalso; [tauto|].
  apply H in K. discriminate.
Qed.

Lemma C28_comparison_with_infinities_lemma : 
  forall t (c : cfg) (I : isa) (r : rel) (a b : F t),
    number a -> number b ->
    (real_rel r (xval a) (xval b) -> oprel c I r a b = f_ofZ t 1) /\
    (~ real_rel r (xval a) (xval b) -> oprel c I r a b = f_ofZ t 0).
Proof.
  intros t c I r a b Ha Hb. rewrite C28_lane_equals_scalar_lemma by (right; split; assumption).
  pose proof (srel_xval r a b Ha Hb) as H. destruct (srel r a b); split; intros K; try reflexivity; exfalso; [tauto|].
  apply H in K. discriminate.
Qed.

Lemma C28_comparison_with_nan_lemma : 
  forall t (c : cfg) (I : isa) (r : rel) (a b : F t),
    I <> AVX -> isnan a = true \/ isnan b = true ->
    oprel c I r a b = match r with NE => f_ofZ t 1 | _ => f_ofZ t 0 end.
Proof.
  intros t c I r a b HI H. rewrite C28_lane_equals_scalar_lemma by (left; exact HI).
  rewrite srel_nan by exact H. destruct r; reflexivity.
Qed.

Lemma C28_avx_greater_holds_for_nan_lemma : 
  forall t (c : cfg) (r : rel) (a b : F t),
    r = GT \/ r = GE -> isnan a = true \/ isnan b = true ->
    oprel c AVX r a b = f_ofZ t 1 /\ srel r a b = false.
Proof.
  intros t c r a b Hr H. rewrite oprel_val, vrel_srel, srel_nan by exact H.
  destruct Hr as [-> | ->]; (split; [|reflexivity]); cbn [avx_hole nan_rel orb]; destruct H as [-> | ->]; rewrite ?orb_true_r; reflexivity.
Qed.

Lemma C28_avx_equals_scalar_refuted_lemma : 
  exists (r : rel) (a b : F F32), bits (oprel all_ext AVX r a b) <> bits (if srel r a b then f_ofZ F32 1 else f_ofZ F32 0).
Proof.
  exists GT, (qnan F32), (f_ofZ F32 0). vm_compute. discriminate.
Qed.

Lemma C28_compare_vec_simd_equals_compare_vec_lemma : 
  forall (c : cfg) (B : backend) (n : nans (fmt_of B)) (m : mem (F (fmt_of B))) (out : Z) (a1 a2 : arg (F (fmt_of B))) (len : Z) (r : rel),
    legal_simd_length B len -> aligned B out -> accessible m out len ->
    simd_fit B m out len a1 -> plain a1 -> simd_fit B m out len a2 -> plain a2 ->
    isa_of B <> AVX \/ (each_arg number m a1 len /\ each_arg number m a2 len) ->
    let result := fun i => lift2 (fun x y => if srel r x y then f_ofZ (fmt_of B) 1 else f_ofZ (fmt_of B) 0)
                             (sample (farith n) m a1 i) (sample (farith n) m a2 i) in
    leaves m (compare_vec n r m out a1 a2 len) out len result /\
    leaves m (compare_vec_simd c B n r m out a1 a2 len) out len result.
Proof.
  intros c B n m out a1 a2 len r H1 H2 H3 H4 P1 H5 P2 HN result. split.
  - eapply leaves_ext; [|apply binary_leaves; [apply H1|assumption|eapply fit_of_simd; eassumption..]].
    intros i Hi. subst result. cbv beta. destruct r; reflexivity.
  - unfold compare_vec_simd. replace (o_rel (vops B (fops c B n)) r) with (map2 (o_rel (fops c B n) r)) by (destruct r; reflexivity).
    eapply leaves_ext; [|apply binary_simd_leaves; assumption].
    intros i Hi. subst result. cbv beta. destruct (sample (farith n) m a1 i) as [x|] eqn:E1; [|reflexivity].
    destruct (sample (farith n) m a2 i) as [y|] eqn:E2; [|reflexivity]. cbn [lift2]. f_equal.
    rewrite <- (C28_lane_equals_scalar_lemma (fmt_of B) c (isa_of B)); [destruct r; reflexivity|].
    destruct HN as [HN|[N1 N2]]; [left; exact HN|right]. split;
      [exact (each_sample (farith n) number m a1 len i x N1 Hi E1)|exact (each_sample (farith n) number m a2 len i y N2 Hi E2)].
Qed.

Lemma C29_select_by_comparison_lemma : 
  forall t (c : cfg) (I : isa) (r : rel) (a b lhs rhs : F t),
    I <> NEON -> (I = AVX -> r = GT \/ r = GE -> number a /\ number b) ->
    bits (select c I lhs rhs (vmask I r a b)) = if srel r a b then bits rhs else bits lhs.
Proof.
  intros t c I r a b lhs rhs HI HA. rewrite select_vmask, vrel_srel by exact HI.
  replace (avx_hole I r a b) with false; [rewrite orb_false_r; destruct (srel r a b); reflexivity|].
  destruct I; try reflexivity. destruct r; try reflexivity; destruct HA as [Ha Hb]; auto; unfold number in *; cbn [avx_hole]; rewrite Ha, Hb; reflexivity.
Qed.

Lemma C29_avx_greater_selects_rhs_for_nan_lemma : 
  forall t (c : cfg) (r : rel) (a b lhs rhs : F t),
    r = GT \/ r = GE -> isnan a = true \/ isnan b = true ->
    select c AVX lhs rhs (vmask AVX r a b) = rhs /\ srel r a b = false.
Proof.
  intros t c r a b lhs rhs Hr H. rewrite select_vmask, vrel_srel, srel_nan by (discriminate || exact H).
  destruct Hr as [-> | ->]; (split; [|reflexivity]); cbn [avx_hole nan_rel orb]; destruct H as [-> | ->]; rewrite ?orb_true_r; reflexivity.
Qed.

Lemma C29_neon_select_is_reversed_lemma : 
  forall t (c : cfg) (r : rel) (a b lhs rhs : F t),
    bits (select c NEON lhs rhs (vmask NEON r a b)) = if srel r a b then bits lhs else bits rhs.
Proof.
  intros t c r a b lhs rhs. rewrite select_neon. destruct (srel r a b); reflexivity.
Qed.

Lemma C29_neon_select_refuted_lemma : 
  exists (r : rel) (a b lhs rhs : F F32),
    bits (select all_ext NEON lhs rhs (vmask NEON r a b)) <> if srel r a b then bits rhs else bits lhs.
Proof.
  exists LT, (f_ofZ F32 1), (f_ofZ F32 2), (f_ofZ F32 3), (f_ofZ F32 4). vm_compute. discriminate.
Qed.

Lemma C30_andnot_bits_lemma : 
  forall t (x y : F t) (k : Z),
    0 <= k < width t ->
    (forall I, I = SSE \/ I = AVX -> Z.testbit (bits (andnot I x y)) k = negb (Z.testbit (bits x) k) && Z.testbit (bits y) k) /\
    (forall I, I = NEON \/ I = ALTIVEC -> Z.testbit (bits (andnot I x y)) k = Z.testbit (bits x) k && negb (Z.testbit (bits y) k)).
Proof.
  intros t x y k Hk.
  assert (N : forall z : F t, Z.testbit (bits (bnot z)) k = negb (Z.testbit (bits z) k)).
  { intros z. apply bnot_testbit. exact Hk. }
  split; intros I [-> | ->]; cbn [andnot]; rewrite bits_band, Z.land_spec, N; reflexivity.
Qed.

Lemma C30_back_ends_agree_iff_equal_lemma : 
  forall t (x y : F t) (I J : isa),
    I = SSE \/ I = AVX -> J = NEON \/ J = ALTIVEC ->
    (bits (andnot I x y) = bits (andnot J x y) <-> bits x = bits y).
Proof.
  intros t x y I J HI HJ. split.
  - intros E. apply Z.bits_inj'. intros k Hk. destruct (Z_lt_ge_dec k (width t)) as [L|L].
    + destruct (C30_andnot_bits_lemma t x y k) as [A B]; [lia|]. specialize (A I HI). specialize (B J HJ). rewrite E, B in A.
      destruct (Z.testbit (bits x) k), (Z.testbit (bits y) k); try reflexivity; discriminate.
    + rewrite !(testbit_above (width t)) by (apply bits_range || apply width_nonneg || lia). reflexivity.
  - intros E. apply bits_inj in E. subst y.
    apply Z.bits_inj'. intros k Hk. destruct (Z_lt_ge_dec k (width t)) as [L|L].
    + destruct (C30_andnot_bits_lemma t x x k) as [A B]; [lia|]. rewrite (A I HI), (B J HJ). apply andb_comm.
    + rewrite !(testbit_above (width t)) by (apply bits_range || apply width_nonneg || lia). reflexivity.
Qed.

Lemma C30_same_on_all_back_ends_refuted_lemma : 
  exists (I J : isa) (x y : F F32), bits (andnot I x y) <> bits (andnot J x y).
Proof.
  exists SSE, NEON, (f_ofZ F32 1), (f_ofZ F32 0). vm_compute. discriminate.
Qed.

Lemma C31_abs_clears_the_sign_bit_lemma : 
  forall t (c : cfg) (I : isa) (x : F t),
    bits (vabs c I x) = bits x mod 2 ^ (width t - 1).
Proof.
  intros t c I x. rewrite vabs_fabs. change (mag x = bits x mod 2 ^ (width t - 1)). rewrite mag_mod.
  destruct t; reflexivity.
Qed.

Lemma C31_abs_value_lemma : 
  forall t (c : cfg) (I : isa) (x : F t),
    isfin (vabs c I x) = isfin x /\ isnan (vabs c I x) = isnan x /\ sgn (vabs c I x) = false /\
    val (vabs c I x) = Rabs (val x) /\ vabs c I (vabs c I x) = vabs c I x /\ vabs c I (fneg x) = vabs c I x.
Proof.
  intros t c I x. rewrite !vabs_fabs. rewrite isfin_fabs, isnan_fabs, sgn_fabs, val_fabs.
  repeat split; destruct x; reflexivity.
Qed.

Lemma C31_abs_vec_and_abs_vec_simd_lemma : 
  forall (c : cfg) (B : backend) (n : nans (fmt_of B)) (m : mem (F (fmt_of B))) (out inp len : Z),
    legal_simd_length B len -> aligned B out -> accessible m out len -> simd_fit B m out len (APtr inp) ->
    leaves m (abs_vec B m out inp len) out len (fun i => lift1 fabs (m (inp + i))) /\
    leaves m (abs_vec_simd c B n m out inp len) out len (fun i => lift1 fabs (m (inp + i))).
Proof.
  intros c B n m out inp len H1 H2 H3 H4. apply (unary_both (farith n) B fabs (vabs c (isa_of B)) (fun _ => True)); auto.
  - intros x _. apply vabs_fabs.
  - intros i x _ _. exact Logic.I.
Qed.

Lemma C32_sign_lane_lemma : 
  forall t (c : cfg) (I : isa) (x : F t),
    (flt (f_ofZ t 0) x = true -> vsign c I x = f_ofZ t 1 /\ s_sign x = f_ofZ t 1) /\
    (flt x (f_ofZ t 0) = true -> vsign c I x = f_ofZ t (-1) /\ s_sign x = f_ofZ t (-1)) /\
    (feq x (f_ofZ t 0) = true -> feq (vsign c I x) (f_ofZ t 0) = true /\ s_sign x = f_ofZ t 0).
Proof.
  intros t c I x. rewrite !flt_iff, feq_iff, ord_zero.
  split; [|split]; intros (H1 & H2 & H); rewrite s_sign_num, vsign_num by assumption.
  - apply Z.ltb_lt in H. rewrite H. auto.
  - destruct (Z.ltb_spec 0 (ord x)); [lia|]. destruct (Z.eqb_spec (ord x) 0); [lia|auto].
  - rewrite H. cbn [Z.ltb Z.eqb Z.compare]. split; [|reflexivity].
    destruct I; [apply feq_refl, isnan_zero|..]; apply feq0_ord; auto.
Qed.

Lemma C32_sign_of_nan_lemma : 
  forall t (c : cfg) (I : isa) (x : F t),
    isnan x = true ->
    s_sign x = f_ofZ t (-1) /\
    (I <> GEN -> vsign c I x = if sgn x then f_ofZ t (-1) else f_ofZ t 1).
Proof.
  intros t c I x H. split; [apply s_sign_nan; exact H|]. intros HI. apply vsign_nan; assumption.
Qed.

Lemma C32_sign_of_minus_zero_lemma : 
  forall t (c : cfg) (I : isa),
    I <> GEN -> vsign c I (fneg (f_ofZ t 0)) = fneg (f_ofZ t 0) /\ s_sign (fneg (f_ofZ t 0)) = f_ofZ t 0.
Proof.
  intros t c I HI. split.
  - rewrite vsign_num by (destruct t; reflexivity). destruct I; try congruence; destruct t; reflexivity.
  - destruct t; reflexivity.
Qed.

Lemma C32_sgn_vec_simd_matches_sgn_vec_lemma : 
  forall (c : cfg) (B : backend) (n : nans (fmt_of B)) (m : mem (F (fmt_of B))) (out inp len : Z),
    legal_simd_length B len -> aligned B out -> accessible m out len -> simd_fit B m out len (APtr inp) ->
    each number m inp len ->
    same_numbers (sgn_vec B m out inp len) (sgn_vec_simd c B n m out inp len) out len.
Proof.
  intros c B n m out inp len H1 H2 H3 H4 HN.
  eapply leaves_numbers; [apply (unary_leaves (farith n)); [apply H1|assumption|eapply fit_of_simd; eassumption]|apply unary_simd_leaves; assumption|].
  intros i x y Hi Hx Hy. cbv beta in Hx, Hy. destruct (m (inp + i)) as [z|] eqn:E; [|discriminate].
  injection Hx as <-. injection Hy as <-. pose proof (HN i z Hi E) as Nz.
  pose proof (vsign_feq c (isa_of B) z Nz) as Q. apply feq_iff in Q. destruct Q as (Q1 & Q2 & Q3). apply feq_iff. auto.
Qed.

Lemma C32_same_for_nan_refuted_lemma : 
  exists x : F F32, bits (vsign all_ext SSE x) <> bits (s_sign x).
Proof.
  exists (qnan F32). vm_compute. discriminate.
Qed.

Lemma C33_max_and_min_of_numbers_lemma : 
  forall t (n : nans t) (I : isa) (a b : F t),
    number a -> number b ->
    (fle a (vmax I n a b) = true /\ fle b (vmax I n a b) = true /\ (vmax I n a b = a \/ vmax I n a b = b)) /\
    (fle (vmin I n a b) a = true /\ fle (vmin I n a b) b = true /\ (vmin I n a b = a \/ vmin I n a b = b)) /\
    feq (vmax I n a b) (smax a b) = true /\ feq (vmin I n a b) (smin a b) = true.
Proof.
  intros t n I a b Ha Hb.
  destruct (vmax_rep I n a b _ _ (rep_self a Ha) (rep_self b Hb)) as [X1 X2].
  destruct (vmin_rep I n a b _ _ (rep_self a Ha) (rep_self b Hb)) as [Y1 Y2].
  destruct (smax_rep a b _ _ (rep_self a Ha) (rep_self b Hb)) as [X3 X4].
  destruct (smin_rep a b _ _ (rep_self a Ha) (rep_self b Hb)) as [Y3 Y4].
  rewrite !fle_iff, !feq_iff, X2, X4, Y2, Y4. repeat split; auto; try lia.
  - unfold number in *. unfold vmax, smax. rewrite Ha, Hb. cbn [orb]. destruct I; repeat match goal with |- context [if ?q then _ else _] => destruct q end; auto.
  - unfold number in *. unfold vmin, smin. rewrite Ha, Hb. cbn [orb]. destruct I; repeat match goal with |- context [if ?q then _ else _] => destruct q end; auto.
Qed.

Lemma C33_with_a_nan_the_other_operand_lemma : 
  forall t (n : nans t) (I : isa) (a b : F t),
    I = SSE \/ I = AVX -> isnan a = true \/ isnan b = true ->
    vmax I n a b = b /\ vmin I n a b = b /\ smax a b = a /\ smin a b = a.
Proof.
  intros t n I a b HI H. assert (H' : isnan b = true \/ isnan a = true) by tauto.
  destruct HI as [-> | ->]; unfold vmax, vmin, smax, smin, fgt, flt; rewrite !compare_nan by assumption; auto.
Qed.

Lemma C33_with_a_nan_refuted_lemma : 
  exists a b : F F32, bits (vmax SSE (n0 F32) a b) <> bits (smax a b).
Proof.
  exists (qnan F32), (f_ofZ F32 1). vm_compute. discriminate.
Qed.

Lemma C33_max_vec_simd_matches_max_vec_lemma : 
  forall (c : cfg) (B : backend) (n : nans (fmt_of B)) (m : mem (F (fmt_of B))) (out : Z) (a1 a2 : arg (F (fmt_of B))) (len : Z),
    legal_simd_length B len -> aligned B out -> accessible m out len ->
    simd_fit B m out len a1 -> plain a1 -> simd_fit B m out len a2 -> plain a2 ->
    each_arg number m a1 len -> each_arg number m a2 len ->
    same_numbers (max_vec (farith n) (fops_scalar n) m out a1 a2 len)
                 (max_vec_simd (farith n) (fops c B n) B m out a1 a2 len) out len.
Proof.
  intros c B n m out a1 a2 len H1 H2 H3 H4 P1 H5 P2 N1 N2.
  eapply leaves_numbers; [apply binary_leaves; [apply H1|assumption|eapply fit_of_simd; eassumption..]|apply binary_simd_leaves; assumption|].
  intros i x y Hi Hx Hy. cbv beta in Hx, Hy. destruct (sample (farith n) m a1 i) as [u|] eqn:E1; [|discriminate].
  destruct (sample (farith n) m a2 i) as [v|] eqn:E2; [|discriminate]. injection Hx as <-. injection Hy as <-.
  destruct (C33_max_and_min_of_numbers_lemma _ n (isa_of B) u v) as (_ & _ & Q1 & Q2); [exact (each_sample (farith n) number m a1 len i u N1 Hi E1)|exact (each_sample (farith n) number m a2 len i v N2 Hi E2)|].
  apply feq_iff in Q1, Q2. apply feq_iff. cbn [o_max o_min fops fops_scalar]. intuition.
Qed.

Lemma C33_min_vec_simd_matches_min_vec_lemma : 
  forall (c : cfg) (B : backend) (n : nans (fmt_of B)) (m : mem (F (fmt_of B))) (out : Z) (a1 a2 : arg (F (fmt_of B))) (len : Z),
    legal_simd_length B len -> aligned B out -> accessible m out len ->
    simd_fit B m out len a1 -> plain a1 -> simd_fit B m out len a2 -> plain a2 ->
    each_arg number m a1 len -> each_arg number m a2 len ->
    same_numbers (min_vec (farith n) (fops_scalar n) m out a1 a2 len)
                 (min_vec_simd (farith n) (fops c B n) B m out a1 a2 len) out len.
Proof.
  intros c B n m out a1 a2 len H1 H2 H3 H4 P1 H5 P2 N1 N2.
  eapply leaves_numbers; [apply binary_leaves; [apply H1|assumption|eapply fit_of_simd; eassumption..]|apply binary_simd_leaves; assumption|].
  intros i x y Hi Hx Hy. cbv beta in Hx, Hy. destruct (sample (farith n) m a1 i) as [u|] eqn:E1; [|discriminate].
  destruct (sample (farith n) m a2 i) as [v|] eqn:E2; [|discriminate]. injection Hx as <-. injection Hy as <-.
  destruct (C33_max_and_min_of_numbers_lemma _ n (isa_of B) u v) as (_ & _ & Q1 & Q2); [exact (each_sample (farith n) number m a1 len i u N1 Hi E1)|exact (each_sample (farith n) number m a2 len i v N2 Hi E2)|].
  apply feq_iff in Q1, Q2. apply feq_iff. cbn [o_max o_min fops fops_scalar]. intuition.
Qed.

Lemma C34_clip_confines_lemma : 
  forall (c : cfg) (B : backend) (n : nans (fmt_of B)) (v low high : F (fmt_of B)),
    number v -> fle low high = true ->
    confined v low high (clip_functor (fops_scalar n) v low high) /\
    confined v low high (clip_functor (fops c B n) v low high).
Proof.
  intros c B n v low high Hv Hl. split; [apply clip_scalar_confined|apply clip_lane_confined]; assumption.
Qed.

Lemma C34_clip2_confines_lemma : 
  forall (c : cfg) (B : backend) (n : nans (fmt_of B)) (v limit : F (fmt_of B)),
    number v -> fle (f_ofZ (fmt_of B) 0) limit = true ->
    confined v (fneg limit) limit (clip2_functor (fops_scalar n) v limit) /\
    confined v (fneg limit) limit (clip2_functor (fops c B n) v limit).
Proof.
  intros c B n v limit Hv Hl. split; [apply clip2_scalar_confined|apply clip2_lane_confined]; assumption.
Qed.

Lemma C34_clip_vec_and_clip_vec_simd_lemma : 
  forall (c : cfg) (B : backend) (n : nans (fmt_of B)) (m : mem (F (fmt_of B))) (out inp len : Z) (low high : F (fmt_of B)),
    legal_simd_length B len -> aligned B out -> accessible m out len -> simd_fit B m out len (APtr inp) ->
    each number m inp len -> fle low high = true ->
    exists r s : Z -> F (fmt_of B),
      leaves m (clip_vec (farith n) (fops_scalar n) m out (APtr inp) (AScal low) (AScal high) len) out len (fun i => Some (r i)) /\
      leaves m (clip_vec_simd (farith n) (fops c B n) B m out (APtr inp) (AScal low) (AScal high) len) out len (fun i => Some (s i)) /\
      forall i v, 0 <= i < len -> m (inp + i) = Some v -> confined v low high (r i) /\ confined v low high (s i).
Proof.
  intros c B n m out inp len low high H1 H2 H3 H4 HN Hl.
  set (get := fun i => match m (inp + i) with Some v => v | None => low end).
  exists (fun i => clip_functor (fops_scalar n) (get i) low high), (fun i => clip_functor (fops c B n) (get i) low high).
  assert (G : forall i, 0 <= i < len -> m (inp + i) = Some (get i)).
  { intros i Hi. unfold get. destruct H4 as (A & _). destruct (A i Hi) as [v E]. rewrite E. reflexivity. }
  assert (S0 : forall x : F (fmt_of B), simd_fit B m out len (AScal x)) by (intros x; repeat split).
  split; [|split].
  - eapply leaves_ext; [|apply C01_foo_vec_maps_ternary_lemma; [apply H1|assumption|apply (fit_of_simd B)..]]; auto.
    intros i Hi. cbn [sample]. rewrite (G i Hi). reflexivity.
  - eapply leaves_ext; [|apply (C02_foo_vec_simd_maps_ternary_lemma _ (farith n) B _ (clip_functor (fops c B n)))]; auto; try exact Logic.I.
    + intros i Hi. cbn [sample]. rewrite (G i Hi). reflexivity.
    + apply lw_clip_vec.
  - intros i v Hi E. pose proof (G i Hi) as E'. rewrite E in E'. injection E' as <-.
    apply C34_clip_confines_lemma; [exact (HN i v Hi E)|exact Hl].
Qed.

Lemma C34_nan_sample_in_clip_lemma : 
  forall (c : cfg) (B : backend) (n : nans (fmt_of B)) (v low high : F (fmt_of B)),
    isnan v = true -> fle low high = true -> isa_of B = SSE \/ isa_of B = AVX ->
    clip_functor (fops_scalar n) v low high = v /\
    feq (clip_functor (fops c B n) v low high) high = true.
Proof.
  intros c B n v low high Hv Hl HI. split.
  - unfold clip_functor. cbn [o_max o_min fops_scalar].
    assert (E0 : smin v high = v) by (unfold smin, flt; rewrite compare_nan by auto; reflexivity). rewrite E0.
    unfold smax, flt. rewrite compare_nan by auto. reflexivity.
  - unfold clip_functor. cbn [o_max o_min fops]. apply fle_iff in Hl. destruct Hl as (L1 & L2 & L3).
    replace (vmin (isa_of B) n v high) with high.
    + destruct (vmax_rep (isa_of B) n high low _ _ (rep_self high L2) (rep_self low L1)) as [X1 X2]. apply feq_iff. rewrite X2. repeat split; auto; lia.
    + destruct HI as [-> | ->]; unfold vmin, flt; rewrite compare_nan by auto; reflexivity.
Qed.

Lemma C34_nan_sample_in_clip2_lemma : 
  forall (c : cfg) (B : backend) (n : nans (fmt_of B)) (v limit : F (fmt_of B)),
    isnan v = true -> fle (f_ofZ (fmt_of B) 0) limit = true -> isa_of B = SSE \/ isa_of B = AVX ->
    feq (clip2_functor (fops_scalar n) v limit) (fneg limit) = true /\
    feq (clip2_functor (fops c B n) v limit) limit = true.
Proof.
  intros c B n v limit Hv Hl HI. apply fle_iff in Hl. destruct Hl as (L1 & L2 & L3). rewrite ord_zero in L3.
  destruct (fsub_zero_l n limit L2) as [S1 S2]. split.
  - unfold clip2_functor. cbn [o_max o_min o_sub o_zero fops_scalar]. cbv zeta.
    assert (E : smax (fsub n (f_ofZ (fmt_of B) 0) limit) (smin v limit) = fsub n (f_ofZ (fmt_of B) 0) limit).
    { assert (E0 : smin v limit = v) by (unfold smin, flt; rewrite compare_nan by auto; reflexivity). rewrite E0.
      unfold smax, flt. rewrite compare_nan by auto. reflexivity. }
    rewrite E. apply feq_iff. rewrite isnan_fneg, ord_fneg. auto.
  - unfold clip2_functor. cbn [o_max o_min o_sub o_zero fops]. cbv zeta.
    replace (vmin (isa_of B) n v limit) with limit.
    + destruct (vmax_rep (isa_of B) n _ limit _ _ (rep_self _ S1) (rep_self limit L2)) as [X1 X2]. apply feq_iff. rewrite X2. repeat split; auto; lia.
    + destruct HI as [-> | ->]; unfold vmin, flt; rewrite compare_nan by auto; reflexivity.
Qed.

Lemma C35_lane_equals_scalar_lemma : 
  forall t (n : nans t) (c : cfg) (I : isa) (x : F t), vsoftclip c I n x = s_softclip n x.
Proof.
  intros t n c I x. apply vsoftclip_eq.
Qed.

Lemma C35_softclip_identity_lemma : 
  forall t (n : nans t) (x : F t),
    isfin x = true -> (Rabs (val x) <= / 2)%R -> s_softclip n x = x.
Proof.
  intros t n x H L. destruct (Rle_lt_or_eq_dec _ _ L) as [L'|L']; [apply softclip_inner|apply softclip_half]; assumption.
Qed.

Lemma C35_softclip_bounded_lemma : 
  forall t (n : nans t) (x : F t),
    isfin x = true -> (/ 2 <= Rabs (val x))%R ->
    isfin (s_softclip n x) = true /\ sgn (s_softclip n x) = sgn x /\
    (/ 2 <= Rabs (val (s_softclip n x)) <= 1)%R /\
    val (s_softclip n x) = rnd t (rnd t (Rabs (val x) - / 4) / val x).
Proof.
  intros t n x H L. rewrite softclip_out by assumption. destruct (softclip_outer n x H L) as (A1 & A2 & A3 & A4). auto.
Qed.

Lemma C35_softclip_odd_lemma : 
  forall t (n : nans t) (x : F t), isfin x = true -> s_softclip n (fneg x) = fneg (s_softclip n x).
Proof.
  intros t n x H. apply softclip_odd. exact H.
Qed.

Lemma C35_softclip_of_infinity_lemma : 
  forall t (n : nans t) (x : F t), isfin x = false -> number x -> isnan (s_softclip n x) = true.
Proof.
  intros t n x H N. apply softclip_inf; assumption.
Qed.

Lemma C35_softclip_vec_and_softclip_vec_simd_lemma : 
  forall (c : cfg) (B : backend) (n : nans (fmt_of B)) (m : mem (F (fmt_of B))) (out inp len : Z),
    legal_simd_length B len -> aligned B out -> accessible m out len -> simd_fit B m out len (APtr inp) ->
    same_effect (softclip_vec B n m out inp len) (softclip_vec_simd c B n m out inp len).
Proof.
  intros c B n m out inp len H1 H2 H3 H4.
  destruct (unary_both (farith n) B (s_softclip n) (vsoftclip c (isa_of B) n) (fun _ => True) m out inp len) as [A1 A2]; auto.
  - intros x _. apply vsoftclip_eq.
  - intros i x _ _. exact Logic.I.
  - eapply leaves_same; eassumption.
Qed.

Lemma C36_flushes_exactly_the_subnormals_lemma : 
  forall t (x : F t),
    (tiny x -> bits (s_undenormalize x) = 0) /\ (~ tiny x -> s_undenormalize x = x).
Proof.
  intros t x. split; [apply undenormalize_tiny|apply undenormalize_other].
Qed.

Lemma C36_lane_equals_scalar_lemma : 
  forall t (c : cfg) (I : isa) (x : F t), I <> NEON -> vundenormalize c I x = s_undenormalize x.
Proof.
  intros t c I x HI. apply vundenormalize_eq. exact HI.
Qed.

Lemma C36_undenormalize_vec_and_undenormalize_vec_simd_lemma : 
  forall (c : cfg) (B : backend) (n : nans (fmt_of B)) (m : mem (F (fmt_of B))) (out inp len : Z),
    isa_of B <> NEON ->
    legal_simd_length B len -> aligned B out -> accessible m out len -> simd_fit B m out len (APtr inp) ->
    same_effect (undenormalize_vec B m out inp len) (undenormalize_vec_simd c B n m out inp len).
Proof.
  intros c B n m out inp len HI H1 H2 H3 H4.
  destruct (unary_both (farith n) B s_undenormalize (vundenormalize c (isa_of B)) (fun _ => True) m out inp len) as [A1 A2]; auto.
  - intros x _. apply vundenormalize_eq. exact HI.
  - intros i x _ _. exact Logic.I.
  - eapply leaves_same; eassumption.
Qed.

Lemma C37_signed_sqrt_value_lemma : 
  forall t (n : nans t) (x : F t),
    isfin x = true ->
    isfin (s_signed_sqrt n x) = true /\ sgn (s_signed_sqrt n x) = sgn x /\
    Rabs (val (s_signed_sqrt n x)) = rnd t (sqrt (Rabs (val x))).
Proof.
  intros t n x H. apply signed_sqrt_val. exact H.
Qed.

Lemma C37_lane_equals_scalar_lemma : 
  forall t (n : nans t) (c : cfg) (I : isa) (x : F t),
    I <> NEON -> number x -> vsigned_sqrt c I n x = s_signed_sqrt n x.
Proof.
  intros t n c I x _ H. apply vsigned_sqrt_eq. exact H.
Qed.

Lemma C37_odd_and_infinite_lemma : 
  forall t (n : nans t) (x : F t),
    number x -> s_signed_sqrt n (fneg x) = fneg (s_signed_sqrt n x) /\ (isfin x = false -> s_signed_sqrt n x = x).
Proof.
  intros t n x H. split; [apply signed_sqrt_odd; exact H|]. intros H'. apply signed_sqrt_inf; assumption.
Qed.

Lemma C37_signed_sqrt_vec_and_signed_sqrt_vec_simd_lemma : 
  forall (c : cfg) (B : backend) (n : nans (fmt_of B)) (m : mem (F (fmt_of B))) (out inp len : Z),
    isa_of B <> NEON ->
    legal_simd_length B len -> aligned B out -> accessible m out len -> simd_fit B m out len (APtr inp) ->
    each number m inp len ->
    same_effect (signed_sqrt_vec B n m out inp len) (signed_sqrt_vec_simd c B n m out inp len).
Proof.
  intros c B n m out inp len HI H1 H2 H3 H4 HN.
  destruct (unary_both (farith n) B (s_signed_sqrt n) (vsigned_sqrt c (isa_of B) n) number m out inp len) as [A1 A2]; auto.
  - intros x Hx. apply vsigned_sqrt_eq. exact Hx.
  - eapply leaves_same; eassumption.
Qed.

Lemma C42_constants_lemma : 
  forall t (c : cfg) (I : isa),
    I <> GEN ->
    gen_one c I = f_ofZ t 1 /\ gen_05 c I = f_lit t 1 (-1) /\ bits (gen_zero (t := t)) = 0 /\
    bits (gen_sign_mask (t := t) c I) = 2 ^ (width t - 1) /\
    bits (gen_abs_mask (t := t) c I) = 2 ^ (width t - 1) - 1 /\
    bits (gen_ones (t := t) I) = 2 ^ width t - 1.
Proof.
  intros t c I HI. rewrite gen_one_1, gen_05_half, bits_sign_mask, bits_abs_mask, gen_ones_all, bits_mask by exact HI.
  unfold gen_zero. rewrite bits_zero. repeat split; destruct t; reflexivity.
Qed.

Lemma C42_values_lemma : 
  forall t (c : cfg) (I : isa),
    isfin (gen_one (t := t) c I) = true /\ val (gen_one (t := t) c I) = 1%R /\
    isfin (gen_05 (t := t) c I) = true /\ val (gen_05 (t := t) c I) = (1 / 2)%R.
Proof.
  intros t c I. rewrite gen_one_1, gen_05_half. change (f_ofZ t 1) with (f_lit t 1 0). rewrite !f_lit_pow by (destruct t; easy).
  cbn [bpow]. repeat split; try (destruct t; reflexivity). change (Z.pow_pos radix2 1) with 2. lra.
Qed.

Lemma C42_sign_and_abs_masks_lemma : 
  forall t (c : cfg) (I : isa) (x : F t),
    bxor x (gen_sign_mask c I) = fneg x /\ band x (gen_abs_mask c I) = fabs x /\
    bor (band x (gen_sign_mask c I)) (band x (gen_abs_mask c I)) = x.
Proof.
  intros t c I x.
  assert (A : band x (gen_abs_mask c I) = fabs x).
  { apply sm_inj; rewrite ?sgn_band, ?mag_band, ?sgn_abs_mask, ?mag_abs_mask, ?sgn_fabs, ?mag_fabs; [apply andb_false_r|apply land_mag_ones]. }
  split; [apply vneg_fneg|]. split; [exact A|]. rewrite A, bor_sm by apply sgn_fabs. apply cond_fabs.
Qed.

Lemma C42_exponent_mask_lemma : 
  forall x : F F32,
    isfin x = true -> ~ tiny x ->
    exists e, isfin (band x gen_exp_mask) = true /\ val (band x gen_exp_mask) = bpow radix2 e /\
              (bpow radix2 e <= Rabs (val x) < bpow radix2 (e + 1))%R.
Proof.
  intros x H T. apply exp_mask_pow; assumption.
Qed.

Lemma C56_square_and_cube_lanes_lemma : 
  forall t (n : nans t) (I : isa) (x : F t),
    I <> ALTIVEC -> number x -> vsquare I n x = s_square n x /\ vcube I n x = s_cube n x.
Proof.
  intros t n I x HI N. split; [apply vsquare_eq|apply vcube_eq]; assumption.
Qed.

Lemma C56_square_vec_and_square_vec_simd_lemma : 
  forall (B : backend) (n : nans (fmt_of B)) (m : mem (F (fmt_of B))) (out inp len : Z),
    isa_of B <> ALTIVEC ->
    legal_simd_length B len -> aligned B out -> accessible m out len -> simd_fit B m out len (APtr inp) ->
    each number m inp len ->
    same_effect (square_vec B n m out inp len) (square_vec_simd B n m out inp len).
Proof.
  intros B n m out inp len HI H1 H2 H3 H4 HN.
  destruct (unary_both (farith n) B (s_square n) (vsquare (isa_of B) n) number m out inp len) as [A1 A2]; auto.
  - intros x Hx. apply vsquare_eq; assumption.
  - eapply leaves_same; eassumption.
Qed.

Lemma C56_cube_vec_and_cube_vec_simd_lemma : 
  forall (B : backend) (n : nans (fmt_of B)) (m : mem (F (fmt_of B))) (out inp len : Z),
    isa_of B <> ALTIVEC ->
    legal_simd_length B len -> aligned B out -> accessible m out len -> simd_fit B m out len (APtr inp) ->
    each number m inp len ->
    same_effect (cube_vec B n m out inp len) (cube_vec_simd B n m out inp len).
Proof.
  intros B n m out inp len HI H1 H2 H3 H4 HN.
  destruct (unary_both (farith n) B (s_cube n) (vcube (isa_of B) n) number m out inp len) as [A1 A2]; auto.
  - intros x Hx. apply vcube_eq; assumption.
  - eapply leaves_same; eassumption.
Qed.

Lemma C56_cube_on_altivec_refuted_lemma : 
  exists x : F F32, number x /\ bits (vcube ALTIVEC (n0 F32) x) <> bits (s_cube (n0 F32) x).
Proof.
  exists (fneg (f_ofZ F32 0)). split; [reflexivity|]. vm_compute. discriminate.
Qed.
