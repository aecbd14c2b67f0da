(** Facts about single lanes of the elementary functions. *)
From Coq Require Import ZArith Reals Bool List Lia Lra.
From Flocq Require Import Core IEEE754.Binary IEEE754.Bits.
From Verif Require Import Base Mem Backend Args Drivers Functors Lanes Float LaneOps FloatOps ScalarMath VecMath FloatFuns
  Spec SpecLane FloatFacts LaneFacts FloatRound ReduceMore DriverFacts DriverClaims DriverClaims2.
Import ListNotations.
Local Open Scope Z_scope.

Section T.
Context {t : fmt}.
Implicit Types x y a b lhs rhs : F t.

Lemma fgt_swap a b : fgt a b = flt b a.
Proof.
  destruct (isnan a) eqn:Ea; [unfold fgt, flt; rewrite !compare_nan by auto; reflexivity|].
  destruct (isnan b) eqn:Eb; [unfold fgt, flt; rewrite !compare_nan by auto; reflexivity|].
  rewrite fgt_ord, flt_ord by assumption. reflexivity.
Qed.
Lemma fge_swap a b : fge a b = fle b a.
Proof.
  destruct (isnan a) eqn:Ea; [unfold fge, fle; rewrite !compare_nan by auto; reflexivity|].
  destruct (isnan b) eqn:Eb; [unfold fge, fle; rewrite !compare_nan by auto; reflexivity|].
  rewrite fge_ord, fle_ord by assumption. reflexivity.
Qed.
Lemma srel_nan r a b : isnan a = true \/ isnan b = true -> srel r a b = nan_rel r.
Proof.
  intros H. destruct r; cbn [srel nan_rel]; unfold flt, fle, fgt, fge, fne, feq; rewrite compare_nan by exact H; reflexivity.
Qed.
Lemma srel_real r a b : isfin a = true -> isfin b = true -> (srel r a b = true <-> real_rel r (val a) (val b)).
Proof.
  intros Ha Hb. pose proof (fin_not_nan a Ha) as Na. pose proof (fin_not_nan b Hb) as Nb.
  pose proof (ord_lt_val a b Ha Hb). pose proof (ord_lt_val b a Hb Ha).
  pose proof (ord_le_val a b Ha Hb). pose proof (ord_le_val b a Hb Ha). pose proof (ord_eq_val a b Ha Hb).
  destruct r; cbn [srel real_rel].
  - rewrite flt_ord, Z.ltb_lt by assumption. tauto.
  - rewrite fle_ord, Z.leb_le by assumption. tauto.
  - rewrite fgt_ord, Z.ltb_lt by assumption. unfold Rgt. tauto.
  - rewrite fge_ord, Z.leb_le by assumption. rewrite H2. split; apply Rle_ge || apply Rge_le.
  - rewrite feq_ord, Z.eqb_eq by assumption. tauto.
  - unfold fne. rewrite feq_ord, negb_true_iff, Z.eqb_neq by assumption. tauto.
Qed.
(** AVX's > and >= are the negations of <= and <. *)
Definition avx_hole (I : isa) (r : rel) a b : bool :=
  match I, r with AVX, GT | AVX, GE => isnan a || isnan b | _, _ => false end.
Lemma vrel_srel I r a b : vrel I r a b = srel r a b || avx_hole I r a b.
Proof.
  destruct I.
  1,2,4,5: cbn [avx_hole]; rewrite orb_false_r; destruct r; cbn [vrel srel]; rewrite ?fgt_swap, ?fge_swap; reflexivity.
  destruct r; cbn [vrel srel avx_hole]; rewrite ?orb_false_r; try reflexivity.
  all: destruct (isnan a) eqn:Ea; [cbn [orb]; rewrite ?orb_true_r; unfold flt, fle; rewrite compare_nan by auto; reflexivity|];
    destruct (isnan b) eqn:Eb; [cbn [orb]; rewrite ?orb_true_r; unfold flt, fle; rewrite compare_nan by auto; reflexivity|];
    cbn [orb]; rewrite orb_false_r, ?fgt_ord, ?fge_ord, ?flt_ord, ?fle_ord by assumption.
  - rewrite Z.leb_antisym, negb_involutive. reflexivity.
  - rewrite Z.ltb_antisym, negb_involutive. reflexivity.
Qed.
Lemma oprel_val c I r a b : oprel c I r a b = if vrel I r a b then f_ofZ t 1 else f_ofZ t 0.
Proof. destruct I; [reflexivity|..]; unfold oprel; rewrite band_mask_l, gen_one_1; reflexivity. Qed.

Lemma fne_0 (b : bool) : fne (t := t) (if b then f_ofZ t 1 else f_ofZ t 0) (f_ofZ t 0) = b.
Proof. destruct b, t; reflexivity. Qed.
Lemma select_mask c I lhs rhs (b : bool) : I <> GEN -> I <> NEON -> select c I lhs rhs (mask b) = if b then rhs else lhs.
Proof.
  intros H1 H2. destruct I; try congruence; unfold select; cbn [andnot]; rewrite ?sgn_mask, ?bnot_mask, ?band_mask_l, ?band_mask_r;
    try (destruct (has_sse41 c)); destruct b; cbn [negb]; rewrite ?bor_zero_l, ?bor_zero_r; reflexivity.
Qed.
Lemma select_vmask c I r a b lhs rhs : I <> NEON ->
  select c I lhs rhs (vmask I r a b) = if vrel I r a b then rhs else lhs.
Proof.
  intros H. destruct (match I with GEN => true | _ => false end) eqn:E.
  - destruct I; try discriminate. unfold select, vmask, vrel. rewrite fne_0. reflexivity.
  - assert (H1 : I <> GEN) by (destruct I; discriminate || congruence). rewrite <- select_mask with (c := c) (I := I) by assumption.
    destruct I; try congruence; reflexivity.
Qed.
Lemma select_neon c r a b lhs rhs : select c NEON lhs rhs (vmask NEON r a b) = if srel r a b then lhs else rhs.
Proof.
  unfold select, vmask. rewrite bnot_mask, !band_mask_l, vrel_srel. cbn [avx_hole]. rewrite orb_false_r.
  destruct (srel r a b); cbn [negb]; rewrite ?bor_zero_l, ?bor_zero_r; reflexivity.
Qed.

(** ** Sign manipulation *)
Lemma sgn_sm c I x : sgn (band x (gen_sign_mask c I)) = sgn x.
Proof. rewrite sgn_band, sgn_sign_mask. apply andb_true_r. Qed.
Lemma mag_sm c I x : mag (band x (gen_sign_mask c I)) = 0.
Proof. rewrite mag_band, mag_sign_mask. apply Z.land_0_r. Qed.
Lemma bor_sm c I x y : sgn y = false -> bor (band x (gen_sign_mask c I)) y = if sgn x then fneg y else y.
Proof.
  intros H. apply sm_inj; rewrite ?sgn_bor, ?mag_bor, ?sgn_sm, ?mag_sm; destruct (sgn x); rewrite ?sgn_fneg, ?mag_fneg, ?H; reflexivity.
Qed.
Lemma bxor_sm c I x y : bxor (band x (gen_sign_mask c I)) y = if sgn x then fneg y else y.
Proof.
  apply sm_inj; rewrite ?sgn_bxor, ?mag_bxor, ?sgn_sm, ?mag_sm; destruct (sgn x); rewrite ?sgn_fneg, ?mag_fneg; try reflexivity;
    destruct (sgn y); reflexivity.
Qed.
Lemma fabs_cond x : fabs x = if sgn x then fneg x else x.
Proof. destruct x as [s|s|s pl H|s m e H]; destruct s; reflexivity. Qed.
Lemma bxor_sm_self c I x : bxor (band x (gen_sign_mask c I)) x = fabs x.
Proof. rewrite bxor_sm. symmetry. apply fabs_cond. Qed.
Lemma bxor_comm x y : bxor x y = bxor y x.
Proof. unfold bxor. rewrite Z.lxor_comm. reflexivity. Qed.
Lemma bor_comm x y : bor x y = bor y x.
Proof. unfold bor. rewrite Z.lor_comm. reflexivity. Qed.
Lemma cond_fabs x : (if sgn x then fneg (fabs x) else fabs x) = x.
Proof. rewrite fabs_cond. destruct (sgn x); [apply fneg_fneg|reflexivity]. Qed.

(** ** Zeros *)
Lemma ord_0_cases x : ord x = 0 -> x = (if sgn x then fneg (f_ofZ t 0) else f_ofZ t 0).
Proof.
  intros H. apply mag_0_ord in H. apply sm_inj; destruct (sgn x); rewrite ?sgn_fneg, ?mag_fneg, ?sgn_zero, ?mag_zero0; auto.
Qed.
Lemma ord_sgn x : ord x < 0 -> sgn x = true.
Proof. unfold ord. pose proof (mag_range x). destruct (sgn x); [reflexivity|lia]. Qed.
Lemma ord_pos_sgn x : 0 < ord x -> sgn x = false.
Proof. unfold ord. pose proof (mag_range x). destruct (sgn x); [lia|reflexivity]. Qed.
Lemma mag_abs_ord x : mag x = Z.abs (ord x).
Proof. unfold ord. pose proof (mag_range x). destruct (sgn x); lia. Qed.
End T.

(** ** Buffers *)
Lemma leaves_ext {A} (m : mem A) r out len v v' : (forall i, 0 <= i < len -> v i = v' i) ->
  leaves m r out len v -> leaves m r out len v'.
Proof.
  intros H (m' & E & H1 & H2). exists m'. split; [exact E|]. split; [|exact H2].
  intros i Hi. rewrite <- H by exact Hi. apply H1. exact Hi.
Qed.
Lemma unary_leaves {A} (ar : arith A) f (m : mem A) out inp len :
  0 < len < 2 ^ 32 -> accessible m out len -> arg_fit m out len (APtr inp) ->
  leaves m (unary_vec f m out inp len) out len (fun i => lift1 f (m (inp + i))).
Proof. apply C01_foo_vec_maps_unary_lemma. exact ar. Qed.
Lemma fit_of_simd {A} B (m : mem A) out len a : simd_fit B m out len a -> arg_fit m out len a.
Proof. unfold simd_fit, arg_fit. tauto. Qed.
Lemma unary_simd_leaves {A} (ar : arith A) B g (m : mem A) out inp len :
  legal_simd_length B len -> aligned B out -> accessible m out len -> simd_fit B m out len (APtr inp) ->
  leaves m (unary_vec_simd ar B (map g) m out inp len) out len (fun i => lift1 g (m (inp + i))).
Proof.
  intros H1 H2 H3 H4. apply (C02_foo_vec_simd_maps_unary_lemma A ar B (map g) g); auto. intros u _. reflexivity.
Qed.
(** One unary function in both forms, when the lane function agrees with the
    scalar one on every sample. *)
Lemma unary_both {A} (ar : arith A) B f g (P : A -> Prop) (m : mem A) out inp len :
  (forall x, P x -> g x = f x) -> each P m inp len ->
  legal_simd_length B len -> aligned B out -> accessible m out len -> simd_fit B m out len (APtr inp) ->
  leaves m (unary_vec f m out inp len) out len (fun i => lift1 f (m (inp + i))) /\
  leaves m (unary_vec_simd ar B (map g) m out inp len) out len (fun i => lift1 f (m (inp + i))).
Proof.
  intros Hg HP H1 H2 H3 H4. split.
  - apply (unary_leaves ar); [apply H1|assumption|]. apply (fit_of_simd B). assumption.
  - eapply leaves_ext; [|apply unary_simd_leaves; assumption].
    intros i Hi. cbv beta. destruct (m (inp + i)) as [x|] eqn:E; [|reflexivity]. cbn [lift1]. rewrite Hg; [reflexivity|].
    exact (HP i x Hi E).
Qed.
Lemma leaves_numbers {t} (m : mem (F t)) r1 r2 out len v1 v2 :
  leaves m r1 out len v1 -> leaves m r2 out len v2 ->
  (forall i x y, 0 <= i < len -> v1 i = Some x -> v2 i = Some y -> feq x y = true) ->
  same_numbers r1 r2 out len.
Proof.
  intros (m1 & E1 & A1 & B1) (m2 & E2 & A2 & B2) H. exists m1, m2. split; [exact E1|]. split; [exact E2|]. split.
  - intros i Hi. destruct (A1 i Hi) as [V1 N1], (A2 i Hi) as [V2 N2].
    destruct (v1 i) as [x|] eqn:X; [|congruence]. destruct (v2 i) as [y|] eqn:Y; [|congruence].
    exists x, y. split; [exact V1|]. split; [exact V2|]. exact (H i x y Hi X Y).
  - intros a Ha. rewrite B1, B2 by exact Ha. reflexivity.
Qed.
Lemma binary_simd_leaves {A} (ar : arith A) B g (m : mem A) out a1 a2 len :
  legal_simd_length B len -> aligned B out -> accessible m out len ->
  simd_fit B m out len a1 -> plain a1 -> simd_fit B m out len a2 -> plain a2 ->
  leaves m (binary_vec_simd ar B (map2 g) m out a1 a2 len) out len (fun i => lift2 g (sample ar m a1 i) (sample ar m a2 i)).
Proof.
  intros. apply (C02_foo_vec_simd_maps_binary_lemma A ar B (map2 g) g); auto. intros u v _ _. reflexivity.
Qed.
Lemma binary_leaves {A} (ar : arith A) f (m : mem A) out a1 a2 len :
  0 < len < 2 ^ 32 -> accessible m out len -> arg_fit m out len a1 -> arg_fit m out len a2 ->
  leaves m (binary_vec ar f m out a1 a2 len) out len (fun i => lift2 f (sample ar m a1 i) (sample ar m a2 i)).
Proof. apply C01_foo_vec_maps_binary_lemma. Qed.
Lemma each_sample {A} (ar : arith A) P (m : mem A) a len i x : each_arg P m a len -> 0 <= i < len ->
  sample ar m a i = Some x -> P x.
Proof.
  destruct a as [p|y|b s]; cbn [each_arg sample]; intros H Hi E; [|congruence|contradiction].
  exact (H i x Hi E).
Qed.
