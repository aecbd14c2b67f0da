(** SSE and AVX, with and without extensions: proofs for single lanes. *)
From Coq Require Import ZArith Reals List Lia Lra Bool.
From Flocq Require Import Core IEEE754.Binary IEEE754.Bits.
From Verif Require Import Base Mem Backend Args Drivers Functors Lanes Float LaneOps FloatOps ScalarMath VecMath FloatFuns IntVec TransMath TransFuns
  Spec SpecLane SpecMath SpecRound FloatFacts FloatRound LaneFacts VecFacts VecMore VecMore2 RoundFacts RoundMore IntFacts TransConst TransFacts ErrFacts ErrTac
  ExpFacts LogFacts ArcFacts AtanFacts TanhFacts PowFacts MathMore MathClaims AccuracyClaims ReduceMore.
Import ListNotations.
Local Open Scope R_scope.
#[local] Opaque litf litd.

Section T.
Context (c d : cfg) (I : isa) (n : nans F32) (k : nans F64) (HI : x86 I).
Local Notation fl := (F F32).

Lemma sm_same : gen_sign_mask (t := F32) c I = gen_sign_mask d AVX.
Proof. destruct HI as [-> | ->]; [|reflexivity]. unfold gen_sign_mask. destruct (has_sse2 c); [|reflexivity]. apply bits_inj. vm_compute. reflexivity. Qed.
Lemma am_same : gen_abs_mask (t := F32) c I = gen_abs_mask d AVX.
Proof. destruct HI as [-> | ->]; [|reflexivity]. unfold gen_abs_mask. destruct (has_sse2 c); [|reflexivity]. apply bits_inj. vm_compute. reflexivity. Qed.
Lemma sel_same (a b : fl) z : select c I a b (mask z) = select d AVX a b (mask z).
Proof. rewrite !select_mask; try (destruct HI; congruence); try congruence. Qed.
Lemma ieq_mask a b : of_bits F32 (ieq a b) = mask (a =? b)%Z.
Proof. unfold ieq, imask, mask. destruct (a =? b)%Z; reflexivity. Qed.
Lemma rel_same r (a b : fl) : isnan a = false -> isnan b = false -> vrel I r a b = vrel AVX r a b.
Proof. intros Ha Hb. rewrite (vrel_num I HI r a b Ha Hb), (vrel_num AVX (or_intror eq_refl) r a b Ha Hb). reflexivity. Qed.
Lemma lt_same (a b : fl) : vrel I LT a b = vrel AVX LT a b. Proof. destruct HI as [-> | ->]; reflexivity. Qed.
Lemma eq_same (a b : fl) : vrel I EQ a b = vrel AVX EQ a b. Proof. destruct HI as [-> | ->]; reflexivity. Qed.
Lemma tr_same x : itruncate I x = itruncate AVX x. Proof. destruct HI as [-> | ->]; reflexivity. Qed.
Lemma cv_same x : iconvert I x = iconvert AVX x. Proof. destruct HI as [-> | ->]; reflexivity. Qed.
Lemma sl_same x y : islli I x y = islli AVX x y. Proof. destruct HI as [-> | ->]; reflexivity. Qed.
Lemma an_same x y : iandnot I x y = iandnot AVX x y. Proof. destruct HI as [-> | ->]; reflexivity. Qed.
Lemma ld_same x y : ldexp_float I x y = ldexp_float AVX x y. Proof. destruct HI as [-> | ->]; reflexivity. Qed.
Lemma fr_same x : frexp_float I x = frexp_float AVX x. Proof. destruct HI as [-> | ->]; reflexivity. Qed.

Lemma sin_same x : vec_sin_float c I n x = vec_sin_float d AVX n x.
Proof. unfold vec_sin_float. cbv zeta. rewrite sm_same, am_same, !tr_same, !cv_same, !sl_same, !ieq_mask, sel_same. reflexivity. Qed.
Lemma cos_same x : vec_cos_float c I n x = vec_cos_float d AVX n x.
Proof. unfold vec_cos_float. cbv zeta. rewrite am_same, !tr_same, !cv_same, !sl_same, !an_same, !ieq_mask, sel_same. reflexivity. Qed.
Lemma tan_same x : vec_tan_float c I n x = vec_tan_float d AVX n x.
Proof. unfold vec_tan_float. cbv zeta. rewrite sm_same, am_same, !tr_same, !cv_same, !ieq_mask, sel_same. reflexivity. Qed.
Lemma log_same x : vec_log_float c I n x = vec_log_float d AVX n x.
Proof.
  unfold vec_log_float. rewrite fr_same. destruct (frexp_float AVX x) as [s e]. cbv zeta. rewrite !gen_one_1.
  replace (vmask I LT s (litf 707106781186547524 18)) with (vmask AVX LT s (litf 707106781186547524 18)) by (destruct HI as [-> | ->]; reflexivity).
  rewrite cv_same. reflexivity.
Qed.
Lemma log2_same x : vec_log2 c I n k x = vec_log2 d AVX n k x. Proof. unfold vec_log2. rewrite log_same. reflexivity. Qed.
Lemma log10_same x : vec_log10 c I n k x = vec_log10 d AVX n k x. Proof. unfold vec_log10. rewrite log_same. reflexivity. Qed.


Let HA : x86 AVX := or_intror eq_refl.
Lemma num_fin (x : fl) : isfin x = true -> isnan x = false. Proof. destruct x; try discriminate; reflexivity. Qed.
Lemma asin_same x : isnan x = false -> vec_asin_float c I n x = vec_asin_float d AVX n x.
Proof.
  intros Nx. unfold vec_asin_float. cbv zeta. rewrite sm_same, !band_abs, !gen_one_1, !gen_05_half. rewrite !select_vmask by (try (apply x86_neon; exact HI); discriminate).
  assert (Na : isnan (fabs x) = false) by (rewrite isnan_fabs; exact Nx). destruct litd_5_1 as (F5 & _ & _).
  rewrite (rel_same GT (fabs x) (litd 5 1) Na (num_fin _ F5)), (rel_same GT (fabs x) (f_ofZ F32 1) Na eq_refl). reflexivity.
Qed.
Lemma acos_same x : isnan x = false -> vec_acos_float c I n x = vec_acos_float d AVX n x.
Proof.
  intros Nx. assert (Na : isnan (fabs x) = false) by (rewrite isnan_fabs; exact Nx). destruct litd_5_1 as (F5 & _ & _).
  pose proof (rel_same GT (fabs x) (f_ofZ F32 1) Na eq_refl) as E1. destruct (vrel I GT (fabs x) (f_ofZ F32 1)) eqn:G.
  - unfold vec_acos_float. cbv zeta. rewrite !band_abs, !gen_one_1, !gen_05_half. rewrite !select_vmask by (try (apply x86_neon; exact HI); discriminate). rewrite G, <- E1. reflexivity.
  - rewrite (acos_form c I n HI x G), (acos_form d AVX n HA x (eq_sym E1)). cbv zeta.
    rewrite (rel_same GT (fabs x) (f_lit F32 1 (-1)) Na eq_refl), (rel_same GT x (f_lit F32 1 (-1)) Nx eq_refl).
    rewrite (rel_same GT x (fneg (litd 5 1)) Nx) by (apply num_fin; destruct (litd 5 1); try discriminate F5; reflexivity).
    rewrite asin_same; [reflexivity|]. destruct (vrel AVX GT (fabs x) (f_lit F32 1 (-1))) eqn:G2; [|exact Nx].
    assert (Fa : isfin (fabs x) = true). { destruct x as [s|s|s pl K|s mm e K]; try reflexivity; try discriminate Nx. destruct HI as [-> | ->]; discriminate G. }
    apply num_fin. apply arc_red_ok; [exact Fa|]. destruct one_ok as (O1 & O2 & _). destruct half_ok as [H1 H2]. split.
    + apply (gt_dec_val AVX HA _ _ Fa H1) in G2. lra.
    + destruct (Rle_dec (val (fabs x)) 1); [assumption|]. assert (T : vrel I GT (fabs x) (f_ofZ F32 1) = true) by (apply (gt_dec_val I HI _ _ Fa O1); lra). congruence.
Qed.
Lemma atan_same x : isnan x = false -> vec_atan_float c I n x = vec_atan_float d AVX n x.
Proof.
  intros Nx. unfold vec_atan_float. cbv zeta. unfold vneg. rewrite sm_same, !band_abs, !gen_one_1. rewrite !select_vmask by (try (apply x86_neon; exact HI); discriminate).
  assert (Na : isnan (fabs x) = false) by (rewrite isnan_fabs; exact Nx).
  rewrite (rel_same GT (fabs x) _ Na (num_fin _ (proj1 litd_41421356237309504880168872420969807856967187537695_50))), (rel_same GT (fabs x) _ Na (num_fin _ (proj1 litd_241421356237309504880168872420969807856967187537698_50))). reflexivity.
Qed.

Lemma exp_z_same x : isfin x = true -> Rabs (val x) <= 89 -> exp_z c I n x = exp_z d AVX n x.
Proof.
  intros Hx Hb. apply Rabs_le_inv in Hb.
  assert (H0 : holds x (val x) (- 89 * 2 ^ 80, 89 * 2 ^ 80, 0)%Z).
  { split; [exact Hx|]. rewrite !dy_lit. split; [|rewrite Rminus_diag_eq, Rabs_R0 by reflexivity; lra]. rewrite !mult_IZR. lra. }
  err_bound n [x] [val x] [(- 89 * 2 ^ 80, 89 * 2 ^ 80, 0)%Z] (fmul n (litf 144269504088896341 17) x) H.
  destruct H as (F1 & R1 & E1). rewrite !dy_lit in *. autorewrite with lits in *.
  unfold exp_z. set (t := fmul n (litf 144269504088896341 17) x) in *. apply Rabs_le_inv in E1.
  assert (W : within_2_23 t). { split; [exact F1|]. change (bpow radix2 23) with 8388608. apply Rabs_le. lra. }
  rewrite (vround_x86 c I n t HI W), (vround_x86 d AVX n t HA W). reflexivity.
Qed.
Lemma exp_tanh_same x : isfin x = true -> Rabs (val x) <= 89 -> vec_exp_tanh_float c I n x = vec_exp_tanh_float d AVX n x.
Proof. intros Hx Hb. rewrite !exp_tanh_form. unfold exp_x2, exp_x1. rewrite (exp_z_same x Hx Hb), tr_same, ld_same. reflexivity. Qed.
Lemma exp_same x : isnan x = false -> vec_exp_float c I n x = vec_exp_float d AVX n x.
Proof.
  intros Nx. rewrite (exp_form c I n x HI), (exp_form d AVX n x HA).
  destruct litf_880_1 as (A1 & _ & _). pose proof val_litf_880_1 as V1. destruct litf_8872283905206835_14 as (A2 & _ & _). pose proof val_litf_8872283905206835_14 as V2.
  assert (A1' : isfin (fneg (litf 880 1)) = true) by (rewrite isfin_fneg; exact A1).
  rewrite (rel_same LT x _ Nx (num_fin _ A1')), (rel_same GT x _ Nx (num_fin _ A2)).
  destruct (vrel AVX LT x (fneg (litf 880 1))) eqn:L; [reflexivity|]. destruct (vrel AVX GT x (litf 8872283905206835 14)) eqn:G; [reflexivity|].
  assert (Fx : isfin x = true).
  { rewrite vrel_num in L, G by (try exact HA; try exact Nx; apply num_fin; assumption). destruct x as [s|[]|s pl K|s mm e K]; try reflexivity; try discriminate Nx; exfalso.
    - destruct (fneg (litf 880 1)); try discriminate A1'; discriminate L.
    - destruct (litf 8872283905206835 14); try discriminate A2; discriminate G. }
  apply exp_tanh_same; [exact Fx|]. apply Rabs_le.
  destruct (Rlt_dec (val x) (- 88)); [assert (T : vrel AVX LT x (fneg (litf 880 1)) = true) by (apply (lt_dec_val AVX HA _ _ Fx A1'); rewrite val_fneg, V1; lra); congruence|].
  destruct (Rlt_dec 89 (val x)); [assert (T : vrel AVX GT x (litf 8872283905206835 14) = true) by (apply (gt_dec_val AVX HA _ _ Fx A2); rewrite V2; lra); congruence|]. lra.
Qed.
Lemma tanh_same x : isnan x = false -> vec_tanh_float c I n x = vec_tanh_float d AVX n x.
Proof.
  intros Nx. rewrite (tanh_form c I n HI x), (tanh_form d AVX n HA x). assert (Na : isnan (fabs x) = false) by (rewrite isnan_fabs; exact Nx).
  destruct lit625 as [A1 V1]. destruct lit22 as [A2 V2]. rewrite sm_same, (rel_same LT _ _ Na (num_fin _ A1)), (rel_same GT _ _ Na (num_fin _ A2)).
  destruct (vrel AVX LT (fabs x) (litf 625 3)); [reflexivity|]. destruct (vrel AVX GT (fabs x) (litf 22 0)) eqn:G; [reflexivity|].
  assert (Fa : isfin (fabs x) = true).
  { rewrite vrel_num in G by (try exact HA; try exact Na; apply num_fin; assumption). destruct x as [s|s|s pl K|s mm e K]; try reflexivity; try discriminate Nx; exfalso.
    destruct (litf 22 0); try discriminate A2; discriminate G. }
  unfold tanh_med. rewrite exp_tanh_same; [reflexivity| |].
  all: assert (B : Rabs (val (fabs x)) <= 22) by (rewrite val_fabs, Rabs_Rabsolu; destruct (Rle_dec (Rabs (val x)) 22); [assumption|];
    assert (T : vrel AVX GT (fabs x) (litf 22 0) = true) by (apply (gt_dec_val AVX HA _ _ Fa A2); rewrite V2, val_fabs; lra); congruence).
  all: assert (B' : Rabs (val (fabs x) + val (fabs x)) <= bpow radix2 6) by (change (bpow radix2 6) with 64; eapply Rle_trans; [apply Rabs_triang|lra]).
  all: destruct (fadd_fin n (fabs x) (fabs x) Fa Fa) as (Fs & Vs & _); [eapply Rle_lt_trans; [apply (rnd_le_bpow 6); [lia|exact B']|apply bpow_lt; reflexivity]|].
  - exact Fs.
  - rewrite Vs. eapply Rle_trans; [apply (rnd_le_bpow 6); [lia|exact B']|]. change (bpow radix2 6) with 64. lra.
Qed.
Lemma pow_same x y : isnan (fmul n y (vec_log_float d AVX n x)) = false -> vec_pow c I n x y = vec_pow d AVX n x y.
Proof.
  intros H. unfold vec_pow. cbv zeta. rewrite !select_vmask by (try (apply x86_neon; exact HI); discriminate). rewrite eq_same, log_same, exp_same by exact H. reflexivity.
Qed.
Lemma mul_num (x y : fl) : isfin x = true -> isfin y = true -> isnan (fmul n x y) = false.
Proof.
  intros Fx Fy. destruct (Rlt_dec (Rabs (rnd F32 (val x * val y))) (bpow radix2 (emax F32))) as [L|L].
  - apply num_fin. apply fmul_fin; assumption.
  - pose proof (Bmult_correct (prec F32) (emax F32) (Hprec F32) (Hmax F32) (nan_mul n) BinarySingleNaN.mode_NE x y) as H.
    rewrite Rlt_bool_false in H by (apply Rnot_lt_le; exact L). unfold fmul. destruct (Bmult _ _ _ _ _ _ x y) eqn:E; try reflexivity. exfalso. cbn in H. destruct (Bsign _ _ x), (Bsign _ _ y); discriminate H.
Qed.
Lemma pow_same_fin x y : isfin y = true -> vec_pow c I n x y = vec_pow d AVX n x y.
Proof. intros Fy. apply pow_same. apply mul_num; [exact Fy|apply log_finite; exact HA]. Qed.
Lemma spow_same x y : isfin y = true -> vec_signed_pow c I n x y = vec_signed_pow d AVX n x y.
Proof. intros Fy. unfold vec_signed_pow. cbv zeta. rewrite sm_same, pow_same_fin by exact Fy. reflexivity. Qed.
Lemma mul_num2 (x y : fl) : isnan x = false -> isfin y = true -> val y <> 0 -> isnan (fmul n x y) = false.
Proof.
  intros Nx Fy Vy. destruct (isfin x) eqn:Fx; [apply mul_num; assumption|].
  destruct x as [s|s|s pl K|s mm e K]; try discriminate; destruct y as [s'|s'|s' pl' K'|s' mm' e' K']; try discriminate; [|reflexivity]. exfalso. apply Vy. reflexivity.
Qed.
Lemma add_num (x y : fl) : isnan x = false -> isfin y = true -> isnan (fadd n x y) = false.
Proof.
  intros Nx Fy. destruct (isfin x) eqn:Fx; [|destruct x as [s|s|s pl K|s mm e K]; try discriminate; destruct y as [s'|s'|s' pl' K'|s' mm' e' K']; try discriminate; reflexivity].
  destruct (Rlt_dec (Rabs (rnd F32 (val x + val y))) (bpow radix2 (emax F32))) as [L|L].
  - apply num_fin. apply fadd_fin; assumption.
  - pose proof (Bplus_correct (prec F32) (emax F32) (Hprec F32) (Hmax F32) (nan_add n) BinarySingleNaN.mode_NE x y Fx Fy) as H.
    rewrite Rlt_bool_false in H by (apply Rnot_lt_le; exact L). destruct H as [H _]. unfold fadd. destruct (Bplus _ _ _ _ _ _ x y) eqn:E; try reflexivity. exfalso. cbn in H. destruct (Bsign _ _ x); discriminate H.
Qed.
Lemma sub_num (x y : fl) : isnan x = false -> isfin y = true -> isnan (fsub n x y) = false.
Proof.
  intros Nx Fy. destruct (isfin x) eqn:Fx; [|destruct x as [s|s|s pl K|s mm e K]; try discriminate; destruct y as [s'|s'|s' pl' K'|s' mm' e' K']; try discriminate; reflexivity].
  destruct (Rlt_dec (Rabs (rnd F32 (val x - val y))) (bpow radix2 (emax F32))) as [L|L].
  - apply num_fin. apply fsub_fin; assumption.
  - pose proof (Bminus_correct (prec F32) (emax F32) (Hprec F32) (Hmax F32) (nan_sub n) BinarySingleNaN.mode_NE x y Fx Fy) as H.
    rewrite Rlt_bool_false in H by (apply Rnot_lt_le; exact L). destruct H as [H _]. unfold fsub. destruct (Bminus _ _ _ _ _ _ x y) eqn:E; try reflexivity. exfalso. cbn in H. destruct (Bsign _ _ x); discriminate H.
Qed.
Lemma log_base_nonzero z : (z = 2 \/ z = 10)%Z -> val (vec_log_float d AVX n (f_ofZ F32 z)) <> 0.
Proof.
  intros Hz. destruct (f_ofZ_int (t := F32) n z) as [A V]; [destruct Hz; subst; cbv; congruence|].
  assert (N : normal_positive (f_ofZ F32 z)). { split; [exact A|]. rewrite V. apply Rle_trans with (bpow radix2 0); [apply bpow_le; lia|]. change (bpow radix2 0) with 1. apply IZR_le. lia. }
  destruct (C51_log_lemma d AVX n _ (or_introl eq_refl) N) as [_ E]. rewrite V in E.
  assert (L : 0 < ln (IZR z)) by (rewrite <- ln_1; apply ln_increasing; [lra|apply IZR_lt; lia]). rewrite (Rabs_pos_eq (ln _)) in E by lra. apply Rabs_le_inv in E. lra.
Qed.
Lemma pow_base_same z y : (z = 2 \/ z = 10)%Z -> isnan y = false -> vec_pow c I n (f_ofZ F32 z) y = vec_pow d AVX n (f_ofZ F32 z) y.
Proof. intros Hz Ny. apply pow_same. apply mul_num2; [exact Ny|apply log_finite; exact HA|apply log_base_nonzero; exact Hz]. Qed.
Lemma nz_83 : isfin (litd 83333333333 12) = true /\ val (litd 83333333333 12) <> 0.
Proof. split; [apply litd_83333333333_12|]. rewrite val_litd_83333333333_12. lra. Qed.
Lemma nz_005 : isfin (litd 5 2) = true /\ val (litd 5 2) <> 0.
Proof. split; [apply litd_5_2|]. rewrite val_litd_5_2. lra. Qed.
Lemma midi2freq_same x : isnan x = false -> midi2freq c I n x = midi2freq d AVX n x.
Proof. intros Nx. unfold midi2freq. rewrite pow_base_same; [reflexivity|left; reflexivity|]. apply mul_num2; [apply sub_num; [exact Nx|reflexivity]|apply nz_83|apply nz_83]. Qed.
Lemma midi2ratio_same x : isnan x = false -> midi2ratio c I n x = midi2ratio d AVX n x.
Proof. intros Nx. unfold midi2ratio. rewrite pow_base_same; [reflexivity|left; reflexivity|]. apply mul_num2; [exact Nx|apply nz_83|apply nz_83]. Qed.
Lemma oct2freq_same x : isnan x = false -> oct2freq c I n x = oct2freq d AVX n x.
Proof. intros Nx. unfold oct2freq. rewrite pow_base_same; [reflexivity|left; reflexivity|]. apply sub_num; [exact Nx|apply litd_475_2]. Qed.
Lemma db2amp_same x : isnan x = false -> db2amp c I n x = db2amp d AVX n x.
Proof. intros Nx. unfold db2amp. rewrite pow_base_same; [reflexivity|right; reflexivity|]. apply mul_num2; [exact Nx|apply nz_005|apply nz_005]. Qed.
Lemma vabs_same (x : fl) : vabs c I x = vabs d AVX x.
Proof. transitivity (band (gen_abs_mask c I) x); [destruct HI as [-> | ->]; reflexivity|]. rewrite am_same. reflexivity. Qed.
Lemma abs_log2_same x : abs_log2 c I n k x = abs_log2 d AVX n k x.
Proof. unfold abs_log2. rewrite vabs_same. apply log2_same. Qed.
Lemma freq2midi_same x : freq2midi c I n k x = freq2midi d AVX n k x. Proof. unfold freq2midi. rewrite abs_log2_same. reflexivity. Qed.
Lemma freq2oct_same x : freq2oct c I n k x = freq2oct d AVX n k x. Proof. unfold freq2oct. rewrite abs_log2_same. reflexivity. Qed.
Lemma ratio2midi_same x : ratio2midi c I n k x = ratio2midi d AVX n k x. Proof. unfold ratio2midi. rewrite log2_same. reflexivity. Qed.
Lemma amp2db_same x : amp2db c I n k x = amp2db d AVX n k x. Proof. unfold amp2db. rewrite vabs_same, log10_same. reflexivity. Qed.
End T.

(** Buffers. *)
Lemma simd_same (n : nans F32) B B' f g (Q : F F32 -> Prop) m out inp len :
  (forall x, Q x -> f x = g x) -> unary_fit B m out inp len -> unary_fit B' m out inp len -> each Q m inp len ->
  same_effect (simd_of32 B n f m out inp len) (simd_of32 B' n g m out inp len).
Proof.
  intros H (H1 & H2 & H3 & H4) (G1 & G2 & G3 & G4) HQ.
  destruct (unary_simd_leaves (farith n) B f m out inp len H1 H2 H3 H4) as (m1 & E1 & W1 & W2).
  destruct (unary_simd_leaves (farith n) B' g m out inp len G1 G2 G3 G4) as (m2 & E2 & V1 & V2).
  exists m1, m2. split; [exact E1|]. split; [exact E2|]. intros a.
  destruct (Z_lt_dec a out); [rewrite W2, V2 by lia; reflexivity|]. destruct (Z_lt_dec a (out + len)); [|rewrite W2, V2 by lia; reflexivity].
  replace a with (out + (a - out))%Z by ring. rewrite (proj1 (W1 (a - out)%Z ltac:(lia))), (proj1 (V1 (a - out)%Z ltac:(lia))).
  destruct (m (inp + (a - out))%Z) eqn:E; [|reflexivity]. cbn. f_equal. apply H. apply (HQ (a - out)%Z); [lia|exact E].
Qed.
Lemma simd2_same (n : nans F32) B B' f g (Q : F F32 -> Prop) m out a1 a2 len :
  (forall x y, Q y -> f x y = g x y) -> legal_simd_length B len -> aligned B out -> accessible m out len -> simd_fit B m out len a1 -> simd_fit B m out len a2 ->
  legal_simd_length B' len -> aligned B' out -> simd_fit B' m out len a1 -> simd_fit B' m out len a2 ->
  plain a1 -> plain a2 -> each_arg Q m a2 len ->
  same_effect (simd2_of32 B n f m out a1 a2 len) (simd2_of32 B' n g m out a1 a2 len).
Proof.
  intros H H1 H2 H3 H4 H5 G1 G2 G4 G5 P1 P2 HQ.
  destruct (binary_simd_leaves (farith n) B f m out a1 a2 len H1 H2 H3 H4 P1 H5 P2) as (m1 & E1 & W1 & W2).
  destruct (binary_simd_leaves (farith n) B' g m out a1 a2 len G1 G2 H3 G4 P1 G5 P2) as (m2 & E2 & V1 & V2).
  exists m1, m2. split; [exact E1|]. split; [exact E2|]. intros a.
  destruct (Z_lt_dec a out); [rewrite W2, V2 by lia; reflexivity|]. destruct (Z_lt_dec a (out + len)); [|rewrite W2, V2 by lia; reflexivity].
  replace a with (out + (a - out))%Z by ring. rewrite (proj1 (W1 (a - out)%Z ltac:(lia))), (proj1 (V1 (a - out)%Z ltac:(lia))).
  destruct (sample (farith n) m a1 (a - out)) eqn:E; [|reflexivity]. destruct (sample (farith n) m a2 (a - out)) eqn:E'; [|reflexivity]. cbn. f_equal. apply H.
  destruct a2; cbn in HQ, E'; [apply (HQ (a - out)%Z); [lia|exact E']|injection E' as <-; exact HQ|contradiction].
Qed.
