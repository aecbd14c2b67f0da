(** Proofs of the statements of Prop_Math.v. *)
From Coq Require Import ZArith Reals List Lia Bool Lra.
From Flocq Require Import Core IEEE754.Binary IEEE754.Bits.
From Verif Require Import
  Base Mem Backend Args Drivers Functors Lanes Float LaneOps FloatOps ScalarMath VecMath FloatFuns IntVec TransMath TransFuns Spec SpecLane SpecRound SpecInt SpecMath
  FloatFacts FloatRound LaneFacts VecFacts VecMore VecMore2 RoundMore TransConst TransFacts ErrFacts ExpFacts ExpMore TanhFacts NearFacts LogFacts PowFacts RecipFacts UnitFacts MathMore ExFloat ExMath.
Import ListNotations.
Local Open Scope Z_scope.

Lemma C45_sin_odd_lemma : 
  forall (c : cfg) (I : isa) (n : nans F32) (x : F F32), math_isa c I ->
    bits (vec_sin_float c I n (fneg x)) = bits (fneg (vec_sin_float c I n x)).
Proof.
  intros c I n x HI. f_equal. apply signed_odd; apply sin_signed.
Qed.

Lemma C45_tan_odd_lemma : 
  forall (c : cfg) (I : isa) (n : nans F32) (x : F F32), math_isa c I ->
    bits (vec_tan_float c I n (fneg x)) = bits (fneg (vec_tan_float c I n x)).
Proof.
  intros c I n x HI. f_equal. apply signed_odd; apply tan_signed.
Qed.

Lemma C45_atan_odd_lemma : 
  forall (c : cfg) (I : isa) (n : nans F32) (x : F F32), math_isa c I ->
    bits (vec_atan_float c I n (fneg x)) = bits (fneg (vec_atan_float c I n x)).
Proof.
  intros c I n x HI. f_equal. apply signed_odd; apply atan_signed.
Qed.

Lemma C45_cos_even_lemma : 
  forall (c : cfg) (I : isa) (n : nans F32) (x : F F32), math_isa c I ->
    bits (vec_cos_float c I n (fneg x)) = bits (vec_cos_float c I n x).
Proof.
  intros c I n x HI. f_equal. apply cos_even.
Qed.

Lemma C45_asin_odd_lemma : 
  forall (c : cfg) (I : isa) (n : nans F32) (x : F F32), math_isa c I -> number x -> (Rabs (xval x) <= 1)%R ->
    bits (vec_asin_float c I n (fneg x)) = bits (fneg (vec_asin_float c I n x)).
Proof.
  intros c I n x HI Nx B. pose proof (isa_x86 _ _ HI) as HX. f_equal.
  assert (E : vrel I GT (fabs x) (f_ofZ F32 1) = false).
  { apply not_true_iff_false. intros E. apply (beyond_one I x HX Nx) in E. lra. }
  apply signed_odd; apply asin_signed; try exact HX; rewrite ?fabs_fneg; exact E.
Qed.

Lemma C45_asin_unrestricted_refuted_lemma : 
  exists x : F F32, number x /\
    bits (vec_asin_float all_ext SSE (n0 F32) (fneg x)) <> bits (fneg (vec_asin_float all_ext SSE (n0 F32) x)).
Proof.
  exists (f_ofZ F32 2). split; [reflexivity|]. vm_compute. discriminate.
Qed.

Lemma C45_tanh_odd_lemma : 
  forall (c : cfg) (I : isa) (n : nans F32) (x : F F32), math_isa c I -> number x -> xval x <> 0%R ->
    bits (vec_tanh_float c I n (fneg x)) = bits (fneg (vec_tanh_float c I n x)).
Proof.
  intros c I n x HI Nx NZ. pose proof (isa_x86 _ _ HI) as HX. f_equal. apply tanh_odd; [exact HX|exact Nx|]. apply xval_nonzero; assumption.
Qed.

Lemma C45_tanh_at_zero_refuted_lemma : 
  forall (c : cfg) (I : isa) (n : nans F32), math_isa c I -> exists x : F F32, number x /\
    bits (vec_tanh_float c I n (fneg x)) <> bits (fneg (vec_tanh_float c I n x)).
Proof.
  intros c I n HI. pose proof (isa_x86 _ _ HI) as HX. exists (B754_zero 24 128 false). split; [reflexivity|].
  change (fneg (B754_zero 24 128 false : F F32)) with (B754_zero 24 128 true : F F32). rewrite tanh_minus_zero by exact HX.
  rewrite (bits_inj _ _ (tanh_plus_zero c I n HX)). vm_compute. discriminate.
Qed.

Lemma C45_sin_vec_simd_mirrors_lemma : 
  forall (c : cfg) (B : backend) (n : nans F32) (m : mem (F F32)) (out inp1 inp2 len : Z),
    math_backend c B -> unary_fit B m out inp1 len -> unary_fit B m out inp2 len ->
    (forall i x, 0 <= i < len -> m (inp1 + i) = Some x -> m (inp2 + i) = Some (fneg x)) ->
    exists m1 m2, sin_vec_simd c B n m out inp1 len = Ok m1 /\ sin_vec_simd c B n m out inp2 len = Ok m2 /\
      forall i, 0 <= i < len -> exists y, m1 (out + i) = Some y /\ m2 (out + i) = Some (fneg y).
Proof.
  intros c B n m out inp1 inp2 len HB F1 F2 HM.
  destruct (computes_unary n B (vec_sin_float c (isa_of B) n) (fun _ => True) (fun x y => y = vec_sin_float c (isa_of B) n x) m out inp1 len) as (m1 & E1 & A1 & _); [auto|exact F1|intros ? ? ? ?; exact Logic.I|].
  destruct (computes_unary n B (vec_sin_float c (isa_of B) n) (fun _ => True) (fun x y => y = vec_sin_float c (isa_of B) n x) m out inp2 len) as (m2 & E2 & A2 & _); [auto|exact F2|intros ? ? ? ?; exact Logic.I|].
  exists m1, m2. split; [exact E1|]. split; [exact E2|]. intros i Hi.
  destruct (fit_readable B m out inp1 len F1 i Hi) as [x Hx]. destruct (A1 i x Hi Hx) as (y & Y1 & ->). destruct (A2 i _ Hi (HM i x Hi Hx)) as (z & Z1 & ->).
  eexists. split; [exact Y1|]. rewrite Z1. f_equal. apply signed_odd; apply sin_signed.
Qed.

Lemma C45_tan_vec_simd_mirrors_lemma : 
  forall (c : cfg) (B : backend) (n : nans F32) (m : mem (F F32)) (out inp1 inp2 len : Z),
    math_backend c B -> unary_fit B m out inp1 len -> unary_fit B m out inp2 len ->
    (forall i x, 0 <= i < len -> m (inp1 + i) = Some x -> m (inp2 + i) = Some (fneg x)) ->
    exists m1 m2, tan_vec_simd c B n m out inp1 len = Ok m1 /\ tan_vec_simd c B n m out inp2 len = Ok m2 /\
      forall i, 0 <= i < len -> exists y, m1 (out + i) = Some y /\ m2 (out + i) = Some (fneg y).
Proof.
  intros c B n m out inp1 inp2 len HB F1 F2 HM.
  destruct (computes_unary n B (vec_tan_float c (isa_of B) n) (fun _ => True) (fun x y => y = vec_tan_float c (isa_of B) n x) m out inp1 len) as (m1 & E1 & A1 & _); [auto|exact F1|intros ? ? ? ?; exact Logic.I|].
  destruct (computes_unary n B (vec_tan_float c (isa_of B) n) (fun _ => True) (fun x y => y = vec_tan_float c (isa_of B) n x) m out inp2 len) as (m2 & E2 & A2 & _); [auto|exact F2|intros ? ? ? ?; exact Logic.I|].
  exists m1, m2. split; [exact E1|]. split; [exact E2|]. intros i Hi.
  destruct (fit_readable B m out inp1 len F1 i Hi) as [x Hx]. destruct (A1 i x Hi Hx) as (y & Y1 & ->). destruct (A2 i _ Hi (HM i x Hi Hx)) as (z & Z1 & ->).
  eexists. split; [exact Y1|]. rewrite Z1. f_equal. apply signed_odd; apply tan_signed.
Qed.

Lemma C45_atan_vec_simd_mirrors_lemma : 
  forall (c : cfg) (B : backend) (n : nans F32) (m : mem (F F32)) (out inp1 inp2 len : Z),
    math_backend c B -> unary_fit B m out inp1 len -> unary_fit B m out inp2 len ->
    (forall i x, 0 <= i < len -> m (inp1 + i) = Some x -> m (inp2 + i) = Some (fneg x)) ->
    exists m1 m2, atan_vec_simd c B n m out inp1 len = Ok m1 /\ atan_vec_simd c B n m out inp2 len = Ok m2 /\
      forall i, 0 <= i < len -> exists y, m1 (out + i) = Some y /\ m2 (out + i) = Some (fneg y).
Proof.
  intros c B n m out inp1 inp2 len HB F1 F2 HM.
  destruct (computes_unary n B (vec_atan_float c (isa_of B) n) (fun _ => True) (fun x y => y = vec_atan_float c (isa_of B) n x) m out inp1 len) as (m1 & E1 & A1 & _); [auto|exact F1|intros ? ? ? ?; exact Logic.I|].
  destruct (computes_unary n B (vec_atan_float c (isa_of B) n) (fun _ => True) (fun x y => y = vec_atan_float c (isa_of B) n x) m out inp2 len) as (m2 & E2 & A2 & _); [auto|exact F2|intros ? ? ? ?; exact Logic.I|].
  exists m1, m2. split; [exact E1|]. split; [exact E2|]. intros i Hi.
  destruct (fit_readable B m out inp1 len F1 i Hi) as [x Hx]. destruct (A1 i x Hi Hx) as (y & Y1 & ->). destruct (A2 i _ Hi (HM i x Hi Hx)) as (z & Z1 & ->).
  eexists. split; [exact Y1|]. rewrite Z1. f_equal. apply signed_odd; apply atan_signed.
Qed.

Lemma C46_tanh_saturates_lemma : 
  forall (c : cfg) (I : isa) (n : nans F32) (x : F F32), math_isa c I -> number x -> (22 < Rabs (xval x))%R ->
    bits (vec_tanh_float c I n x) = bits (f_ofZ F32 (if sgn x then -1 else 1)).
Proof.
  intros c I n x HI Nx B. pose proof (isa_x86 _ _ HI) as HX. rewrite tanh_far; [|exact HX|exact Nx|intros F; rewrite xval_fin in B by exact F; exact B].
  destruct (sgn x); [rewrite neg_one|]; reflexivity.
Qed.

Lemma C46_tanh_bounded_lemma : 
  forall (c : cfg) (I : isa) (n : nans F32) (x : F F32), math_isa c I -> number x ->
    isfin (vec_tanh_float c I n x) = true /\ (Rabs (val (vec_tanh_float c I n x)) <= 1)%R.
Proof.
  intros c I n x HI Nx. pose proof (isa_x86 _ _ HI) as HX. apply tanh_bound; assumption.
Qed.

Lemma C46_tanh_sign_lemma : 
  forall (c : cfg) (I : isa) (n : nans F32) (x : F F32), math_isa c I -> number x -> xval x <> 0%R ->
    sgn (vec_tanh_float c I n x) = sgn x.
Proof.
  intros c I n x HI Nx NZ. pose proof (isa_x86 _ _ HI) as HX. apply tanh_sign; [assumption|assumption|]. apply xval_nonzero; assumption.
Qed.

Lemma C46_tanh_nan_avx_lemma : 
  forall (c : cfg) (n : nans F32) (x : F F32), isnan x = true ->
    bits (vec_tanh_float c AVX n x) = bits (f_ofZ F32 (if sgn x then -1 else 1)).
Proof.
  intros c n x Nx. rewrite (tanh_nan_avx c AVX n (or_intror eq_refl) x eq_refl Nx).
  destruct (sgn x); [rewrite neg_one|]; reflexivity.
Qed.

Lemma C46_tanh_vec_simd_bounded_lemma : 
  forall (c : cfg) (B : backend) (n : nans F32) (m : mem (F F32)) (out inp len : Z), math_backend c B -> unary_fit B m out inp len -> each number m inp len ->
    computes (fun x y => isfin y = true /\ (Rabs (val y) <= 1)%R /\ (xval x <> 0%R -> sgn y = sgn x))
      m (tanh_vec_simd c B n m out inp len) out inp len.
Proof.
  intros c B n m out inp len HB FT HN. pose proof (backend_isa _ _ HB) as HI. pose proof (isa_x86 _ _ HI) as HX.
  apply (computes_unary n B _ number); [|exact FT|exact HN]. intros x Nx. destruct (tanh_bound c _ n HX x Nx) as [A C]. repeat split; [exact A|exact C|].
  intros NZ. apply tanh_sign; [exact HX|exact Nx|]. apply xval_nonzero; assumption.
Qed.

Lemma C47_asin_outside_lemma : 
  forall (c : cfg) (I : isa) (n : nans F32) (x : F F32), math_isa c I -> number x -> (1 < Rabs (xval x))%R ->
    bits (vec_asin_float c I n x) = 0.
Proof.
  intros c I n x HI Nx B. pose proof (isa_x86 _ _ HI) as HX. rewrite asin_beyond; [reflexivity|exact HX|]. apply beyond_one; assumption.
Qed.

Lemma C47_asin_nan_avx_lemma : 
  forall (c : cfg) (n : nans F32) (x : F F32), isnan x = true -> bits (vec_asin_float c AVX n x) = 0.
Proof.
  intros c n x Nx. rewrite asin_beyond; [reflexivity|right; reflexivity|].
  rewrite vrel_nan_gt; [reflexivity|right; reflexivity|left; rewrite isnan_fabs; exact Nx].
Qed.

Lemma C47_asin_vec_simd_outside_lemma : 
  forall (c : cfg) (B : backend) (n : nans F32) (m : mem (F F32)) (out inp len : Z), math_backend c B -> unary_fit B m out inp len -> each (fun x => number x /\ (1 < Rabs (xval x))%R) m inp len ->
    computes (fun _ y => bits y = 0) m (asin_vec_simd c B n m out inp len) out inp len.
Proof.
  intros c B n m out inp len HB FT HN. pose proof (backend_isa _ _ HB) as HI.
  apply (computes_unary n B _ (fun x => number x /\ (1 < Rabs (xval x))%R)); [|exact FT|exact HN]. intros x [Nx Bx]. apply (C47_asin_outside_lemma c); assumption.
Qed.

Lemma C47_acos_outside_lemma : 
  forall (c : cfg) (I : isa) (n : nans F32) (x : F F32), math_isa c I -> number x -> (1 < Rabs (xval x))%R ->
    bits (vec_acos_float c I n x) = 0.
Proof.
  intros c I n x HI Nx B. pose proof (isa_x86 _ _ HI) as HX. rewrite acos_beyond; [reflexivity|exact HX|]. apply beyond_one; assumption.
Qed.

Lemma C47_acos_nan_avx_lemma : 
  forall (c : cfg) (n : nans F32) (x : F F32), isnan x = true -> bits (vec_acos_float c AVX n x) = 0.
Proof.
  intros c n x Nx. rewrite acos_beyond; [reflexivity|right; reflexivity|].
  rewrite vrel_nan_gt; [reflexivity|right; reflexivity|left; rewrite isnan_fabs; exact Nx].
Qed.

Lemma C47_acos_vec_simd_outside_lemma : 
  forall (c : cfg) (B : backend) (n : nans F32) (m : mem (F F32)) (out inp len : Z), math_backend c B -> unary_fit B m out inp len -> each (fun x => number x /\ (1 < Rabs (xval x))%R) m inp len ->
    computes (fun _ y => bits y = 0) m (acos_vec_simd c B n m out inp len) out inp len.
Proof.
  intros c B n m out inp len HB FT HN. pose proof (backend_isa _ _ HB) as HI.
  apply (computes_unary n B _ (fun x => number x /\ (1 < Rabs (xval x))%R)); [|exact FT|exact HN]. intros x [Nx Bx]. apply (C47_acos_outside_lemma c); assumption.
Qed.

Lemma C48_exp_above_lemma : 
  forall (c : cfg) (I : isa) (n : nans F32) (x : F F32), math_isa c I -> number x -> (1453635 / 16384 < xval x)%R ->
    bits (vec_exp_float c I n x) = bits (f_max F32).
Proof.
  intros c I n x HI Nx B. pose proof (isa_x86 _ _ HI) as HX. rewrite exp_above; [reflexivity|exact HX|exact Nx|].
  apply xlt_flt; [apply litf_8872283905206835_14|exact Nx|]. rewrite val_litf_8872283905206835_14. exact B.
Qed.

Lemma C48_exp_below_lemma : 
  forall (c : cfg) (I : isa) (n : nans F32) (x : F F32), math_isa c I -> number x -> (xval x < - 88)%R -> bits (vec_exp_float c I n x) = 0.
Proof.
  intros c I n x HI Nx B. pose proof (isa_x86 _ _ HI) as HX. rewrite exp_below; [reflexivity|exact HX|exact Nx|].
  apply xgt_flt; [rewrite isfin_fneg; apply litf_880_1|exact Nx|]. rewrite val_fneg, val_litf_880_1. lra.
Qed.

Lemma C48_exp_finite_lemma : 
  forall (c : cfg) (I : isa) (n : nans F32) (x : F F32), math_isa c I -> number x -> xval x <> (1453635 / 16384)%R ->
    isfin (vec_exp_float c I n x) = true /\ sgn (vec_exp_float c I n x) = false.
Proof.
  intros c I n x HI Nx NE. pose proof (isa_x86 _ _ HI) as HX. apply exp_total; [exact HX|exact Nx|]. intros ->. apply NE.
  rewrite xval_fin by apply litf_8872283905206835_14. apply val_litf_8872283905206835_14.
Qed.

Lemma C48_exp_edge_refuted_lemma : 
  forall (c : cfg) (I : isa) (n : nans F32), math_isa c I ->
    exists x : F F32, isfin x = true /\ val x = (1453635 / 16384)%R /\ isnan (vec_exp_float c I n x) = true.
Proof.
  intros c I n HI. pose proof (isa_x86 _ _ HI) as HX. exists (litf 8872283905206835 14). split; [apply litf_8872283905206835_14|]. split; [apply val_litf_8872283905206835_14|].
  apply exp_edge. exact HX.
Qed.

Lemma C48_exp_zero_lemma : 
  forall (c : cfg) (I : isa) (n : nans F32) (x : F F32), math_isa c I -> isfin x = true -> val x = 0%R ->
    bits (vec_exp_float c I n x) = bits (f_ofZ F32 1).
Proof.
  intros c I n x HI Fx V. pose proof (isa_x86 _ _ HI) as HX. destruct x as [s|s|s pl K|s mm e K]; try discriminate Fx.
  - apply exp_zero_bits. exact HX.
  - exfalso. unfold val, B2R in V. apply (F2R_neq_0 radix2) in V; [exact V|]. destruct s; discriminate.
Qed.

Lemma C48_exp_nan_sse_lemma : 
  forall (c : cfg) (n : nans F32) (x : F F32), has_sse2 c = true -> isnan x = true -> isnan (vec_exp_float c SSE n x) = true.
Proof.
  intros c n x _ Nx. apply exp_nan_sse. exact Nx.
Qed.

Lemma C48_exp_nan_avx_lemma : 
  forall (c : cfg) (n : nans F32) (x : F F32), isnan x = true -> bits (vec_exp_float c AVX n x) = bits (f_max F32).
Proof.
  intros c n x Nx. rewrite exp_nan_avx by exact Nx. reflexivity.
Qed.

Lemma C48_exp_vec_simd_finite_lemma : 
  forall (c : cfg) (B : backend) (n : nans F32) (m : mem (F F32)) (out inp len : Z), math_backend c B -> unary_fit B m out inp len -> each (fun x => number x /\ xval x <> (1453635 / 16384)%R) m inp len ->
    computes (fun _ y => isfin y = true /\ sgn y = false) m (exp_vec_simd c B n m out inp len) out inp len.
Proof.
  intros c B n m out inp len HB FT HN. pose proof (backend_isa _ _ HB) as HI.
  apply (computes_unary n B _ (fun x => number x /\ xval x <> (1453635 / 16384)%R)); [|exact FT|exact HN]. intros x [Nx Bx]. apply (C48_exp_finite_lemma c); assumption.
Qed.

Lemma C50_log_finite_lemma : 
  forall (c : cfg) (I : isa) (n : nans F32) (x : F F32), math_isa c I -> isfin (vec_log_float c I n x) = true.
Proof.
  intros c I n x HI. apply log_finite. exact (isa_x86 _ _ HI).
Qed.

Lemma C50_log_of_zero_lemma : 
  forall (c : cfg) (I : isa) (n : nans F32), math_isa c I -> (- 88.1 < val (vec_log_float c I n (f_ofZ F32 0)) < - 88)%R.
Proof.
  intros c I n HI. pose proof (isa_x86 _ _ HI) as HX. apply log_zero_range. exact HX.
Qed.

Lemma C50_log_of_infinity_lemma : 
  forall (c : cfg) (I : isa) (n : nans F32) (x : F F32), math_isa c I -> number x -> isfin x = false -> sgn x = false -> (88 < val (vec_log_float c I n x) < 89)%R.
Proof.
  intros c I n x HI Nx Fx Sx. pose proof (isa_x86 _ _ HI) as HX. destruct x as [s|s|s pl K|s mm e K]; try discriminate. unfold sgn, Bsign in Sx. subst s. apply log_inf_range. exact HX.
Qed.

Lemma C50_log_one_lemma : 
  forall (c : cfg) (I : isa) (n : nans F32), math_isa c I -> bits (vec_log_float c I n (f_ofZ F32 1)) = 0.
Proof.
  intros c I n HI. rewrite log_one; [reflexivity|exact (isa_x86 _ _ HI)].
Qed.

Lemma C50_pow_of_zero_lemma : 
  forall (c : cfg) (I : isa) (n : nans F32) (x y : F F32), math_isa c I -> isfin x = true -> val x = 0%R -> bits (vec_pow c I n x y) = 0.
Proof.
  intros c I n x y HI Fx V. pose proof (isa_x86 _ _ HI) as HX. rewrite pow_zero; [reflexivity|exact HX|].
  destruct zero_ok as (F0 & V0 & _). apply (srel_real EQ x (f_ofZ F32 0) Fx F0). unfold real_rel. rewrite V, V0. reflexivity.
Qed.

Lemma C50_pow_not_negative_lemma : 
  forall (c : cfg) (I : isa) (n : nans F32) (x y : F F32), math_isa c I -> isfin y = true -> sgn (vec_pow c I n x y) = false.
Proof.
  intros c I n x y HI Fy. apply pow_sign; [exact (isa_x86 _ _ HI)|exact Fy].
Qed.

Lemma C50_signed_pow_lemma : 
  forall (c : cfg) (I : isa) (n : nans F32) (x y : F F32), math_isa c I -> isfin y = true ->
    bits (vec_signed_pow c I n x y) = bits (if sgn x then fneg (vec_pow c I n (fabs x) y) else vec_pow c I n (fabs x) y).
Proof.
  intros c I n x y HI Fy. f_equal. apply spow_signed; [exact (isa_x86 _ _ HI)|exact Fy].
Qed.

Lemma C50_signed_pow_odd_lemma : 
  forall (c : cfg) (I : isa) (n : nans F32) (x y : F F32), math_isa c I -> isfin y = true ->
    sgn (vec_signed_pow c I n x y) = sgn x /\
    bits (vec_signed_pow c I n (fneg x) y) = bits (fneg (vec_signed_pow c I n x y)).
Proof.
  intros c I n x y HI Fy. pose proof (isa_x86 _ _ HI) as HX. rewrite !spow_signed by assumption. rewrite fabs_fneg, sgn_fneg.
  pose proof (pow_sign c I n HX (fabs x) y Fy) as S. destruct (sgn x); cbn [negb]; rewrite ?sgn_fneg, ?S, ?fneg_fneg; split; reflexivity.
Qed.

Lemma C50_log_vec_simd_finite_lemma : 
  forall (c : cfg) (B : backend) (n : nans F32) (m : mem (F F32)) (out inp len : Z), math_backend c B -> unary_fit B m out inp len -> computes (fun _ y => isfin y = true) m (log_vec_simd c B n m out inp len) out inp len.
Proof.
  intros c B n m out inp len HB FT. pose proof (backend_isa _ _ HB) as HI.
  apply (computes_unary n B _ (fun _ => True)); [|exact FT|intros ? ? ? ?; exact Logic.I]. intros x _. apply (C50_log_finite_lemma c); assumption.
Qed.

Lemma C50_pow_vec_simd_not_negative_lemma : 
  forall (c : cfg) (B : backend) (n : nans F32) (m : mem (F F32)) (out inp1 inp2 len : Z), math_backend c B -> binary_fit B m out inp1 inp2 len -> each (fun y => isfin y = true) m inp2 len ->
    computes2 (fun _ _ z => sgn z = false) m (pow_vec_simd c B n m out (APtr inp1) (APtr inp2) len) out inp1 inp2 len.
Proof.
  intros c B n m out i1 i2 len HB FT HE. pose proof (backend_isa _ _ HB) as HI.
  apply (computes_binary n B _ (fun _ y => isfin y = true)); [|exact FT|]. intros x y Fy. apply (C50_pow_not_negative_lemma c); assumption.
  intros i x y Hi _ Hy. exact (HE i y Hi Hy).
Qed.

Lemma C50_spow_vec_simd_sign_lemma : 
  forall (c : cfg) (B : backend) (n : nans F32) (m : mem (F F32)) (out inp1 inp2 len : Z), math_backend c B -> binary_fit B m out inp1 inp2 len -> each (fun y => isfin y = true) m inp2 len ->
    computes2 (fun x _ z => sgn z = sgn x) m (spow_vec_simd c B n m out (APtr inp1) (APtr inp2) len) out inp1 inp2 len.
Proof.
  intros c B n m out i1 i2 len HB FT HE. pose proof (backend_isa _ _ HB) as HI.
  apply (computes_binary n B _ (fun _ y => isfin y = true)); [|exact FT|]. intros x y Fy. apply (C50_signed_pow_odd_lemma c); assumption.
  intros i x y Hi _ Hy. exact (HE i y Hi Hy).
Qed.

Lemma C52_reciprocal_accurate_lemma : 
  forall (c : cfg) (I : isa) (n : nans F32) (estimate : F F32 -> F F32) (x : F F32), math_isa c I -> isfin x = true ->
    (bpow radix2 (-126) <= Rabs (val x) <= bpow radix2 125)%R -> close (1.5 / 4096) (estimate x) (/ val x) ->
    close (/ 2097152) (vec_reciprocal_newton c I n estimate x) (/ val x).
Proof.
  intros c I n e x HI Fx B [Fe E]. exact (recip_accurate c I n x (e x) Fx Fe B E).
Qed.

Lemma C52_reciprocal_of_zero_lemma : 
  forall (c : cfg) (I : isa) (n : nans F32) (estimate : F F32 -> F F32) (x : F F32), math_isa c I -> isfin x = true -> val x = 0%R ->
    isfin (estimate x) = false -> isnan (estimate x) = false ->
    isnan (vec_reciprocal_newton c I n estimate x) = true.
Proof.
  intros c I n e x HI A B C D. exact (recip_nan c I n x (e x) (or_introl (conj A (conj B (conj C D))))).
Qed.

Lemma C52_reciprocal_of_infinity_lemma : 
  forall (c : cfg) (I : isa) (n : nans F32) (estimate : F F32 -> F F32) (x : F F32), math_isa c I -> isfin x = false -> isnan x = false ->
    isfin (estimate x) = true -> val (estimate x) = 0%R ->
    isnan (vec_reciprocal_newton c I n estimate x) = true.
Proof.
  intros c I n e x HI A B C D. exact (recip_nan c I n x (e x) (or_intror (conj A (conj B (conj C D))))).
Qed.

Lemma C53_madd_error_lemma : 
  forall (c : cfg) (I : isa) (n : nans F32) (a b x : F F32), isfin a = true -> isfin b = true -> isfin x = true ->
    (Rabs (val a * val b) <= bpow radix2 125)%R -> (Rabs (val x) <= bpow radix2 126)%R ->
    isfin (madd c I n a b x) = true /\
    (Rabs (val (madd c I n a b x) - (val a * val b + val x)) <=
     bpow radix2 (-24) * (Rabs (val a * val b + val x) + 1.001 * Rabs (val a * val b)) + bpow radix2 (-148))%R.
Proof.
  intros c I n a b x Fa Fb Fx B1 B2. destruct (madd_error n a b x Fa Fb Fx B1) as ((A1 & A2) & (A3 & A4)); [pose proof (bpow_gt_0 radix2 126); lra|].
  assert (E : (1.001 * eta <= bpow radix2 (-148))%R) by (change (-148) with (1 + -149); rewrite bpow_plus; change (bpow radix2 1) with 2%R; fold eta; pose proof eta_small; lra).
  change (bpow radix2 (-24)) with (/ 16777216)%R. destruct (madd_cases c I n a b x) as [-> | ->]; (split; [assumption|lra]).
Qed.

Lemma C53_scalar_muladd_error_lemma : 
  forall (n : nans F32) (a b x : F F32), isfin a = true -> isfin b = true -> isfin x = true ->
    (Rabs (val a * val b) <= bpow radix2 125)%R -> (Rabs (val x) <= bpow radix2 126)%R ->
    isfin (fadd n (fmul n a b) x) = true /\
    (Rabs (val (fadd n (fmul n a b) x) - (val a * val b + val x)) <=
     bpow radix2 (-24) * (Rabs (val a * val b + val x) + 1.001 * Rabs (val a * val b)) + bpow radix2 (-148))%R.
Proof.
  intros n a b x Fa Fb Fx B1 B2. destruct (madd_error n a b x Fa Fb Fx B1) as ((A1 & A2) & (A3 & A4)); [pose proof (bpow_gt_0 radix2 126); lra|].
  assert (E : (1.001 * eta <= bpow radix2 (-148))%R) by (change (-148) with (1 + -149); rewrite bpow_plus; change (bpow radix2 1) with 2%R; fold eta; pose proof eta_small; lra).
  change (bpow radix2 (-24)) with (/ 16777216)%R. split; [assumption|lra].
Qed.

Lemma C53_exact_product_lemma : 
  forall (c : cfg) (I : isa) (n : nans F32) (a b x : F F32), isfin a = true -> isfin b = true -> isfin x = true ->
    (Rabs (val a * val b) <= bpow radix2 125)%R -> (Rabs (val x) <= bpow radix2 126)%R ->
    (exists p : F F32, isfin p = true /\ val p = val a * val b)%R ->
    isfin (madd c I n a b x) = true /\ val (madd c I n a b x) = val (fadd n (fmul n a b) x).
Proof.
  intros c I n a b x Fa Fb Fx B1 B2 (p & Fp & Vp).
  destruct (madd_exact n a b x Fa Fb Fx) as (E & A1 & A2); [rewrite <- Vp; apply val_format|exact B1|pose proof (bpow_gt_0 radix2 126); lra|].
  destruct (madd_cases c I n a b x) as [-> | ->]; auto.
Qed.

Lemma C53_forms_differ_refuted_lemma : 
  exists a b x : F F32, isfin a = true /\ isfin b = true /\ isfin x = true /\
    (0 < val a <= 2)%R /\ val a = val b /\ (Rabs (val x) <= 2)%R /\
    bits (madd all_ext SSE (n0 F32) a b x) <> bits (fadd (n0 F32) (fmul (n0 F32) a b) x).
Proof.
  exists (f_lit F32 8388609 (-23)), (f_lit F32 8388609 (-23)), (f_lit F32 (-8388610) (-23)).
  destruct (lit32 8388609 (-23)) as [A V]; [lia|lia|]. destruct (lit32 (-8388610) (-23)) as [A' V']; [lia|lia|].
  split; [exact A|]. split; [exact A|]. split; [exact A'|]. rewrite V, V'. change (bpow radix2 (-23)) with (/ 8388608)%R.
  split; [lra|]. split; [reflexivity|]. split; [rewrite Rabs_left1; lra|]. vm_compute. discriminate.
Qed.
