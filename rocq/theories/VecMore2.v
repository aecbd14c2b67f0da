(** undenormalize, signed_sqrt and the generated constants on one lane. *)
From Coq Require Import ZArith Reals Bool List Lia Lra.
From Flocq Require Import Core IEEE754.Binary IEEE754.Bits.
From Verif Require Import Base Mem Backend Args Lanes Float LaneOps FloatOps ScalarMath VecMath
  Spec SpecLane FloatFacts LaneFacts LaneMore FloatRound ReduceMore VecFacts VecMore.
Import ListNotations.
Local Open Scope Z_scope.

Section T.
Context {t : fmt}.
Implicit Types x y : F t.

(** ** undenormalize *)
Lemma f_min_lit : f_min t = f_lit t 1 (match t with F32 => -126 | F64 => -1022 end).
Proof. apply bits_inj. destruct t; vm_compute; reflexivity. Qed.
Lemma val_min : val (f_min t) = bpow radix2 (match t with F32 => -126 | F64 => -1022 end).
Proof. rewrite f_min_lit. apply f_lit_pow; destruct t; easy. Qed.
Lemma fin_min : isfin (f_min t) = true. Proof. destruct t; reflexivity. Qed.
Lemma sgn_min : sgn (f_min t) = false. Proof. destruct t; reflexivity. Qed.
Lemma ord_min : ord (f_min t) = 2 ^ mw t. Proof. destruct t; vm_compute; reflexivity. Qed.
Lemma tiny_mag x : tiny x <-> mag x < 2 ^ mw t.
Proof.
  unfold tiny. rewrite <- val_min, <- ord_min. rewrite <- val_fabs. rewrite <- (ord_fabs x). split.
  - intros [H1 H2]. apply ord_lt_val; [rewrite isfin_fabs; exact H1|apply fin_min|exact H2].
  - intros H. assert (H1 : isfin x = true).
    { rewrite isfin_mag. apply Z.ltb_lt. rewrite <- ord_fabs. etransitivity; [exact H|]. destruct t; reflexivity. }
    split; [exact H1|]. apply ord_lt_val; [rewrite isfin_fabs; exact H1|apply fin_min|exact H].
Qed.
Lemma nan_mag x : isnan x = true -> 2 ^ mw t < mag x.
Proof.
  intros H. rewrite isnan_mag in H. apply Z.ltb_lt in H. etransitivity; [|exact H]. destruct t; reflexivity.
Qed.
Lemma s_undenormalize_eq x : s_undenormalize x = if mag x <? 2 ^ mw t then f_ofZ t 0 else x.
Proof.
  unfold s_undenormalize. destruct (isnan x) eqn:N.
  - unfold fgt. rewrite !compare_nan by auto. pose proof (nan_mag x N). destruct (Z.ltb_spec (mag x) (2 ^ mw t)); [lia|reflexivity].
  - pose proof (fin_not_nan _ fin_min). pose proof (isnan_zero (t := t)).
    rewrite !fgt_ord, !flt_ord by (rewrite ?isnan_fneg; assumption). rewrite ord_fneg, ord_min, ord_zero, mag_abs_ord.
    destruct (Z.ltb_spec 0 (ord x)).
    + rewrite Z.abs_eq by lia. reflexivity.
    + destruct (Z.ltb_spec (- 2 ^ mw t) (ord x)), (Z.ltb_spec (Z.abs (ord x)) (2 ^ mw t)); try reflexivity; lia.
Qed.
Lemma vec_undenormalize_eq c I x : I <> NEON -> vec_undenormalize c I x = if mag x <? 2 ^ mw t then f_ofZ t 0 else x.
Proof.
  intros HI. unfold vec_undenormalize. rewrite select_vmask, vabs_fabs, vrel_srel by exact HI.
  replace (avx_hole I LT (fabs x) (f_min t)) with false by (destruct I; reflexivity). rewrite orb_false_r. cbn [srel].
  destruct (isnan x) eqn:N.
  - unfold flt. rewrite compare_nan by (left; rewrite isnan_fabs; exact N).
    pose proof (nan_mag x N). destruct (Z.ltb_spec (mag x) (2 ^ mw t)); [lia|reflexivity].
  - rewrite flt_ord by (rewrite ?isnan_fabs; auto using fin_not_nan, fin_min). rewrite ord_fabs, ord_min. reflexivity.
Qed.
Lemma vundenormalize_eq c I x : I <> NEON -> vundenormalize c I x = s_undenormalize x.
Proof. intros HI. destruct I; try reflexivity; cbn [vundenormalize]; rewrite vec_undenormalize_eq, s_undenormalize_eq by exact HI; reflexivity. Qed.
Lemma undenormalize_tiny x : tiny x -> bits (s_undenormalize x) = 0.
Proof.
  intros H. rewrite s_undenormalize_eq. apply tiny_mag in H. apply Z.ltb_lt in H. rewrite H. apply bits_zero.
Qed.
Lemma undenormalize_other x : ~ tiny x -> s_undenormalize x = x.
Proof.
  intros H. rewrite s_undenormalize_eq. destruct (Z.ltb_spec (mag x) (2 ^ mw t)); [|reflexivity]. apply tiny_mag in H0. contradiction.
Qed.

(** ** signed_sqrt *)
Context (n : nans t).
Lemma fsqrt_nonneg x : sgn x = false -> isnan x = false -> sgn (fsqrt n x) = false /\ isnan (fsqrt n x) = false.
Proof.
  intros S N. destruct x as [s|s|s pl Hp|s m e Hm]; try discriminate; unfold sgn in S; cbn [Bsign] in S; subst s.
  - split; reflexivity.
  - split; reflexivity.
  - destruct (fsqrt_fin n (B754_finite (prec t) (emax t) false m e Hm)) as (A1 & A2 & A3); [reflexivity|left; apply F2R_gt_0; reflexivity|].
    split; [exact A3|apply fin_not_nan; exact A1].
Qed.
Lemma vec_signed_sqrt_eq c I x : isnan x = false ->
  vec_signed_sqrt c I n x = if sgn x then fneg (fsqrt n (fabs x)) else fsqrt n (fabs x).
Proof.
  intros N. unfold vec_signed_sqrt. rewrite bxor_comm, bxor_sm_self. apply bor_sm.
  apply fsqrt_nonneg; [apply sgn_fabs|rewrite isnan_fabs; exact N].
Qed.
Lemma s_signed_sqrt_eq x : isnan x = false ->
  s_signed_sqrt n x = if sgn x then fneg (fsqrt n (fabs x)) else fsqrt n (fabs x).
Proof.
  intros N. unfold s_signed_sqrt. rewrite fge_ord, ord_zero by (exact N || apply isnan_zero).
  rewrite fabs_cond. destruct (Z.leb_spec 0 (ord x)) as [L|L].
  - destruct (sgn x) eqn:S; [|reflexivity].
    assert (ord x = 0). { unfold ord in *. rewrite S in *. pose proof (mag_range x). lia. }
    rewrite (ord_0_cases x H), S. destruct t; reflexivity.
  - rewrite ord_sgn by exact L. reflexivity.
Qed.
Lemma vsigned_sqrt_eq c I x : isnan x = false -> vsigned_sqrt c I n x = s_signed_sqrt n x.
Proof. intros N. destruct I; try reflexivity; cbn [vsigned_sqrt]; rewrite vec_signed_sqrt_eq, s_signed_sqrt_eq by exact N; reflexivity. Qed.
Lemma signed_sqrt_val x : isfin x = true ->
  isfin (s_signed_sqrt n x) = true /\ sgn (s_signed_sqrt n x) = sgn x /\
  Rabs (val (s_signed_sqrt n x)) = rnd t (sqrt (Rabs (val x))).
Proof.
  intros Fx. rewrite s_signed_sqrt_eq by (apply fin_not_nan; exact Fx).
  destruct (fsqrt_fin n (fabs x)) as (A1 & A2 & A3).
  { rewrite isfin_fabs; exact Fx. }
  { rewrite val_fabs. pose proof (Rabs_pos (val x)). lra. }
  rewrite val_fabs in A2. rewrite sgn_fabs in A3.
  assert (P : Rabs (rnd t (sqrt (Rabs (val x)))) = rnd t (sqrt (Rabs (val x)))).
  { rewrite <- rnd_abs. rewrite (Rabs_pos_eq (sqrt _)) by apply sqrt_pos. reflexivity. }
  destruct (sgn x); rewrite ?isfin_fneg, ?sgn_fneg, ?val_fneg, ?Rabs_Ropp, A2, A3; auto.
Qed.
Lemma signed_sqrt_odd x : isnan x = false -> s_signed_sqrt n (fneg x) = fneg (s_signed_sqrt n x).
Proof.
  intros N. rewrite !s_signed_sqrt_eq by (rewrite ?isnan_fneg; exact N). rewrite sgn_fneg.
  replace (fabs (fneg x)) with (fabs x) by (destruct x; reflexivity).
  destruct (sgn x); cbn [negb]; rewrite ?fneg_fneg; reflexivity.
Qed.
Lemma signed_sqrt_inf x : isfin x = false -> isnan x = false -> s_signed_sqrt n x = x.
Proof.
  intros H1 H2. rewrite s_signed_sqrt_eq by exact H2. destruct x as [s|s|s pl Hp|s m e Hm]; try discriminate. destruct s; reflexivity.
Qed.
End T.

(** ** The exponent mask *)
Lemma land_exp_mask z : 0 <= z < 2 ^ 31 -> Z.land z 0x7F800000 = z / 2 ^ 23 * 2 ^ 23.
Proof.
  intros H. change 0x7F800000 with (Z.shiftl (Z.ones 8) 23).
  rewrite <- Z.shiftl_mul_pow2, <- Z.shiftr_div_pow2 by lia.
  replace (Z.shiftr z 23) with (Z.land (Z.shiftr z 23) (Z.ones 8)).
  2: { rewrite Z.land_ones, Z.shiftr_div_pow2 by lia. apply Z.mod_small.
       change (2 ^ 31) with 2147483648 in H. change (2 ^ 23) with 8388608. change (2 ^ 8) with 256.
       split; [apply Z.div_pos; lia|]. apply Z.div_lt_upper_bound; lia. }
  apply Z.bits_inj'. intros i Hi. rewrite Z.land_spec, !Z.shiftl_spec, Z.land_spec by exact Hi.
  destruct (Z_lt_ge_dec i 23).
  - rewrite !(Z.testbit_neg_r _ (i - 23)) by lia. apply andb_false_r.
  - rewrite Z.shiftr_spec by lia. replace (i - 23 + 23) with i by lia. reflexivity.
Qed.
Lemma mag_exp_mask (x : F F32) : mag (band x (gen_exp_mask (t := F32))) = mag x / 2 ^ 23 * 2 ^ 23.
Proof.
  rewrite mag_band. change (mag (gen_exp_mask (t := F32))) with 0x7F800000. apply land_exp_mask. exact (mag_range x).
Qed.
Lemma sgn_exp_mask (x : F F32) : sgn (band x (gen_exp_mask (t := F32))) = false.
Proof. rewrite sgn_band. apply andb_false_r. Qed.

(** A normal number by significand and exponent. *)
Lemma digits_24 m : 2 ^ 23 <= Z.pos m < 2 ^ 24 -> Z.pos (Digits.digits2_pos m) = 24.
Proof.
  intros H. rewrite Digits.Zpos_digits2_pos. apply Digits.Zdigits_unique. exact H.
Qed.
Lemma normal_form (x : F F32) : isfin x = true -> ~ tiny x ->
  exists s m ex H, x = B754_finite 24 128 s m ex H /\ 2 ^ 23 <= Z.pos m < 2 ^ 24.
Proof.
  intros Fx T. destruct x as [s|s|s pl Hp|s m ex H]; try discriminate.
  - exfalso. apply T. apply (tiny_mag (t := F32)). destruct s; vm_compute; reflexivity.
  - exists s, m, ex, H. split; [reflexivity|].
    destruct (finite_bounds (t := F32) m ex H) as (H1 & H2 & H3).
    split; [|exact (proj2 H2)]. destruct (Z_lt_ge_dec (Z.pos m) (2 ^ 23)) as [L|L]; [|lia].
    exfalso. apply T. apply (tiny_mag (t := F32)). eapply Z.le_lt_trans; [apply Z.eq_le_incl; exact (mag_finite (t := F32) s m ex H)|]. change (mw F32) with 23.
    destruct (Z.eq_dec ex (SpecFloat.emin (prec F32) (emax F32))) as [E|E]; [rewrite E, Z.sub_diag; exact L|].
    exfalso. change (mw F32) with 23 in H3. apply (Z.lt_irrefl (Z.pos m)). eapply Z.lt_le_trans; [exact L|]. apply H3.
    destruct H1 as [H1 _]. apply Z.le_neq. split; [exact H1|]. intros Q. apply E. symmetry. exact Q.
Qed.
Lemma exp_mask_pow (x : F F32) : isfin x = true -> ~ tiny x ->
  exists e, isfin (band x (gen_exp_mask (t := F32))) = true /\ val (band x (gen_exp_mask (t := F32))) = bpow radix2 e /\
            (bpow radix2 e <= Rabs (val x) < bpow radix2 (e + 1))%R.
Proof.
  intros Fx T. destruct (normal_form x Fx T) as (s & m & ex & H & -> & M).
  assert (H' : SpecFloat.bounded 24 128 8388608 ex = true).
  { generalize H. unfold SpecFloat.bounded, SpecFloat.canonical_mantissa. rewrite !(digits_24 m M).
    rewrite (digits_24 8388608) by (vm_compute; split; [discriminate|reflexivity]). intros Q; exact Q. }
  assert (E : band (B754_finite 24 128 s m ex H : F F32) (gen_exp_mask (t := F32)) = (B754_finite 24 128 false 8388608 ex H' : F F32)).
  { apply (sm_inj (t := F32)); [apply sgn_exp_mask|]. rewrite mag_exp_mask.
    pose proof (mag_finite (t := F32) s m ex H) as Q1. pose proof (mag_finite (t := F32) false 8388608 ex H') as Q2.
    change (mw F32) with 23 in Q1, Q2. etransitivity; [|symmetry; exact Q2]. etransitivity; [apply (f_equal (fun q => q / 2 ^ 23 * 2 ^ 23)); exact Q1|]. cbv beta.
    set (k := ex - _). replace (k * 2 ^ 23 + Z.pos m) with (Z.pos m - 2 ^ 23 + (k + 1) * 2 ^ 23) by lia.
    rewrite Z.div_add, Z.div_small by lia. lia. }
  exists (ex + 23). rewrite E. split; [reflexivity|]. split.
  - change (F2R (Float radix2 8388608 ex) = bpow radix2 (ex + 23)). rewrite Z.add_comm, bpow_plus. reflexivity.
  - rewrite <- val_fabs. change (bpow radix2 (ex + 23) <= F2R (Float radix2 (Z.pos m) ex) < bpow radix2 (ex + 23 + 1))%R.
    replace (ex + 23 + 1) with (24 + ex) by lia. rewrite (Z.add_comm ex), !bpow_plus. unfold F2R. cbn [Fnum Fexp].
    pose proof (bpow_gt_0 radix2 ex). change (bpow radix2 23) with (IZR (2 ^ 23)). change (bpow radix2 24) with (IZR (2 ^ 24)).
    destruct M as [M1 M2]. apply IZR_le in M1. apply IZR_lt in M2. split; [apply Rmult_le_compat_r|apply Rmult_lt_compat_r]; lra.
Qed.

(** ** Infinities in the order of the reals, and the product *)
Section X.
Context {t : fmt}.
Implicit Types x y a b : F t.
Lemma inf_ord x : isfin x = false -> isnan x = false -> ord x = if sgn x then - inf_bits (t := t) else inf_bits (t := t).
Proof.
  intros H1 H2. unfold ord. destruct x as [s|s|s pl Hp|s m e Hm]; try discriminate. rewrite mag_inf. destruct s; reflexivity.
Qed.
Lemma fin_ord x : isfin x = true -> Z.abs (ord x) < inf_bits (t := t).
Proof. intros H. rewrite isfin_mag in H. apply Z.ltb_lt in H. rewrite <- mag_abs_ord. exact H. Qed.
Lemma inf_bits_pos : 0 < inf_bits (t := t). Proof. destruct t; reflexivity. Qed.
Lemma ord_lt_xval x y : isnan x = false -> isnan y = false -> (ord x < ord y <-> (xval x < xval y)%R).
Proof.
  intros Nx Ny. unfold xval. replace (match t with F32 => 128 | F64 => 1024 end) with (emax t) by (destruct t; reflexivity).
  cbv zeta. pose proof inf_bits_pos. pose proof (bpow_gt_0 radix2 (emax t)).
  pose proof (Rabs_def2 _ _ (val_lt_emax x)) as [B1 B2]. pose proof (Rabs_def2 _ _ (val_lt_emax y)) as [B3 B4].
  destruct (isfin x) eqn:Fx, (isfin y) eqn:Fy.
  - apply ord_lt_val; assumption.
  - rewrite (inf_ord y) by assumption. pose proof (fin_ord x Fx). destruct (sgn y); split; intros; lra || lia.
  - rewrite (inf_ord x) by assumption. pose proof (fin_ord y Fy). destruct (sgn x); split; intros; lra || lia.
  - rewrite (inf_ord x), (inf_ord y) by assumption. destruct (sgn x), (sgn y); split; intros; lra || lia.
Qed.
Lemma srel_xval r a b : isnan a = false -> isnan b = false -> (srel r a b = true <-> real_rel r (xval a) (xval b)).
Proof.
  intros Na Nb. pose proof (ord_lt_xval a b Na Nb). pose proof (ord_lt_xval b a Nb Na).
  destruct r; cbn [srel real_rel].
  - rewrite flt_ord, Z.ltb_lt by assumption. tauto.
  - rewrite fle_ord, Z.leb_le by assumption. split; intros; [apply Rnot_lt_le; intros C; apply H0 in C; lia|].
    apply Z.nlt_ge. intros C. apply H0 in C. lra.
  - rewrite fgt_ord, Z.ltb_lt by assumption. unfold Rgt. tauto.
  - rewrite fge_ord, Z.leb_le by assumption. split; intros; [apply Rle_ge; apply Rnot_lt_le; intros C; apply H in C; lia|].
    apply Z.nlt_ge. intros C. apply H in C. lra.
  - rewrite feq_ord, Z.eqb_eq by assumption. split; intros E.
    + apply Rle_antisym; apply Rnot_lt_le; intros C; [apply H0 in C|apply H in C]; lia.
    + apply Z.le_antisymm; apply Z.nlt_ge; intros C; [apply H0 in C|apply H in C]; lra.
  - unfold fne. rewrite feq_ord, negb_true_iff, Z.eqb_neq by assumption. split; intros E C; apply E.
    + apply Z.le_antisymm; apply Z.nlt_ge; intros C'; [apply H0 in C'|apply H in C']; lra.
    + apply Rle_antisym; apply Rnot_lt_le; intros C'; [apply H0 in C'|apply H in C']; lia.
Qed.

Context (n : nans t).
Lemma fmul_comm x y : isnan (fmul n x y) = false -> fmul n x y = fmul n y x.
Proof.
  intros N. destruct (isfin x && isfin y) eqn:E.
  - apply andb_true_iff in E. destruct E as [Fx Fy].
    pose proof (Bmult_correct (prec t) (emax t) (Hprec t) (Hmax t) (nan_mul n) BinarySingleNaN.mode_NE x y) as H1.
    pose proof (Bmult_correct (prec t) (emax t) (Hprec t) (Hmax t) (nan_mul n) BinarySingleNaN.mode_NE y x) as H2.
    rewrite (Rmult_comm (B2R _ _ y)) in H2. destruct (Rlt_bool _ _).
    + destruct H1 as (V1 & F1 & S1), H2 as (V2 & F2 & S2). unfold isfin in Fx, Fy. rewrite Fx, Fy in F1, F2.
      apply fin_eq; auto.
      * unfold val, fmul. rewrite V1, V2. reflexivity.
      * unfold sgn, fmul. rewrite S1, S2 by (apply (fin_not_nan (t := t)); assumption). apply xorb_comm.
    + apply B2FF_inj. etransitivity; [exact H1|]. rewrite xorb_comm. symmetry. exact H2.
  - destruct x as [s|s|s pl Hp|s m e Hm], y as [s'|s'|s' pl' Hp'|s' m' e' Hm']; try discriminate E;
      try (unfold isnan, fmul, Bmult, BSN2B in N; cbn [B2BSN BinarySingleNaN.Bmult] in N;
           destruct (nan_mul n _ _) as [z Hz]; cbn [proj1_sig] in N; destruct z; discriminate).
    all: unfold fmul, Bmult; cbn [B2BSN BinarySingleNaN.Bmult BSN2B]; rewrite xorb_comm; reflexivity.
Qed.
Lemma fmul_self_nan x : isnan x = false -> isnan (fmul n x x) = false /\ isnan (fmul n x (fmul n x x)) = false.
Proof.
  intros N.
  assert (K : forall a b, isfin a = true -> isfin b = true -> isnan (fmul n a b) = false).
  { intros a b Fa Fb. pose proof (Bmult_correct (prec t) (emax t) (Hprec t) (Hmax t) (nan_mul n) BinarySingleNaN.mode_NE a b) as H1.
    destruct (Rlt_bool _ _).
    - destruct H1 as (V1 & F1 & S1). apply fin_not_nan. unfold isfin in *. unfold fmul. rewrite F1, Fa, Fb. reflexivity.
    - unfold isnan, fmul. destruct (Bmult _ _ _ _ _ _ a b); try reflexivity. discriminate H1. }
  assert (K2 : isnan (fmul n x x) = false). { destruct (isfin x) eqn:Fx; [apply K; assumption|]. destruct x; try discriminate. reflexivity. }
  split; [exact K2|]. destruct (isfin x) eqn:Fx.
  - destruct (isfin (fmul n x x)) eqn:F2; [apply K; assumption|].
    destruct x as [s|s|s pl Hp|s m e Hm]; try discriminate. destruct (fmul n _ _) eqn:Q; try discriminate. reflexivity.
  - destruct x as [s|s|s pl Hp|s m e Hm]; try discriminate. reflexivity.
Qed.
Lemma vsquare_eq I x : I <> ALTIVEC -> vsquare I n x = s_square n x.
Proof. intros HI. unfold vsquare. rewrite vmul_x86 by exact HI. reflexivity. Qed.
End X.

Lemma vcube_eq {t} (n : nans t) I (x : F t) : I <> ALTIVEC -> isnan x = false -> vcube I n x = s_cube n x.
Proof.
  intros HI N. unfold vcube, s_cube. destruct (fmul_self_nan n x N) as [_ K].
  destruct I, t; try congruence; rewrite ?vmul_x86 by discriminate; try reflexivity; apply fmul_comm; exact K.
Qed.

(** ** Bits *)
Lemma testbit_above w z k : 0 <= z < 2 ^ w -> w <= k -> 0 <= w -> Z.testbit z k = false.
Proof.
  intros H Hk Hw. destruct (Z.eq_dec z 0) as [->|N]; [apply Z.bits_0|].
  apply Z.bits_above_log2; [lia|]. apply Z.lt_le_trans with w; [|exact Hk]. apply Z.log2_lt_pow2; lia.
Qed.
Lemma bnot_testbit {t} (x : F t) k : 0 <= k < width t -> Z.testbit (bits (bnot x)) k = negb (Z.testbit (bits x) k).
Proof.
  intros Hk. rewrite bits_bnot. unfold ones. pose proof (bits_range x) as R.
  replace (2 ^ width t - 1 - bits x) with (Z.lnot (bits x) mod 2 ^ width t).
  - rewrite Z.mod_pow2_bits_low by lia. apply Z.lnot_spec. lia.
  - unfold Z.lnot. rewrite <- (Z.mod_add _ 1) by lia.
    replace (Z.pred (- bits x) + 1 * 2 ^ width t) with (2 ^ width t - 1 - bits x) by lia. apply Z.mod_small. lia.
Qed.
