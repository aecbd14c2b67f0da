(** Bit-level facts about the transcendental functions: symmetry, selections. *)
From Coq Require Import ZArith Reals List Lia Lra Bool.
From Flocq Require Import Core IEEE754.Binary IEEE754.Bits.
From Verif Require Import Base Backend Lanes Float LaneOps ScalarMath VecMath IntVec TransMath SpecLane
  FloatFacts FloatRound LaneFacts VecFacts VecMore VecMore2 RoundMore TransConst.
Local Open Scope Z_scope.
#[local] Opaque litf litd four_over_pi DP1 DP2 DP3.

(** Proof auxiliary: SSE or AVX. *)
Definition x86 (I : isa) : Prop := I = SSE \/ I = AVX.
Lemma x86_gen I : x86 I -> I <> GEN. Proof. intros [-> | ->]; discriminate. Qed.
Lemma x86_neon I : x86 I -> I <> NEON. Proof. intros [-> | ->]; discriminate. Qed.

Lemma land_mod31 z : 0 <= z < 2 ^ 32 -> Z.land z (2 ^ 31 - 1) = z mod 2 ^ 31.
Proof. intros H. change (2 ^ 31 - 1) with (Z.ones 31). rewrite Z.land_ones by lia. reflexivity. Qed.
Lemma band_abs c I (x : F F32) : band x (gen_abs_mask c I) = fabs x.
Proof. apply sm_inj; rewrite ?sgn_band, ?mag_band, ?sgn_abs_mask, ?mag_abs_mask, ?sgn_fabs, ?mag_fabs; [apply andb_false_r|apply land_mag_ones]. Qed.
Lemma fabs_fabs (x : F F32) : fabs (fabs x) = fabs x. Proof. destruct x; reflexivity. Qed.
Lemma fabs_fneg (x : F F32) : fabs (fneg x) = fabs x. Proof. destruct x; reflexivity. Qed.
Lemma fabs_pos (x : F F32) : sgn x = false -> fabs x = x.
Proof. destruct x; cbn; intros ->; reflexivity. Qed.
Lemma bxor_assoc (x y z : F F32) : bxor x (bxor y z) = bxor (bxor x z) y.
Proof. apply bits_inj. rewrite !bits_bxor. rewrite (Z.lxor_comm (bits y)). symmetry. apply Z.lxor_assoc. Qed.
Lemma bxor_sign c I (x y : F F32) : bxor y (band x (gen_sign_mask c I)) = if sgn x then fneg y else y.
Proof. rewrite bxor_comm. apply bxor_sm. Qed.
Lemma bxor_zero (x : F F32) : bxor x (f_ofZ F32 0) = x.
Proof. apply bits_inj. rewrite bits_bxor, bits_zero. apply Z.lxor_0_r. Qed.

(** The odd functions act on the magnitude and copy the sign bit. *)
Definition signed (f : F F32 -> F F32) (x : F F32) : Prop := f x = if sgn x then fneg (f (fabs x)) else f (fabs x).
Lemma signed_odd f x : signed f x -> signed f (fneg x) -> f (fneg x) = fneg (f x).
Proof.
  unfold signed. intros -> ->. rewrite fabs_fneg, sgn_fneg. destruct (sgn x); cbn [negb]; [rewrite fneg_fneg|]; reflexivity.
Qed.

Section X.
Context (c : cfg) (I : isa) (n : nans F32) (HI : x86 I).

Lemma sin_signed x : signed (vec_sin_float c I n) x.
Proof.
  unfold signed, vec_sin_float. cbv zeta. rewrite !band_abs, fabs_fabs.
  rewrite !bxor_assoc, !bxor_sign, sgn_fabs. reflexivity.
Qed.
Lemma cos_even x : vec_cos_float c I n (fneg x) = vec_cos_float c I n x.
Proof. unfold vec_cos_float. cbv zeta. rewrite !band_abs, fabs_fneg. reflexivity. Qed.
Lemma cos_abs x : vec_cos_float c I n x = vec_cos_float c I n (fabs x).
Proof. unfold vec_cos_float. cbv zeta. rewrite !band_abs, fabs_fabs. reflexivity. Qed.
Lemma tan_signed x : signed (vec_tan_float c I n) x.
Proof. unfold signed, vec_tan_float. cbv zeta. rewrite !band_abs, fabs_fabs, !bxor_sign, sgn_fabs. reflexivity. Qed.
Lemma atan_signed x : signed (vec_atan_float c I n) x.
Proof. unfold signed, vec_atan_float. cbv zeta. rewrite !band_abs, fabs_fabs, !bxor_sign, sgn_fabs. reflexivity. Qed.

(** ** asin *)
Lemma vrel_nan_gt (x y : F F32) : isnan x = true \/ isnan y = true -> vrel I GT x y = match I with AVX => true | _ => false end.
Proof.
  intros H. rewrite vrel_srel, srel_nan by exact H. destruct HI as [-> | ->]; cbn; [reflexivity|].
  destruct H as [-> | ->]; [|rewrite orb_true_r]; reflexivity.
Qed.
Lemma vrel_num r (x y : F F32) : isnan x = false -> isnan y = false -> vrel I r x y = srel r x y.
Proof.
  intros Hx Hy. rewrite vrel_srel. replace (avx_hole I r x y) with false; [apply orb_false_r|].
  destruct HI as [-> | ->]; [reflexivity|]. unfold avx_hole. rewrite Hx, Hy. destruct r; reflexivity.
Qed.
Lemma one_num : isnan (f_ofZ F32 1) = false. Proof. reflexivity. Qed.
Lemma one_ord : ord (f_ofZ F32 1) = 1065353216. Proof. reflexivity. Qed.
Lemma vrel_one x : isnan x = false -> vrel I GT (fabs x) (f_ofZ F32 1) = (1065353216 <? mag x).
Proof.
  intros Hx. rewrite vrel_num by (try apply one_num; rewrite isnan_fabs; exact Hx). cbn [srel].
  rewrite fgt_ord by (try apply one_num; rewrite isnan_fabs; exact Hx). rewrite ord_fabs, one_ord. reflexivity.
Qed.
Lemma asin_split x : vec_asin_float c I n x =
  if vrel I GT (fabs x) (f_ofZ F32 1) then f_ofZ F32 0
  else if sgn x then fneg (vec_asin_float c I n (fabs x)) else vec_asin_float c I n (fabs x).
Proof.
  unfold vec_asin_float. cbv zeta. rewrite !band_abs, fabs_fabs, gen_one_1.
  rewrite !select_vmask by (apply x86_neon; exact HI). rewrite !bxor_sign, sgn_fabs.
  destruct (vrel I GT (fabs x) (f_ofZ F32 1)); reflexivity.
Qed.
Lemma asin_beyond x : vrel I GT (fabs x) (f_ofZ F32 1) = true -> vec_asin_float c I n x = f_ofZ F32 0.
Proof. intros H. rewrite asin_split, H. reflexivity. Qed.
Lemma acos_beyond x : vrel I GT (fabs x) (f_ofZ F32 1) = true -> vec_acos_float c I n x = f_ofZ F32 0.
Proof.
  intros H. unfold vec_acos_float. cbv zeta. rewrite !band_abs, gen_one_1.
  rewrite select_vmask by (apply x86_neon; exact HI). rewrite H. reflexivity.
Qed.
Lemma asin_signed x : vrel I GT (fabs x) (f_ofZ F32 1) = false -> signed (vec_asin_float c I n) x.
Proof. intros H. unfold signed. rewrite asin_split at 1. rewrite H. reflexivity. Qed.

(** ** exp *)
Lemma exp_split x : exists core, vec_exp_float c I n x =
  if vrel I LT x (fneg (litf 880 1)) then f_ofZ F32 0
  else if vrel I GT x (litf 8872283905206835 14) then f_max F32 else core.
Proof.
  unfold vec_exp_float. cbv zeta. rewrite !select_vmask by (apply x86_neon; exact HI). eexists. reflexivity.
Qed.
Lemma pow_zero x y : feq x (f_ofZ F32 0) = true -> vec_pow c I n x y = f_ofZ F32 0.
Proof.
  intros H. unfold vec_pow. cbv zeta. rewrite select_vmask by (apply x86_neon; exact HI).
  replace (vrel I EQ x gen_zero) with true; [reflexivity|]. destruct HI as [-> | ->]; symmetry; exact H.
Qed.
Lemma bxor_sm2 (x : F F32) : bxor x (band x (gen_sign_mask c I)) = fabs x.
Proof. rewrite bxor_comm. apply bxor_sm_self. Qed.
Lemma spow_split x y : sgn (vec_pow c I n (fabs x) y) = false ->
  vec_signed_pow c I n x y = if sgn x then fneg (vec_pow c I n (fabs x) y) else vec_pow c I n (fabs x) y.
Proof. intros H. unfold vec_signed_pow. cbv zeta. rewrite bxor_sm2. apply bor_sm. exact H. Qed.
End X.
