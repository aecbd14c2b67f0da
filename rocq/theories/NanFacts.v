(** NaNs and infinities in the transcendental functions and unit conversions. *)
From Coq Require Import ZArith Reals List Lia Lra Bool.
From Flocq Require Import Core IEEE754.Binary IEEE754.Bits.
From Verif Require Import Base Mem Backend Lanes Float LaneOps ScalarMath VecMath IntVec TransMath TransFuns SpecLane SpecRound SpecInt SpecOrder
  FloatFacts FloatRound LaneFacts VecFacts VecMore VecMore2 RoundFacts RoundMore IntFacts LdexpFacts TransConst TransFacts
  ErrFacts ErrTac RealMath RealTanh RealLog RealUnit ExpFacts ExpMore LastStep NearFacts OddFacts TrigFacts SinFacts TanFacts LogFacts PowFacts UnitFacts LogOrder2 ExFloat.
Import ListNotations.
Local Open Scope Z_scope.
#[local] Opaque litf litd.

Section N.
Context (n : nans F32).
Lemma fdiv_nan (x y : F F32) : isnan x = true \/ isnan y = true -> isnan (fdiv n x y) = true.
Proof. intros [H|H]; destruct x, y; try discriminate H; cbn; first [reflexivity | apply pnan]. Qed.
Lemma fsqrt_nan (x : F F32) : isnan x = true -> isnan (fsqrt n x) = true.
Proof. intros H; destruct x; try discriminate H; cbn; first [reflexivity | apply pnan]. Qed.
Lemma isnan_if (b : bool) (x : F F32) : isnan (if b then fneg x else x) = isnan x.
Proof. destruct b; [apply isnan_fneg|reflexivity]. Qed.
Lemma feq_nan (x y : F F32) : isnan x = true -> feq x y = false.
Proof. intros H. unfold feq. rewrite compare_nan by (left; exact H). reflexivity. Qed.
End N.
(** NaN-ness of a sum, product and so on with a NaN somewhere inside. *)
Ltac nans := repeat first [assumption | rewrite isnan_if | rewrite isnan_fneg | rewrite isnan_fabs
  | match goal with
    | |- isnan (fadd _ ?x ?y) = true => apply fadd_nan; first [left; solve [nans] | right; solve [nans]]
    | |- isnan (fsub _ ?x ?y) = true => apply fsub_nan; first [left; solve [nans] | right; solve [nans]]
    | |- isnan (fmul _ ?x ?y) = true => apply fmul_nan; first [left; solve [nans] | right; solve [nans]]
    | |- isnan (fdiv _ ?x ?y) = true => apply fdiv_nan; first [left; solve [nans] | right; solve [nans]]
    | |- isnan (fsqrt _ ?x) = true => apply fsqrt_nan; solve [nans]
    end ].

Section S.
Context (c : cfg) (I : isa) (n : nans F32) (HI : x86 I).
(** ** Beyond the range of the conversion to int every argument falls into one case *)
Lemma far_trunc (x : F F32) : isfin x = false -> itruncate I x = 2 ^ 31.
Proof. intros H. rewrite itruncate_x86 by (destruct HI as [-> | ->]; discriminate). rewrite H. reflexivity. Qed.
Lemma mask_eq (b : bool) : of_bits F32 (if b then 2 ^ 32 - 1 else 0) = mask b.
Proof. destruct b; apply bits_inj; vm_compute; reflexivity. Qed.
Lemma far_sin a : sgn a = false -> itruncate I (red_y n a) = 2 ^ 31 -> vec_sin_float c I n a = trig_sin n (red_base n a (iconvert I (2 ^ 31))).
Proof.
  intros Sa T. assert (EA : fabs a = a) by (destruct a as [[]|[]|[]|[]]; reflexivity || discriminate).
  unfold vec_sin_float. cbv zeta. rewrite !band_abs, EA. fold (red_y n a). rewrite T.
  replace (iand (iadd (2 ^ 31) (u32 1)) (u32 (-2))) with (2 ^ 31) by reflexivity.
  replace (of_bits F32 (ieq (iand (2 ^ 31) (u32 2)) (u32 0))) with (mask (t := F32) true) by (apply bits_inj; vm_compute; reflexivity).
  replace (islli I (iand (2 ^ 31) (u32 4)) 29) with 0 by (destruct HI as [-> | ->]; reflexivity).
  rewrite select_mask by (destruct HI as [-> | ->]; discriminate). rewrite bxor_assoc, bxor_sign, Sa.
  change (of_bits F32 0) with (of_bits F32 (if false then 2 ^ 31 else 0)). rewrite bxor_top. unfold trig_sin, trig_C, red_base. reflexivity.
Qed.
Lemma far_cos a : sgn a = false -> itruncate I (red_y n a) = 2 ^ 31 -> vec_cos_float c I n a = fneg (trig_cos n (red_base n a (iconvert I (2 ^ 31)))) \/ vec_cos_float c I n a = trig_cos n (red_base n a (iconvert I (2 ^ 31))).
Proof.
  intros Sa T. assert (EA : fabs a = a) by (destruct a as [[]|[]|[]|[]]; reflexivity || discriminate).
  unfold vec_cos_float. cbv zeta. rewrite !band_abs, EA. fold (red_y n a). rewrite T.
  replace (iand (iadd (2 ^ 31) (u32 1)) (u32 (-2))) with (2 ^ 31) by reflexivity.
  replace (isub (2 ^ 31) (u32 2)) with (2 ^ 31 - 2) by reflexivity.
  replace (of_bits F32 (ieq (iand (2 ^ 31 - 2) (u32 2)) (u32 0))) with (mask (t := F32) false) by (apply bits_inj; vm_compute; reflexivity).
  rewrite select_mask by (destruct HI as [-> | ->]; discriminate).
  replace (islli I (iandnot I (2 ^ 31 - 2) (u32 4)) 29) with (if (islli SSE (iandnot SSE (2 ^ 31 - 2) (u32 4)) 29 =? 0) then 0 else 2 ^ 31) by (destruct HI as [-> | ->]; reflexivity).
  destruct (_ =? 0).
  - right. change (of_bits F32 0) with (of_bits F32 (if false then 2 ^ 31 else 0)). rewrite bxor_top. unfold trig_cos, red_base. reflexivity.
  - left. change (of_bits F32 (2 ^ 31)) with (of_bits F32 (if true then 2 ^ 31 else 0)). rewrite bxor_top. unfold trig_cos, red_base. reflexivity.
Qed.
Lemma far_tan a : sgn a = false -> itruncate I (red_y n a) = 2 ^ 31 -> vec_tan_float c I n a = trig_tan n (red_base n a (iconvert I (2 ^ 31))).
Proof.
  intros Sa T. assert (EA : fabs a = a) by (destruct a as [[]|[]|[]|[]]; reflexivity || discriminate).
  unfold vec_tan_float. cbv zeta. rewrite !band_abs, EA. fold (red_y n a). rewrite T.
  replace (iand (iadd (2 ^ 31) (u32 1)) (u32 (-2))) with (2 ^ 31) by reflexivity.
  replace (of_bits F32 (ieq (iand (2 ^ 31) (u32 2)) (u32 0))) with (mask (t := F32) true) by (apply bits_inj; vm_compute; reflexivity).
  rewrite select_mask by (destruct HI as [-> | ->]; discriminate). rewrite bxor_sign, Sa. unfold trig_tan, tan_P, cube_of, red_base. reflexivity.
Qed.
Lemma far_base a : isnan a = true -> isnan (red_base n a (iconvert I (2 ^ 31))) = true.
Proof. intros H. unfold red_base. nans. Qed.
Lemma nan_trunc a : isnan a = true -> itruncate I (red_y n a) = 2 ^ 31.
Proof. intros H. apply far_trunc. assert (N : isnan (red_y n a) = true) by (unfold red_y; nans). destruct (red_y n a); try discriminate N; reflexivity. Qed.
Lemma sin_nan x : isnan x = true -> isnan (vec_sin_float c I n x) = true.
Proof.
  intros H. rewrite (sin_signed c I n x), isnan_if. assert (A : isnan (fabs x) = true) by nans.
  rewrite far_sin by (try apply sgn_fabs; apply nan_trunc; exact A). pose proof (far_base _ A) as B. unfold trig_sin, trig_C. nans.
Qed.
Lemma cos_nan x : isnan x = true -> isnan (vec_cos_float c I n x) = true.
Proof.
  intros H. rewrite (cos_abs c I n x). assert (A : isnan (fabs x) = true) by nans. pose proof (far_base _ A) as B.
  destruct (far_cos (fabs x) (sgn_fabs x) (nan_trunc _ A)) as [-> | ->]; unfold trig_cos; nans.
Qed.
Lemma tan_nan x : isnan x = true -> isnan (vec_tan_float c I n x) = true.
Proof.
  intros H. rewrite (tan_signed c I n x), isnan_if. assert (A : isnan (fabs x) = true) by nans.
  rewrite far_tan by (try apply sgn_fabs; apply nan_trunc; exact A). pose proof (far_base _ A) as B. unfold trig_tan. nans.
Qed.
Lemma atan_nan x : isnan x = true -> isnan (vec_atan_float c I n x) = true.
Proof.
  intros H. unfold vec_atan_float. cbv zeta. rewrite !band_abs. rewrite !select_vmask by (apply x86_neon; exact HI). rewrite bxor_sign, isnan_if.
  assert (A : isnan (fabs x) = true) by nans. repeat match goal with |- context [if vrel ?i ?r ?y ?z then _ else _] => destruct (vrel i r y z) end; nans.
Qed.
(** ** Infinities *)
#[local] Transparent litf litd.
Lemma inf_trunc : itruncate I (red_y n (B754_infinity 24 128 false)) = 2 ^ 31.
Proof. apply far_trunc. vm_compute. reflexivity. Qed.
Lemma inf_base : red_base n (B754_infinity 24 128 false) (iconvert I (2 ^ 31)) = B754_infinity 24 128 false.
Proof. destruct HI as [-> | ->]; vm_compute; reflexivity. Qed.
Lemma sin_inf s : isnan (vec_sin_float c I n (B754_infinity 24 128 s)) = true.
Proof.
  rewrite (sin_signed c I n _), isnan_if. change (fabs (B754_infinity 24 128 s : F F32)) with (B754_infinity 24 128 false).
  rewrite far_sin by (try reflexivity; apply inf_trunc). rewrite inf_base. unfold trig_sin.
  assert (E : fmul n (trig_C n (B754_infinity 24 128 false)) (B754_infinity 24 128 false) = B754_infinity 24 128 true) by (vm_compute; reflexivity).
  etransitivity; [apply (f_equal (fun w => isnan (fadd n w (B754_infinity 24 128 false)))); exact E|]. cbn. first [reflexivity|apply pnan].
Qed.
Lemma cos_inf s : isnan (vec_cos_float c I n (B754_infinity 24 128 s)) = true.
Proof.
  rewrite (cos_abs c I n _). change (fabs (B754_infinity 24 128 s : F F32)) with (B754_infinity 24 128 false).
  assert (G : isnan (trig_cos n (B754_infinity 24 128 false)) = true).
  { unfold trig_cos. apply fadd_nan. left.
    match goal with |- isnan (fsub n ?a ?b) = true => assert (E : a = B754_infinity 24 128 false) by (vm_compute; reflexivity); assert (E2 : b = B754_infinity 24 128 false) by (vm_compute; reflexivity) end.
    etransitivity; [apply (f_equal2 (fun v w => isnan (fsub n v w))); [exact E|exact E2]|]. cbn. first [reflexivity|apply pnan]. }
  destruct (far_cos (B754_infinity 24 128 false) eq_refl inf_trunc) as [-> | ->]; rewrite inf_base, ?isnan_fneg; exact G.
Qed.
Lemma tan_inf s : vec_tan_float c I n (B754_infinity 24 128 s) = B754_infinity 24 128 s.
Proof.
  rewrite (tan_signed c I n _). change (fabs (B754_infinity 24 128 s : F F32)) with (B754_infinity 24 128 false).
  rewrite far_tan by (try reflexivity; apply inf_trunc). rewrite inf_base.
  assert (E : trig_tan n (B754_infinity 24 128 false) = B754_infinity 24 128 false) by (vm_compute; reflexivity). rewrite E. destruct s; reflexivity.
Qed.
End S.

(** ** asin and acos on SSE *)
Lemma asin_nan_sse c n x : isnan x = true -> isnan (vec_asin_float c SSE n x) = true.
Proof.
  intros H. assert (HI : x86 SSE) by (left; reflexivity). unfold vec_asin_float. cbv zeta. rewrite !band_abs, gen_one_1. rewrite !select_vmask by (apply x86_neon; exact HI).
  assert (A : isnan (fabs x) = true) by nans. rewrite !(vrel_nan_gt SSE HI) by (left; exact A). rewrite bxor_sign. nans.
Qed.
Lemma acos_nan_sse c n x : isnan x = true -> isnan (vec_acos_float c SSE n x) = true.
Proof.
  intros H. assert (HI : x86 SSE) by (left; reflexivity). unfold vec_acos_float. cbv zeta. rewrite !band_abs, gen_one_1. rewrite !select_vmask by (apply x86_neon; exact HI).
  assert (A : isnan (fabs x) = true) by nans. rewrite !(vrel_nan_gt SSE HI) by (left; first [exact A|exact H]).
  pose proof (asin_nan_sse c n x H) as B. nans.
Qed.

(** ** Logarithms of any bit pattern *)
Section L.
Context (c : cfg) (I : isa) (n : nans F32) (k : nans F64) (HI : x86 I).
Local Open Scope R_scope.
Lemma log_any x : isfin (vec_log_float c I n x) = true /\ Rabs (val (vec_log_float c I n x)) <= bpow radix2 30.
Proof.
  rewrite log_form by exact HI. cbv zeta. destruct (frexp_fields I x HI) as (_ & E & _ & _). set (m := fst (frexp_float I x)) in *.
  destruct (log_u_any I n HI m E) as [Fu Bu]. set (u := log_u I n m) in *.
  set (e := (efield x - 126 - if vrel I LT m (litf 707106781186547524 18) then 1 else 0)%Z).
  assert (EB : (-127 <= e <= 129)%Z).
  { assert (EF : (0 <= efield x < 256)%Z).
    { unfold efield. pose proof (mag_range x) as G. change (2 ^ (mw F32 + ew F32))%Z with (2 ^ 31)%Z in G. split; [apply Z.div_pos; lia|apply Z.div_lt_upper_bound; lia]. }
    unfold e. destruct (vrel I LT m (litf 707106781186547524 18)); lia. }
  destruct (fe_val e) as [Fe Ve]; [lia|]. set (fe := f_ofZ F32 e) in *. assert (ER : -127 <= IZR e <= 129) by (split; apply IZR_le; lia).
  assert (HU : holds u (val u) (- 4 * 2 ^ 80, 2 ^ 79, 0)%Z).
  { apply holds_var; [exact Fu|reflexivity|]. dyz. lra. }
  assert (HF : holds fe (IZR e) (- 127 * 2 ^ 80, 129 * 2 ^ 80, 0)%Z).
  { apply holds_var; [exact Fe|exact Ve|]. dyz. lra. }
  let t := eval unfold log_end, log_z, log_h in (log_end n u fe) in
  err_bound n [u; fe] [val u; IZR e] [(- 4 * 2 ^ 80, 2 ^ 79, 0); (- 127 * 2 ^ 80, 129 * 2 ^ 80, 0)]%Z t H.
  destruct H as (F2 & R2 & E2). split; [exact F2|]. unfold log_end, log_z, log_h. rewrite !dy_lit in *. change (bpow radix2 30) with 1073741824.
  match type of E2 with Rabs (?f - ?r) <= _ => set (F := f) in *; set (R := r) in *; clearbody F R end. apply Rabs_le_inv in E2. apply Rabs_le. lra.
Qed.
Lemma log_self x : le2 (vec_log_float c I n x) (vec_log_float c I n x) 30.
Proof. destruct (log_any x) as [A B]. repeat split; try assumption. apply Rle_refl. Qed.
Lemma log2_self x : le2 (vec_log2 c I n k x) (vec_log2 c I n k x) 31.
Proof.
  unfold vec_log2. destruct (rl2_ok k) as [F2 V2]. change 31%Z with (30 + 1)%Z. apply le2_mulr; [apply log_self|exact F2|rewrite V2; change (bpow radix2 1) with 2; lra|lia].
Qed.
Lemma log10_self x : le2 (vec_log10 c I n k x) (vec_log10 c I n k x) 31.
Proof.
  unfold vec_log10. destruct (rl10_ok k) as [F2 V2]. change 31%Z with (30 + 1)%Z. apply le2_mulr; [apply log_self|exact F2|rewrite V2; change (bpow radix2 1) with 2; lra|lia].
Qed.
Lemma log2_any x : isfin (vec_log2 c I n k x) = true. Proof. apply (log2_self x). Qed.
Lemma log10_any x : isfin (vec_log10 c I n k x) = true. Proof. apply (log10_self x). Qed.
Lemma ratio2midi_any x : isfin (ratio2midi c I n k x) = true.
Proof.
  destruct (ofZ_small 12 ltac:(lia)) as (A & B & _). unfold ratio2midi. apply (le2_mull n _ _ _ 31 4 (log2_self x) A); [rewrite B; change (bpow radix2 4) with 16; lra|lia].
Qed.
Lemma amp2db_any x : isfin (amp2db c I n k x) = true.
Proof.
  destruct (ofZ_small 20 ltac:(lia)) as (A & B & _). unfold amp2db. apply (le2_mulr n _ _ _ 31 5 (log10_self _) A); [rewrite B; change (bpow radix2 5) with 32; lra|lia].
Qed.
Lemma freq2midi_any x : isfin (freq2midi c I n k x) = true.
Proof.
  destruct (ofZ_small 12 ltac:(lia)) as (A & B & _). destruct (ofZ_small 69 ltac:(lia)) as (A' & B' & _). unfold freq2midi, abs_log2.
  refine (proj1 (le2_addr n _ _ _ (31 + 4) (le2_mulr n _ _ _ 31 4 (log2_self _) A _ _) A' _ _)); [rewrite B; change (bpow radix2 4) with 16; lra|lia| |lia].
  rewrite B', Rabs_pos_eq by lra. apply Rle_trans with (bpow radix2 7); [change (bpow radix2 7) with 128; lra|apply bpow_le; lia].
Qed.
Lemma freq2oct_any x : isfin (freq2oct c I n k x) = true.
Proof.
  destruct litd_475_2 as (A & _ & _). pose proof val_litd_475_2 as B. unfold freq2oct, abs_log2.
  refine (proj1 (le2_addr n _ _ _ 31 (log2_self _) A _ _)); [|lia].
  rewrite B, Rabs_pos_eq by lra. apply Rle_trans with (bpow radix2 7); [change (bpow radix2 7) with 128; lra|apply bpow_le; lia].
Qed.
End L.

(** ** Powers and the conversions built on them *)
Section P.
Context (c : cfg) (n : nans F32).
Lemma pow_nan_sse x y : feq x (f_ofZ F32 0) = false -> isnan y = true -> isnan (vec_pow c SSE n x y) = true.
Proof. intros E H. rewrite pow_nonzero by (try exact E; left; reflexivity). apply exp_nan_sse. nans. Qed.
Lemma pow_nan_avx x y : feq x (f_ofZ F32 0) = false -> isnan y = true -> vec_pow c AVX n x y = f_max F32.
Proof. intros E H. rewrite pow_nonzero by (try exact E; right; reflexivity). apply exp_nan_avx. nans. Qed.
Lemma two_nonzero : feq (f_ofZ F32 2) (f_ofZ F32 0) = false. Proof. vm_compute. reflexivity. Qed.
Lemma ten_nonzero : feq (f_ofZ F32 10) (f_ofZ F32 0) = false. Proof. vm_compute. reflexivity. Qed.
Lemma midi2ratio_nan_sse x : isnan x = true -> isnan (midi2ratio c SSE n x) = true.
Proof. intros H. apply pow_nan_sse; [apply two_nonzero|nans]. Qed.
Lemma db2amp_nan_sse x : isnan x = true -> isnan (db2amp c SSE n x) = true.
Proof. intros H. apply pow_nan_sse; [apply ten_nonzero|nans]. Qed.
Lemma midi2freq_nan_sse x : isnan x = true -> isnan (midi2freq c SSE n x) = true.
Proof. intros H. unfold midi2freq. apply fmul_nan. right. apply pow_nan_sse; [apply two_nonzero|nans]. Qed.
Lemma oct2freq_nan_sse x : isnan x = true -> isnan (oct2freq c SSE n x) = true.
Proof. intros H. unfold oct2freq. apply fmul_nan. right. apply pow_nan_sse; [apply two_nonzero|nans]. Qed.
Lemma midi2ratio_nan_avx x : isnan x = true -> midi2ratio c AVX n x = f_max F32.
Proof. intros H. apply pow_nan_avx; [apply two_nonzero|nans]. Qed.
Lemma db2amp_nan_avx x : isnan x = true -> db2amp c AVX n x = f_max F32.
Proof. intros H. apply pow_nan_avx; [apply ten_nonzero|nans]. Qed.
Lemma loud : fmul n (f_ofZ F32 440) (f_max F32) = B754_infinity 24 128 false. Proof. vm_compute. reflexivity. Qed.
Lemma midi2freq_nan_avx x : isnan x = true -> midi2freq c AVX n x = B754_infinity 24 128 false.
Proof. intros H. unfold midi2freq. rewrite pow_nan_avx; [apply loud|apply two_nonzero|nans]. Qed.
Lemma oct2freq_nan_avx x : isnan x = true -> oct2freq c AVX n x = B754_infinity 24 128 false.
Proof. intros H. unfold oct2freq. rewrite pow_nan_avx; [apply loud|apply two_nonzero|nans]. Qed.
End P.
Lemma pow_nan_base c I n : x86 I -> vec_pow c I n (qnan F32) (f_ofZ F32 1) = f_max F32.
Proof. intros [-> | ->]; [destruct c as [[] ? [] ?]|]; vm_compute; reflexivity. Qed.
Lemma sin_huge c I n : x86 I -> vec_sin_float c I n (f_lit F32 1 66) = B754_infinity 24 128 true.
Proof. intros [-> | ->]; [destruct c as [[] ? [] ?]|]; vm_compute; reflexivity. Qed.
