(** The vectorised functions against the scalar ones. *)
From Coq Require Import ZArith Reals Ratan List Lia Lra Bool Psatz.
From Flocq Require Import Core IEEE754.Binary IEEE754.Bits.
From Verif Require Import Base Mem Backend Args Drivers Functors Lanes Float LaneOps FloatOps ScalarMath VecMath IntVec TransMath TransFuns Libm Spec SpecLane SpecMath SpecLib SpecAgree
  FloatFacts FloatRound LaneFacts VecFacts VecMore RoundMore TransConst TransFacts MathMore LibMore UtilFacts TanFacts TanhOrder TrigMore PowFacts
  RealTanh RealLog RealTrig RealUnit2 RealAgree TrigClaims AccuracyClaims MathClaims LibClaims DriverClaims2 ExFloat ExMath ExEst.
Import ListNotations.
Local Open Scope R_scope.

(** * Two approximations of the same number *)
Lemma agree_near {t} (u v : F t) r e1 e2 d : near e1 u r -> near e2 v r -> 0 <= e1 <= 1e-3 -> 0 <= e2 <= 1e-3 -> e1 + e2 <= 0.999 * d -> agree d u v.
Proof.
  intros [Fu Eu] [Fv Ev] B1 B2 HD. pose proof (Rabs_pos r) as P. split; [exact Fu|]. split; [exact Fv|].
  assert (D : Rabs (val u - val v) <= (e1 + e2) * Rabs r).
  { replace (val u - val v) with ((val u - r) + - (val v - r)) by ring. eapply Rle_trans; [apply Rabs_triang|]. rewrite Rabs_Ropp. lra. }
  assert (L : forall w e, Rabs (w - r) <= e * Rabs r -> e <= 1e-3 -> 0.999 * Rabs r <= Rabs w).
  { intros w e H He. pose proof (Rabs_triang_inv r (r - w)) as T. replace (r - (r - w)) with w in T by ring. rewrite (Rabs_minus_sym r w) in T. nra. }
  pose proof (L _ _ Eu ltac:(lra)). pose proof (L _ _ Ev ltac:(lra)). split; nra.
Qed.
Lemma tiny_100 r : bpow radix2 (-100) <= Rabs r -> bpow radix2 (-145) <= 1e-13 * Rabs r.
Proof.
  intros H. apply Rle_trans with (bpow radix2 (-45) * bpow radix2 (-100)); [rewrite <- bpow_plus; apply Rle_refl|].
  apply Rmult_le_compat; try apply bpow_ge_0; [|exact H]. change (bpow radix2 (-45)) with (/ 35184372088832). lra.
Qed.
Lemma below_145 z : (z <= -145)%Z -> bpow radix2 z <= bpow radix2 (-145). Proof. intros H. apply bpow_le. exact H. Qed.
Lemma tiny_148 r : bpow radix2 (-100) <= Rabs r -> bpow radix2 (-148) <= 3.6e-15 * Rabs r.
Proof.
  intros H. apply Rle_trans with (bpow radix2 (-48) * bpow radix2 (-100)); [rewrite <- bpow_plus; apply Rle_refl|].
  apply Rmult_le_compat; try apply bpow_ge_0; [|exact H]. change (bpow radix2 (-48)) with (/ 281474976710656). lra.
Qed.
Lemma norm_126 r q : bpow radix2 (-100) <= Rabs r -> / 67108864 * Rabs r <= Rabs q -> bpow radix2 (-126) <= Rabs q.
Proof.
  intros H L. eapply Rle_trans; [|exact L]. change (/ 67108864) with (bpow radix2 (-26)). change (-126)%Z with (-26 + -100)%Z. rewrite bpow_plus.
  apply Rmult_le_compat_l; [apply bpow_ge_0|exact H].
Qed.
Lemma norm_c q : 1e-10 <= Rabs q -> bpow radix2 (-126) <= Rabs q.
Proof.
  intros H. eapply Rle_trans; [apply (bpow_le radix2 (-126) (-40)); lia|]. change (bpow radix2 (-40)) with (/ 1099511627776). lra.
Qed.
(** Floats keep away from the zeros of sine and cosine. *)
Lemma far_pi (x : F F32) : 8.7e-8 <= Rabs (Rabs (val x) - PI).
Proof.
  pose proof pi_value as P. destruct (Rle_dec 2 (Rabs (val x))) as [H|H].
  - destruct (grid x 1 ltac:(lia) H) as [m Hm]. destruct (Rle_dec 0 (val x)) as [S|S].
    + rewrite (Rabs_pos_eq (val x)) by exact S. rewrite Hm. change (bpow radix2 (1 - 23)) with (/ 4194304). apply pi_grid.
    + rewrite (Rabs_left (val x)) by lra. rewrite Hm. change (bpow radix2 (1 - 23)) with (/ 4194304). rewrite Ropp_mult_distr_l, <- opp_IZR. apply pi_grid.
  - rewrite (Rabs_left (_ - PI)) by lra. lra.
Qed.
Lemma far_pi2 (x : F F32) : 4.3e-8 <= Rabs (Rabs (val x) - PI / 2).
Proof.
  pose proof pi_value as P. destruct (Rle_dec 1 (Rabs (val x))) as [H|H].
  - destruct (grid x 0 ltac:(lia) H) as [m Hm]. destruct (Rle_dec 0 (val x)) as [S|S].
    + rewrite (Rabs_pos_eq (val x)) by exact S. rewrite Hm. change (bpow radix2 (0 - 23)) with (/ 8388608). apply pi2_grid.
    + rewrite (Rabs_left (val x)) by lra. rewrite Hm. change (bpow radix2 (0 - 23)) with (/ 8388608). rewrite Ropp_mult_distr_l, <- opp_IZR. apply pi2_grid.
  - rewrite (Rabs_left (_ - _)) by lra. lra.
Qed.
Lemma zero_cases (x : F F32) : isfin x = true -> val x = 0 -> exists s, x = B754_zero 24 128 s.
Proof. exact (zero_form x). Qed.
Lemma near_zero (y : F F32) e : isfin y = true -> val y = 0 -> near e y 0.
Proof. intros F V. split; [exact F|]. rewrite V, Rminus_0_r, Rabs_R0. lra. Qed.
Lemma below_one (x : F F32) : isfin x = true -> Rabs (val x) <= 1 -> val x = 1 \/ -1 <= val x <= 1 - / 33554432.
Proof.
  intros F B. apply Rabs_le_inv in B. destruct (Req_dec (val x) 1) as [E|E]; [left; exact E|right]. split; [lra|].
  destruct (Rle_dec (1 / 2) (val x)) as [H|H]; [|lra].
  destruct (grid x (-1) ltac:(lia)) as [m Hm]; [change (bpow radix2 (-1)) with (/ 2); rewrite Rabs_pos_eq; lra|].
  change (bpow radix2 (-1 - 23)) with (/ 16777216) in Hm. assert (M : (m < 16777216)%Z) by (apply lt_IZR; lra).
  assert (M' : (m <= 16777215)%Z) by lia. apply IZR_le in M'. lra.
Qed.

Lemma tanh_at_0 : tanh 0 = 0. Proof. rewrite tanh_exp, Rmult_0_r, exp_0. lra. Qed.
Lemma pos_sgn (x : F F32) : isfin x = true -> 0 < val x -> sgn x = false.
Proof. intros F P. pose proof (sgn_val_gen x F) as S. pose proof (Rabs_pos (val x)). destruct (sgn x); [lra|reflexivity]. Qed.

Section X.
Context (c : cfg) (I : isa) (n : nans F32) (k : nans F64) (HI : math_isa c I).
Lemma x_near f (x : F F32) : isfin x = true -> ordinary f (val x) -> near 8e-7 (x_ufun c I n k f x) (real_fun f (val x)).
Proof.
  intros Fx H. pose proof (Rabs_pos (val x)) as XP. destruct f; cbn [ordinary x_ufun real_fun] in *.
  - destruct H as [[Z|T] B].
    + destruct (zero_cases x Fx Z) as [s ->]. rewrite (C59_sin_zero_lemma c I n s HI). change (val (B754_zero 24 128 s : F F32)) with 0. rewrite sin_0. apply near_zero; reflexivity.
    + destruct (C59_sin_lemma c I n x HI Fx ltac:(lra)) as [A E]. split; [exact A|]. eapply Rle_trans; [exact E|]. pose proof (Rabs_pos (val x)); pose proof (tiny_148 _ T). pose proof (sin_away _ B (far_pi x)). lra.
  - destruct (C59_cos_lemma c I n x HI Fx ltac:(lra)) as [A E]. split; [exact A|]. eapply Rle_trans; [exact E|]. pose proof (cos_away _ H (far_pi2 x)) as L.
    destruct (Rle_dec (bpow radix2 (-100)) (Rabs (val x))) as [T|T]; [pose proof (tiny_148 _ T); lra|].
    assert (S : Rabs (val x) <= 1e-10). { assert (Q : bpow radix2 (-100) <= bpow radix2 (-40)) by (apply bpow_le; lia). change (bpow radix2 (-40)) with (/ 1099511627776) in Q. lra. }
    assert (C : 0.7 <= cos (val x)) by (pose proof (cos_low (val x) ltac:(lra)); lra). rewrite (Rabs_pos_eq (cos _)) in * by lra.
    assert (Q : bpow radix2 (-148) <= bpow radix2 (-40)) by (apply bpow_le; lia). change (bpow radix2 (-40)) with (/ 1099511627776) in Q. lra.
  - destruct H as [[Z|T] B].
    + destruct (zero_cases x Fx Z) as [s ->]. rewrite (C60_tan_zero_lemma c I n s HI). change (val (B754_zero 24 128 s : F F32)) with 0. rewrite tan_0. apply near_zero; reflexivity.
    + destruct (C60_tan_lemma c I n x HI Fx ltac:(lra)) as [A E]. split; [exact A|]. eapply Rle_trans; [exact E|]. pose proof (tiny_100 _ T) as T1. pose proof (below_145 (-146) ltac:(lia)).
      destruct (tan_away _ B) as [L U]. set (t := tan (val x)) in *. assert (TT : t * t <= 225). { rewrite <- (Rabs_pos_eq (t * t)), Rabs_mult by nra. pose proof (Rabs_pos t). nra. }
      pose proof (Rabs_pos (val x)). assert (Rabs (val x) * (1 + t * t) <= Rabs (val x) * 226) by (apply Rmult_le_compat_l; lra). lra.
  - destruct H as [[Z|T] B].
    + destruct (zero_cases x Fx Z) as [s ->]. rewrite (bits_inj _ _ (asin_zero c I n (isa_x86 _ _ HI) s)). change (val (B754_zero 24 128 s : F F32)) with 0. rewrite asin_0. apply near_zero; reflexivity.
    + destruct (C61_asin_lemma c I n x HI Fx B) as [A E]. split; [exact A|]. eapply Rle_trans; [exact E|]. pose proof (tiny_100 _ T) as T1. pose proof (below_145 (-146) ltac:(lia)).
      destruct (asin_away _ B) as [L _]. lra.
  - destruct H as [B NH]. destruct (C61_acos_lemma c I n x HI Fx B NH) as [A E]. destruct (below_one x Fx B) as [E1|B1].
    + assert (X : x = f_ofZ F32 1). { destruct one_ok as (O1 & O2 & O3). apply fin_eq; [exact Fx|exact O1|rewrite E1; symmetry; exact O2|]. rewrite O3. apply pos_sgn; [exact Fx|lra]. }
      rewrite X. rewrite (bits_inj _ _ (acos_one c I n (isa_x86 _ _ HI))). rewrite (proj1 (proj2 one_ok)), acos_1. apply near_zero; reflexivity.
    + pose proof (acos_away _ B1) as L. split; [exact A|]. rewrite (Rabs_pos_eq (acos _)) by lra. eapply Rle_trans; [exact E|].
      assert (Q : bpow radix2 (-145) <= bpow radix2 (-40)) by (apply bpow_le; lia). change (bpow radix2 (-40)) with (/ 1099511627776) in Q. lra.
  - destruct H as [Z|T].
    + destruct (zero_cases x Fx Z) as [s ->]. rewrite (bits_inj _ _ (atan_zero c I n (isa_x86 _ _ HI) s)). change (val (B754_zero 24 128 s : F F32)) with 0. rewrite atan_0. apply near_zero; reflexivity.
    + destruct (C61_atan_lemma c I n x HI Fx) as [A E]. split; [exact A|]. eapply Rle_trans; [exact E|]. pose proof (tiny_100 _ T) as T1. pose proof (below_145 (-146) ltac:(lia)).
      destruct (atan_away (val x)) as (L1 & L2 & _). destruct (Rle_dec (Rabs (val x)) 0.4142) as [C|C]; [specialize (L1 C); lra|].
      assert (Q : bpow radix2 (-145) <= bpow radix2 (-40)) by (apply bpow_le; lia). change (bpow radix2 (-40)) with (/ 1099511627776) in Q. specialize (L2 ltac:(lra)). lra.
  - destruct H as [Z|T].
    + pose proof (tanh_zero c I n (isa_x86 _ _ HI) x Z Fx) as V. rewrite Z, tanh_at_0. apply near_zero; [apply (C51_tanh_lemma c I n x HI Fx)|exact V].
    + destruct (C51_tanh_lemma c I n x HI Fx) as [A E]. split; [exact A|]. eapply Rle_trans; [exact E|]. pose proof (tiny_100 _ T) as T1. pose proof (below_145 (-148) ltac:(lia)).
      destruct (tanh_away (val x)) as (L1 & L2). destruct (Rle_dec (Rabs (val x)) 0.625) as [C|C]; [specialize (L1 C); lra|].
      assert (Q : bpow radix2 (-145) <= bpow radix2 (-40)) by (apply bpow_le; lia). change (bpow radix2 (-40)) with (/ 1099511627776) in Q. specialize (L2 ltac:(lra)). lra.
  - destruct (C51_log_lemma c I n x HI (conj Fx H)) as [A E]. split; [exact A|]. pose proof (Rabs_pos (ln (val x))). lra.
  - destruct (C57_log2_lemma c I n k x HI (conj Fx H)) as [A E]. split; [exact A|]. pose proof (Rabs_pos (log_base 2 (val x))). lra.
  - destruct (C57_log10_lemma c I n k x HI (conj Fx H)) as [A E]. split; [exact A|]. pose proof (Rabs_pos (log_base 10 (val x))). lra.
  - destruct (C49_exp_lemma c I n x HI Fx ltac:(lra)) as [A E]. split; [exact A|]. pose proof (Rabs_pos (exp (val x))). lra.
Qed.
End X.

(** * The library that rounds correctly *)
Lemma ideal_library : library (half_ulp F32) (ideal F32).
Proof.
  intros f x Fx H. pose proof (Rabs_pos (val x)) as XP.
  assert (NZ : forall r, r = 0 \/ 1e-10 <= Rabs r -> Rabs r <= 4 -> near (half_ulp F32) (nearest F32 r) r).
  { intros r [->|L] U; (apply nearest_near; [rewrite ?Rabs_R0; lra|]); [left; reflexivity|right; apply norm_c; exact L]. }
  assert (NS : forall r, / 67108864 * Rabs (val x) <= Rabs r -> bpow radix2 (-100) <= Rabs (val x) -> Rabs r <= 100 -> near (half_ulp F32) (nearest F32 r) r).
  { intros r L T U. apply nearest_near; [lra|]. right. exact (norm_126 _ _ T L). }
  destruct f; cbn [ordinary ideal m_sin m_cos m_tan m_asin m_acos m_atan m_tanh m_log m_log2 m_log10 m_exp real_fun] in *.
  - destruct H as [[Z|T] B]; [rewrite Z, sin_0; apply NZ; rewrite ?Rabs_R0; [left; reflexivity|lra]|].
    pose proof (sin_away _ B (far_pi x)). apply NS; [lra|exact T|]. pose proof (SIN_bound (val x)). apply Rabs_le; lra.
  - pose proof (cos_away _ H (far_pi2 x)). pose proof (COS_bound (val x)). apply NZ; [right|apply Rabs_le; lra].
    destruct (Rle_dec (Rabs (val x)) 0.7) as [S|S]; [pose proof (cos_low (val x) ltac:(lra)); rewrite Rabs_pos_eq by lra; lra|lra].
  - destruct H as [[Z|T] B]; [rewrite Z, tan_0; apply NZ; rewrite ?Rabs_R0; [left; reflexivity|lra]|].
    destruct (tan_away _ B). apply NS; [lra|exact T|lra].
  - destruct H as [[Z|T] B]; [rewrite Z, asin_0; apply NZ; rewrite ?Rabs_R0; [left; reflexivity|lra]|].
    destruct (asin_away _ B). apply NS; [lra|exact T|lra].
  - destruct H as [B _]. destruct (below_one x Fx B) as [E|B1]; [rewrite E, acos_1; apply NZ; rewrite ?Rabs_R0; [left; reflexivity|lra]|].
    pose proof (acos_away _ B1) as L. apply NZ; [right|]; rewrite Rabs_pos_eq by lra; lra.
  - destruct H as [Z|T]; [rewrite Z, atan_0; apply NZ; rewrite ?Rabs_R0; [left; reflexivity|lra]|].
    destruct (atan_away (val x)) as (L1 & L2 & U). destruct (Rle_dec (Rabs (val x)) 0.4142) as [S|S]; [specialize (L1 S); apply NS; [lra|exact T|lra]|].
    specialize (L2 ltac:(lra)). apply NZ; [right; lra|lra].
  - destruct H as [Z|T]; [rewrite Z, tanh_at_0; apply NZ; rewrite ?Rabs_R0; [left; reflexivity|lra]|].
    destruct (tanh_away (val x)) as (L1 & L2). pose proof (tanh_range (val x)). destruct (Rle_dec (Rabs (val x)) 0.625) as [S|S]; [specialize (L1 S); apply NS; [lra|exact T|lra]|].
    specialize (L2 ltac:(lra)). apply NZ; [right; lra|lra].
  - apply (acc_log _ _ (ideal_accurate F32)); [exact Fx|]. pose proof (bpow_gt_0 radix2 (-126)). lra.
  - apply (acc_log2 _ _ (ideal_accurate F32)); [exact Fx|]. pose proof (bpow_gt_0 radix2 (-126)). lra.
  - apply (acc_log10 _ _ (ideal_accurate F32)); [exact Fx|]. pose proof (bpow_gt_0 radix2 (-126)). lra.
  - pose proof (exp_away _ H) as L. apply nearest_near; [rewrite Rabs_pos_eq; lra|]. right. rewrite Rabs_pos_eq by lra. eapply Rle_trans; [|apply L].
    change (bpow radix2 (-126)) with (/ 85070591730234615865843651857942052864). lra.
Qed.
Lemma library_weaken {t} e e' (L : libm t) : library e L -> e <= e' -> library e' L.
Proof.
  intros H E f x Fx O. destruct (H f x Fx O) as [A B]. split; [exact A|]. eapply Rle_trans; [exact B|]. apply Rmult_le_compat_r; [apply Rabs_pos|exact E].
Qed.
Lemma accurate_weaken {t} e e' (L : libm t) : accurate e L -> e <= e' -> accurate e' L.
Proof.
  intros [A1 A2 A3 A4] E. assert (W : forall u r, near (t := t) e u r -> near e' u r).
  { intros u r [P Q]. split; [exact P|]. eapply Rle_trans; [exact Q|]. apply Rmult_le_compat_r; [apply Rabs_pos|exact E]. }
  constructor; intros; apply W; auto.
Qed.
Lemma ideal_ok : library 1e-6 (ideal F32) /\ accurate 1e-6 (ideal F32).
Proof.
  assert (U : half_ulp F32 <= 1e-6) by (cbn [half_ulp]; change (bpow radix2 (-24)) with (/ 16777216); lra).
  split; [exact (library_weaken _ _ _ ideal_library U)|exact (accurate_weaken _ _ _ (ideal_accurate F32) U)].
Qed.

(** * Lanes *)
Lemma s_near {t} (w : world t) e f x : library e (w_lib w) -> w_cxx11 w = true -> isfin x = true -> ordinary f (val x) -> near e (s_ufun w f x) (real_fun f (val x)).
Proof. intros H W Fx O. specialize (H f x Fx O). destruct f; cbn [s_ufun] in *; unfold s_log2; rewrite ?W; exact H. Qed.
Lemma ufun_agree c B (w : world (fmt_of B)) k f x : math_backend c B -> library 1e-6 (w_lib w) -> w_cxx11 w = true -> isfin x = true -> ordinary f (val x) ->
  agree 2e-6 (s_ufun w f x) (v_ufun c B w k f x).
Proof.
  intros HB HL HW Fx O. apply (agree_near _ _ (real_fun f (val x)) 1e-6 8e-7); try lra; [apply s_near; assumption|].
  destruct HB as [-> | [-> S]]; cbn [v_ufun]; [|rewrite S]; apply x_near; try assumption; [left; reflexivity|right; split; [reflexivity|exact S]].
Qed.
Lemma near_fneg {t} e (x : F t) r : near e x r -> near e (fneg x) (- r).
Proof. intros [A B]. split; [rewrite isfin_fneg; exact A|]. rewrite val_fneg, Rabs_Ropp. replace (- val x - - r) with (- (val x - r)) by ring. rewrite Rabs_Ropp. exact B. Qed.
Lemma fgt_pos {t} (x : F t) : isfin x = true -> 0 < val x -> fgt x (f_ofZ t 0) = true.
Proof.
  intros A P. unfold fgt. rewrite Bcompare_correct by (assumption || (destruct t; reflexivity)). fold (val x). fold (val (f_ofZ t 0)).
  replace (val (f_ofZ t 0)) with 0 by (destruct t; reflexivity). rewrite Rcompare_Gt by exact P. reflexivity.
Qed.

Lemma fgt_neg {t} (x : F t) : isfin x = true -> val x < 0 -> fgt x (f_ofZ t 0) = false.
Proof.
  intros A P. unfold fgt. rewrite Bcompare_correct by (assumption || (destruct t; reflexivity)). fold (val x). fold (val (f_ofZ t 0)).
  replace (val (f_ofZ t 0)) with 0 by (destruct t; reflexivity). rewrite Rcompare_Lt by exact P. reflexivity.
Qed.
Lemma neg_sgn (x : F F32) : isfin x = true -> val x < 0 -> sgn x = true.
Proof. intros A P. pose proof (sgn_val_gen x A) as S. pose proof (Rabs_pos (val x)). destruct (sgn x); [reflexivity|lra]. Qed.
Lemma pow_pair c I n (L : libm F32) x y : math_isa c I -> accurate 1e-6 L -> isfin x = true -> isfin y = true -> bpow radix2 (-126) <= val x -> Rabs (val y * ln (val x)) <= 87 ->
  near 45e-6 (vec_pow c I n x y) (Rpower (val x) (val y)) /\ near 1e-6 (m_pow L x y) (Rpower (val x) (val y)).
Proof.
  intros HI HL Fx Fy P B. pose proof (bpow_gt_0 radix2 (-126)) as P0. split.
  - destruct (C58_pow_lemma c I n x y HI (conj Fx P) Fy B) as [A E]. split; [exact A|]. eapply Rle_trans; [exact E|]. apply Rmult_le_compat_r; [apply Rabs_pos|]. lra.
  - apply (acc_pow _ _ HL); [exact Fx|exact Fy|lra|]. unfold log_base, Rdiv. rewrite <- Rmult_assoc, Rabs_mult. pose proof inv_ln2_fine as I2. rewrite (Rabs_pos_eq (/ ln 2)) by lra.
    apply Rle_trans with (87 * 1.44269505); [apply Rmult_le_compat; try lra; apply Rabs_pos|lra].
Qed.
Lemma bfun_agree c B (w : world (fmt_of B)) f x y : math_backend c B -> accurate 1e-6 (w_lib w) -> isfin x = true -> isfin y = true -> ordinary2 f (val x) (val y) ->
  agree 5e-5 (s_bfun w f x y) (v_bfun c B w f x y).
Proof.
  intros HB HL Fx Fy [H1 H2]. pose proof (bpow_gt_0 radix2 (-126)) as P0.
  assert (K : forall I (v : world F32) (x y : F F32), math_isa c I -> accurate 1e-6 (w_lib v) -> isfin x = true -> isfin y = true -> match f with
    | Pow => (bpow radix2 (-126) <= val x)%R | SignedPow => (bpow radix2 (-126) <= Rabs (val x))%R end -> Rabs (val y * ln (Rabs (val x))) <= 87 -> agree 5e-5 (s_bfun v f x y) (x_bfun c I (w_nan v) f x y)).
  { clear. intros I v x y HI HL Fx Fy H1 H2. pose proof (bpow_gt_0 radix2 (-126)) as P0. destruct f; cbn [s_bfun x_bfun].
    - rewrite (Rabs_pos_eq (val x)) in H2 by lra. destruct (pow_pair c I (w_nan v) _ x y HI HL Fx Fy H1 H2) as [N1 N2]. apply (agree_near _ _ _ _ _ _ N2 N1); lra.
    - rewrite (bits_inj _ _ (C50_signed_pow_lemma c I (w_nan v) x y HI Fy)). unfold s_signed_pow.
      destruct (pow_pair c I (w_nan v) _ (fabs x) y HI HL ltac:(rewrite isfin_fabs; exact Fx) Fy ltac:(rewrite val_fabs; exact H1) ltac:(rewrite val_fabs; exact H2)) as [N1 N2].
      destruct (Rle_dec 0 (val x)) as [S|S].
      + rewrite Rabs_pos_eq in H1 by lra. rewrite (fgt_pos x Fx ltac:(lra)), (pos_sgn x Fx ltac:(lra)). replace (m_pow (w_lib v) x y) with (m_pow (w_lib v) (fabs x) y); [apply (agree_near _ _ _ _ _ _ N2 N1); lra|].
        f_equal. pose proof (pos_sgn x Fx ltac:(lra)) as Q. destruct x as [[]|[]|[]|[]]; try discriminate Q; reflexivity.
      + rewrite (fgt_neg x Fx ltac:(lra)), (neg_sgn x Fx ltac:(lra)). replace (m_pow (w_lib v) (fneg x) y) with (m_pow (w_lib v) (fabs x) y); [apply near_fneg in N1; apply near_fneg in N2; apply (agree_near _ _ _ _ _ _ N2 N1); lra|].
        f_equal. pose proof (neg_sgn x Fx ltac:(lra)) as Q. destruct x as [[]|[]|[]|[]]; try discriminate Q; reflexivity. }
  destruct HB as [-> | [-> S]]; cbn [v_bfun]; [|rewrite S]; apply K; try assumption; [left; reflexivity|right; split; [reflexivity|exact S]].
Qed.

(** * Unit conversions *)
Lemma lit_440 : lit_as F32 440 0 = f_ofZ F32 440. Proof. apply bits_inj. vm_compute. reflexivity. Qed.
Lemma lit_2 : lit_as F32 2 0 = f_ofZ F32 2. Proof. apply bits_inj. vm_compute. reflexivity. Qed.
Lemma lit_69 : lit_as F32 69 0 = f_ofZ F32 69. Proof. apply bits_inj. vm_compute. reflexivity. Qed.
Lemma lit_12 : lit_as F32 12 0 = f_ofZ F32 12. Proof. apply bits_inj. vm_compute. reflexivity. Qed.
Lemma lit_20 : lit_as F32 20 0 = f_ofZ F32 20. Proof. apply bits_inj. vm_compute. reflexivity. Qed.
Lemma lit_10 : lit_as F32 10 0 = f_ofZ F32 10. Proof. apply bits_inj. vm_compute. reflexivity. Qed.
(** Proof auxiliary: the conversions of TransFuns.v by name. *)
Definition x_unit (c : cfg) (I : isa) (n : nans F32) (k : nans F64) (u : unit_fun) : F F32 -> F F32 :=
  match u with
  | Midi2freq => midi2freq c I n | Freq2midi => freq2midi c I n k | Midi2ratio => midi2ratio c I n | Ratio2midi => ratio2midi c I n k
  | Oct2freq => oct2freq c I n | Freq2oct => freq2oct c I n k | Amp2db => amp2db c I n k | Db2amp => db2amp c I n
  end.
#[local] Opaque lit_as litd f_ofZ vec_pow vec_log2 vec_log10.
Lemma x_unit_is c I n k u x : x86 I ->
  u_fun (fadd n) (fsub n) (vmul I n) (vabs c I) (vec_log2 c I n k) (vec_log10 c I n k) (vec_pow c I n) u x = x_unit c I n k u x.
Proof.
  intros HI. assert (M : forall a b, vmul I n a b = fmul n a b) by (intros; apply vmul_x86; destruct HI as [-> | ->]; discriminate).
  destruct u; cbn [u_fun x_unit]; unfold midi2freq, freq2midi, midi2ratio, ratio2midi, oct2freq, freq2oct, amp2db, db2amp, u_abs_log2, abs_log2;
    rewrite ?M, ?lit_440, ?lit_2, ?lit_69, ?lit_12, ?lit_20, ?lit_10; reflexivity.
Qed.
#[local] Transparent lit_as litd f_ofZ vec_pow vec_log2 vec_log10.
Lemma within_two {t} (u v : F t) r a b d : isfin u = true -> Rabs (val u - r) <= a -> isfin v = true -> Rabs (val v - r) <= b -> a + b <= d -> within d u v.
Proof.
  intros Fu Eu Fv Ev D. split; [exact Fu|]. split; [exact Fv|]. replace (val u - val v) with ((val u - r) + - (val v - r)) by ring.
  eapply Rle_trans; [apply Rabs_triang|]. rewrite Rabs_Ropp. lra.
Qed.
Lemma half_ulp_32 : half_ulp F32 <= 6e-8. Proof. cbn [half_ulp]. change (bpow radix2 (-24)) with (/ 16777216). lra. Qed.
Lemma half_ulp_pos : 0 <= half_ulp F32. Proof. apply bpow_ge_0. Qed.
Lemma key_span r : 1 <= r <= 30000 -> Rabs (key_of_hertz r - 69) <= 105.6.
Proof.
  intros H. unfold key_of_hertz, log_base. replace (69 + 12 * (ln (r / 440) / ln 2) - 69) with (12 * (ln (r / 440) / ln 2)) by ring.
  rewrite Rabs_mult, (Rabs_pos_eq 12) by lra. pose proof (octaves r H). lra.
Qed.
Lemma octave_span r : 1 <= r <= 30000 -> Rabs (octave_of_hertz r - 4.75) <= 8.8.
Proof.
  intros H. unfold octave_of_hertz, log_base. replace (4.75 + ln (r / 440) / ln 2 - 4.75) with (ln (r / 440) / ln 2) by ring. apply octaves. exact H.
Qed.
Lemma unit_pair c I (w : world F32) k u x : math_isa c I -> accurate 1e-6 (w_lib w) -> w_cxx11 w = true -> isfin x = true -> ordinary_unit u (val x) ->
  unit_agree u (s_unit w u x) (x_unit c I (w_nan w) k u x).
Proof.
  intros HI HL HW Fx H. pose proof half_ulp_32 as HU. pose proof half_ulp_pos as HP. assert (E6 : 0 <= 1e-6 <= 1e-5) by lra. pose proof (bpow_gt_0 radix2 (-126)) as P0.
  destruct u; cbn [ordinary_unit unit_agree x_unit] in *.
  - assert (B : Rabs (val x - 69) <= 69) by (apply Rabs_le; lra). pose proof (Rabs_pos (val x - 69)).
    pose proof (C65_midi2freq_lemma F32 w 1e-6 x HL E6 Fx ltac:(lra)) as N1. pose proof (C54_midi2freq_lemma c I (w_nan w) x HI Fx ltac:(lra)) as N2.
    cbn [semitone_err] in N1. apply (agree_near _ _ _ _ _ _ N1 N2); lra.
  - destruct (C65_freq2midi_lemma F32 w 1e-6 x HL E6 HW Fx ltac:(lra)) as [F1 N1]. destruct (C54_freq2midi_lemma c I (w_nan w) k x HI Fx ltac:(lra)) as [F2 N2]. pose proof (key_span _ H) as KS.
    cbn [key_err] in N1. pose proof (Rabs_pos (key_of_hertz (Rabs (val x)) - 69)). apply (within_two _ _ _ _ _ _ F1 N1 F2 N2). nra.
  - pose proof (Rabs_pos (val x)).
    pose proof (C65_midi2ratio_lemma F32 w 1e-6 x HL E6 Fx ltac:(lra)) as N1. pose proof (C54_midi2ratio_lemma c I (w_nan w) x HI Fx ltac:(lra)) as N2.
    cbn [semitone_err] in N1. apply (agree_near _ _ _ _ _ _ N1 N2); lra.
  - pose proof (C65_ratio2midi_lemma F32 w 1e-6 x HL E6 HW Fx ltac:(lra)) as N1. pose proof (C54_ratio2midi_lemma c I (w_nan w) k x HI (conj Fx H)) as N2.
    apply (agree_near _ _ _ _ _ _ N1 N2); lra.
  - assert (B : Rabs (val x - 4.75) <= 5.25) by (apply Rabs_le; lra). pose proof (Rabs_pos (val x - 4.75)).
    pose proof (C65_oct2freq_lemma F32 w 1e-6 x HL E6 Fx ltac:(lra)) as N1. pose proof (C54_oct2freq_lemma c I (w_nan w) x HI Fx ltac:(lra)) as N2.
    apply (agree_near _ _ _ _ _ _ N1 N2); nra.
  - destruct (C65_freq2oct_lemma F32 w 1e-6 x HL E6 HW Fx ltac:(lra)) as [F1 N1]. destruct (C54_freq2oct_lemma c I (w_nan w) k x HI Fx ltac:(lra)) as [F2 N2]. pose proof (octave_span _ H) as KS.
    cbn [octave_err] in N1. pose proof (Rabs_pos (octave_of_hertz (Rabs (val x)) - 4.75)). apply (within_two _ _ _ _ _ _ F1 N1 F2 N2). nra.
  - pose proof (C65_amp2db_lemma F32 w 1e-6 x HL E6 Fx ltac:(intros E; rewrite E, Rabs_R0 in H; lra)) as N1. pose proof (C54_amp2db_lemma c I (w_nan w) k x HI Fx H) as N2.
    apply (agree_near _ _ _ _ _ _ N1 N2); lra.
  - pose proof (Rabs_pos (val x)).
    pose proof (C65_db2amp_lemma F32 w 1e-6 x HL E6 Fx ltac:(lra)) as N1. pose proof (C54_db2amp_lemma c I (w_nan w) x HI Fx ltac:(lra)) as N2.
    apply (agree_near _ _ _ _ _ _ N1 N2); nra.
Qed.
Lemma unit_fun_agree c B (w : world (fmt_of B)) k u x : math_backend c B -> accurate 1e-6 (w_lib w) -> w_cxx11 w = true -> isfin x = true -> ordinary_unit u (val x) ->
  unit_agree u (s_unit w u x) (v_unit c B w k u x).
Proof.
  intros HB HL HW Fx H. destruct HB as [-> | [-> S]]; unfold v_unit; cbn [v_ufun v_bfun fmt_of isa_of]; [|rewrite S]; cbn [x_ufun x_bfun].
  - rewrite x_unit_is by (right; reflexivity). apply unit_pair; try assumption. left. reflexivity.
  - rewrite x_unit_is by (left; reflexivity). apply unit_pair; try assumption. right. split; [reflexivity|exact S].
Qed.

(** * Buffers *)
Section Buf.
Context {A : Type} (ar : arith A).
Local Open Scope Z_scope.
Lemma alike_leaves (P : A -> A -> Prop) (m : mem A) r1 r2 out len v1 v2 : leaves m r1 out len v1 -> leaves m r2 out len v2 ->
  (forall i x y, 0 <= i < len -> v1 i = Some x -> v2 i = Some y -> P x y) -> alike P m r1 r2 out len.
Proof.
  intros (m1 & E1 & W1 & W2) (m2 & E2 & V1 & V2) H. exists m1, m2. split; [exact E1|]. split; [exact E2|]. split.
  - intros i Hi. destruct (W1 i Hi) as [Q1 N1]. destruct (V1 i Hi) as [Q2 N2]. destruct (v1 i) as [x|] eqn:X; [|congruence]. destruct (v2 i) as [y|] eqn:Y; [|congruence].
    exists x, y. split; [exact Q1|]. split; [exact Q2|]. exact (H i x y Hi X Y).
  - intros a Ha. split; [apply W2|apply V2]; exact Ha.
Qed.
Lemma alike_unary B (f g : A -> A) (Q : A -> Prop) (P : A -> A -> Prop) m out inp len : (forall x, Q x -> P (f x) (g x)) ->
  legal_simd_length B len -> aligned B out -> accessible m out len -> simd_fit B m out len (APtr inp) -> each Q m inp len ->
  alike P m (unary_vec f m out inp len) (unary_vec_simd ar B (map g) m out inp len) out len.
Proof.
  intros H H1 H2 H3 H4 HQ. eapply alike_leaves; [|apply unary_simd_leaves; assumption|].
  - apply (unary_leaves ar); [destruct H1; assumption|assumption|]. eapply fit_of_simd. exact H4.
  - intros i x y Hi. cbv beta. destruct (m (inp + i)) as [z|] eqn:E; cbn [lift1]; intros X Y; [|discriminate]. injection X as <-. injection Y as <-. apply H. exact (HQ i z Hi E).
Qed.
Lemma alike_binary B (f g : A -> A -> A) (Q : A -> A -> Prop) (P : A -> A -> Prop) m out a1 a2 len : (forall x y, Q x y -> P (f x y) (g x y)) ->
  legal_simd_length B len -> aligned B out -> accessible m out len -> simd_fit B m out len a1 -> plain a1 -> simd_fit B m out len a2 -> plain a2 ->
  (forall i x y, 0 <= i < len -> sample ar m a1 i = Some x -> sample ar m a2 i = Some y -> Q x y) ->
  alike P m (binary_vec ar f m out a1 a2 len) (binary_vec_simd ar B (map2 g) m out a1 a2 len) out len.
Proof.
  intros H H1 H2 H3 H4 P4 H5 P5 HQ. eapply alike_leaves; [|apply binary_simd_leaves; assumption|].
  - apply C01_foo_vec_maps_binary_lemma; [destruct H1; assumption|assumption|eapply fit_of_simd; exact H4|eapply fit_of_simd; exact H5].
  - intros i x y Hi. cbv beta. destruct (sample ar m a1 i) as [u|] eqn:U; [|discriminate]. destruct (sample ar m a2 i) as [v|] eqn:V; cbn [lift2]; intros X Y; [|discriminate].
    injection X as <-. injection Y as <-. apply H. exact (HQ i u v Hi U V).
Qed.
End Buf.
Lemma vec_agree c B (w : world (fmt_of B)) k f m out inp len : math_backend c B -> library 1e-6 (w_lib w) -> w_cxx11 w = true ->
  legal_simd_length B len -> aligned B out -> accessible m out len -> simd_fit B m out len (APtr inp) ->
  each (fun x => isfin x = true /\ ordinary f (val x)) m inp len ->
  alike (agree 2e-6) m (math_vec B w f m out inp len) (math_vec_simd c B w k f m out inp len) out len.
Proof.
  intros HB HL HW H1 H2 H3 H4 HQ. unfold math_vec, math_vec_simd. eapply alike_unary; try eassumption. intros x [Fx Hx]. apply ufun_agree; assumption.
Qed.
Lemma vec2_agree c B (w : world (fmt_of B)) f m out a1 a2 len : math_backend c B -> accurate 1e-6 (w_lib w) ->
  legal_simd_length B len -> aligned B out -> accessible m out len -> simd_fit B m out len a1 -> plain a1 -> simd_fit B m out len a2 -> plain a2 ->
  (forall i x y, (0 <= i < len)%Z -> sample (farith (w_nan w)) m a1 i = Some x -> sample (farith (w_nan w)) m a2 i = Some y ->
     isfin x = true /\ isfin y = true /\ ordinary2 f (val x) (val y)) ->
  alike (agree 5e-5) m (math2_vec B w f m out a1 a2 len) (math2_vec_simd c B w f m out a1 a2 len) out len.
Proof.
  intros HB HL H1 H2 H3 H4 P4 H5 P5 HQ. unfold math2_vec, math2_vec_simd.
  eapply (alike_binary _ B _ _ (fun x y => isfin x = true /\ isfin y = true /\ ordinary2 f (val x) (val y))); try eassumption. intros x y (Fx & Fy & Hx). apply bfun_agree; assumption.
Qed.
Lemma unit_vec_agree c B (w : world (fmt_of B)) k u m out inp len : math_backend c B -> accurate 1e-6 (w_lib w) -> w_cxx11 w = true ->
  legal_simd_length B len -> aligned B out -> accessible m out len -> simd_fit B m out len (APtr inp) ->
  each (fun x => isfin x = true /\ ordinary_unit u (val x)) m inp len ->
  alike (unit_agree u) m (unit_vec B w u m out inp len) (unit_vec_simd c B w k u m out inp len) out len.
Proof.
  intros HB HL HW H1 H2 H3 H4 HQ. unfold unit_vec, unit_vec_simd. eapply alike_unary; try eassumption. intros x [Fx Hx]. apply unit_fun_agree; assumption.
Qed.

(** * Where they differ *)
Lemma acos_half : 2.09 <= acos (- 0.5) <= 2.095.
Proof.
  pose proof pi_value as PV. assert (E : acos (- 0.5) = 2 * PI / 3); [|rewrite E; lra].
  replace (- 0.5) with (cos (2 * (PI / 3))) by (rewrite cos_2PI3; lra). replace (2 * PI / 3) with (2 * (PI / 3)) by lra. apply acos_cos; lra.
Qed.
Lemma acos_disagree c B (w : world (fmt_of B)) k : math_backend c B ->
  (forall x, isfin x = true -> Rabs (val x) <= 1 -> near 1e-6 (m_acos (w_lib w) x) (acos (val x))) ->
  exists x, isfin x = true /\ Rabs (val x) <= 1 /\ ~ within 1.9 (s_ufun w Acos x) (v_ufun c B w k Acos x).
Proof.
  intros HB. assert (Q : forall (w : world F32) x y, (forall x, isfin x = true -> Rabs (val x) <= 1 -> near 1e-6 (m_acos (w_lib w) x) (acos (val x))) ->
    isfin x = true -> val x = - 0.5 -> val y > 4 -> ~ within 1.9 (s_ufun w Acos x) y).
  { intros w' x y HL Fx Vx Vy (_ & _ & D). cbn [s_ufun] in D. destruct (HL x Fx) as [_ N]; [rewrite Vx, Rabs_left; lra|]. rewrite Vx in N. pose proof acos_half as AH.
    rewrite (Rabs_pos_eq (acos _)) in N by lra. apply Rabs_le_inv in N. apply Rabs_le_inv in D. lra. }
  destruct (lit32 (-1) (-1)) as [A V]; [lia|lia|]. assert (V' : val (f_lit F32 (-1) (-1)) = - 0.5) by (rewrite V; change (bpow radix2 (-1)) with (/ 2); lra).
  intros HL. destruct HB as [-> | [-> S]]; cbn [fmt_of] in *; exists (f_lit F32 (-1) (-1)); (split; [exact A|]); (split; [rewrite V', Rabs_left; lra|]).
  - apply Q; [exact HL|exact A|exact V'|]. cbn [v_ufun isa_of]. unfold x_ufun. apply acos_m05_val. right. reflexivity.
  - apply Q; [exact HL|exact A|exact V'|]. cbn [v_ufun isa_of]. rewrite S. unfold x_ufun. apply acos_m05_val. left. reflexivity.
Qed.
Lemma sin_disagree c B (w : world (fmt_of B)) k : math_backend c B ->
  (forall x, isfin x = true -> isfin (m_sin (w_lib w) x) = true /\ Rabs (val (m_sin (w_lib w) x)) <= 1) ->
  exists x, isfin x = true /\ ~ within 999999 (s_ufun w Sin x) (v_ufun c B w k Sin x).
Proof.
  intros HB. assert (Q : forall (w : world F32) x y, (forall x, isfin x = true -> isfin (m_sin (w_lib w) x) = true /\ Rabs (val (m_sin (w_lib w) x)) <= 1) ->
    isfin x = true -> val y < - 1000000 -> ~ within 999999 (s_ufun w Sin x) y).
  { intros w' x y HL Fx Vy (_ & _ & D). cbn [s_ufun] in D. destruct (HL x Fx) as [_ N]. apply Rabs_le_inv in N. apply Rabs_le_inv in D. lra. }
  destruct (lit32 1 30) as [A V]; [lia|lia|].
  intros HL. destruct HB as [-> | [-> S]]; cbn [fmt_of] in *; exists (f_lit F32 1 30); (split; [exact A|]).
  - apply Q; [exact HL|exact A|]. cbn [v_ufun isa_of]. unfold x_ufun. apply sin_far. right. reflexivity.
  - apply Q; [exact HL|exact A|]. cbn [v_ufun isa_of]. rewrite S. unfold x_ufun. apply sin_far. left. reflexivity.
Qed.
Lemma ideal_sin (x : F F32) : isfin (m_sin (ideal F32) x) = true /\ Rabs (val (m_sin (ideal F32) x)) <= 1.
Proof.
  cbn [ideal m_sin]. pose proof (SIN_bound (val x)) as SB. destruct (nearest_ok F32 (sin (val x))) as [A V]; [apply Rabs_le; lra|]. split; [exact A|]. rewrite V.
  apply rnd_abs_le; [destruct one_ok as (_ & V1 & _); rewrite <- V1; apply val_format|apply Rabs_le; lra].
Qed.
Lemma ideal_acos (x : F F32) : isfin x = true -> Rabs (val x) <= 1 -> near 1e-6 (m_acos (ideal F32) x) (acos (val x)).
Proof.
  intros Fx H. destruct (Req_dec (val x) (- 0.5)) as [E|E]; [|apply (proj1 ideal_ok Acos x Fx); split; assumption].
  cbn [ideal m_acos]. rewrite E. pose proof acos_half as AH. destruct (nearest_near F32 (acos (- 0.5))) as [A N]; [rewrite Rabs_pos_eq; lra|right|].
  - rewrite Rabs_pos_eq by lra. eapply Rle_trans; [apply (bpow_le radix2 (-126) 0); lia|]. cbn. lra.
  - split; [exact A|]. eapply Rle_trans; [exact N|]. apply Rmult_le_compat_r; [apply Rabs_pos|]. pose proof half_ulp_32. lra.
Qed.
