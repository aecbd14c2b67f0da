(** Division and square root on NEON: zeros, infinities, huge and subnormal divisors. *)
From Coq Require Import ZArith Reals List Lia Lra Bool.
From Flocq Require Import Core IEEE754.Binary IEEE754.Bits.
From Verif Require Import Base Backend Lanes Float LaneOps VecMath Estimate SpecLane SpecRound SpecInt SpecMath FloatFacts FloatRound LaneFacts VecFacts VecMore VecMore2
  RoundFacts RoundMore RoundMore2 IntFacts LdexpFacts ErrFacts NearFacts TransFacts RecipFacts EstFacts EstNeon SpecEst.
Local Open Scope R_scope.

Section N.
Context (n : nans F32).
Lemma pos_sign (x : F F32) : isfin x = true -> 0 < val x -> sgn x = false.
Proof. intros F P. rewrite (sgn_val_gen x F) in P. destruct (sgn x); [|reflexivity]. pose proof (Rabs_pos (val x)). lra. Qed.
Lemma mul_inf (a : F F32) s : isnan a = false -> ~ tiny a -> fmul n a (B754_infinity 24 128 s) = B754_infinity 24 128 (xorb (sgn a) s).
Proof.
  intros N T. destruct a as [sa|sa|sa pl H|sa m e H]; try discriminate N; try reflexivity. exfalso. apply T. split; [reflexivity|].
  change (val (B754_zero _ _ sa : F F32)) with 0. rewrite Rabs_R0. apply bpow_gt_0.
Qed.
Lemma mul_zero (a : F F32) s : isfin a = true -> fmul n a (B754_zero 24 128 s) = B754_zero 24 128 (xorb (sgn a) s).
Proof. intros F. destruct a; try discriminate F; reflexivity. Qed.
Lemma zero_mul (a : F F32) s : isfin a = true -> sgn a = false -> fmul n (B754_zero 24 128 s) a = B754_zero 24 128 s.
Proof. intros F S. destruct a as [sa|sa|sa pl H|sa m e H]; try discriminate F; cbn in S; subst sa; cbn; rewrite xorb_false_r; reflexivity. Qed.

Lemma tiny_efield (x : F F32) : tiny x -> efield x = 0%Z.
Proof. intros T. apply tiny_mag in T. unfold efield. apply Z.div_small. pose proof (mag_range x). change (mw F32) with 23%Z in T. lia. Qed.
Lemma sfield (x : F F32) : negb (sign_field x =? 0)%Z = sgn x.
Proof. rewrite sign_field_ok. destruct (sgn x); reflexivity. Qed.

(** Subnormal and zero divisors count as zero. *)
Lemma vrecpe_tiny (x : F F32) : tiny x -> vrecpe n x = B754_infinity 24 128 (sgn x).
Proof. intros T. unfold vrecpe. cbv zeta. rewrite sfield, exp_field_ok, (tiny_efield x T). reflexivity. Qed.
Lemma inf_times_two s : fmul n (B754_infinity 24 128 s) (f_ofZ F32 2) = B754_infinity 24 128 s.
Proof. destruct s; reflexivity. Qed.
Lemma recip_tiny fused (x : F F32) : tiny x -> neon_reciprocal n fused x = B754_infinity 24 128 (sgn x).
Proof.
  intros T. unfold neon_reciprocal. cbv zeta. rewrite (vrecpe_tiny x T). unfold vrecps. cbv zeta. rewrite (exp_field_ok x), (tiny_efield x T).
  replace ((0 =? 0)%Z && ((exp_field (B754_infinity 24 128 (sgn x)) =? 255)%Z && (frac_field (B754_infinity 24 128 (sgn x)) =? 0)%Z)) with true by (destruct (sgn x); vm_compute; reflexivity).
  rewrite orb_true_r. apply inf_times_two.
Qed.
Lemma div_tiny fused (a b : F F32) : isnan a = false -> ~ tiny a -> tiny b -> neon_div n fused a b = B754_infinity 24 128 (xorb (sgn a) (sgn b)).
Proof. intros N T Tb. unfold neon_div. cbv zeta. fold (neon_reciprocal n fused b). rewrite (recip_tiny fused b Tb). apply mul_inf; assumption. Qed.

(** Divisors from 2^126 count as infinite. *)
Lemma huge_efield (x : F F32) : huge x -> (253 <= efield x)%Z /\ (efield x = 255%Z -> ffield x = 0%Z).
Proof.
  intros [N H]. destruct (isfin x) eqn:FX.
  - specialize (H eq_refl). assert (NE : (1 <= efield x <= 254)%Z) by (apply normal_e; [exact FX|]; eapply Rle_trans; [|exact H]; apply bpow_le; lia).
    split; [|lia]. pose proof (val_binade x NE) as [_ B]. assert (126 < efield x - 126)%Z; [|lia]. apply (lt_bpow radix2). lra.
  - destruct x; try discriminate FX; try discriminate N. destruct s; vm_compute; split; auto; discriminate.
Qed.
Lemma vrecpe_huge (x : F F32) : huge x -> vrecpe n x = B754_zero 24 128 (sgn x).
Proof.
  intros H. destruct (huge_efield x H) as [H1 H2]. unfold vrecpe. cbv zeta. rewrite sfield, exp_field_ok, frac_field_ok.
  destruct (Z.eqb_spec (efield x) 255); [rewrite H2 by assumption; reflexivity|].
  destruct (Z.eqb_spec (efield x) 0); [lia|]. destruct (Z.leb_spec 253 (efield x)); [reflexivity|lia].
Qed.
Lemma zero_fields s : exp_field (B754_zero 24 128 s) = 0%Z. Proof. destruct s; vm_compute; reflexivity. Qed.
Lemma recip_huge fused (x : F F32) : huge x -> neon_reciprocal n fused x = B754_zero 24 128 (sgn x).
Proof.
  intros H. unfold neon_reciprocal. cbv zeta. rewrite (vrecpe_huge x H).
  assert (T : isfin (vrecps n fused x (B754_zero 24 128 (sgn x))) = true /\ val (vrecps n fused x (B754_zero 24 128 (sgn x))) = 2); [|apply zero_mul; [apply T|apply pos_sign; [apply T|rewrite (proj2 T); lra]]].
  destruct (huge_efield x H) as [H1 H2]. unfold vrecps. cbv zeta. rewrite exp_field_ok, frac_field_ok, zero_fields.
  destruct (Z.eqb_spec (efield x) 255) as [E|E]; [rewrite (H2 E); exact two_ok|]. destruct (Z.eqb_spec (efield x) 0); [lia|]. cbn [andb orb].
  assert (FX : isfin x = true).
  { destruct x; try reflexivity; exfalso; [|destruct H as [N _]; discriminate N]. apply E. destruct s; vm_compute; reflexivity. }
  destruct two_ok as [F2 V2]. set (z := B754_zero 24 128 (sgn x) : F F32). assert (FZ : isfin z = true) by reflexivity. assert (VZ : val z = 0) by reflexivity. clearbody z.
  assert (RT : rnd F32 2 = 2) by (apply rnd_id; rewrite <- V2; apply val_format).
  assert (BT : Rabs (rnd F32 2) < bpow radix2 (emax F32)) by (rewrite RT, Rabs_pos_eq by lra; change 2 with (bpow radix2 1); apply bpow_lt; reflexivity).
  destruct fused.
  - destruct (ffma_fin n (fneg x) z (f_ofZ F32 2)) as (A & B); [rewrite isfin_fneg; exact FX|exact FZ|exact F2| |].
    + rewrite VZ, V2, Rmult_0_r, Rplus_0_l. exact BT.
    + split; [exact A|]. rewrite B, VZ, V2, Rmult_0_r, Rplus_0_l. exact RT.
  - destruct (fmul_fin n x z FX FZ) as (A & B & _); [rewrite VZ, Rmult_0_r, rnd_0, Rabs_R0; apply bpow_gt_0|].
    rewrite VZ, Rmult_0_r, rnd_0 in B. destruct (fsub_fin n (f_ofZ F32 2) (fmul n x z) F2 A) as (C & D & _); [rewrite B, V2, Rminus_0_r; exact BT|].
    split; [exact C|]. rewrite D, B, V2, Rminus_0_r. exact RT.
Qed.
Lemma div_huge fused (a b : F F32) : isfin a = true -> huge b -> neon_div n fused a b = B754_zero 24 128 (xorb (sgn a) (sgn b)).
Proof. intros N Tb. unfold neon_div. cbv zeta. fold (neon_reciprocal n fused b). rewrite (recip_huge fused b Tb). apply mul_zero; assumption. Qed.
Lemma div_nan fused (a b : F F32) : (isfin a = true /\ val a = 0 /\ isfin b = true /\ val b = 0) \/ (isfin a = false /\ isnan a = false /\ isfin b = false /\ isnan b = false) ->
  isnan (neon_div n fused a b) = true.
Proof.
  intros H. unfold neon_div. cbv zeta. fold (neon_reciprocal n fused b). destruct H as [(A1 & A2 & B1 & B2)|(A1 & A2 & B1 & B2)].
  - rewrite recip_tiny by (split; [exact B1|rewrite B2, Rabs_R0; apply bpow_gt_0]). apply (proj2 (zero_inf n a (B754_infinity 24 128 (sgn b)) A1 A2 eq_refl eq_refl)).
  - rewrite recip_huge by (split; [exact B2|intros; congruence]). apply (proj1 (zero_inf n (B754_zero 24 128 (sgn b)) a eq_refl eq_refl A1 A2)).
Qed.

(** ** Square root *)
Lemma sqrt_zero (x : F F32) : isfin x = true -> val x = 0 -> isnan (neon_sqrt n x) = true.
Proof.
  intros F V. unfold neon_sqrt. assert (T : tiny x) by (split; [exact F|rewrite V, Rabs_R0; apply bpow_gt_0]).
  assert (E : vrsqrte n x = B754_infinity 24 128 (sgn x)).
  { unfold vrsqrte. cbv zeta. rewrite sfield, exp_field_ok, (tiny_efield x T). reflexivity. }
  rewrite E. apply (proj2 (zero_inf n x (B754_infinity 24 128 (sgn x)) F V eq_refl eq_refl)).
Qed.
Lemma sqrt_inf : isnan (neon_sqrt n (B754_infinity 24 128 false)) = true.
Proof.
  unfold neon_sqrt. replace (vrsqrte n (B754_infinity 24 128 false)) with (B754_zero 24 128 false : F F32); [|reflexivity].
  apply (proj1 (zero_inf n (B754_zero 24 128 false) (B754_infinity 24 128 false) eq_refl eq_refl eq_refl eq_refl)).
Qed.
Lemma isnan_bor_sm c (x y : F F32) : isnan y = true -> isnan (bor (band x (gen_sign_mask c NEON)) y) = true.
Proof.
  intros H. rewrite isnan_mag in *. rewrite mag_bor, mag_band. replace (mag (gen_sign_mask (t := F32) c NEON)) with 0%Z by (destruct c; reflexivity).
  rewrite Z.land_0_r, Z.lor_0_l. exact H.
Qed.
Lemma signed_sqrt_abs c (x : F F32) : neon_signed_sqrt n c x = bor (band x (gen_sign_mask c NEON)) (neon_sqrt n (fabs x)).
Proof. unfold neon_signed_sqrt. cbv zeta. rewrite bxor_comm, bxor_sm_self. reflexivity. Qed.
Lemma signed_sqrt_close c (x : F F32) : isfin x = true -> ~ tiny x ->
  close 3.3e-3 (neon_signed_sqrt n c x) ((if sgn x then -1 else 1) * sqrt (Rabs (val x))).
Proof.
  intros F T. rewrite signed_sqrt_abs.
  destruct (neon_sqrt_close n (fabs x)) as ((A & B) & S).
  { split; [rewrite isfin_fabs; exact F|]. rewrite val_fabs. apply Rnot_lt_le. intros L. apply T. split; assumption. }
  rewrite val_fabs in B. rewrite bor_sm by exact S. destruct (sgn x).
  - split; [rewrite isfin_fneg; exact A|]. rewrite val_fneg, Rabs_mult. replace (Rabs (-1)) with 1 by (rewrite Rabs_left; lra).
    replace (- val (neon_sqrt n (fabs x)) - -1 * sqrt (Rabs (val x))) with (- (val (neon_sqrt n (fabs x)) - sqrt (Rabs (val x)))) by ring. rewrite Rabs_Ropp, Rmult_1_l. exact B.
  - rewrite Rmult_1_l. split; assumption.
Qed.
Lemma signed_sqrt_nan c (x : F F32) : (isfin x = true /\ val x = 0) \/ (isfin x = false /\ isnan x = false) -> isnan (neon_signed_sqrt n c x) = true.
Proof.
  intros H. rewrite signed_sqrt_abs. apply isnan_bor_sm. destruct H as [[F V]|[F N]].
  - apply sqrt_zero; [rewrite isfin_fabs; exact F|]. rewrite val_fabs, V. apply Rabs_R0.
  - destruct x; try discriminate F; try discriminate N. exact sqrt_inf.
Qed.
End N.
