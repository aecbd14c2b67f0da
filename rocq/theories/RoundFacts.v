(** Facts about rounding to integers. *)

From Coq Require Import ZArith Reals List Lia Lra Bool.
From Flocq Require Import Core IEEE754.Binary IEEE754.Bits.
From Verif Require Import Base Mem Backend Lanes Float LaneOps ScalarMath VecMath SpecLane SpecRound FloatFacts FloatRound LaneFacts VecFacts ReduceFloat ReduceMore.
Local Open Scope R_scope.

(** * Integers nearest to a real *)
Lemma IZR_inj_half a b : Rabs (IZR a - IZR b) < 1 -> a = b.
Proof.
  intros H. rewrite <- minus_IZR, <- abs_IZR in H. apply lt_IZR in H. lia.
Qed.
Lemma floor_of_Zfloor r : floor_of r (Zfloor r).
Proof. split; [apply Zfloor_lb|apply Zfloor_ub]. Qed.
Lemma floor_of_unique r k : floor_of r k -> k = Zfloor r.
Proof. intros [H1 H2]. symmetry. apply Zfloor_imp. rewrite plus_IZR. split; assumption. Qed.
Lemma ceil_of_Zceil r : ceil_of r (Zceil r).
Proof. split; [|apply Zceil_ub]. unfold Zceil. rewrite opp_IZR. pose proof (Zfloor_ub (- r)). lra. Qed.
Lemma ceil_of_unique r k : ceil_of r k -> k = Zceil r.
Proof. intros [H1 H2]. symmetry. apply Zceil_imp. rewrite minus_IZR. split; assumption. Qed.
Lemma trunc_of_Ztrunc r : trunc_of r (Ztrunc r).
Proof.
  split; intros H.
  - rewrite Ztrunc_floor by exact H. apply floor_of_Zfloor.
  - rewrite Ztrunc_ceil by exact H. apply ceil_of_Zceil.
Qed.
Lemma nearest_even_ZnearestE r : nearest_even r (ZnearestE r).
Proof.
  split; [apply Znearest_half|]. intros H.
  pose proof (Zfloor_lb r) as L. pose proof (Zfloor_ub r) as U. unfold ZnearestE, Znearest in *.
  destruct (Rcompare_spec (r - IZR (Zfloor r)) (/ 2)) as [C|C|C].
  - rewrite Rabs_pos_eq in H by lra. lra.
  - destruct (Z.even (Zfloor r)) eqn:E; cbn [negb]; [exact E|].
    assert (Hc : Zceil r = (Zfloor r + 1)%Z) by (apply Zceil_floor_neq; intros E'; rewrite E' in C; lra).
    rewrite Hc, Z.even_add, E. reflexivity.
  - assert (Hc : Zceil r = (Zfloor r + 1)%Z) by (apply Zceil_floor_neq; intros E'; rewrite E' in C; lra).
    rewrite Hc, plus_IZR in H. rewrite Rabs_left1 in H by lra. lra.
Qed.
Lemma nearest_even_unique r j k : nearest_even r j -> nearest_even r k -> j = k.
Proof.
  intros [A1 A2] [B1 B2].
  destruct (Req_dec (Rabs (r - IZR j)) (/ 2)) as [E|E].
  - destruct (Req_dec (Rabs (r - IZR k)) (/ 2)) as [E'|E'].
    + specialize (A2 E). specialize (B2 E').
      assert (H : Rabs (IZR j - IZR k) <= 1).
      { replace (IZR j - IZR k) with ((r - IZR k) - (r - IZR j)) by ring.
        eapply Rle_trans; [apply Rabs_triang|]. rewrite Rabs_Ropp. lra. }
      rewrite <- minus_IZR, <- abs_IZR in H. apply le_IZR in H.
      apply Z.even_spec in A2. apply Z.even_spec in B2. destruct A2 as [a ->]. destruct B2 as [b ->]. lia.
    + apply IZR_inj_half. replace (IZR j - IZR k) with ((r - IZR k) - (r - IZR j)) by ring.
      eapply Rle_lt_trans; [apply Rabs_triang|]. rewrite Rabs_Ropp. lra.
  - apply IZR_inj_half. replace (IZR j - IZR k) with ((r - IZR k) - (r - IZR j)) by ring.
    eapply Rle_lt_trans; [apply Rabs_triang|]. rewrite Rabs_Ropp. lra.
Qed.
Lemma ZnearestE_shift r k : Z.even k = true -> ZnearestE (r + IZR k) = (ZnearestE r + k)%Z.
Proof.
  intros Hk. apply (nearest_even_unique (r + IZR k)); [apply nearest_even_ZnearestE|].
  destruct (nearest_even_ZnearestE r) as [H1 H2]. unfold nearest_even. rewrite plus_IZR.
  replace (r + IZR k - (IZR (ZnearestE r) + IZR k)) with (r - IZR (ZnearestE r)) by ring.
  split; [exact H1|]. intros E. rewrite Z.even_add, (H2 E), Hk. reflexivity.
Qed.
Lemma ZnearestE_opp r : ZnearestE (- r) = (- ZnearestE r)%Z.
Proof.
  apply (nearest_even_unique (- r)); [apply nearest_even_ZnearestE|].
  destruct (nearest_even_ZnearestE r) as [H1 H2]. unfold nearest_even. rewrite opp_IZR.
  replace (- r - - IZR (ZnearestE r)) with (- (r - IZR (ZnearestE r))) by ring. rewrite Rabs_Ropp.
  split; [exact H1|]. intros E. rewrite Z.even_opp. exact (H2 E).
Qed.
Lemma nearest_away_ZnearestA r : nearest_away r (ZnearestA r).
Proof.
  split; [apply Znearest_half|]. intros H.
  pose proof (Zfloor_lb r) as L. pose proof (Zfloor_ub r) as U. unfold Znearest in *.
  destruct (Rcompare_spec (r - IZR (Zfloor r)) (/ 2)) as [C|C|C].
  - rewrite Rabs_pos_eq in H by lra. lra.
  - assert (Hc : Zceil r = (Zfloor r + 1)%Z) by (apply Zceil_floor_neq; intros E'; rewrite E' in C; lra).
    destruct (Zle_bool 0 (Zfloor r)) eqn:E.
    + apply Z.leb_le in E. apply IZR_le in E. rewrite Hc, plus_IZR. rewrite !Rabs_pos_eq by lra. lra.
    + apply Z.leb_gt in E. assert (E' : (Zfloor r <= -1)%Z) by lia. apply IZR_le in E'. rewrite !Rabs_left1 by lra. lra.
  - assert (Hc : Zceil r = (Zfloor r + 1)%Z) by (apply Zceil_floor_neq; intros E'; rewrite E' in C; lra).
    rewrite Hc, plus_IZR in H. rewrite Rabs_left1 in H by lra. lra.
Qed.
Lemma tie_abs r k : Rabs (r - IZR k) = / 2 -> tie r.
Proof.
  intros H. destruct (Rle_dec 0 (r - IZR k)) as [L|L].
  - rewrite Rabs_pos_eq in H by exact L. exists k. lra.
  - rewrite Rabs_left1 in H by lra. exists (k - 1)%Z. rewrite minus_IZR. lra.
Qed.
Lemma nearest_off_tie r j k : ~ tie r -> nearest_even r j -> nearest_away r k -> j = k.
Proof.
  intros Ht [A1 _] [B1 _]. apply IZR_inj_half.
  replace (IZR j - IZR k) with ((r - IZR k) - (r - IZR j)) by ring.
  eapply Rle_lt_trans; [apply Rabs_triang|]. rewrite Rabs_Ropp.
  destruct (Req_dec (Rabs (r - IZR j)) (/ 2)) as [E|E]; [elim Ht; exact (tie_abs _ _ E)|]. lra.
Qed.
Lemma nearest_even_tie r j : r = IZR j + / 2 -> nearest_even r (if Z.even j then j else j + 1).
Proof.
  intros ->. destruct (Z.even j) eqn:E.
  - split; [rewrite Rabs_pos_eq by lra; lra|]. intros _. exact E.
  - unfold nearest_even. rewrite plus_IZR. split; [rewrite Rabs_left1 by lra; lra|]. intros _. rewrite Z.even_add, E. reflexivity.
Qed.
Lemma nearest_away_unique r j k : nearest_away r j -> nearest_away r k -> j = k.
Proof.
  intros [A1 A2] [B1 B2].
  destruct (Req_dec (Rabs (r - IZR j)) (/ 2)) as [E|E].
  - destruct (Req_dec (Rabs (r - IZR k)) (/ 2)) as [E'|E'].
    + specialize (A2 E). specialize (B2 E').
      assert (r - IZR j = r - IZR k); [|apply eq_IZR; lra].
      assert (Hj : (j <= -1)%Z \/ (0 <= j)%Z) by lia. assert (Hk : (k <= -1)%Z \/ (0 <= k)%Z) by lia.
      destruct Hj as [Hj|Hj]; apply IZR_le in Hj; destruct Hk as [Hk|Hk]; apply IZR_le in Hk;
        revert E E' A2 B2; unfold Rabs; repeat destruct Rcase_abs; intros; lra.
    + apply IZR_inj_half. replace (IZR j - IZR k) with ((r - IZR k) - (r - IZR j)) by ring.
      eapply Rle_lt_trans; [apply Rabs_triang|]. rewrite Rabs_Ropp. lra.
  - apply IZR_inj_half. replace (IZR j - IZR k) with ((r - IZR k) - (r - IZR j)) by ring.
    eapply Rle_lt_trans; [apply Rabs_triang|]. rewrite Rabs_Ropp. lra.
Qed.

(** * The rounding instructions and library functions *)
Lemma round_FIX0 f `{Valid_rnd f} x : round radix2 (FIX_exp 0) f x = IZR (f x).
Proof.
  unfold round, scaled_mantissa, cexp, FIX_exp, F2R. cbn [Fnum Fexp]. cbn [Z.opp bpow]. rewrite !Rmult_1_r. reflexivity.
Qed.
Section Nearby.
Context {t : fmt} (n : nans t).
Implicit Types x y : F t.
Lemma nearby_fin md x : isfin x = true ->
  let y := Bnearbyint (prec t) (emax t) (Hmax t) (nan_int n) md x : F t in
  isfin y = true /\ val y = IZR (BinarySingleNaN.round_mode md (val x)) /\ sgn y = sgn x.
Proof.
  intros Hx y. destruct (Bnearbyint_correct (prec t) (emax t) (Hmax t) (nan_int n) md x) as (H1 & H2 & H3).
  fold y in H1, H2, H3. assert (HF : isfin y = true) by (unfold isfin; rewrite H2; exact Hx).
  split; [exact HF|]. split; [rewrite <- round_FIX0 by (destruct md; typeclasses eauto); exact H1|].
  apply H3. apply (isfin_isnan y). exact HF.
Qed.
Lemma ffloor_fin x : isfin x = true -> isfin (ffloor n x) = true /\ val (ffloor n x) = IZR (Zfloor (val x)) /\ sgn (ffloor n x) = sgn x.
Proof. exact (nearby_fin BinarySingleNaN.mode_DN x). Qed.
Lemma fceil_fin x : isfin x = true -> isfin (fceil n x) = true /\ val (fceil n x) = IZR (Zceil (val x)) /\ sgn (fceil n x) = sgn x.
Proof. exact (nearby_fin BinarySingleNaN.mode_UP x). Qed.
Lemma fround_even_fin x : isfin x = true -> isfin (fround_even n x) = true /\ val (fround_even n x) = IZR (ZnearestE (val x)) /\ sgn (fround_even n x) = sgn x.
Proof. exact (nearby_fin BinarySingleNaN.mode_NE x). Qed.
Lemma fround_away_fin x : isfin x = true -> isfin (fround_away n x) = true /\ val (fround_away n x) = IZR (ZnearestA (val x)) /\ sgn (fround_away n x) = sgn x.
Proof. exact (nearby_fin BinarySingleNaN.mode_NA x). Qed.
Lemma fround_zero_fin x : isfin x = true -> isfin (fround_zero n x) = true /\ val (fround_zero n x) = IZR (Ztrunc (val x)) /\ sgn (fround_zero n x) = sgn x.
Proof. exact (nearby_fin BinarySingleNaN.mode_ZR x). Qed.
(** Infinities are left alone. *)
Lemma nearby_inf md x : isfin x = false -> isnan x = false ->
  (Bnearbyint (prec t) (emax t) (Hmax t) (nan_int n) md x : F t) = x.
Proof. destruct x; try discriminate. reflexivity. Qed.
End Nearby.

Lemma int_fmt {t} k : (Z.abs k <= 2 ^ prec t)%Z -> fmtR t (IZR k).
Proof.
  intros H. replace (IZR k) with (IZR k * bpow radix2 0) by (cbn [bpow]; ring).
  apply dyadic_format; [exact H|]. destruct t; cbv; discriminate.
Qed.

Lemma ofZ_exact {t} k : (Z.abs k <= 2 ^ prec t)%Z -> isfin (f_ofZ t k) = true /\ val (f_ofZ t k) = IZR k /\ sgn (f_ofZ t k) = (k <? 0)%Z.
Proof.
  intros H. destruct (f_lit_exact (t := t) k 0 H) as (A & B & C); [destruct t; cbv; discriminate|destruct t; reflexivity|].
  split; [exact A|]. split; [|exact C]. etransitivity; [exact B|]. cbn [bpow]. ring.
Qed.

(** * Rounding by adding and subtracting 2^23 *)
Lemma rnd_int_range r : IZR (2 ^ 23) <= r <= IZR (2 ^ 24) -> rnd F32 r = IZR (ZnearestE r).
Proof.
  intros [H1 H2]. destruct (Req_dec r (IZR (2 ^ 24))) as [E|E].
  - subst r. rewrite Znearest_imp with (n := (2 ^ 24)%Z) by (rewrite Rminus_diag_eq by reflexivity; rewrite Rabs_R0; lra).
    apply (rnd_id (t := F32)). apply (int_fmt (t := F32)). cbv; discriminate.
  - unfold rnd. rewrite fexp_FLT. unfold round.
    assert (Hc : cexp radix2 (FLT_exp (emin F32) (prec F32)) r = 0%Z).
    { unfold cexp. rewrite (mag_unique_pos radix2 r 24).
      - reflexivity.
      - change (bpow radix2 (24 - 1)) with (IZR (2 ^ 23)). change (bpow radix2 24) with (IZR (2 ^ 24)). split; [exact H1|]. destruct H2 as [H2|H2]; [exact H2|elim E; exact H2]. }
    unfold scaled_mantissa. rewrite Hc. unfold F2R. cbn [Fnum Fexp Z.opp bpow]. rewrite !Rmult_1_r. reflexivity.
Qed.

Lemma ZnearestE_bounds r a b : IZR a <= r <= IZR b -> (a <= ZnearestE r <= b)%Z.
Proof.
  intros [H1 H2]. split.
  - eapply Z.le_trans; [|apply Znearest_ge_floor]. apply Zfloor_lub. exact H1.
  - eapply Z.le_trans; [apply Znearest_le_ceil|]. apply Zceil_glb. exact H2.
Qed.
Lemma big_int k : (Z.abs k <= 2 ^ 25)%Z -> Rabs (IZR k) < bpow radix2 (emax F32).
Proof.
  intros H. rewrite <- abs_IZR. apply Rle_lt_trans with (IZR (2 ^ 25)); [apply IZR_le; exact H|].
  change (IZR (2 ^ 25)) with (bpow radix2 25). apply bpow_lt. reflexivity.
Qed.
Lemma two23 : isfin (f_ofZ F32 (2 ^ 23)) = true /\ val (f_ofZ F32 (2 ^ 23)) = IZR (2 ^ 23) /\ sgn (f_ofZ F32 (2 ^ 23)) = false.
Proof. apply ofZ_exact. cbv; discriminate. Qed.

Section Magic.
Context (n : nans F32).
Implicit Types x y : F F32.
(** The sum and difference for an argument without sign. *)
Lemma magic_sum x : isfin x = true -> 0 <= val x <= IZR (2 ^ 24) ->
  let s := fadd n x (f_ofZ F32 (2 ^ 23)) in
  isfin s = true /\ val s = rnd F32 (val x + IZR (2 ^ 23)) /\ sgn s = false.
Proof.
  intros Hx [H1 H2] s. destruct two23 as (A & B & C).
  assert (Hr : IZR (2 ^ 23) <= rnd F32 (val x + IZR (2 ^ 23)) <= IZR (2 ^ 25)).
  { split.
    - apply rnd_ge_format; [apply (int_fmt (t := F32)); change (2 ^ prec F32)%Z with 16777216%Z; lia|lra].
    - apply rnd_le_format; [|change (IZR (2 ^ 25)) with (IZR (2 ^ 24 + 2 ^ 24)); rewrite plus_IZR; assert (IZR (2 ^ 23) <= IZR (2 ^ 24)) by (apply IZR_le; lia); lra].
      change (IZR (2 ^ 25)) with (bpow radix2 25). apply (bpow_format (t := F32)). cbv; discriminate. }
  assert (0 < IZR (2 ^ 23)) by (apply IZR_lt; reflexivity).
  destruct (fadd_fin n x (f_ofZ F32 (2 ^ 23)) Hx A) as (P & Q & S).
  - rewrite B. rewrite Rabs_pos_eq by lra. apply Rle_lt_trans with (IZR (2 ^ 25)); [lra|].
    change (IZR (2 ^ 25)) with (bpow radix2 25). apply bpow_lt. reflexivity.
  - rewrite B in Q, S. split; [exact P|]. split; [exact Q|].
    fold s in S. rewrite S. rewrite Rcompare_Gt by lra. reflexivity.
Qed.
Lemma magic_pos x : isfin x = true -> 0 <= val x <= IZR (2 ^ 23) ->
  let r := fsub n (fadd n x (f_ofZ F32 (2 ^ 23))) (f_ofZ F32 (2 ^ 23)) in
  isfin r = true /\ val r = IZR (ZnearestE (val x)) /\ sgn r = false.
Proof.
  intros Hx Hv r. destruct two23 as (A & B & C).
  assert (T : IZR (2 ^ 23) <= IZR (2 ^ 24)) by (apply IZR_le; lia).
  destruct (magic_sum x Hx) as (P & Q & S); [lra|].
  assert (E : IZR (2 ^ 24) = IZR (2 ^ 23) + IZR (2 ^ 23)) by (rewrite <- plus_IZR; reflexivity).
  rewrite rnd_int_range in Q by lra. rewrite ZnearestE_shift in Q by reflexivity.
  pose proof (ZnearestE_bounds (val x) 0 (2 ^ 23) Hv) as HK. set (K := ZnearestE (val x)) in *.
  assert (D : val (fadd n x (f_ofZ F32 (2 ^ 23))) - val (f_ofZ F32 (2 ^ 23)) = IZR K) by (rewrite Q, B, plus_IZR; ring).
  assert (RK : rnd F32 (IZR K) = IZR K) by (apply rnd_id, (int_fmt (t := F32)); change (2 ^ prec F32)%Z with 16777216%Z; lia).
  destruct (fsub_fin n _ _ P A) as (X & Y & Z).
  - rewrite D, RK. apply big_int. lia.
  - rewrite D in Y, Z. rewrite RK in Y. split; [exact X|]. split; [exact Y|]. fold r in Z. rewrite Z.
    destruct (Rcompare_spec (IZR K) 0) as [L|L|L]; [|rewrite S; reflexivity|reflexivity].
    apply lt_IZR in L. lia.
Qed.
Lemma vec_round_float_abs c I x : vec_round_float c I n x =
  let r := fsub n (fadd n (fabs x) (f_ofZ F32 (2 ^ 23))) (f_ofZ F32 (2 ^ 23)) in if sgn x then fneg r else r.
Proof. unfold vec_round_float. rewrite bxor_sm_self, bxor_sm. reflexivity. Qed.
Lemma sgn_val x : isfin x = true -> val x = (if sgn x then - Rabs (val x) else Rabs (val x)).
Proof.
  intros H. rewrite <- val_fabs. rewrite <- (cond_fabs x) at 1. destruct (sgn x); [apply val_fneg|reflexivity].
Qed.
Lemma vec_round_float_fin c I x : within_2_23 x ->
  let r := vec_round_float c I n x in
  isfin r = true /\ val r = IZR (ZnearestE (val x)) /\ sgn r = sgn x.
Proof.
  intros [Hx Hv] r. unfold r. rewrite vec_round_float_abs. cbv zeta.
  destruct (magic_pos (fabs x)) as (P & Q & S).
  - rewrite isfin_fabs. exact Hx.
  - rewrite val_fabs. split; [apply Rabs_pos|exact Hv].
  - rewrite val_fabs in Q. rewrite (sgn_val x Hx). set (r0 := fsub n _ _) in *.
    destruct (sgn x).
    + rewrite isfin_fneg, val_fneg, sgn_fneg, Q, S, ZnearestE_opp, opp_IZR. auto.
    + rewrite Q. auto.
Qed.
Lemma vec_round_float_even c I x : within_2_23 x -> vec_round_float c I n x = fround_even n x.
Proof.
  intros H. destruct (vec_round_float_fin c I x H) as (A & B & C). destruct (fround_even_fin n x (proj1 H)) as (D & E & G).
  apply fin_eq; [exact A|exact D|congruence|congruence].
Qed.
End Magic.
