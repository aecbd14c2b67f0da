(** Ramps in IEEE arithmetic: exact on a grid. *)
From Coq Require Import ZArith Reals List Lia Lra Bool.
From Flocq Require Import Core IEEE754.Binary IEEE754.Bits.
From Verif Require Import Base Mem Loop Backend Args Drivers Spec LoopFacts MemFacts KaryFacts DriverFacts RampFacts
  Float FloatFacts FloatRound Lanes LaneOps Reduce FloatOps SpecReduce SpecRamp.
Import ListNotations.
Local Open Scope Z_scope.

Lemma sig_bits_prec t : sig_bits t = prec t. Proof. destruct t; reflexivity. Qed.
Lemma usable_grid_iff t e : usable_grid t e <-> (emin t <= e /\ e + prec t < emax t).
Proof. destruct t; unfold usable_grid; cbn; lia. Qed.

Section Conv.
Lemma f_conv_fin {t} t' nan (x : F t) : isfin x = true -> (Rabs (rnd t' (val x)) < bpow radix2 (emax t'))%R ->
  isfin (f_conv t' nan x) = true /\ val (f_conv t' nan x) = rnd t' (val x) /\ sgn (f_conv t' nan x) = sgn x.
Proof.
  destruct x as [s|s|s pl H|s m e H]; try discriminate; intros _ Hb.
  - cbn. rewrite rnd_0. auto.
  - cbn [f_conv].
    pose proof (binary_normalize_correct (prec t') (emax t') (Hprec t') (Hmax t') BinarySingleNaN.mode_NE (cond_Zopp s (Z.pos m)) e s) as G.
    rewrite Rlt_bool_true in G by exact Hb. destruct G as (G1 & G2 & G3).
    split; [exact G2|]. split; [exact G1|]. unfold sgn. rewrite G3. destruct s; cbn [cond_Zopp Bsign].
    + rewrite Rcompare_Lt; [reflexivity|]. apply F2R_lt_0. reflexivity.
    + rewrite Rcompare_Gt; [reflexivity|]. apply F2R_gt_0. reflexivity.
Qed.

Lemma format32_64 r : fmtR F32 r -> fmtR F64 r.
Proof.
  intros H. apply (FLT_format_generic radix2 (emin F32) (prec F32)) in H.
  destruct H as [f -> H1 H2]. apply generic_format_FLT. exists f; [reflexivity| |].
  - eapply Z.lt_le_trans; [exact H1|]. cbn. lia.
  - etransitivity; [|exact H2]. cbv. discriminate.
Qed.

Lemma f_narrow_exact {t} (n : nans t) (x : F t) : isfin x = true -> is_a_float (val x) ->
  isfin (f_narrow n x) = true /\ val (f_narrow n x) = val x /\ sgn (f_narrow n x) = sgn x.
Proof.
  destruct t; [auto|]. intros Hx (y & Hy & E). cbn [f_narrow].
  destruct (f_conv_fin F32 (nan_narrow n) x Hx) as (A1 & A2 & A3).
  { rewrite <- E, rnd_id by apply val_format. apply val_lt_emax. }
  rewrite <- E, rnd_id in A2 by apply val_format.
  assert (V64 : rnd F64 (val (f_conv F32 (nan_narrow n) x)) = val x).
  { rewrite A2, E. apply rnd_id. apply val_format. }
  destruct (f_conv_fin F64 (nan_widen n) _ A1) as (B1 & B2 & B3).
  { rewrite V64. apply val_lt_emax. }
  rewrite V64 in B2. rewrite B3, A3. auto.
Qed.

Lemma f_narrow_float (n : nans F64) (x : F F64) : isfin x = true -> isfin (f_narrow n x) = true -> is_a_float (val (f_narrow n x)).
Proof.
  intros Hx. cbn [f_narrow]. set (y := f_conv F32 (nan_narrow n) x). intros Hn.
  assert (Hy : isfin y = true).
  { destruct y as [s|s|s pl H|s m e H]; try reflexivity; cbn in Hn; try discriminate.
    destruct (nan_widen n _) as [z Hz]; cbn in Hn. destruct z; discriminate. }
  exists y. split; [exact Hy|].
  assert (HF : rnd F64 (val y) = val y) by (apply rnd_id, format32_64, val_format).
  destruct (f_conv_fin F64 (nan_widen n) y Hy) as (_ & B2 & _).
  { rewrite HF. apply Rlt_trans with (1 := val_lt_emax y). apply bpow_lt. reflexivity. }
  rewrite B2, HF. reflexivity.
Qed.
End Conv.

Lemma zero_grid t e : on_grid e (f_ofZ t 0) 0.
Proof. split; [destruct t; reflexivity|]. rewrite Rmult_0_l. destruct t; reflexivity. Qed.
Lemma ofZ8_val t : isfin (f_ofZ t 8) = true /\ val (f_ofZ t 8) = 8%R.
Proof. split; [destruct t; reflexivity|]. destruct t; unfold val; cbn; unfold F2R; cbn; lra. Qed.

Section Grid.
Context {t : fmt} (n : nans t) (e : Z).
Hypothesis He : usable_grid t e.
Local Notation cap := (2 ^ prec t).
Local Notation ar := (farith n).

Lemma grid_fmt k : Z.abs k <= cap -> fmtR t (IZR k * bpow radix2 e)%R.
Proof. intros H. apply dyadic_format; [exact H|]. apply usable_grid_iff. exact He. Qed.
Lemma grid_lt k : Z.abs k <= cap -> (Rabs (IZR k * bpow radix2 e) < bpow radix2 (emax t))%R.
Proof. intros H. apply dyadic_lt; [exact H|]. apply usable_grid_iff. exact He. Qed.

Lemma add_grid x y j k : on_grid e x j -> on_grid e y k -> Z.abs (j + k) <= cap -> on_grid e (fadd n x y) (j + k).
Proof.
  intros [F1 V1] [F2 V2] H.
  assert (E : (val x + val y)%R = (IZR (j + k) * bpow radix2 e)%R) by (rewrite V1, V2, plus_IZR; ring).
  destruct (fadd_fin n x y F1 F2) as (A & B & _).
  - rewrite E, rnd_id by (apply grid_fmt; exact H). apply grid_lt. exact H.
  - split; [exact A|]. rewrite B, E. apply rnd_id. apply grid_fmt. exact H.
Qed.

Lemma add_pz x y j k : on_grid e x j -> on_grid e y k -> Z.abs (j + k) <= cap -> not_minus_zero x ->
  not_minus_zero (fadd n x y).
Proof.
  intros [F1 V1] [F2 V2] H P.
  assert (E : (val x + val y)%R = (IZR (j + k) * bpow radix2 e)%R) by (rewrite V1, V2, plus_IZR; ring).
  destruct (fadd_fin n x y F1 F2) as (A & B & C).
  - rewrite E, rnd_id by (apply grid_fmt; exact H). apply grid_lt. exact H.
  - intros Z. rewrite B, E, rnd_id, <- E in Z by (apply grid_fmt; exact H). rewrite C, Rcompare_Eq by exact Z.
    destruct (Rtotal_order (val x) 0) as [L|[L|L]].
    + assert (Hy : (0 < val y)%R) by lra. apply andb_false_iff. right.
      destruct y as [s|s|s pl HH|s mm ee HH]; try discriminate; try (cbn in Hy; lra).
      destruct s; [|reflexivity]. exfalso. cbn in Hy.
      assert ((F2R (Float radix2 (Z.neg mm) ee) < 0)%R) by (apply F2R_lt_0; reflexivity). unfold val in Hy. cbn in *. lra.
    + rewrite (P L). reflexivity.
    + apply andb_false_iff. left.
      destruct x as [s|s|s pl HH|s mm ee HH]; try discriminate; try (cbn in L; lra).
      destruct s; [|reflexivity]. exfalso. cbn in L.
      assert ((F2R (Float radix2 (Z.neg mm) ee) < 0)%R) by (apply F2R_lt_0; reflexivity). unfold val in L. cbn in *. lra.
Qed.

Lemma grid_unique (x y : F t) k : on_grid e x k -> on_grid e y k -> not_minus_zero x -> not_minus_zero y -> x = y.
Proof.
  intros [F1 V1] [F2 V2] P1 P2. assert (V : val x = val y) by congruence.
  apply fin_eq; auto.
  destruct (Req_dec (val x) 0) as [Z|N].
  - rewrite P1 by exact Z. symmetry. apply P2. congruence.
  - assert (S : forall z : F t, isfin z = true -> val z <> 0%R -> sgn z = Rlt_bool (val z) 0).
    { intros z Fz Nz. destruct z as [s|s|s pl HH|s mm ee HH]; try discriminate; try (cbn in Nz; lra).
      unfold val. cbn [B2R sgn Bsign]. destruct s; cbn [cond_Zopp].
      - rewrite Rlt_bool_true; [reflexivity|]. apply F2R_lt_0. reflexivity.
      - rewrite Rlt_bool_false; [reflexivity|]. apply F2R_ge_0. cbn. lia. }
    rewrite !S by congruence. rewrite V. reflexivity.
Qed.

(** Proof auxiliary: [x] is the grid point [k] and not -0. *)
Definition pt (x : F t) (k : Z) : Prop := on_grid e x k /\ not_minus_zero x.
Lemma pt_add x y j k r : pt x j -> on_grid e y k -> j + k = r -> Z.abs r <= cap -> pt (fadd n x y) r.
Proof. intros [G P] H <- Hc. split; [apply add_grid; assumption|eapply add_pz; eassumption]. Qed.
Lemma pt_unique (x y : F t) k : pt x k -> pt y k -> x = y.
Proof. intros [G P] [H Q]. eapply grid_unique; eassumption. Qed.

Context (base slope : F t) (b s : Z).
Hypothesis Hb : pt base b.
Hypothesis Hs : on_grid e slope s.

Lemma iter_pt k : (forall i, 0 <= i <= Z.of_nat k -> Z.abs (b + i * s) <= cap) ->
  pt (Nat.iter k (fun y => a_add ar y slope) base) (b + Z.of_nat k * s).
Proof.
  induction k as [|k IH]; intros Hc.
  - cbn [Nat.iter]. replace (b + Z.of_nat 0 * s) with b by lia. exact Hb.
  - rewrite iterS. eapply pt_add; [apply IH; intros; apply Hc; lia|exact Hs|lia|].
    apply Hc. lia.
Qed.

Context (B : backend).
Hypothesis Hinc : Z.abs (lanes B * s) <= cap.

Lemma multiple_ok k : 0 <= k <= lanes B -> Z.abs (k * s) <= cap.
Proof.
  intros Hk. etransitivity; [|exact Hinc]. rewrite !Z.abs_mul. apply Z.mul_le_mono_nonneg_r; lia.
Qed.

Lemma inc_grid : on_grid e (snd (set_slope ar B base slope)) (lanes B * s).
Proof.
  assert (A : forall x y j k r, on_grid e x (j * s) -> on_grid e y (k * s) -> j + k = r -> 0 <= r <= lanes B ->
              on_grid e (fadd n x y) (r * s)).
  { intros x y j k r Hx Hy <- Hr. rewrite Z.mul_add_distr_r. apply add_grid; auto. rewrite <- Z.mul_add_distr_r.
    apply multiple_ok. exact Hr. }
  assert (H1 : on_grid e slope (1 * s)) by (rewrite Z.mul_1_l; exact Hs).
  assert (H0 : on_grid e (f_ofZ t 0) (0 * s)) by apply zero_grid.
  destruct B; cbn [lanes set_slope base_set_slope fst snd farith a_add a_zero a_mul a_ofZ] in *.
  - apply (A _ _ 3 1); [|exact H1|lia|lia]. apply (A _ _ 2 1); [|exact H1|lia|lia]. apply (A _ _ 1 1); [|exact H1|lia|lia].
    apply (A _ _ 0 1); [exact H0|exact H1|lia|lia].
  - apply (A _ _ 3 1); [|exact H1|lia|lia]. apply (A _ _ 2 1); [|exact H1|lia|lia]. apply (A _ _ 1 1); [|exact H1|lia|lia].
    apply (A _ _ 0 1); [exact H0|exact H1|lia|lia].
  - apply (A _ _ 2 2); [| |lia|lia]; apply (A _ _ 1 1); auto; lia.
  - apply (A _ _ 1 1); auto; lia.
  - destruct (ofZ8_val t) as [F8 V8]. destruct Hs as [Fs Vs].
    assert (E : (val slope * val (f_ofZ t 8) = IZR (8 * s) * bpow radix2 e)%R) by (rewrite Vs, V8, mult_IZR; ring).
    destruct (fmul_fin n slope (f_ofZ t 8) Fs F8) as (M1 & M2 & _).
    + rewrite E, rnd_id by (apply grid_fmt; exact Hinc). apply grid_lt. exact Hinc.
    + split; [exact M1|]. rewrite M2, E. apply rnd_id. apply grid_fmt. exact Hinc.
  - apply (A _ _ 3 1); [|exact H1|lia|lia]. apply (A _ _ 2 1); [|exact H1|lia|lia]. apply (A _ _ 1 1); auto; lia.
  - apply (A _ _ 3 1); [|exact H1|lia|lia]. apply (A _ _ 2 1); [|exact H1|lia|lia]. apply (A _ _ 1 1); auto; lia.
  - apply (A _ _ 3 1); [|exact H1|lia|lia]. apply (A _ _ 2 1); [|exact H1|lia|lia]. apply (A _ _ 1 1); auto; lia.
Qed.

Lemma lane_pt d l : (l < vsize B)%nat -> (forall i, 0 <= i < lanes B -> Z.abs (b + i * s) <= cap) ->
  pt (nth l (fst (set_slope ar B base slope)) d) (b + Z.of_nat l * s).
Proof.
  intros Hl Hc.
  assert (A : forall x y j k r, on_grid e x (j * s) -> on_grid e y (k * s) -> j + k = r -> 0 <= r <= lanes B ->
              on_grid e (fadd n x y) (r * s)).
  { intros x y j k r Hx Hy <- Hr. rewrite Z.mul_add_distr_r. apply add_grid; auto. rewrite <- Z.mul_add_distr_r.
    apply multiple_ok. exact Hr. }
  assert (H1 : on_grid e slope (1 * s)) by (rewrite Z.mul_1_l; exact Hs).
  assert (H0 : on_grid e (f_ofZ t 0) (0 * s)) by apply zero_grid.
  assert (P : forall x y j k r, pt x (b + j * s) -> on_grid e y (k * s) -> j + k = r -> 0 <= r < lanes B ->
              pt (fadd n x y) (b + r * s)).
  { intros x y j k r Hx Hy <- Hr. eapply pt_add; [exact Hx|exact Hy|lia|]. apply Hc. exact Hr. }
  assert (P0 : pt base (b + 0 * s)) by (rewrite Z.mul_0_l, Z.add_0_r; exact Hb).
  destruct B; cbn [lanes vsize set_slope base_set_slope fst snd farith a_add a_zero a_mul a_ofZ] in *.
  1, 2: destruct l as [|[|[|[|l]]]]; try lia; cbn [nth]; simpl Z.of_nat;
    [apply (P _ _ 0 0)|apply (P _ _ 0 1)|apply (P _ _ 0 2)|apply (P _ _ 0 3)]; auto; try lia;
    [apply (A _ _ 0 1); auto; lia
    |apply (A _ _ 1 1); auto; try lia; apply (A _ _ 0 1); auto; lia
    |apply (A _ _ 2 1); auto; try lia; apply (A _ _ 1 1); auto; try lia; apply (A _ _ 0 1); auto; lia].
  - destruct l as [|[|[|[|l]]]]; try lia; cbn [nth]; simpl Z.of_nat.
    + exact P0.
    + apply (P _ _ 0 1); auto; lia.
    + apply (P _ _ 0 2); auto; try lia. apply (A _ _ 1 1); auto; lia.
    + apply (P _ _ 2 1); auto; try lia. apply (P _ _ 0 2); auto; try lia. apply (A _ _ 1 1); auto; lia.
  - destruct l as [|[|l]]; try lia; cbn [nth]; simpl Z.of_nat.
    + exact P0.
    + apply (P _ _ 0 1); auto; lia.
  - assert (Q1 := P _ _ 0 1 1 P0 H1 ltac:(lia) ltac:(lia)).
    assert (Q2 := P _ _ 1 1 2 Q1 H1 ltac:(lia) ltac:(lia)).
    assert (Q3 := P _ _ 2 1 3 Q2 H1 ltac:(lia) ltac:(lia)).
    assert (Q4 := P _ _ 3 1 4 Q3 H1 ltac:(lia) ltac:(lia)).
    assert (Q5 := P _ _ 4 1 5 Q4 H1 ltac:(lia) ltac:(lia)).
    assert (Q6 := P _ _ 5 1 6 Q5 H1 ltac:(lia) ltac:(lia)).
    assert (Q7 := P _ _ 6 1 7 Q6 H1 ltac:(lia) ltac:(lia)).
    destruct l as [|[|[|[|[|[|[|[|l]]]]]]]]; try lia; cbn [nth]; simpl Z.of_nat; assumption.
  - destruct l as [|[|[|[|l]]]]; try lia; cbn [nth]; simpl Z.of_nat.
    + exact P0.
    + apply (P _ _ 0 1); auto; lia.
    + apply (P _ _ 1 1); auto; try lia. apply (P _ _ 0 1); auto; lia.
    + apply (P _ _ 2 1); auto; try lia. apply (P _ _ 1 1); auto; try lia. apply (P _ _ 0 1); auto; lia.
  - destruct l as [|[|[|[|l]]]]; try lia; cbn [nth]; simpl Z.of_nat.
    + exact P0.
    + apply (P _ _ 0 1); auto; lia.
    + apply (P _ _ 1 1); auto; try lia. apply (P _ _ 0 1); auto; lia.
    + apply (P _ _ 2 1); auto; try lia. apply (P _ _ 1 1); auto; try lia. apply (P _ _ 0 1); auto; lia.
  - destruct l as [|[|[|[|l]]]]; try lia; cbn [nth]; simpl Z.of_nat.
    + exact P0.
    + apply (P _ _ 0 1); auto; lia.
    + apply (P _ _ 1 1); auto; try lia. apply (P _ _ 0 1); auto; lia.
    + apply (P _ _ 2 1); auto; try lia. apply (P _ _ 1 1); auto; try lia. apply (P _ _ 0 1); auto; lia.
Qed.
End Grid.

Section Ramp.
Context {t : fmt} (n : nans t) (B : backend).
Local Notation ar := (farith n).

Lemma lanes_vsize' : lanes B = Z.of_nat (vsize B). Proof. destruct B; reflexivity. Qed.

Lemma exact_ramp_lanes m len base slope : lanes B <= len -> exact_ramp B len base slope ->
  lanes_match ar B m (ARamp base slope) len.
Proof.
  intros Hlen (e & b & s & He & Hb & Hs & Hz & Hall & Hinc & Hfl). rewrite sig_bits_prec in *.
  assert (Hp : pt e base b) by (split; assumption).
  pose proof lanes_vsize' as HL. apply lanes_match_ramp.
  - intros d l Hl. eapply (pt_unique e).
    + apply lane_pt; eauto. intros. apply Hall. lia.
    + apply iter_pt with (s := s); auto. intros. apply Hall. lia.
  - intros k Hk y. assert (Hy : pt e y (b + Z.of_nat k * s)).
    { apply iter_pt with (s := s); auto. intros. apply Hall. lia. }
    pose proof (inc_grid n e He base slope s Hs B Hinc) as [Fi Vi].
    rewrite <- Vi in Hfl. destruct (f_narrow_exact n _ Fi Hfl) as (N1 & N2 & N3).
    eapply (pt_unique e).
    + cbn [farith a_add a_narrow]. eapply (pt_add n e He _ _ _ (lanes B * s)); [exact Hy| |reflexivity|].
      * split; [exact N1|]. rewrite N2. exact Vi.
      * rewrite <- Z.add_assoc, <- Z.mul_add_distr_r. apply Hall. lia.
    + unfold y. rewrite iter_add_comm. rewrite <- Z.add_assoc, <- Z.mul_add_distr_r.
      replace (Z.of_nat k + lanes B) with (Z.of_nat (vsize B + k)) by lia.
      apply iter_pt with (s := s); auto. intros. apply Hall. lia.
Qed.

Lemma exact_denotes m len a i : 0 <= i < len -> exact_arg B len a -> denotes m a i (sample ar m a i).
Proof.
  intros Hi Ha. destruct a as [p|x|base slope]; cbn [denotes sample]; auto.
  destruct Ha as (e & b & s & He & Hb & Hs & Hz & Hall & Hinc & Hfl). rewrite sig_bits_prec in *.
  destruct (iter_pt n e He base slope b s (conj Hb Hz) Hs (Z.to_nat i)) as [[G1 G2] G3].
  { intros. apply Hall. lia. }
  eexists. split; [reflexivity|]. split; [exact G1|]. split; [exact G3|]. rewrite G2.
  destruct Hb as [_ ->]. destruct Hs as [_ ->]. rewrite Z2Nat.id by lia. rewrite plus_IZR, mult_IZR. ring.
Qed.

Lemma exact_simd_arg m out len a : legal_simd_length B len -> simd_fit B m out len a -> exact_arg B len a ->
  simd_arg ar B m out len a.
Proof.
  intros HL (H1 & H2 & H3) H. repeat split; auto.
  destruct a as [p|x|base slope]; try (apply lanes_match_not_ramp; exact I).
  apply exact_ramp_lanes; [|exact H].
  destruct HL as [[P _] [q Hq]]. assert (lanes B <= loop_unit B) by (destruct B; discriminate).
  assert (0 < loop_unit B) by (destruct B; reflexivity).
  assert (0 < q) by nia. nia.
Qed.
End Ramp.

(** * Double ramps whose vector increment is not a float *)
Section Narrow.
Context (n : nans F64) (B : backend) (HB : fmt_of B = F64).
Local Notation ar := (farith n).

Lemma narrow_differs (x : F F64) : isfin x = true -> ~ is_a_float (val x) -> f_narrow n x <> x.
Proof.
  intros Hx Hn E. apply Hn. rewrite <- E. apply f_narrow_float; [exact Hx|]. rewrite E. exact Hx.
Qed.

Lemma narrow_inc_differs (x : F F64) : isfin x = true -> ~ is_a_float (val x) ->
  isfin (f_narrow n x) = true -> val (f_narrow n x) <> val x.
Proof. intros Hx Hn Hf E. apply Hn. rewrite <- E. apply f_narrow_float; assumption. Qed.

Lemma fadd_pzero (x : F F64) : isfin x = true -> val (fadd n (f_ofZ F64 0) x) = val x.
Proof.
  intros Hx. change (f_ofZ F64 0) with (B754_zero (prec F64) (emax F64) false).
  destruct x as [[|]|s|s pl H|s m e H]; try discriminate; reflexivity.
Qed.
Lemma fadd_pzero_not_fin (x : F F64) : isfin x = false -> isfin (fadd n (f_ofZ F64 0) x) = false.
Proof.
  change (f_ofZ F64 0) with (B754_zero (prec F64) (emax F64) false).
  intros Hx. destruct x as [[|]|s|s pl H|s m e H]; try discriminate.
  - reflexivity.
  - unfold isfin, fadd, Bplus, BSN2B. cbn [B2BSN BinarySingleNaN.Bplus].
    destruct (nan_add n _ _) as [z Hz]. cbn [proj1_sig]. destruct z; try discriminate; reflexivity.
Qed.
Lemma val_not_fin (x : F F64) : isfin x = false -> val x = 0%R.
Proof. destruct x; try discriminate; reflexivity. Qed.

Lemma second_vector m base slope v1 w1 v2 w2 d :
  varg_consume ar B m (wrap_vector_arg ar B (ARamp base slope)) = Ok (v1, w1) ->
  varg_consume ar B m w1 = Ok (v2, w2) ->
  v1 = fst (set_slope ar B base slope) /\
  nth_error v2 0 = Some (fadd n (nth 0 v1 d) (f_narrow n (snd (set_slope ar B base slope)))).
Proof.
  cbn [wrap_vector_arg]. pose proof (set_slope_length ar B base slope) as HL.
  destruct (set_slope ar B base slope) as [dat inc]. cbn [fst snd] in *. cbn [varg_consume].
  intros E1 E2. inversion E1; subst v1 w1; clear E1. cbn [varg_consume] in E2. inversion E2; subst v2 w2; clear E2.
  split; [reflexivity|]. unfold vadd, set_vec.
  destruct dat as [|x dat]; [destruct B; discriminate HL|].
  destruct (vsize B) as [|w] eqn:E; [destruct B; discriminate E|]. reflexivity.
Qed.
End Narrow.

Lemma double_ramp_wrong (n : nans F64) B m slope e s v1 w1 v2 w2 : fmt_of B = F64 ->
  usable_grid F64 e -> on_grid e slope s -> Z.abs (lanes B * s) <= 2 ^ sig_bits F64 ->
  ~ is_a_float (IZR (lanes B) * val slope)%R ->
  varg_consume (farith n) B m (wrap_vector_arg (farith n) B (ARamp (f_ofZ F64 0) slope)) = Ok (v1, w1) ->
  varg_consume (farith n) B m w1 = Ok (v2, w2) ->
  exists y, nth_error v2 0 = Some y /\ val y <> (IZR (lanes B) * val slope)%R.
Proof.
  intros HB He Hs Hc Hn E1 E2. rewrite sig_bits_prec in Hc.
  destruct (second_vector n B HB m _ _ _ _ _ _ (f_ofZ F64 0) E1 E2) as [Hv1 Hv2].
  eexists. split; [exact Hv2|].
  assert (Hb : pt e (f_ofZ F64 0) 0) by (split; [apply zero_grid|intros _; reflexivity]).
  assert (Hl : nth 0 v1 (f_ofZ F64 0) = f_ofZ F64 0).
  { rewrite Hv1. destruct B; try discriminate HB; try reflexivity. }
  rewrite Hl. destruct (inc_grid n e He (f_ofZ F64 0) slope s Hs B Hc) as [Fi Vi].
  set (inc := snd (set_slope (farith n) B (f_ofZ F64 0) slope)) in *.
  assert (V : val inc = (IZR (lanes B) * val slope)%R).
  { rewrite Vi. destruct Hs as [_ ->]. rewrite mult_IZR. ring. }
  rewrite <- V in *.
  destruct (isfin (f_narrow n inc)) eqn:Ef.
  - rewrite fadd_pzero by exact Ef. apply narrow_inc_differs; assumption.
  - rewrite val_not_fin by (apply fadd_pzero_not_fin; exact Ef). intros Z. apply Hn. exists (f_ofZ F32 0). split; [reflexivity|].
    rewrite <- Z. reflexivity.
Qed.
