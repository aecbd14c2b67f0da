(** Neutral operands and flat ramps. *)
From Coq Require Import ZArith Reals List Lia Lra Bool.
From Flocq Require Import Core IEEE754.Binary IEEE754.Bits.
From Verif Require Import Base Mem Loop Backend Args Drivers Functors Lanes Float LaneOps FloatOps ScalarMath VecMath FloatFuns MemFuns
  Spec SpecLane SpecTrunc SpecNeutral LoopFacts MemFacts KaryFacts DriverFacts RampFacts FaultFacts MemFunFacts DriverClaims DriverClaims2 FloatFacts FloatRound VecFacts TruncFacts.
Import ListNotations.
Local Open Scope Z_scope.

Section T.
Context {t : fmt} (n : nans t).
Local Notation Zs s := (B754_zero (prec t) (emax t) s).

Lemma zero_eq : zero t = Zs false.
Proof. clear n. destruct t; reflexivity. Qed.
Lemma one_fin : isfin (one t) = true /\ val (one t) = 1%R /\ sgn (one t) = false.
Proof. clear n.
  destruct (f_lit_exact (t := t) 1 0) as (A1 & A2 & A3); try (destruct t; vm_compute; (discriminate || reflexivity)).
  change (f_lit t 1 0) with (one t) in *. rewrite A2. split; [exact A1|]. split; [cbn; lra|exact A3].
Qed.
Lemma a_zero_cases (x : F t) : a_zero_of x <-> exists s, x = Zs s.
Proof. clear n.
  split.
  - intros [H1 H2]. destruct x as [s|s|s pl H|s m e H]; try discriminate; [eauto|].
    exfalso. unfold val, B2R in H2. apply eq_0_F2R in H2. destruct s; discriminate.
  - intros [s ->]. split; reflexivity.
Qed.
Lemma zero_bits : bits (Zs false) = 0.
Proof. clear n. destruct t; reflexivity. Qed.
Lemma rnd_val (x : F t) : rnd t (val x) = val x.
Proof. apply rnd_id, val_format. Qed.

Lemma fmul_one x : isnan x = false -> fmul n x (one t) = x.
Proof.
  intros Hx. destruct one_fin as (O1 & O2 & O3). destruct (isfin x) eqn:Fx.
  - destruct (fmul_fin n x (one t)) as (A1 & A2 & A3); auto.
    { rewrite O2, Rmult_1_r, rnd_val. apply val_lt_emax. }
    rewrite O2, Rmult_1_r, rnd_val in A2. rewrite O3, xorb_false_r in A3. apply fin_eq; auto.
  - destruct x as [s|s|s pl H|s m e H]; try discriminate.
    destruct t; destruct s; vm_compute; reflexivity.
Qed.
Lemma fdiv_one x : isnan x = false -> fdiv n x (one t) = x.
Proof.
  intros Hx. destruct one_fin as (O1 & O2 & O3). destruct (isfin x) eqn:Fx.
  - destruct (fdiv_fin n x (one t)) as (A1 & A2 & A3); auto.
    { rewrite O2. lra. }
    { rewrite O2. unfold Rdiv. rewrite Rinv_1, Rmult_1_r, rnd_val. apply val_lt_emax. }
    rewrite O2 in A2. unfold Rdiv in A2. rewrite Rinv_1, Rmult_1_r, rnd_val in A2. rewrite O3, xorb_false_r in A3. apply fin_eq; auto.
  - destruct x as [s|s|s pl H|s m e H]; try discriminate.
    destruct t; destruct s; vm_compute; reflexivity.
Qed.
Lemma fadd_zero x s : isnan x = false -> (a_zero_of x -> False) -> fadd n x (Zs s) = x.
Proof.
  intros Hx Hz. destruct x as [s0|s0|s0 pl H|s0 m e H]; try discriminate; try reflexivity.
  exfalso. apply Hz. apply a_zero_cases. eauto.
Qed.
Lemma fadd_zeros s s' : fadd n (Zs s) (Zs s') = Zs (s && s').
Proof. destruct s, s'; reflexivity. Qed.
Lemma fsub_zeros s s' : fsub n (Zs s) (Zs s') = Zs (s && negb s').
Proof. destruct s, s'; reflexivity. Qed.
Lemma fsub_zero x s : isnan x = false -> (a_zero_of x -> False) -> fsub n x (Zs s) = x.
Proof.
  intros Hx Hz. destruct x as [s0|s0|s0 pl H|s0 m e H]; try discriminate; try reflexivity.
  exfalso. apply Hz. apply a_zero_cases. eauto.
Qed.
Lemma fmul_zero x s : isfin x = true -> fmul n x (Zs s) = Zs (xorb (sgn x) s).
Proof. intros Hx. destruct x; try discriminate; reflexivity. Qed.
Lemma fmul_zero_l x s : isfin x = true -> fmul n (Zs s) x = Zs (xorb s (sgn x)).
Proof. intros Hx. destruct x; try discriminate; reflexivity. Qed.

Lemma ffma_one x : isnan x = false -> (a_zero_of x -> False) -> ffma n x (one t) (zero t) = x.
Proof.
  intros Hx Hz. destruct one_fin as (O1 & O2 & O3). destruct (isfin x) eqn:Fx.
  - pose proof (Bfma_correct (prec t) (emax t) (Hprec t) (Hmax t) (nan_fma n) BinarySingleNaN.mode_NE x (one t) (zero t) Fx O1) as H.
    rewrite zero_eq in *. specialize (H eq_refl). cbv zeta in H.
    change (B2R (prec t) (emax t) x) with (val x) in H. change (B2R (prec t) (emax t) (one t)) with (val (one t)) in H.
    rewrite O2, Rmult_1_r in H. cbn [B2R] in H. rewrite Rplus_0_r in H.
    change (Generic_fmt.round radix2 (SpecFloat.fexp (prec t) (emax t)) (BinarySingleNaN.round_mode BinarySingleNaN.mode_NE) (val x)) with (rnd t (val x)) in H.
    rewrite rnd_val, Rlt_bool_true in H by apply val_lt_emax. destruct H as (H1 & H2 & H3).
    apply fin_eq; auto. change (Bsign (prec t) (emax t) (ffma n x (one t) (Zs false)) = sgn x). unfold ffma. rewrite H3.
    destruct x as [s|s|s pl H|s m e H]; try discriminate.
    + exfalso. apply Hz, a_zero_cases. eauto.
    + destruct s; [rewrite Rcompare_Lt|rewrite Rcompare_Gt]; try reflexivity; unfold val; cbn [B2R]; [apply F2R_lt_0|apply F2R_gt_0]; reflexivity.
  - destruct x as [s|s|s pl H|s m e H]; try discriminate.
    destruct t; destruct s; vm_compute; reflexivity.
Qed.
Lemma ffma_one_zero s : ffma n (Zs s) (one t) (zero t) = Zs false.
Proof. destruct t; destruct s; vm_compute; reflexivity. Qed.

Lemma pn (v : Nan t) : isnan (proj1_sig v) = true. Proof. destruct v. assumption. Qed.
Lemma nan_fmul x y : isnan x = true \/ isnan y = true -> isnan (fmul n x y) = true.
Proof. intros [H|H]; destruct x, y; try discriminate H; cbn; first [reflexivity | apply pn]. Qed.
Lemma nan_fadd x y : isnan x = true \/ isnan y = true -> isnan (fadd n x y) = true.
Proof. intros [H|H]; destruct x, y; try discriminate H; cbn; first [reflexivity | apply pn]. Qed.
Lemma nan_fsub x y : isnan x = true -> isnan (fsub n x y) = true.
Proof. intros H; destruct x, y; try discriminate H; cbn; first [reflexivity | apply pn]. Qed.
Lemma nan_fdiv x y : isnan x = true -> isnan (fdiv n x y) = true.
Proof. intros H; destruct x, y; try discriminate H; cbn; first [reflexivity | apply pn]. Qed.
Lemma nan_ffma x y z : isnan x = true -> isnan (ffma n x y z) = true.
Proof. intros H; destruct x; try discriminate H; destruct y, z; cbn; first [reflexivity | apply pn]. Qed.

Lemma zero_dec (x : F t) : {a_zero_of x} + {~ a_zero_of x}.
Proof. clear n.
  destruct x as [s|s|s pl H|s m e H].
  - left. apply a_zero_cases. eauto.
  - right. intros [H _]. discriminate.
  - right. intros [H0 _]. discriminate.
  - right. intros H0. apply a_zero_cases in H0. destruct H0 as [s' H0]. discriminate.
Qed.
Lemma zero_fin (x : F t) : a_zero_of x -> isnan x = false.
Proof. intros [H _]. apply isfin_isnan. exact H. Qed.
Lemma kept_intro (x y : F t) : (isnan x = false -> y = x) -> (isnan x = true -> isnan y = true) -> kept x y.
Proof. intros H1 H2. split; [|exact H2]. intros H. rewrite H1 by exact H. reflexivity. Qed.
Lemma unsigned_intro (x y : F t) : (isnan x = false -> ~ a_zero_of x -> y = x) -> (forall s, x = Zs s -> y = Zs false) -> (isnan x = true -> isnan y = true) -> kept_unsigned_zero x y.
Proof.
  intros H1 H2 H3. split; [|split; [|exact H3]].
  - intros H G. rewrite H1 by assumption. reflexivity.
  - intros H. apply a_zero_cases in H. destruct H as [s H]. rewrite (H2 s H). apply zero_bits.
Qed.
Lemma some_intro (x y : F t) : (isnan x = false -> ~ a_zero_of x -> y = x) -> (forall s, x = Zs s -> exists s', y = Zs s') -> (isnan x = true -> isnan y = true) -> kept_some_zero x y.
Proof.
  intros H1 H2 H3. split; [|split; [|exact H3]].
  - intros H G. rewrite H1 by assumption. reflexivity.
  - intros H. apply a_zero_cases in H. destruct H as [s H]. apply a_zero_cases. exact (H2 s H).
Qed.
Lemma kept_unsigned (x y : F t) : kept_unsigned_zero x y -> kept_some_zero x y.
Proof. clear n.
  intros (H1 & H2 & H3). split; [exact H1|]. split; [|exact H3]. intros H. apply a_zero_cases. exists false. apply bits_inj. rewrite zero_bits. apply H2. exact H.
Qed.

(** The single operations. *)
Lemma mul_kept x : kept x (fmul n x (one t)).
Proof. apply kept_intro; [apply fmul_one|]. intros H. apply nan_fmul. left. exact H. Qed.
Lemma div_kept x : kept x (fdiv n x (one t)).
Proof. apply kept_intro; [apply fdiv_one|]. apply nan_fdiv. Qed.
Lemma sub_kept x : kept x (fsub n x (zero t)).
Proof.
  rewrite zero_eq. apply kept_intro; [|apply nan_fsub]. intros H. destruct (zero_dec x) as [Z0|Z0]; [|apply fsub_zero; assumption].
  apply a_zero_cases in Z0. destruct Z0 as [s ->]. rewrite fsub_zeros. cbn. rewrite andb_true_r. reflexivity.
Qed.
Lemma add_minus_zero_kept x : kept x (fadd n x (fneg (zero t))).
Proof.
  rewrite zero_eq. cbn [fneg negb]. apply kept_intro; [|intros H; apply nan_fadd; left; exact H]. intros H. destruct (zero_dec x) as [Z0|Z0]; [|apply fadd_zero; assumption].
  apply a_zero_cases in Z0. destruct Z0 as [s ->]. rewrite fadd_zeros, andb_true_r. reflexivity.
Qed.
Lemma add_kept x : kept_unsigned_zero x (fadd n x (zero t)).
Proof.
  rewrite zero_eq. apply unsigned_intro; [intros H Z0; apply fadd_zero; assumption| |intros H; apply nan_fadd; left; exact H].
  intros s ->. rewrite fadd_zeros, andb_false_r. reflexivity.
Qed.
Lemma fma_kept x : kept_unsigned_zero x (ffma n x (one t) (zero t)).
Proof. apply unsigned_intro; [apply ffma_one|intros s ->; apply ffma_one_zero|apply nan_ffma]. Qed.
Lemma muladd_kept x : kept_unsigned_zero x (fadd n (fmul n x (one t)) (zero t)).
Proof.
  apply unsigned_intro.
  - intros H Z0. rewrite fmul_one by exact H. rewrite zero_eq. apply fadd_zero; assumption.
  - intros s ->. rewrite fmul_one, zero_eq, fadd_zeros, andb_false_r by reflexivity. reflexivity.
  - intros H. apply nan_fadd. left. apply nan_fmul. left. exact H.
Qed.
Lemma madd_kept c I x : kept_unsigned_zero x (madd c I n x (one t) (zero t)).
Proof. unfold madd. destruct I; try (destruct (has_fma c)); (apply muladd_kept || apply fma_kept). Qed.
Lemma vmul_kept I x : I <> ALTIVEC -> kept x (VecMath.vmul I n x (one t)).
Proof. intros H. unfold VecMath.vmul. destruct I; try apply mul_kept. congruence. Qed.
Lemma vmul_altivec x : kept_unsigned_zero x (VecMath.vmul ALTIVEC n x (one t)).
Proof. apply fma_kept. Qed.

(** ampmod and mix. *)
Lemma one_plus_zero s : fadd n (one t) (Zs s) = one t.
Proof. destruct one_fin as (O1 & O2 & O3). apply fadd_zero; [apply isfin_isnan; exact O1|]. intros [_ H]. rewrite O2 in H. lra. Qed.
Lemma vmul_zero I x s : isfin x = true -> exists s', VecMath.vmul I n x (Zs s) = Zs s'.
Proof.
  intros H. unfold VecMath.vmul. destruct I; try (eexists; apply fmul_zero; exact H).
  change (f_ofZ t 0) with (zero t). rewrite zero_eq. exists false. destruct x as [s0|s0|s0 pl E|s0 m e E]; try discriminate; destruct s0, s; reflexivity.
Qed.
Lemma ampmod_arg I x : isfin x = true -> fadd n (one t) (VecMath.vmul I n x (zero t)) = one t.
Proof. intros H. rewrite zero_eq. destruct (vmul_zero I x false H) as [s ->]. apply one_plus_zero. Qed.
Lemma ampmod_arg_scalar x : isfin x = true -> fadd n (one t) (fmul n x (zero t)) = one t.
Proof. exact (ampmod_arg GEN x). Qed.
Lemma kept_some (x y : F t) : kept x y -> kept_some_zero x y.
Proof. intros [H1 H2]. split; [intros H _; apply H1; exact H|]. split; [|exact H2]. intros H. pose proof (bits_inj _ _ (H1 (zero_fin x H))) as ->. exact H. Qed.
Lemma some_add (x y : F t) s : kept_some_zero x y -> kept_some_zero x (fadd n y (Zs s)).
Proof.
  intros (H1 & H2 & H3). split; [|split].
  - intros Hn Hz. pose proof (bits_inj _ _ (H1 Hn Hz)) as ->. rewrite fadd_zero by assumption. reflexivity.
  - intros Hz. apply H2 in Hz. apply a_zero_cases in Hz. destruct Hz as [s' ->]. rewrite fadd_zeros. apply a_zero_cases. eauto.
  - intros Hn. apply nan_fadd. left. apply H3. exact Hn.
Qed.
Lemma vmul_some I x : kept_some_zero x (VecMath.vmul I n x (one t)).
Proof. destruct I; try (apply kept_some, vmul_kept; discriminate). apply kept_unsigned, vmul_altivec. Qed.
Lemma mix_kept I x y : isfin y = true -> kept_some_zero x (fadd n (VecMath.vmul I n x (one t)) (VecMath.vmul I n y (zero t))).
Proof. intros H. rewrite (zero_eq). destruct (vmul_zero I y false H) as [s ->]. apply some_add, vmul_some. Qed.
Lemma mix_kept_scalar x y : isfin y = true -> kept_some_zero x (fadd n (fmul n x (one t)) (fmul n y (zero t))).
Proof. exact (mix_kept GEN x y). Qed.
Lemma mul_inf_zero s : isnan (fmul n (infinite t s) (zero t)) = true.
Proof. rewrite zero_eq. reflexivity. Qed.

Lemma nan_vmul I x y : isnan x = true \/ isnan y = true -> isnan (VecMath.vmul I n x y) = true.
Proof.
  intros H. unfold VecMath.vmul. destruct I; try (apply nan_fmul; exact H).
  destruct H as [H|H]; [apply nan_ffma; exact H|]. destruct y; try discriminate H. destruct x; cbn; first [reflexivity | apply pn].
Qed.
Lemma vmul_inf_zero I s : isnan (VecMath.vmul I n (infinite t s) (zero t)) = true.
Proof. rewrite zero_eq. unfold VecMath.vmul. destruct I; reflexivity. Qed.

(** The infinities as limits. *)
Lemma flt_inf (x : F t) : isnan x = false -> flt (infinite t false) x = false /\ flt x (infinite t true) = false.
Proof. intros H. destruct x as [s|s|s pl E|s m e E]; try discriminate; try destruct s; split; reflexivity. Qed.
Lemma flt_inf_or (x : F t) : isnan x = false -> flt x (infinite t false) = true \/ x = infinite t false.
Proof. intros H. destruct x as [s|s|s pl E|s m e E]; try discriminate; try destruct s; auto. Qed.
Lemma flt_ninf_or (x : F t) : isnan x = false -> flt (infinite t true) x = true \/ x = infinite t true.
Proof. intros H. destruct x as [s|s|s pl E|s m e E]; try discriminate; try destruct s; auto. Qed.
Lemma vmin_inf I x : isnan x = false -> vmin I n x (infinite t false) = x.
Proof.
  intros H. destruct (flt_inf x H) as [A _]. unfold vmin, smin. destruct I; [rewrite A; reflexivity|..].
  1,2: destruct (flt_inf_or x H) as [->| ->]; [reflexivity|]; destruct (flt _ _); reflexivity.
  all: rewrite H; cbn [orb isnan is_nan infinite]; destruct (flt_inf_or x H) as [->| ->]; [reflexivity|]; reflexivity.
Qed.
Lemma vmax_ninf I x : isnan x = false -> vmax I n x (infinite t true) = x.
Proof.
  intros H. destruct (flt_inf x H) as [_ A]. unfold vmax, smax. destruct I; [rewrite A; reflexivity|..].
  1,2: rewrite fgt_swap; destruct (flt_ninf_or x H) as [->| ->]; [reflexivity|]; destruct (flt _ _); reflexivity.
  all: rewrite H, A; cbn [orb isnan is_nan infinite]; destruct (flt_ninf_or x H) as [->| ->]; [reflexivity|]; reflexivity.
Qed.
Lemma smin_inf (x : F t) : isnan x = false -> smin x (infinite t false) = x.
Proof. exact (vmin_inf GEN x). Qed.
Lemma smax_ninf (x : F t) : isnan x = false -> smax x (infinite t true) = x.
Proof. exact (vmax_ninf GEN x). Qed.

(** ** Flat ramps *)
Lemma steady_add x s : steady x -> a_zero_of s -> fadd n x s = x.
Proof.
  intros [H1 H2] Hs. apply a_zero_cases in Hs. destruct Hs as [s' ->]. destruct (zero_dec x) as [Z0|Z0]; [|apply fadd_zero; assumption].
  pose proof (H2 Z0) as B. apply a_zero_cases in Z0. destruct Z0 as [z ->]. destruct z; [exfalso; revert B; destruct t; discriminate|]. rewrite fadd_zeros. reflexivity.
Qed.
Lemma zero_add s s' : a_zero_of s -> a_zero_of s' -> a_zero_of (fadd n s s').
Proof. intros H1 H2. apply a_zero_cases in H1, H2. destruct H1 as [? ->], H2 as [? ->]. rewrite fadd_zeros. apply a_zero_cases. eauto. Qed.
Lemma zero_mul s x : a_zero_of s -> isfin x = true -> a_zero_of (fmul n s x) /\ a_zero_of (fmul n x s).
Proof. intros H1 H2. apply a_zero_cases in H1. destruct H1 as [? ->]. rewrite fmul_zero_l, fmul_zero by exact H2. split; apply a_zero_cases; eauto. Qed.
Lemma zero_narrow (s : F t) : a_zero_of s -> a_zero_of (f_narrow n s).
Proof. intros H. apply a_zero_cases in H. destruct H as [s' ->]. apply a_zero_cases. exists s'. destruct t; destruct s'; reflexivity. Qed.
Lemma int_fin k : Z.abs k <= 2 ^ prec t -> isfin (f_ofZ t k) = true.
Proof. clear n. intros H. apply (f_lit_exact k 0); [exact H|destruct t; discriminate|destruct t; reflexivity]. Qed.
End T.

Section Ramp.
Context (B : backend) (n : nans (fmt_of B)).
Local Notation ar := (farith n).
Lemma iter_steady (x s : F (fmt_of B)) k : steady x -> a_zero_of s -> Nat.iter k (fun y => fadd n y s) x = x.
Proof. intros H1 H2. induction k as [|k IH]; [reflexivity|]. cbn [Nat.iter]. change (fadd n (Nat.iter k (fun y => fadd n y s) x) s = x). rewrite IH. apply steady_add; assumption. Qed.
Lemma flat_lanes x s : steady x -> a_zero_of s -> fst (set_slope ar B x s) = repeat x (vsize B).
Proof.
  intros H1 H2. assert (E : forall s', a_zero_of s' -> fadd n x s' = x) by (intros; apply steady_add; assumption).
  pose proof (fun a b => zero_add n a b) as ZA.
  assert (Z0 : a_zero_of (zero (fmt_of B))) by (rewrite zero_eq; apply a_zero_cases; eauto).
  unfold set_slope. destruct B; cbn [fst repeat vsize base_set_slope a_add a_zero farith] in *; rewrite ?E by (repeat apply ZA; assumption); try reflexivity.
  all: change (f_ofZ (fmt_of GEN32) 0) with (zero F32) in * || change (f_ofZ (fmt_of GEN64) 0) with (zero F64) in *; rewrite ?E by (repeat apply ZA; assumption); reflexivity.
Qed.
Lemma flat_inc x s : a_zero_of s -> a_zero_of (f_narrow n (snd (set_slope ar B x s))).
Proof.
  intros H2. apply zero_narrow. pose proof (fun a b => zero_add n a b) as ZA.
  assert (Z0 : a_zero_of (zero (fmt_of B))) by (rewrite zero_eq; apply a_zero_cases; eauto).
  unfold set_slope. destruct B; cbn [snd base_set_slope a_add a_mul a_zero a_ofZ farith] in *; try (repeat apply ZA; assumption).
  refine (proj1 (zero_mul n s _ H2 _)). apply int_fin. vm_compute. discriminate.
Qed.
Lemma flat_match m x s len : steady x -> a_zero_of s -> lanes_match ar B m (ARamp x s) len.
Proof.
  intros H1 H2. apply lanes_match_ramp.
  - intros d l Hl. rewrite flat_lanes by assumption. change (a_add ar) with (fadd n). rewrite iter_steady by assumption.
    rewrite (nth_indep _ _ x) by (rewrite repeat_length; exact Hl). apply nth_repeat.
  - intros k _. cbv zeta. change (a_add ar) with (fadd n). rewrite !iter_steady by assumption. apply steady_add; [exact H1|]. exact (flat_inc x s H2).
Qed.
Lemma meaning_sample m (a b : arg (F (fmt_of B))) i : same_meaning a b -> sample ar m a i = sample ar m b i.
Proof.
  destruct a as [p|x|x s]; cbn [same_meaning]; [intros ->; reflexivity|intros ->; reflexivity|].
  intros (-> & H1 & H2). cbn [sample]. change (a_add ar) with (fadd n). rewrite iter_steady by assumption. reflexivity.
Qed.
Lemma meaning_fit m out len (a b : arg (F (fmt_of B))) : same_meaning a b -> simd_fit B m out len b -> simd_arg ar B m out len a /\ simd_arg ar B m out len b.
Proof.
  intros H (F1 & F2 & F3). destruct a as [p|x|x s]; cbn [same_meaning] in H.
  1,2: subst b; split; (split; [assumption|split; [assumption|split; [assumption|]]]); apply lanes_match_not_ramp; exact I.
  destruct H as (-> & H1 & H2). split; (split; [exact I|split; [exact I|split; [exact I|]]]); [apply flat_match; assumption|apply lanes_match_not_ramp; exact I].
Qed.
Lemma meaning_arg m out len (a b : arg (F (fmt_of B))) : same_meaning a b -> arg_fit m out len b -> arg_fit m out len a.
Proof. intros H F. destruct a as [p|x|x s]; cbn [same_meaning] in H; [subst b; exact F|subst b; exact F|]. split; exact I. Qed.

Lemma flat_slope_simd m dest x s len : legal_simd_length B len -> aligned B dest -> accessible m dest len -> steady x -> a_zero_of s ->
  leaves m (set_slope_vec_simd ar B m dest x s len) dest len (fun _ => Some x).
Proof.
  intros H1 H2 H3 H4 H5. apply (slope_simd_gen ar B m dest x s len (fun _ => x)); auto.
  - rewrite flat_lanes by assumption. destruct B; reflexivity.
  - intros i Hi. apply (steady_add n); [exact H4|]. apply zero_mul; [exact H5|]. apply int_fin. destruct B; vm_compute; discriminate.
Qed.
Lemma flat_exp_simd m dest x len : legal_simd_length B len -> aligned B dest -> accessible m dest len -> isnan x = false ->
  leaves m (set_exp_vec_simd ar B m dest x (one (fmt_of B)) len) dest len (fun _ => Some x).
Proof.
  intros H1 H2 H3 H4. assert (E : fmul n x (one (fmt_of B)) = x) by (apply fmul_one; exact H4).
  assert (O : isnan (one (fmt_of B)) = false) by (apply isfin_isnan, one_fin).
  assert (EO : fmul n (one (fmt_of B)) (one (fmt_of B)) = one (fmt_of B)) by (apply fmul_one; exact O).
  apply (exp_simd_gen ar B m dest x (one (fmt_of B)) len (fun _ => x)); auto.
  - unfold set_exp. destruct B; cbn [fst base_set_exp a_mul farith] in *; rewrite ?E; reflexivity.
  - intros i Hi. change (a_mul ar) with (fmul n). assert (P : forall k, pow_i ar k (one (fmt_of B)) = one (fmt_of B)).
    { induction k as [|[|k] IH]; [reflexivity|reflexivity|]. change (fmul n (one (fmt_of B)) (pow_i ar (S k) (one (fmt_of B))) = one (fmt_of B)). rewrite IH. exact EO. }
    rewrite P. exact E.
Qed.
End Ramp.

(** ** Buffers *)
Lemma yields_of_leaves {A} (P : A -> A -> Prop) m r out inp len v : leaves m r out len v ->
  (forall i x, 0 <= i < len -> m (inp + i) = Some x -> exists y, v i = Some y /\ P x y) -> yields P m r out inp len.
Proof.
  intros (m' & E & W & R) H. exists m'. split; [exact E|]. split; [|exact R]. intros i x Hi X. destruct (W i Hi) as [Q _].
  destruct (H i x Hi X) as (y & Y & HP). exists y. split; [congruence|exact HP].
Qed.
