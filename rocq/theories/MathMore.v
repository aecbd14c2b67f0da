(** From lane functions to buffers; comparisons with infinities. *)
From Coq Require Import ZArith Reals List Lia Lra Bool.
From Flocq Require Import Core IEEE754.Binary IEEE754.Bits.
From Verif Require Import Base Mem Backend Args Drivers Functors Lanes Float LaneOps FloatOps VecMath IntVec TransMath TransFuns Spec SpecLane SpecMath
  FloatFacts FloatRound LaneFacts VecFacts VecMore VecMore2 RoundMore ErrFacts DriverFacts DriverClaims DriverClaims2 TransFacts RealUnit UnitFacts.
Import ListNotations.
Local Open Scope Z_scope.

Lemma isa_x86 c I : math_isa c I -> x86 I.
Proof. intros [-> | [-> _]]; [right|left]; reflexivity. Qed.
Lemma backend_isa c B : math_backend c B -> math_isa c (isa_of B).
Proof. intros [-> | [-> H]]; [left|right]; auto. Qed.
Lemma computes_unary (n : nans F32) B (f : F F32 -> F F32) (Q : F F32 -> Prop) (P : F F32 -> F F32 -> Prop) m out inp len :
  (forall x, Q x -> P x (f x)) -> unary_fit B m out inp len -> each Q m inp len ->
  computes P m (simd_of32 B n f m out inp len) out inp len.
Proof.
  intros H (H1 & H2 & H3 & H4) HQ. destruct (unary_simd_leaves (farith n) B f m out inp len H1 H2 H3 H4) as (m' & E & W).
  exists m'. split; [exact E|]. destruct W as [W1 W2]. split.
  - intros i x Hi Hx. exists (f x). rewrite (proj1 (W1 i Hi)), Hx. split; [reflexivity|]. apply H. exact (HQ i x Hi Hx).
  - intros a Ha. apply W2. lia.
Qed.
Lemma computes_binary (n : nans F32) B (f : F F32 -> F F32 -> F F32) (Q : F F32 -> F F32 -> Prop) (P : F F32 -> F F32 -> F F32 -> Prop) m out i1 i2 len :
  (forall x y, Q x y -> P x y (f x y)) -> binary_fit B m out i1 i2 len ->
  (forall i x y, 0 <= i < len -> m (i1 + i) = Some x -> m (i2 + i) = Some y -> Q x y) ->
  computes2 P m (simd2_of32 B n f m out (APtr i1) (APtr i2) len) out i1 i2 len.
Proof.
  intros H (H1 & H2 & H3 & H4 & H5) HQ. destruct (binary_simd_leaves (farith n) B f m out (APtr i1) (APtr i2) len H1 H2 H3 H4 I H5 I) as (m' & E & W).
  exists m'. split; [exact E|]. destruct W as [W1 W2]. split.
  - intros i x y Hi Hx Hy. exists (f x y). rewrite (proj1 (W1 i Hi)). cbn [sample]. rewrite Hx, Hy. split; [reflexivity|]. apply H. exact (HQ i x y Hi Hx Hy).
  - intros a Ha. apply W2. lia.
Qed.
Lemma xval_fin {t} (x : F t) : isfin x = true -> xval x = val x.
Proof. intros H. unfold xval. rewrite H. reflexivity. Qed.
Lemma xlt_flt (l x : F F32) : isfin l = true -> isnan x = false -> (flt l x = true <-> (val l < xval x)%R).
Proof.
  intros Fl Nx. rewrite <- (xval_fin l Fl). pose proof (srel_xval LT l x (fin_not_nan l Fl) Nx) as S. exact S.
Qed.
Lemma xgt_flt (l x : F F32) : isfin l = true -> isnan x = false -> (flt x l = true <-> (xval x < val l)%R).
Proof.
  intros Fl Nx. rewrite <- (xval_fin l Fl). pose proof (srel_xval LT x l Nx (fin_not_nan l Fl)) as S. exact S.
Qed.
Lemma xval_fabs (x : F F32) : xval (fabs x) = Rabs (xval x).
Proof.
  unfold xval. rewrite isfin_fabs, val_fabs, sgn_fabs. destruct (isfin x); [reflexivity|]. pose proof (bpow_ge_0 radix2 128).
  destruct (sgn x); [rewrite Rabs_Ropp|]; rewrite Rabs_pos_eq by assumption; reflexivity.
Qed.
Lemma beyond_one I (x : F F32) : x86 I -> isnan x = false -> (vrel I GT (fabs x) (f_ofZ F32 1) = true <-> (1 < Rabs (xval x))%R).
Proof.
  intros HI Nx. destruct one_ok as (F1 & V1 & _). rewrite vrel_num by (try exact HI; try (rewrite isnan_fabs; exact Nx); apply fin_not_nan; exact F1).
  rewrite (srel_xval GT) by (try (rewrite isnan_fabs; exact Nx); apply fin_not_nan; exact F1).
  rewrite xval_fabs, (xval_fin _ F1), V1. unfold real_rel. split; intros; lra.
Qed.
Lemma xval_nonzero (x : F F32) : isnan x = false -> (xval x <> 0)%R -> isfin x = true -> val x <> 0%R.
Proof. intros N H F. rewrite xval_fin in H by exact F. exact H. Qed.
Lemma normal_pos (x : F F32) : normal_positive x -> isfin x = true /\ ~ tiny x /\ sgn x = false.
Proof.
  intros [F V]. pose proof (bpow_gt_0 radix2 (-126)) as P. split; [exact F|]. split.
  - intros [_ T]. rewrite Rabs_pos_eq in T by lra. lra.
  - destruct (sgn x) eqn:S; [|reflexivity]. pose proof (RoundMore.sgn_val_gen x F) as Q. rewrite S in Q. pose proof (Rabs_pos (val x)). lra.
Qed.
Lemma fit_readable B (m : mem (F F32)) out inp len : unary_fit B m out inp len -> forall i, 0 <= i < len -> exists x, m (inp + i) = Some x.
Proof. intros (_ & _ & _ & A & _). exact A. Qed.
Lemma lit_range32 m e : Z.abs m <= 16777216 -> -149 <= e < 100 -> isfin (f_lit F32 m e) = true /\ val (f_lit F32 m e) = (IZR m * bpow radix2 e)%R.
Proof.
  intros H1 H2. assert (P : prec F32 = 24) by reflexivity. assert (E : emax F32 = 128) by reflexivity. assert (N : emin F32 = -149) by reflexivity.
  destruct (f_lit_exact (t := F32) m e) as (A & B & _); [rewrite P; exact H1|rewrite N; lia|rewrite P, E; lia|]. auto.
Qed.
Lemma log_zero_bits c I n : x86 I -> bits (vec_log_float c I n (f_ofZ F32 0)) = bits (f_lit F32 (-11538228) (-17)).
Proof. intros [-> | ->]; [destruct c as [[] ? [] ?]|]; vm_compute; reflexivity. Qed.
Lemma log_inf_bits c I n : x86 I -> bits (vec_log_float c I n (B754_infinity 24 128 false)) = bits (f_lit F32 11629080 (-17)).
Proof. intros [-> | ->]; [destruct c as [[] ? [] ?]|]; vm_compute; reflexivity. Qed.
Lemma log_zero_range c I n : x86 I -> (- 88.1 < val (vec_log_float c I n (f_ofZ F32 0)) < - 88)%R.
Proof.
  intros HI. rewrite (bits_inj _ _ (log_zero_bits c I n HI)). destruct (lit_range32 (-11538228) (-17)) as [_ V]; [lia|lia|]. rewrite V.
  change (bpow radix2 (-17)) with (/ 131072)%R. lra.
Qed.
Lemma log_inf_range c I n : x86 I -> (88 < val (vec_log_float c I n (B754_infinity 24 128 false)) < 89)%R.
Proof.
  intros HI. rewrite (bits_inj _ _ (log_inf_bits c I n HI)). destruct (lit_range32 11629080 (-17)) as [_ V]; [lia|lia|]. rewrite V.
  change (bpow radix2 (-17)) with (/ 131072)%R. lra.
Qed.
Lemma exp_m88_bits c I n : x86 I -> bits (vec_exp_float c I n (f_lit F32 (-88) 0)) = bits (f_lit F32 252809 (-149)).
Proof. intros [-> | ->]; [destruct c as [[] ? [] ?]|]; vm_compute; reflexivity. Qed.
Lemma exp_m88_low c I n : x86 I -> (val (vec_exp_float c I n (f_lit F32 (-88) 0)) < exp (- 88) / 10)%R.
Proof.
  intros HI. rewrite (bits_inj _ _ (exp_m88_bits c I n HI)). destruct (lit_range32 252809 (-149)) as [_ V]; [lia|lia|]. rewrite V.
  pose proof exp_m88_real. change (bpow radix2 (-149)) with (/ 713623846352979940529142984724747568191373312)%R. lra.
Qed.
