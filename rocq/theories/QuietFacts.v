(** Lemmas about silence. *)
From Coq Require Import ZArith Reals List Lia Lra Bool.
From Flocq Require Import Core IEEE754.Binary IEEE754.Bits.
From Verif Require Import Base Mem Loop Backend Args MemFuns Drivers Functors Pan Lanes Float LaneOps Reduce FloatOps ScalarMath VecMath FloatFuns TransMath Libm
  Spec SpecLane SpecReduce SpecMath SpecLib SpecAgree SpecAlike SpecNeutral SpecSwap SpecChain SpecParts SpecQuiet
  FloatFacts LaneFacts FloatRound VecFacts MemClaims NeutralFacts SwapFacts ChainFacts.
Import ListNotations.
Local Open Scope Z_scope.

(** Proof auxiliary: is the value a zero, by computation. *)
Definition iszero {t} (x : F t) : bool := match x with B754_zero _ => true | _ => false end.
Lemma iszero_zero {t} (x : F t) : iszero x = true -> a_zero_of x.
Proof. intros H. destruct x; try discriminate H. split; reflexivity. Qed.
Lemma zero_cases {t} (x : F t) : a_zero_of x -> x = B754_zero (prec t) (emax t) false \/ x = B754_zero (prec t) (emax t) true.
Proof. intros H. apply a_zero_cases in H. destruct H as [[|] ->]; auto. Qed.

Section B.
Context (c : cfg) (B : backend) (n : nans (fmt_of B)).
Local Notation I := (isa_of B).
Ltac run := intros x Z0; apply zero_cases in Z0; apply iszero_zero; clear - Z0; destruct Z0 as [-> | ->]; destruct B; try destruct c as [[|] [|] [|] [|]]; vm_compute; reflexivity.
Lemma q_abs (x : F (fmt_of B)) : a_zero_of x -> a_zero_of (vabs c I x). Proof. revert x. run. Qed.
Lemma q_sign (x : F (fmt_of B)) : a_zero_of x -> a_zero_of (vsign c I x). Proof. revert x. run. Qed.
Lemma q_square (x : F (fmt_of B)) : a_zero_of x -> a_zero_of (vsquare I n x). Proof. revert x. run. Qed.
Lemma q_cube (x : F (fmt_of B)) : a_zero_of x -> a_zero_of (vcube I n x). Proof. revert x. run. Qed.
Lemma q_round (x : F (fmt_of B)) : a_zero_of x -> a_zero_of (vround c I n x). Proof. revert x. run. Qed.
Lemma q_floor (x : F (fmt_of B)) : a_zero_of x -> a_zero_of (vfloor c I n x). Proof. revert x. run. Qed.
Lemma q_ceil (x : F (fmt_of B)) : a_zero_of x -> a_zero_of (vceil c I n x). Proof. revert x. run. Qed.
Lemma q_frac (x : F (fmt_of B)) : a_zero_of x -> a_zero_of (vfrac c I n x). Proof. revert x. run. Qed.
Lemma q_undenormalize (x : F (fmt_of B)) : a_zero_of x -> a_zero_of (vundenormalize c I x). Proof. revert x. run. Qed.
Lemma q_softclip (x : F (fmt_of B)) : a_zero_of x -> a_zero_of (vsoftclip c I n x). Proof. revert x. run. Qed.
Lemma q_signed_sqrt (x : F (fmt_of B)) : a_zero_of x -> a_zero_of (vsigned_sqrt c I n x). Proof. revert x. run. Qed.
End B.
Section S.
Context {t : fmt} (n : nans t).
Ltac run := intros x Z0; apply zero_cases in Z0; apply iszero_zero; clear - Z0; destruct Z0 as [-> | ->]; destruct t; vm_compute; reflexivity.
Lemma s_q_abs (x : F t) : a_zero_of x -> a_zero_of (fabs x). Proof. revert x. run. Qed.
Lemma s_q_sign (x : F t) : a_zero_of x -> a_zero_of (s_sign x). Proof. revert x. run. Qed.
Lemma s_q_square (x : F t) : a_zero_of x -> a_zero_of (s_square n x). Proof. revert x. run. Qed.
Lemma s_q_cube (x : F t) : a_zero_of x -> a_zero_of (s_cube n x). Proof. revert x. run. Qed.
Lemma s_q_round (x : F t) : a_zero_of x -> a_zero_of (s_round n x). Proof. revert x. run. Qed.
Lemma s_q_floor (x : F t) : a_zero_of x -> a_zero_of (s_floor n x). Proof. revert x. run. Qed.
Lemma s_q_ceil (x : F t) : a_zero_of x -> a_zero_of (s_ceil n x). Proof. revert x. run. Qed.
Lemma s_q_frac (x : F t) : a_zero_of x -> a_zero_of (s_frac n x). Proof. revert x. run. Qed.
Lemma s_q_undenormalize (x : F t) : a_zero_of x -> a_zero_of (s_undenormalize x). Proof. revert x. run. Qed.
Lemma s_q_softclip (x : F t) : a_zero_of x -> a_zero_of (s_softclip n x). Proof. revert x. run. Qed.
Lemma s_q_signed_sqrt (x : F t) : a_zero_of x -> a_zero_of (s_signed_sqrt n x). Proof. revert x. run. Qed.
End S.
Lemma x_zero c I n k f x : I = SSE \/ I = AVX -> zero_at_zero f = true -> a_zero_of x -> a_zero_of (x_ufun c I n k f x).
Proof.
  intros HI Hf Z0. apply zero_cases in Z0. apply iszero_zero. destruct f; try discriminate Hf; clear Hf;
  destruct HI as [-> | ->], Z0 as [-> | ->]; destruct c as [[|] [|] [|] [|]]; vm_compute; reflexivity.
Qed.
Lemma x_one c I n k f x : I = SSE \/ I = AVX -> one_at_zero f = true -> a_zero_of x -> bits (x_ufun c I n k f x) = bits (f_ofZ F32 1).
Proof.
  intros HI Hf Z0. apply zero_cases in Z0. destruct f; try discriminate Hf; clear Hf;
  destruct HI as [-> | ->], Z0 as [-> | ->]; destruct c as [[|] [|] [|] [|]]; vm_compute; reflexivity.
Qed.

Section T.
Context {t : fmt} (n : nans t).
Lemma q_add (x y : F t) : a_zero_of x -> a_zero_of y -> a_zero_of (fadd n x y).
Proof. intros H1 H2. apply a_zero_cases in H1. apply a_zero_cases in H2. destruct H1 as [s ->], H2 as [s' ->]. rewrite fadd_zeros. apply a_zero_cases. eauto. Qed.
Lemma q_sub (x y : F t) : a_zero_of x -> a_zero_of y -> a_zero_of (fsub n x y).
Proof. intros H1 H2. apply a_zero_cases in H1. apply a_zero_cases in H2. destruct H1 as [s ->], H2 as [s' ->]. rewrite fsub_zeros. apply a_zero_cases. eauto. Qed.
Lemma q_fmul (x y : F t) : a_zero_of x -> isfin y = true -> a_zero_of (fmul n x y).
Proof. intros H1 H2. apply a_zero_cases in H1. destruct H1 as [s ->]. apply iszero_zero. destruct y; try discriminate H2; reflexivity. Qed.
Lemma q_ffma (x y z : F t) : a_zero_of x -> isfin y = true -> a_zero_of z -> a_zero_of (ffma n x y z).
Proof.
  intros H1 H2 H3. apply a_zero_cases in H1. apply a_zero_cases in H3. destruct H1 as [s ->], H3 as [s' ->]. apply iszero_zero.
  destruct y as [s1|s1|s1 pl E|s1 m e E]; try discriminate H2; destruct s, s', s1; reflexivity.
Qed.
Lemma zero_zero : a_zero_of (f_ofZ t 0). Proof. apply iszero_zero. destruct t; reflexivity. Qed.
Lemma q_vmul I (x y : F t) : a_zero_of x -> isfin y = true -> a_zero_of (vmul I n x y).
Proof. intros H1 H2. destruct I; cbn [vmul]; first [apply q_fmul; assumption|apply q_ffma; try assumption; apply zero_zero]. Qed.
Lemma q_madd c I (x y z : F t) : a_zero_of x -> isfin y = true -> a_zero_of z -> a_zero_of (madd c I n x y z).
Proof. intros H1 H2 H3. destruct I; cbn [madd]; try destruct (has_fma c); first [apply q_add; [apply q_fmul; assumption|assumption]|apply q_ffma; assumption]. Qed.
Lemma zero_over_zero s s' : isnan (fdiv n (B754_zero _ _ s) (B754_zero _ _ s')) = true.
Proof. first [reflexivity|cbn; first [reflexivity|apply pn]]. Qed.
Lemma zero_times_inf s s' : isnan (fmul n (B754_zero _ _ s) (B754_infinity _ _ s')) = true.
Proof. first [reflexivity|cbn; first [reflexivity|apply pn]]. Qed.
Lemma zero_finite (x : F t) : a_zero_of x -> isfin x = true. Proof. intros H. apply H. Qed.
End T.

(** The C library, which is near 0 at 0. *)
Lemma lib_at {t} e (w : world t) f (x : F t) : library e (w_lib w) -> zero_at_zero f = true \/ one_at_zero f = true -> a_zero_of x ->
  near e (s_ufun w f x) (real_fun f 0).
Proof.
  intros HL Hf [Fx Vx]. specialize (HL f x Fx). rewrite Vx in HL.
  assert (O : ordinary f 0).
  { destruct f; cbn [ordinary zero_at_zero one_at_zero] in *; try (destruct Hf; discriminate); unfold not_tiny; rewrite ?Rabs_R0; repeat split; try lra; left; reflexivity. }
  specialize (HL O). destruct f; try (destruct Hf; discriminate); exact HL.
Qed.
Lemma s_zero {t} e (w : world t) f (x : F t) : library e (w_lib w) -> zero_at_zero f = true -> a_zero_of x -> a_zero_of (s_ufun w f x).
Proof.
  intros HL Hf Hx. destruct (lib_at e w f x HL (or_introl Hf) Hx) as [H1 H2]. split; [exact H1|].
  assert (R0 : real_fun f 0 = 0%R).
  { destruct f; try discriminate Hf; cbn [real_fun].
    - apply sin_0. - apply tan_0. - apply asin_0. - apply atan_0. - unfold tanh, sinh. rewrite Ropp_0. unfold Rdiv. ring. }
  rewrite R0, Rabs_R0, Rmult_0_r, Rminus_0_r in H2. revert H2. clear. intros H. unfold Rabs in H. destruct (Rcase_abs (val (s_ufun w f x))); lra.
Qed.
Lemma v_zero {e} c B (w : world (fmt_of B)) k f (x : F (fmt_of B)) : library e (w_lib w) -> zero_at_zero f = true -> a_zero_of x -> a_zero_of (v_ufun c B w k f x).
Proof.
  intros HL Hf Hx. destruct B; cbn [v_ufun]; try (apply (s_zero e); assumption).
  - destruct (has_sse2 c); [apply x_zero; auto|apply (s_zero e); assumption].
  - apply x_zero; auto.
Qed.

(** ** Buffers *)
Lemma fills_leaves {A} (P : A -> Prop) (m : mem A) r out len v : leaves m r out len v ->
  (forall i y, 0 <= i < len -> v i = Some y -> P y) -> fills P m r out len.
Proof.
  intros (m' & E & H1 & H2) H. exists m'. split; [exact E|]. split; [|exact H2].
  intros i Hi. destruct (H1 i Hi) as [K1 K2]. destruct (v i) as [y|] eqn:V; [|congruence]. exists y. split; [exact K1|]. apply (H i); assumption.
Qed.
Lemma fills_unary {t} (ar : arith (F t)) (P : F t -> Prop) (f : F t -> F t) (m : mem (F t)) r out inp len :
  leaves m r out len (fun i => lift1 f (m (inp + i))) -> silent ar m (APtr inp) len -> (forall x, a_zero_of x -> P (f x)) -> fills P m r out len.
Proof.
  intros L S H. apply (fills_leaves _ _ _ _ _ _ L). intros i y Hi V. cbv beta in V. destruct (m (inp + i)) as [x|] eqn:E; [|discriminate V].
  injection V as <-. apply H. apply (S i x Hi). exact E.
Qed.
(** What is left of a call once its effect is known: a fact about samples. *)
Ltac quiet :=
  let i := fresh "i" in let Hi := fresh "Hi" in let U := fresh "U" in
  intros i ? Hi; cbv beta; cbn [o_zero o_one o_add o_sub o_mul o_div o_max o_min o_madd fops fops_scalar];
  repeat (match goal with |- context [sample ?ar ?m ?a i] =>
    let s := fresh "s" in let E := fresh "E" in destruct (sample ar m a i) as [s|] eqn:E end);
  cbn [lift1 lift2 lift3 lift4]; intros U; try discriminate U; injection U as <-;
  repeat match goal with H : silent _ _ ?a _, E1 : sample _ _ ?a i = Some ?x |- _ =>
    let K := fresh "K" in pose proof (H i x Hi E1) as K; clear H end;
  repeat match goal with H : samples _ _ _ ?a _, E1 : sample _ _ ?a i = Some ?x |- _ =>
    let K := fresh "K" in pose proof (H i x Hi E1) as K; clear H end.
(** One effect. *)
Lemma effect_quiet e0 B (w : world (fmt_of B)) buf len e m : library e0 (w_lib w) -> harmless e -> call_fits m buf len [APtr buf] ->
  silent (farith (w_nan w)) m (APtr buf) len -> leaves_silence m (apply_effect B w buf len e m) buf len.
Proof.
  intros HL He H S. fits H. destruct e; cbn [apply_effect];
  try (eapply fills_unary; [apply (unary_leaves (farith (w_nan w))); fitc|exact S|]; intros x Hx;
    first [apply s_q_abs|apply s_q_sign|apply s_q_square|apply s_q_cube|apply s_q_round|apply s_q_floor|apply s_q_ceil|apply s_q_frac|apply s_q_undenormalize|apply s_q_softclip|apply s_q_signed_sqrt|apply (s_zero e0)]; assumption).
  eapply fills_leaves; [apply C18_times_vec_lemma; fitc|]. quiet. cbn [sample] in *. apply q_fmul; [assumption|]. cbn [harmless] in He. congruence.
Qed.
Lemma effect_quiet_simd e0 c B (w : world (fmt_of B)) k buf len e m : library e0 (w_lib w) -> harmless_simd B e -> simd_call_fits B m buf len [APtr buf] ->
  silent (farith (w_nan w)) m (APtr buf) len -> leaves_silence m (apply_effect_simd c B w k buf len e m) buf len.
Proof.
  intros HL [He _] H S. fits_simd H. destruct e; cbn [apply_effect_simd];
  try (eapply fills_unary; [apply unary_simd_leaves; fitc|exact S|]; intros x Hx;
    first [apply q_abs|apply q_sign|apply q_square|apply q_cube|apply q_round|apply q_floor|apply q_ceil|apply q_frac|apply q_undenormalize|apply q_softclip|apply q_signed_sqrt|apply (v_zero (e := e0))]; assumption).
  eapply fills_leaves; [apply C18_times_vec_simd_lemma; fitc|]. quiet. cbn [sample] in *. apply q_vmul; [assumption|]. cbn [harmless] in He. congruence.
Qed.
(** Many. *)
Lemma chain_quiet {t} (ar : arith (F t)) (P : effect t -> Prop) (call : effect t -> mem (F t) -> res (mem (F t))) (ok : mem (F t) -> Prop) buf len :
  (forall e m, P e -> ok m -> silent ar m (APtr buf) len -> leaves_silence m (call e m) buf len) ->
  (forall m m', ok m -> (forall i, 0 <= i < len -> m' (buf + i) <> None) -> ok m') ->
  forall es, Forall P es -> forall m, ok m -> (forall i, 0 <= i < len -> m (buf + i) <> None) -> silent ar m (APtr buf) len ->
  leaves_silence m (in_turn (map call es) m) buf len.
Proof.
  intros Hc Hk es. induction es as [|e es IH]; intros HP m Om Am S; cbn [map in_turn].
  - exists m. split; [reflexivity|]. split; [|reflexivity]. intros i Hi. specialize (Am i Hi). destruct (m (buf + i)) as [y|] eqn:E; [|congruence].
    exists y. split; [reflexivity|]. exact (S i y Hi E).
  - inversion HP as [|? ? H1 H2]; subst. destruct (Hc e m H1 Om S) as (m1 & E1 & W1 & K1). rewrite E1. cbn [bind].
    assert (A1 : forall i, 0 <= i < len -> m1 (buf + i) <> None) by (intros i Hi; destruct (W1 i Hi) as (y & -> & _); discriminate).
    destruct (IH H2 m1 (Hk m m1 Om A1) A1) as (m2 & E2 & W2 & K2).
    { intros i x Hi E. cbn [sample] in E. destruct (W1 i Hi) as (y & V & Y). congruence. }
    exists m2. split; [exact E2|]. split; [exact W2|]. intros a Ha. rewrite K2, K1 by exact Ha. reflexivity.
Qed.
