(** Proofs of the statements of Prop_Trunc.v. *)
From Coq Require Import ZArith Reals List Lia Bool Lra.
From Flocq Require Import Core IEEE754.Binary IEEE754.Bits.
From Verif Require Import
  Base Mem Backend Args Drivers Functors Lanes Float LaneOps FloatOps ScalarMath VecMath TruncFuns Spec SpecLane SpecRound SpecMath SpecTrunc SpecAgree
  DriverClaims DriverClaims2 FloatFacts VecFacts RoundClaims TruncFacts ExData ExFloat ExMath.
Import ListNotations.
Local Open Scope Z_scope.

Lemma C80_trunc_vec_lemma : 
  forall (B : backend) (m : mem (F (fmt_of B))) (out inp len : Z), 0 < len < 2 ^ 32 -> accessible m out len -> arg_fit m out len (APtr inp) -> each in_long m inp len ->
    yields truncated m (trunc_vec B m out inp len) out inp len.
Proof.
  intros B m out inp len H1 H2 H3 HE. pose proof (fun n => scalar_ok B n m out inp len H1 H2 H3 HE) as L. eapply yields_leaves; [exact (L (n0 _))|].
  intros i x y Hi X E. destruct (s_trunc_in (n0 _) x (HE i x Hi X)) as (y' & E' & T). congruence.
Qed.

Lemma C80_trunc_vec_undefined_lemma : 
  forall (B : backend) (m : mem (F (fmt_of B))) (out inp len : Z) (i : Z) (x : F (fmt_of B)), 0 < len < 2 ^ 32 -> accessible m out len -> arg_fit m out len (APtr inp) ->
    0 <= i < len -> m (inp + i) = Some x -> ~ in_long x ->
    trunc_vec B m out inp len = Fault BadConversion.
Proof.
  intros B m out inp len i x H1 H2 H3 Hi X Hx. exact (scalar_fault B (n0 _) m out inp len i x H1 H2 H3 Hi X Hx).
Qed.

Lemma C80_trunc_vec_simd_lemma : 
  forall (c : cfg) (B : backend) (n : nans (fmt_of B)) (m : mem (F (fmt_of B))) (out inp len : Z), has_trunc c B -> buffers_fit B m out inp len -> each (fun x => isfin x = true) m inp len ->
    yields (fun x y => truncated x y /\ sgn y = sgn x) m (trunc_vec_simd c B n m out inp len) out inp len.
Proof.
  intros c B n m out inp len HT HF HE. eapply yields_leaves; [apply simd_ok; [exact HF|]|].
  - intros i x Hi X. exists (fround_zero n x). apply vtrunc_hard. exact HT.
  - intros i x y Hi X E. destruct (C41_trunc_instruction_lemma _ n c (isa_of B) x HT (HE i x Hi X)) as (y' & k & E' & K & T & S). cbv beta in E. rewrite E in E'. injection E' as <-. split; [exists k; split; assumption|exact S].
Qed.

Lemma C80_trunc_vec_simd_returns_lemma : 
  forall (c : cfg) (B : backend) (n : nans (fmt_of B)) (m : mem (F (fmt_of B))) (out inp len : Z), has_trunc c B -> buffers_fit B m out inp len ->
    exists m', trunc_vec_simd c B n m out inp len = Ok m' .
Proof.
  intros c B n m out inp len HT HF. destruct (simd_ok c B n m out inp len HF) as (m' & E & _); [|exists m'; exact E].
  intros i x Hi X. exists (fround_zero n x). apply vtrunc_hard. exact HT.
Qed.

Lemma C80_trunc_vec_simd_by_element_lemma : 
  forall (c : cfg) (B : backend) (n : nans (fmt_of B)) (m : mem (F (fmt_of B))) (out inp len : Z), ~ has_trunc c B -> B <> ALTIVEC32 -> buffers_fit B m out inp len ->
    (each in_long m inp len -> same_effect (trunc_vec B m out inp len) (trunc_vec_simd c B n m out inp len)) /\
    (forall i x, 0 <= i < len -> m (inp + i) = Some x -> ~ in_long x -> trunc_vec_simd c B n m out inp len = Fault BadConversion).
Proof.
  intros c B n m out inp len HT HA HF. assert (HA' : isa_of B <> ALTIVEC) by (destruct B; cbn; congruence). destruct (fit_scalar B m out inp len HF) as (H1 & H2 & H3). split.
  - intros HE. eapply leaves_same; [apply (scalar_ok B n); assumption|]. eapply leaves_ext; [|apply simd_ok; [exact HF|]].
    + intros i Hi. cbv beta. destruct (m (inp + i)) as [x|]; [|reflexivity]. rewrite vtrunc_soft by assumption. reflexivity.
    + intros i x Hi X. destruct (s_trunc_in n x (HE i x Hi X)) as (y & E & _). exists y. rewrite vtrunc_soft by assumption. exact E.
  - intros i x Hi X Hx. apply (simd_fault c B n m out inp len i x HF Hi X). rewrite vtrunc_soft by assumption. apply s_trunc_out. exact Hx.
Qed.

Lemma C80_forms_agree_lemma : 
  forall (c : cfg) (B : backend) (n : nans (fmt_of B)) (m : mem (F (fmt_of B))) (out inp len : Z), B <> ALTIVEC32 -> buffers_fit B m out inp len -> each in_long m inp len ->
    alike (fun u v => feq u v = true) m (trunc_vec B m out inp len) (trunc_vec_simd c B n m out inp len) out len.
Proof.
  intros c B n m out inp len HA HF HE. assert (HA' : isa_of B <> ALTIVEC) by (destruct B; cbn; congruence). destruct (fit_scalar B m out inp len HF) as (H1 & H2 & H3).
  assert (D : forall x, in_long x -> exists y, vtrunc c (isa_of B) n x = Ok y).
  { intros x Hx. destruct (vtrunc_any c B n x) as [E|E]; [|exact E]. destruct (s_trunc_in n x Hx) as (y & Y & _). exists y. revert E. unfold vtrunc.
    destruct (isa_of B); try discriminate; try (destruct (has_sse41 c); try discriminate); rewrite Y; discriminate. }
  eapply alike_of_leaves; [apply (scalar_ok B n); assumption|apply simd_ok; [exact HF|]|].
  - intros i x Hi X. apply D. exact (HE i x Hi X).
  - intros i u v Hi. cbv beta. destruct (m (inp + i)) as [x|] eqn:X; [|discriminate]. destruct (s_trunc x) as [y|] eqn:Y; [|discriminate]. destruct (vtrunc c (isa_of B) n x) as [z|] eqn:Z; [|discriminate].
    intros U V. injection U as <-. injection V as <-. exact (C41_trunc_forms_agree_lemma _ n c (isa_of B) x y z HA' Y Z).
Qed.

Lemma C80_same_bits_refuted_lemma : 
  forall (c : cfg) (n : nans F32), exists (m : mem (F F32)) (out inp len : Z),
    buffers_fit AVX32 m out inp len /\ each in_long m inp len /\
    ~ same_effect (trunc_vec AVX32 m out inp len) (trunc_vec_simd c AVX32 n m out inp len).
Proof.
  intros c n. set (m := block 0 80 (fun _ => f_lit F32 (-1) (-1))). exists m, 32, 40, 32.
  assert (FT : buffers_fit AVX32 m 32 40 32) by (unfold buffers_fit, m; fitm). split; [exact FT|].
  destruct (lit32 (-1) (-1)) as [A V]; [lia|lia|]. assert (IL : in_long (f_lit F32 (-1) (-1))) by (split; [exact A|]; rewrite V; change (bpow radix2 (-1)) with (/ 2)%R; change (2 ^ 63) with 9223372036854775808; lra).
  assert (HE : each in_long m 40 32) by (intros i x Hi E; unfold m in E; rewrite block_in in E by lia; injection E as <-; exact IL). split; [exact HE|].
  destruct (fit_scalar AVX32 m 32 40 32 FT) as (H1 & H2 & H3).
  intros (m1 & m2 & E1 & E2 & Q). destruct (scalar_ok AVX32 n m 32 40 32 H1 H2 H3 HE) as (m1' & F1 & W1 & _).
  destruct (simd_ok c AVX32 n m 32 40 32 FT) as (m2' & F2 & W2 & _); [intros; eexists; reflexivity|].
  assert (m1' = m1) as -> by congruence. assert (m2' = m2) as -> by congruence.
  destruct (W1 0 ltac:(lia)) as [X1 _]. destruct (W2 0 ltac:(lia)) as [X2 _]. rewrite Q, X2 in X1. vm_compute in X1. discriminate.
Qed.

Lemma C80_trunc_vec_simd_ct_lemma : 
  forall (c : cfg) (B : backend) (n : nans (fmt_of B)) (k : nat) (m : mem (F (fmt_of B))) (out inp : Z),
    let len := Z.of_nat k * Z.of_nat (vsize B) in
    (0 < k)%nat -> buffers_fit B m out inp len -> has_trunc c B \/ (B <> ALTIVEC32 /\ each in_long m inp len) ->
    same_effect (trunc_vec_simd c B n m out inp len) (trunc_vec_simd_ct c B n k m out inp).
Proof.
  intros c B n k m out inp len Hk HF HE.
  assert (D : forall i x, 0 <= i < len -> m (inp + i) = Some x -> exists y, vtrunc c (isa_of B) n x = Ok y).
  { intros i x Hi X. destruct (vtrunc_any c B n x) as [E|E]; [|exact E]. destruct HE as [HT|[HA HE]]; [rewrite vtrunc_hard in E by exact HT; discriminate|].
    destruct (s_trunc_in n x (HE i x Hi X)) as (y & Y & _). exists y. revert E. unfold vtrunc. destruct (isa_of B); try discriminate; try (destruct (has_sse41 c); try discriminate); rewrite Y; discriminate. }
  eapply leaves_same; [apply simd_ok; assumption|]. destruct HF as (_ & H2 & H3 & H4). exact (trun_ok (farith n) B (vtrunc c (isa_of B) n) m out inp k Hk H2 H3 H4 D).
Qed.

Lemma C80_altivec_negative_lemma : 
  forall (c : cfg) (n : nans F32) (m : mem (F F32)) (out inp len : Z), buffers_fit ALTIVEC32 m out inp len ->
    yields (fun x y => flt x (f_ofZ F32 0) = true -> bits y = 0) m (trunc_vec_simd c ALTIVEC32 n m out inp len) out inp len.
Proof.
  intros c n m out inp len HF. eapply yields_leaves; [apply (simd_ok c ALTIVEC32 n m out inp len HF)|].
  - intros i x Hi X. eexists. reflexivity.
  - intros i x y Hi X E L. destruct (C41_altivec_trunc_of_negative_lemma n c x L) as (y' & E' & Z). assert (EE : Ok y = Ok y') by (rewrite <- E, <- E'; reflexivity). injection EE as ->. exact Z.
Qed.
