(** The vectorised transcendental functions against the scalar ones (C79). *)
From Coq Require Import ZArith Reals Ratan List Lia Bool Lra Psatz.
From Flocq Require Import Core IEEE754.Binary IEEE754.Bits.
From Verif Require Import
  Base Mem Backend Args Drivers Functors Lanes Float LaneOps FloatOps ScalarMath VecMath FloatFuns IntVec TransMath TransFuns Libm Spec SpecReduce SpecLane SpecMath SpecLib SpecAgree
  FloatFacts MathMore RealAgree AgreeFacts ExData ExFloat ExMath ExLib AgreeClaims.
Import ListNotations.
Local Open Scope Z_scope.

(** * C79: the vectorised functions against the scalar ones *)

(** Lane by lane, sin to exp of a vec differ from the scalar function by at most
    2e-6 of either result, when the C library is accurate to 1e-6; *)
Theorem C79_math : 
  forall (c : cfg) (B : backend) (w : world (fmt_of B)) (k : nans F64) (f : ufun) (x : F (fmt_of B)),
    math_backend c B -> library 1e-6 (w_lib w) -> w_cxx11 w = true -> isfin x = true -> ordinary f (val x) ->
    agree 2e-6 (s_ufun w f x) (v_ufun c B w k f x).
Proof. exact C79_math_lemma. Qed.

Example C79_math_ex :
  forall n : nans F32, let w := World F32 (ideal F32) n (ideal F32) n true in
  math_backend all_ext AVX32 /\ library 1e-6 (w_lib w) /\ w_cxx11 w = true /\
  (let x := f_lit F32 7 (-2) in isfin x = true /\ ordinary Sin (val x)).
Proof. intros n w. split; [left; reflexivity|]. split; [apply ideal_ok|]. split; [reflexivity|]. cbv zeta. destruct (lit32 7 (-2)) as [A V]; [lia|lia|]. split; [exact A|]. rewrite V. change (bpow radix2 (-2)) with (/ 4)%R. split; [right|rewrite Rabs_pos_eq; lra].
  rewrite Rabs_pos_eq by lra. eapply Rle_trans; [apply (bpow_le radix2 (-100) 0); lia|]. cbn. lra. Qed.

(** pow and signed_pow by at most 5e-5; *)
Theorem C79_pow : 
  forall (c : cfg) (B : backend) (w : world (fmt_of B)) (f : bfun) (x y : F (fmt_of B)),
    math_backend c B -> accurate 1e-6 (w_lib w) -> isfin x = true -> isfin y = true -> ordinary2 f (val x) (val y) ->
    agree 5e-5 (s_bfun w f x y) (v_bfun c B w f x y).
Proof. exact C79_pow_lemma. Qed.

Example C79_pow_ex :
  forall n : nans F32, let w := World F32 (ideal F32) n (ideal F32) n true in
  math_backend all_ext AVX32 /\ accurate 1e-6 (w_lib w) /\ w_cxx11 w = true /\
  (let x := f_lit F32 (-2) 0 in let y := f_lit F32 10 0 in isfin x = true /\ isfin y = true /\ ordinary2 SignedPow (val x) (val y)).
Proof. intros n w. split; [left; reflexivity|]. split; [apply ideal_ok|]. split; [reflexivity|]. cbv zeta. destruct (lit32 (-2) 0) as [A V]; [lia|lia|]. destruct (lit32 10 0) as [A1 V1]; [lia|lia|]. split; [exact A|]. split; [exact A1|]. rewrite V, V1. change (bpow radix2 0) with 1%R. rewrite !Rmult_1_r. unfold ordinary2. replace (Rabs (-2)) with 2%R by (rewrite Rabs_left; lra). split.
  - eapply Rle_trans; [apply (bpow_le radix2 (-126) 0); lia|]. cbn. lra.
  - exact ln_two_ten. Qed.

(** the unit conversions by at most 1e-5, db2amp by 2e-5, freq2midi by 3e-4 keys and
    freq2oct by 3e-5 octaves. *)
Theorem C79_unit : 
  forall (c : cfg) (B : backend) (w : world (fmt_of B)) (k : nans F64) (u : unit_fun) (x : F (fmt_of B)),
    math_backend c B -> accurate 1e-6 (w_lib w) -> w_cxx11 w = true -> isfin x = true -> ordinary_unit u (val x) ->
    unit_agree u (s_unit w u x) (v_unit c B w k u x).
Proof. exact C79_unit_lemma. Qed.

Example C79_unit_ex :
  forall n : nans F32, let w := World F32 (ideal F32) n (ideal F32) n true in
  math_backend all_ext AVX32 /\ accurate 1e-6 (w_lib w) /\ w_cxx11 w = true /\
  (let x := f_lit F32 60 0 in isfin x = true /\ ordinary_unit Midi2freq (val x)).
Proof. intros n w. split; [left; reflexivity|]. split; [apply ideal_ok|]. split; [reflexivity|]. cbv zeta. destruct (lit32 60 0) as [A V]; [lia|lia|]. split; [exact A|]. rewrite V. change (bpow radix2 0) with 1%R. cbn [ordinary_unit]. lra. Qed.

(** Buffers: the two forms of the call return with outputs that agree sample by
    sample, and change nothing else; *)
Theorem C79_math_vec : 
  forall (c : cfg) (B : backend) (w : world (fmt_of B)) (k : nans F64) (f : ufun) (m : mem (F (fmt_of B))) (out inp len : Z),
    math_backend c B -> library 1e-6 (w_lib w) -> w_cxx11 w = true -> legal_simd_length B len -> aligned B out -> accessible m out len -> simd_fit B m out len (APtr inp) ->
    each (fun x => isfin x = true /\ ordinary f (val x)) m inp len ->
    alike (agree 2e-6) m (math_vec B w f m out inp len) (math_vec_simd c B w k f m out inp len) out len.
Proof. exact C79_math_vec_lemma. Qed.

Example C79_math_vec_ex :
  forall n : nans F32, let w := World F32 (ideal F32) n (ideal F32) n true in let m := block 0 80 (fun a => f_lit F32 a (-8)) in
  math_backend all_ext AVX32 /\ library 1e-6 (w_lib w) /\ w_cxx11 w = true /\ legal_simd_length AVX32 32 /\ aligned AVX32 32 /\ accessible m 32 32 /\ simd_fit AVX32 m 32 32 (APtr 40) /\
  each (fun x => isfin x = true /\ ordinary Log (val x)) m 40 32.
Proof.
  intros n w m. assert (V : forall i, (0 <= i < 32)%Z -> exists y, m (40 + i)%Z = Some y /\ isfin y = true /\ val y = (IZR (40 + i) * / 256)%R) by (intros i Hi; exists (f_lit F32 (40 + i) (-8)); destruct (lit32 (40 + i) (-8)) as [A V]; [lia|lia|]; split; [|split; [exact A|exact V]]; unfold m; apply (block_in 0 80 (fun a => f_lit F32 a (-8))); lia).
  split; [left; reflexivity|]. split; [apply ideal_ok|]. split; [reflexivity|]. split; [fitm|]. split; [fitm|]. split; [fitm|]. split; [fitm|].
  intros i x Hi E. destruct (V i Hi) as (y & E1 & Fy & Vy). rewrite E in E1. injection E1 as ->. split; [exact Fy|]. rewrite Vy.
  assert (Q : (40 <= IZR (40 + i) <= 71)%R) by (split; apply IZR_le; lia). cbn [ordinary]. eapply Rle_trans; [apply (bpow_le radix2 (-126) (-3)); lia|]. change (bpow radix2 (-3)) with (/ 8)%R. lra.
Qed.

(** pow_vec_simd and spow_vec_simd, *)
Theorem C79_pow_vec : 
  forall (c : cfg) (B : backend) (w : world (fmt_of B)) (f : bfun) (m : mem (F (fmt_of B))) (out : Z) (a1 a2 : arg (F (fmt_of B))) (len : Z),
    math_backend c B -> accurate 1e-6 (w_lib w) -> legal_simd_length B len -> aligned B out -> accessible m out len -> simd_fit B m out len a1 -> plain a1 -> simd_fit B m out len a2 -> plain a2 ->
    (forall i x y, 0 <= i < len -> sample (farith (w_nan w)) m a1 i = Some x -> sample (farith (w_nan w)) m a2 i = Some y ->
       isfin x = true /\ isfin y = true /\ ordinary2 f (val x) (val y)) ->
    alike (agree 5e-5) m (math2_vec B w f m out a1 a2 len) (math2_vec_simd c B w f m out a1 a2 len) out len.
Proof. exact C79_pow_vec_lemma. Qed.

Example C79_pow_vec_ex :
  forall n : nans F32, let w := World F32 (ideal F32) n (ideal F32) n true in let m := block 0 80 (fun a => f_lit F32 a (-8)) in
  math_backend all_ext AVX32 /\ accurate 1e-6 (w_lib w) /\ legal_simd_length AVX32 32 /\ aligned AVX32 32 /\ accessible m 32 32 /\ simd_fit AVX32 m 32 32 (APtr 40) /\
  simd_fit AVX32 m 32 32 (AScal (f_lit F32 2 0)) /\
  (forall i x y, 0 <= i < 32 -> sample (farith (w_nan w)) m (APtr 40) i = Some x -> sample (farith (w_nan w)) m (AScal (f_lit F32 2 0)) i = Some y ->
     isfin x = true /\ isfin y = true /\ ordinary2 Pow (val x) (val y)).
Proof.
  intros n w m. assert (V : forall i, (0 <= i < 32)%Z -> exists y, m (40 + i)%Z = Some y /\ isfin y = true /\ val y = (IZR (40 + i) * / 256)%R) by (intros i Hi; exists (f_lit F32 (40 + i) (-8)); destruct (lit32 (40 + i) (-8)) as [A V]; [lia|lia|]; split; [|split; [exact A|exact V]]; unfold m; apply (block_in 0 80 (fun a => f_lit F32 a (-8))); lia).
  split; [left; reflexivity|]. split; [apply ideal_ok|]. split; [fitm|]. split; [fitm|]. split; [fitm|]. split; [fitm|].
  split; [fitm|]. intros i x y Hi E E2. cbn [sample] in E, E2. injection E2 as <-. destruct (V i Hi) as (z & E1 & Fz & Vz). rewrite E in E1. injection E1 as ->. split; [exact Fz|].
  destruct (lit32 2 0) as [A1 V1]; [lia|lia|]. split; [exact A1|]. rewrite Vz, V1. change (bpow radix2 0) with 1%R. rewrite Rmult_1_r. assert (Q : (40 <= IZR (40 + i) <= 71)%R) by (split; apply IZR_le; lia). split.
  - eapply Rle_trans; [apply (bpow_le radix2 (-126) (-3)); lia|]. change (bpow radix2 (-3)) with (/ 8)%R. lra.
  - rewrite (Rabs_pos_eq (IZR (40 + i) * / 256)) by lra. apply ln_quarter. lra.
Qed.

(** and the buffer forms of the unit conversions. *)
Theorem C79_unit_vec : 
  forall (c : cfg) (B : backend) (w : world (fmt_of B)) (k : nans F64) (u : unit_fun) (m : mem (F (fmt_of B))) (out inp len : Z),
    math_backend c B -> accurate 1e-6 (w_lib w) -> w_cxx11 w = true -> legal_simd_length B len -> aligned B out -> accessible m out len -> simd_fit B m out len (APtr inp) ->
    each (fun x => isfin x = true /\ ordinary_unit u (val x)) m inp len ->
    alike (unit_agree u) m (unit_vec B w u m out inp len) (unit_vec_simd c B w k u m out inp len) out len.
Proof. exact C79_unit_vec_lemma. Qed.

Example C79_unit_vec_ex :
  forall n : nans F32, let w := World F32 (ideal F32) n (ideal F32) n true in let m := block 0 80 (fun a => f_lit F32 a (-8)) in
  math_backend all_ext AVX32 /\ accurate 1e-6 (w_lib w) /\ w_cxx11 w = true /\ legal_simd_length AVX32 32 /\ aligned AVX32 32 /\ accessible m 32 32 /\ simd_fit AVX32 m 32 32 (APtr 40) /\
  each (fun x => isfin x = true /\ ordinary_unit Db2amp (val x)) m 40 32.
Proof.
  intros n w m. assert (V : forall i, (0 <= i < 32)%Z -> exists y, m (40 + i)%Z = Some y /\ isfin y = true /\ val y = (IZR (40 + i) * / 256)%R) by (intros i Hi; exists (f_lit F32 (40 + i) (-8)); destruct (lit32 (40 + i) (-8)) as [A V]; [lia|lia|]; split; [|split; [exact A|exact V]]; unfold m; apply (block_in 0 80 (fun a => f_lit F32 a (-8))); lia).
  split; [left; reflexivity|]. split; [apply ideal_ok|]. split; [reflexivity|]. split; [fitm|]. split; [fitm|]. split; [fitm|]. split; [fitm|].
  intros i x Hi E. destruct (V i Hi) as (y & E1 & Fy & Vy). rewrite E in E1. injection E1 as ->. split; [exact Fy|]. rewrite Vy.
  assert (Q : (40 <= IZR (40 + i) <= 71)%R) by (split; apply IZR_le; lia). cbn [ordinary_unit]. rewrite Rabs_pos_eq; lra.
Qed.

(** Outside these arguments they do not agree: the arc cosine of -0.5, *)
Theorem C79_acos_minus_half_refuted : 
  forall (c : cfg) (B : backend) (w : world (fmt_of B)) (k : nans F64), math_backend c B ->
    (forall x, isfin x = true -> (Rabs (val x) <= 1)%R -> near 1e-6 (m_acos (w_lib w) x) (acos (val x))) ->
    exists x, isfin x = true /\ (Rabs (val x) <= 1)%R /\ ~ within 1.9 (s_ufun w Acos x) (v_ufun c B w k Acos x).
Proof. exact C79_acos_minus_half_refuted_lemma. Qed.

Example C79_acos_minus_half_refuted_ex :
  forall n : nans F32, let w := World F32 (ideal F32) n (ideal F32) n true in
  math_backend all_ext AVX32 /\
  (forall x, isfin x = true -> (Rabs (val x) <= 1)%R -> near 1e-6 (m_acos (w_lib w) x) (acos (val x))).
Proof. intros n w. split; [left; reflexivity|]. intros x Fx Hx. exact (ideal_acos x Fx Hx). Qed.

(** and the sine of large numbers. *)
Theorem C79_sin_large_refuted : 
  forall (c : cfg) (B : backend) (w : world (fmt_of B)) (k : nans F64), math_backend c B ->
    (forall x, isfin x = true -> isfin (m_sin (w_lib w) x) = true /\ (Rabs (val (m_sin (w_lib w) x)) <= 1)%R) ->
    exists x, isfin x = true /\ ~ within 999999 (s_ufun w Sin x) (v_ufun c B w k Sin x).
Proof. exact C79_sin_large_refuted_lemma. Qed.

Example C79_sin_large_refuted_ex :
  forall n : nans F32, let w := World F32 (ideal F32) n (ideal F32) n true in
  math_backend all_ext AVX32 /\
  (forall x, isfin x = true -> isfin (m_sin (w_lib w) x) = true /\ (Rabs (val (m_sin (w_lib w) x)) <= 1)%R).
Proof. intros n w. split; [left; reflexivity|]. intros x Fx. exact (ideal_sin x). Qed.

(** All theorems of this file together, for one run of Print Assumptions. *)
Definition all_Agree := (
  C79_math,
  C79_pow,
  C79_unit,
  C79_math_vec,
  C79_pow_vec,
  C79_unit_vec,
  C79_acos_minus_half_refuted,
  C79_sin_large_refuted).
Print Assumptions all_Agree.
