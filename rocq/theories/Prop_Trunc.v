(** trunc over buffers (C80). *)
From Coq Require Import ZArith Reals List Lia Bool Lra.
From Flocq Require Import Core IEEE754.Binary IEEE754.Bits.
From Verif Require Import
  Base Mem Backend Args Drivers Functors Lanes Float LaneOps FloatOps ScalarMath VecMath TruncFuns Spec SpecLane SpecRound SpecMath SpecTrunc SpecAgree
  FloatFacts ExData ExFloat ExMath TruncClaims.
Import ListNotations.
Local Open Scope Z_scope.

(** * C80: trunc over buffers *)

(** When the integral part of every sample fits a long, trunc_vec truncates every
    sample; *)
Theorem C80_trunc_vec : 
  forall (B : backend) (m : mem (F (fmt_of B))) (out inp len : Z), 0 < len < 2 ^ 32 -> accessible m out len -> arg_fit m out len (APtr inp) -> each in_long m inp len ->
    yields truncated m (trunc_vec B m out inp len) out inp len.
Proof. exact C80_trunc_vec_lemma. Qed.

Example C80_trunc_vec_ex :
  let m := block 0 80 (fun a => f_lit F32 (1 - 2 * a) (-1)) in 0 < 32 < 2 ^ 32 /\ accessible m 32 32 /\ arg_fit m 32 32 (APtr 40) /\ each in_long m 40 32.
Proof. cbv zeta. split; [lia|]. split; [fitm|]. split; [split; [fitm|cbn; lia]|]. intros i x Hi E. rewrite block_in in E by lia. assert (x = f_lit F32 (1 - 2 * (40 + i)) (-1)) as -> by congruence. clear E. destruct (lit32 (1 - 2 * (40 + i)) (-1)) as [A V]; [lia|lia|]. split; [exact A|]. rewrite V. change (bpow radix2 (-1)) with (/ 2)%R. assert (Q : (-200 <= IZR (1 - 2 * (40 + i)) <= 0)%R) by (split; apply IZR_le; lia). change (2 ^ 63) with 9223372036854775808. lra. Qed.

(** one sample that does not fit -- a NaN, an infinity or a large number, wherever it
    is -- makes the call undefined. *)
Theorem C80_trunc_vec_undefined : 
  forall (B : backend) (m : mem (F (fmt_of B))) (out inp len : Z) (i : Z) (x : F (fmt_of B)), 0 < len < 2 ^ 32 -> accessible m out len -> arg_fit m out len (APtr inp) ->
    0 <= i < len -> m (inp + i) = Some x -> ~ in_long x ->
    trunc_vec B m out inp len = Fault BadConversion.
Proof. exact C80_trunc_vec_undefined_lemma. Qed.

Example C80_trunc_vec_undefined_ex :
  let m := block 0 80 (fun a => if a =? 50 then f_lit F32 1 63 else f_lit F32 a 0) in
  0 < 32 < 2 ^ 32 /\ accessible m 32 32 /\ arg_fit m 32 32 (APtr 40) /\ m (40 + 10) = Some (f_lit F32 1 63) /\ ~ in_long (f_lit F32 1 63).
Proof. cbv zeta. split; [lia|]. split; [fitm|]. split; [split; [fitm|cbn; lia]|]. split; [reflexivity|]. intros [_ [_ U]]. destruct (lit32 1 63) as [A V]; [lia|lia|]. rewrite V in U. change (bpow radix2 63) with (IZR (2 ^ 63)) in U. lra. Qed.

(** With a rounding instruction (AVX, SSE4.1) trunc_vec_simd truncates all finite
    numbers and keeps the sign, *)
Theorem C80_trunc_vec_simd : 
  forall (c : cfg) (B : backend) (n : nans (fmt_of B)) (m : mem (F (fmt_of B))) (out inp len : Z), has_trunc c B -> buffers_fit B m out inp len -> each (fun x => isfin x = true) m inp len ->
    yields (fun x y => truncated x y /\ sgn y = sgn x) m (trunc_vec_simd c B n m out inp len) out inp len.
Proof. exact C80_trunc_vec_simd_lemma. Qed.

Example C80_trunc_vec_simd_ex :
  let m := block 0 80 (fun a => f_lit F32 (1 - 2 * a) (-1)) in
  has_trunc all_ext AVX32 /\ buffers_fit AVX32 m 32 40 32 /\
  each (fun x => isfin x = true) m 40 32.
Proof. cbv zeta. split; [left; reflexivity|]. split; [unfold buffers_fit; fitm|]. intros i x Hi E. rewrite block_in in E by lia. assert (x = f_lit F32 (1 - 2 * (40 + i)) (-1)) as -> by congruence. clear E. destruct (lit32 (1 - 2 * (40 + i)) (-1)) as [A V]; [lia|lia|]. exact A. Qed.

(** and is defined for all bit patterns. *)
Theorem C80_trunc_vec_simd_returns : 
  forall (c : cfg) (B : backend) (n : nans (fmt_of B)) (m : mem (F (fmt_of B))) (out inp len : Z), has_trunc c B -> buffers_fit B m out inp len ->
    exists m', trunc_vec_simd c B n m out inp len = Ok m' .
Proof. exact C80_trunc_vec_simd_returns_lemma. Qed.

Example C80_trunc_vec_simd_returns_ex :
  let m := block 0 80 (fun a => f_lit F32 (1 - 2 * a) (-1)) in
  has_trunc all_ext AVX32 /\ buffers_fit AVX32 m 32 40 32 /\
  m 40 = Some (f_lit F32 (-79) (-1)).
Proof. cbv zeta. split; [left; reflexivity|]. split; [unfold buffers_fit; fitm|]. reflexivity. Qed.

(** Without one it is the scalar function, undefined cases included. *)
Theorem C80_trunc_vec_simd_by_element : 
  forall (c : cfg) (B : backend) (n : nans (fmt_of B)) (m : mem (F (fmt_of B))) (out inp len : Z), ~ has_trunc c B -> B <> ALTIVEC32 -> buffers_fit B m out inp len ->
    (each in_long m inp len -> same_effect (trunc_vec B m out inp len) (trunc_vec_simd c B n m out inp len)) /\
    (forall i x, 0 <= i < len -> m (inp + i) = Some x -> ~ in_long x -> trunc_vec_simd c B n m out inp len = Fault BadConversion).
Proof. exact C80_trunc_vec_simd_by_element_lemma. Qed.

Example C80_trunc_vec_simd_by_element_ex :
  let m := block 0 80 (fun a => f_lit F32 (1 - 2 * a) (-1)) in
  ~ has_trunc all_ext NEON32 /\ NEON32 <> ALTIVEC32 /\ buffers_fit NEON32 m 32 40 32 /\
  each in_long m 40 32.
Proof. cbv zeta. split; [intros [E|[E _]]; discriminate|]. split; [discriminate|]. split; [unfold buffers_fit; fitm|]. intros i x Hi E. rewrite block_in in E by lia. assert (x = f_lit F32 (1 - 2 * (40 + i)) (-1)) as -> by congruence. clear E. destruct (lit32 (1 - 2 * (40 + i)) (-1)) as [A V]; [lia|lia|]. split; [exact A|]. rewrite V. change (bpow radix2 (-1)) with (/ 2)%R. assert (Q : (-200 <= IZR (1 - 2 * (40 + i)) <= 0)%R) by (split; apply IZR_le; lia). change (2 ^ 63) with 9223372036854775808. lra. Qed.

(** Where both are defined they leave equal numbers, Altivec excepted, *)
Theorem C80_forms_agree : 
  forall (c : cfg) (B : backend) (n : nans (fmt_of B)) (m : mem (F (fmt_of B))) (out inp len : Z), B <> ALTIVEC32 -> buffers_fit B m out inp len -> each in_long m inp len ->
    alike (fun u v => feq u v = true) m (trunc_vec B m out inp len) (trunc_vec_simd c B n m out inp len) out len.
Proof. exact C80_forms_agree_lemma. Qed.

Example C80_forms_agree_ex :
  let m := block 0 80 (fun a => f_lit F32 (1 - 2 * a) (-1)) in
  AVX32 <> ALTIVEC32 /\ buffers_fit AVX32 m 32 40 32 /\
  each in_long m 40 32.
Proof. cbv zeta. split; [discriminate|]. split; [unfold buffers_fit; fitm|]. intros i x Hi E. rewrite block_in in E by lia. assert (x = f_lit F32 (1 - 2 * (40 + i)) (-1)) as -> by congruence. clear E. destruct (lit32 (1 - 2 * (40 + i)) (-1)) as [A V]; [lia|lia|]. split; [exact A|]. rewrite V. change (bpow radix2 (-1)) with (/ 2)%R. assert (Q : (-200 <= IZR (1 - 2 * (40 + i)) <= 0)%R) by (split; apply IZR_le; lia). change (2 ^ 63) with 9223372036854775808. lra. Qed.

(** but not the same bits: -0.5 gives 0 or -0. *)
Theorem C80_same_bits_refuted : 
  forall (c : cfg) (n : nans F32), exists (m : mem (F F32)) (out inp len : Z),
    buffers_fit AVX32 m out inp len /\ each in_long m inp len /\
    ~ same_effect (trunc_vec AVX32 m out inp len) (trunc_vec_simd c AVX32 n m out inp len).
Proof. exact C80_same_bits_refuted_lemma. Qed.

Example C80_same_bits_refuted_ex :
  in_long (f_lit F32 (-1) (-1)).
Proof. destruct (lit32 (-1) (-1)) as [A V]; [lia|lia|]. split; [exact A|]. rewrite V. change (bpow radix2 (-1)) with (/ 2)%R. change (2 ^ 63) with 9223372036854775808. lra. Qed.

(** The form with the length known at compile time does the same. *)
Theorem C80_trunc_vec_simd_ct : 
  forall (c : cfg) (B : backend) (n : nans (fmt_of B)) (k : nat) (m : mem (F (fmt_of B))) (out inp : Z),
    let len := Z.of_nat k * Z.of_nat (vsize B) in
    (0 < k)%nat -> buffers_fit B m out inp len -> has_trunc c B \/ (B <> ALTIVEC32 /\ each in_long m inp len) ->
    same_effect (trunc_vec_simd c B n m out inp len) (trunc_vec_simd_ct c B n k m out inp).
Proof. exact C80_trunc_vec_simd_ct_lemma. Qed.

Example C80_trunc_vec_simd_ct_ex :
  let m := block 0 80 (fun a => f_lit F32 (1 - 2 * a) (-1)) in
  32 = Z.of_nat 4 * Z.of_nat (vsize AVX32) /\ buffers_fit AVX32 m 32 40 32 /\
  each in_long m 40 32.
Proof. cbv zeta. split; [reflexivity|]. split; [unfold buffers_fit; fitm|]. intros i x Hi E. rewrite block_in in E by lia. assert (x = f_lit F32 (1 - 2 * (40 + i)) (-1)) as -> by congruence. clear E. destruct (lit32 (1 - 2 * (40 + i)) (-1)) as [A V]; [lia|lia|]. split; [exact A|]. rewrite V. change (bpow radix2 (-1)) with (/ 2)%R. assert (Q : (-200 <= IZR (1 - 2 * (40 + i)) <= 0)%R) by (split; apply IZR_le; lia). change (2 ^ 63) with 9223372036854775808. lra. Qed.

(** On Altivec every negative sample becomes 0. *)
Theorem C80_altivec_negative : 
  forall (c : cfg) (n : nans F32) (m : mem (F F32)) (out inp len : Z), buffers_fit ALTIVEC32 m out inp len ->
    yields (fun x y => flt x (f_ofZ F32 0) = true -> bits y = 0) m (trunc_vec_simd c ALTIVEC32 n m out inp len) out inp len.
Proof. exact C80_altivec_negative_lemma. Qed.

Example C80_altivec_negative_ex :
  let m := block 0 80 (fun a => f_lit F32 (1 - 2 * a) (-1)) in
   buffers_fit ALTIVEC32 m 32 40 32 /\
  exists x, m 40 = Some x /\ flt x (f_ofZ F32 0) = true.
Proof. cbv zeta. split; [unfold buffers_fit; fitm|]. exists (f_lit F32 (1 - 2 * 40) (-1)). split; [reflexivity|]. vm_compute. reflexivity. Qed.

(** All theorems of this file together, for one run of Print Assumptions. *)
Definition all_Trunc := (
  C80_trunc_vec,
  C80_trunc_vec_undefined,
  C80_trunc_vec_simd,
  C80_trunc_vec_simd_returns,
  C80_trunc_vec_simd_by_element,
  C80_forms_agree,
  C80_same_bits_refuted,
  C80_trunc_vec_simd_ct,
  C80_altivec_negative).
Print Assumptions all_Trunc.
