(** C10 and C11: ramps in IEEE arithmetic. *)
From Coq Require Import ZArith Reals List Lia Lra.
From Flocq Require Import Core IEEE754.Binary IEEE754.Bits.
From Verif Require Import Base Mem Loop Backend Args Drivers Float LaneOps FloatOps Spec SpecReduce SpecRamp
  FloatRound RampFloat ExData ExFloat ExRamp RampClaims.
Import ListNotations.
Local Open Scope Z_scope.

(** * C10: ramps in IEEE arithmetic *)

(** A ramp whose values are multiples k * 2^e of a power of two with |k| <= 2^24
    (float) or 2^53 (double), and whose slope per vector is such a multiple and
    a float, is exactly base + i*slope in the scalar, the run-time and the
    compile-time SIMD form on every back-end: the same buffer bit for bit. *)
Theorem C10_exact_ramps_binary : 
  forall (B : backend) (n : nans (fmt_of B)) (vf : list (F (fmt_of B)) -> list (F (fmt_of B)) -> list (F (fmt_of B))) (f : F (fmt_of B) -> F (fmt_of B) -> F (fmt_of B))
         (m : mem (F (fmt_of B))) (out : Z) (a1 a2 : arg (F (fmt_of B))) (len : Z),
    lanewise2 B vf f ->
    legal_simd_length B len -> aligned B out -> accessible m out len ->
    simd_fit B m out len a1 -> exact_arg B len a1 ->
    simd_fit B m out len a2 -> exact_arg B len a2 ->
    exists r1 r2 : Z -> option (F (fmt_of B)),
      (forall i, 0 <= i < len -> denotes m a1 i (r1 i) /\ denotes m a2 i (r2 i)) /\
      let result := fun i => lift2 f (r1 i) (r2 i) in
      leaves m (binary_vec (farith n) f m out a1 a2 len) out len result /\
      leaves m (binary_vec_simd (farith n) B vf m out a1 a2 len) out len result /\
      leaves m (binary_vec_simd_ct (farith n) B (Z.to_nat (len / Z.of_nat (vsize B))) vf m out a1 a2) out len result.
Proof. exact C10_exact_ramps_binary_lemma. Qed.
Print Assumptions C10_exact_ramps_binary.

Example C10_exact_ramps_binary_ex :
  let m := block 0 80 (fun a => f_ofZ F32 (a * a)) in
  lanewise2 AVX32 (map2 (fmul (n0 F32))) (fmul (n0 F32)) /\
  legal_simd_length AVX32 32 /\ aligned AVX32 32 /\ accessible m 32 32 /\
  simd_fit AVX32 m 32 32 (APtr 40) /\ exact_arg (t := F32) AVX32 32 (APtr 40) /\
  simd_fit AVX32 m 32 32 (ARamp (f_lit F32 5 (-3)) (f_lit F32 (-3) (-4))) /\ exact_arg (t := F32) AVX32 32 (ARamp (f_lit F32 5 (-3)) (f_lit F32 (-3) (-4))).
Proof. fitr. Qed.

Theorem C10_exact_ramps_ternary : 
  forall (B : backend) (n : nans (fmt_of B)) (vf : list (F (fmt_of B)) -> list (F (fmt_of B)) -> list (F (fmt_of B)) -> list (F (fmt_of B))) (f : F (fmt_of B) -> F (fmt_of B) -> F (fmt_of B) -> F (fmt_of B))
         (m : mem (F (fmt_of B))) (out : Z) (a1 a2 a3 : arg (F (fmt_of B))) (len : Z),
    lanewise3 B vf f ->
    legal_simd_length B len -> aligned B out -> accessible m out len ->
    simd_fit B m out len a1 -> exact_arg B len a1 ->
    simd_fit B m out len a2 -> exact_arg B len a2 ->
    simd_fit B m out len a3 -> exact_arg B len a3 ->
    exists r1 r2 r3 : Z -> option (F (fmt_of B)),
      (forall i, 0 <= i < len -> denotes m a1 i (r1 i) /\ denotes m a2 i (r2 i) /\ denotes m a3 i (r3 i)) /\
      let result := fun i => lift3 f (r1 i) (r2 i) (r3 i) in
      leaves m (ternary_vec (farith n) f m out a1 a2 a3 len) out len result /\
      leaves m (ternary_vec_simd (farith n) B vf m out a1 a2 a3 len) out len result /\
      leaves m (ternary_vec_simd_ct (farith n) B (Z.to_nat (len / Z.of_nat (vsize B))) vf m out a1 a2 a3) out len result.
Proof. exact C10_exact_ramps_ternary_lemma. Qed.
Print Assumptions C10_exact_ramps_ternary.

Example C10_exact_ramps_ternary_ex :
  let m := block 0 80 (fun a => f_ofZ F32 (a * a)) in
  lanewise3 AVX32 (map3 (fun x y z => fadd (n0 F32) (fmul (n0 F32) x y) z)) (fun x y z => fadd (n0 F32) (fmul (n0 F32) x y) z) /\
  legal_simd_length AVX32 32 /\ aligned AVX32 32 /\ accessible m 32 32 /\
  simd_fit AVX32 m 32 32 (APtr 40) /\ exact_arg (t := F32) AVX32 32 (APtr 40) /\
  simd_fit AVX32 m 32 32 (ARamp (f_lit F32 5 (-3)) (f_lit F32 (-3) (-4))) /\ exact_arg (t := F32) AVX32 32 (ARamp (f_lit F32 5 (-3)) (f_lit F32 (-3) (-4))) /\
  simd_fit AVX32 m 32 32 (APtr 48) /\ exact_arg (t := F32) AVX32 32 (APtr 48).
Proof. fitr. Qed.

Theorem C10_exact_ramps_quaternary : 
  forall (B : backend) (n : nans (fmt_of B)) (vf : list (F (fmt_of B)) -> list (F (fmt_of B)) -> list (F (fmt_of B)) -> list (F (fmt_of B)) -> list (F (fmt_of B))) (f : F (fmt_of B) -> F (fmt_of B) -> F (fmt_of B) -> F (fmt_of B) -> F (fmt_of B))
         (m : mem (F (fmt_of B))) (out : Z) (a1 a2 a3 a4 : arg (F (fmt_of B))) (len : Z),
    lanewise4 B vf f ->
    legal_simd_length B len -> aligned B out -> accessible m out len ->
    simd_fit B m out len a1 -> exact_arg B len a1 ->
    simd_fit B m out len a2 -> exact_arg B len a2 ->
    simd_fit B m out len a3 -> exact_arg B len a3 ->
    simd_fit B m out len a4 -> exact_arg B len a4 ->
    exists r1 r2 r3 r4 : Z -> option (F (fmt_of B)),
      (forall i, 0 <= i < len -> denotes m a1 i (r1 i) /\ denotes m a2 i (r2 i) /\ denotes m a3 i (r3 i) /\ denotes m a4 i (r4 i)) /\
      let result := fun i => lift4 f (r1 i) (r2 i) (r3 i) (r4 i) in
      leaves m (quaternary_vec (farith n) f m out a1 a2 a3 a4 len) out len result /\
      leaves m (quaternary_vec_simd (farith n) B vf m out a1 a2 a3 a4 len) out len result /\
      leaves m (quaternary_vec_simd_ct (farith n) B (Z.to_nat (len / Z.of_nat (vsize B))) vf m out a1 a2 a3 a4) out len result.
Proof. exact C10_exact_ramps_quaternary_lemma. Qed.
Print Assumptions C10_exact_ramps_quaternary.

Example C10_exact_ramps_quaternary_ex :
  let m := block 0 80 (fun a => f_ofZ F32 (a * a)) in
  lanewise4 AVX32 (map4 (fun x y z w => fadd (n0 F32) (fmul (n0 F32) x y) (fmul (n0 F32) z w))) (fun x y z w => fadd (n0 F32) (fmul (n0 F32) x y) (fmul (n0 F32) z w)) /\
  legal_simd_length AVX32 32 /\ aligned AVX32 32 /\ accessible m 32 32 /\
  simd_fit AVX32 m 32 32 (APtr 40) /\ exact_arg (t := F32) AVX32 32 (APtr 40) /\
  simd_fit AVX32 m 32 32 (ARamp (f_lit F32 5 (-3)) (f_lit F32 (-3) (-4))) /\ exact_arg (t := F32) AVX32 32 (ARamp (f_lit F32 5 (-3)) (f_lit F32 (-3) (-4))) /\
  simd_fit AVX32 m 32 32 (APtr 48) /\ exact_arg (t := F32) AVX32 32 (APtr 48) /\
  simd_fit AVX32 m 32 32 (AScal (f_ofZ F32 2)) /\ exact_arg (t := F32) AVX32 32 (AScal (f_ofZ F32 2)).
Proof. fitr. Qed.

(** Integer ramps meet the condition: all values within the significand, the
    slope of a vector at most 2^24. *)
Theorem C10_integer_ramps_are_exact : 
  forall (B : backend) (len b s : Z),
    (forall i, 0 <= i < len -> Z.abs (b + i * s) <= 2 ^ sig_bits (fmt_of B)) -> Z.abs b <= 2 ^ sig_bits (fmt_of B) ->
    Z.abs s <= 2 ^ sig_bits (fmt_of B) -> Z.abs (lanes B * s) <= 2 ^ 24 ->
    exact_ramp B len (f_ofZ (fmt_of B) b) (f_ofZ (fmt_of B) s).
Proof. exact C10_integer_ramps_are_exact_lemma. Qed.
Print Assumptions C10_integer_ramps_are_exact.

Example C10_integer_ramps_are_exact_ex :
  
  (forall i, 0 <= i < 256 -> Z.abs (1000 + i * (-7)) <= 2 ^ sig_bits (fmt_of AVX64)) /\
  Z.abs 1000 <= 2 ^ sig_bits (fmt_of AVX64) /\ Z.abs (-7) <= 2 ^ sig_bits (fmt_of AVX64) /\ Z.abs (lanes AVX64 * -7) <= 2 ^ 24.
Proof. split; [intros i Hi; change (2 ^ sig_bits (fmt_of AVX64)) with 9007199254740992; lia|]. repeat split; vm_compute; discriminate. Qed.

(** The one case left out: a ramp that starts at -0 starts at +0 in the generic
    SIMD form. *)
Theorem C10_negative_zero_refuted : 
  exists base slope : F F32,
    let m := block 0 64 (fun _ => f_ofZ F32 1) in
    on_grid 0 base 0 /\ on_grid 0 slope 1 /\
    cell_bits' (binary_vec (farith (n0 F32)) (fun _ y => y) m 16 (APtr 16) (ARamp base slope) 16) 16 = Some 0x80000000 /\
    cell_bits' (binary_vec_simd (farith (n0 F32)) GEN32 (fun _ y => y) m 16 (APtr 16) (ARamp base slope) 16) 16 = Some 0.
Proof. exact C10_negative_zero_refuted_lemma. Qed.
Print Assumptions C10_negative_zero_refuted.

(** * C11: double ramps *)

(** Where double arithmetic is exact and the slope of a whole vector is not a
    float, the second vector of a SIMD ramp from 0 starts at the wrong value. *)
Theorem C11_second_vector_is_wrong : 
  forall (n : nans F64) (B : backend) (m : mem (F F64)) (slope : F F64) (e s : Z) v1 w1 v2 w2,
    fmt_of B = F64 -> usable_grid F64 e -> on_grid e slope s -> Z.abs (lanes B * s) <= 2 ^ sig_bits F64 ->
    ~ is_a_float (IZR (lanes B) * val slope) ->
    varg_consume (farith n) B m (wrap_vector_arg (farith n) B (ARamp (f_ofZ F64 0) slope)) = Ok (v1, w1) ->
    varg_consume (farith n) B m w1 = Ok (v2, w2) ->
    exists y, nth_error v2 0 = Some y /\ val y <> (IZR (lanes B) * val slope)%R.
Proof. exact C11_second_vector_is_wrong_lemma. Qed.
Print Assumptions C11_second_vector_is_wrong.

Example C11_second_vector_is_wrong_ex :
  let slope := f_ofZ F64 (2 ^ 24 + 1) in
  fmt_of SSE64 = F64 /\ usable_grid F64 0 /\ on_grid 0 slope (2 ^ 24 + 1) /\
  Z.abs (lanes SSE64 * (2 ^ 24 + 1)) <= 2 ^ sig_bits F64 /\ ~ is_a_float (IZR (lanes SSE64) * val slope) /\
  exists v1 w1 v2 w2,
    varg_consume (farith (n0 F64)) SSE64 (block 0 1 (fun _ => slope)) (wrap_vector_arg (farith (n0 F64)) SSE64 (ARamp (f_ofZ F64 0) slope)) = Ok (v1, w1) /\
    varg_consume (farith (n0 F64)) SSE64 (block 0 1 (fun _ => slope)) w1 = Ok (v2, w2).
Proof.
  destruct (f_lit_exact (t := F64) (2 ^ 24 + 1) 0) as (A1 & A2 & _); [vm_compute; discriminate..|reflexivity|].
  change (f_lit F64 (2 ^ 24 + 1) 0) with (f_ofZ F64 (2 ^ 24 + 1)) in *. cbv zeta.
  split; [reflexivity|]. split; [cbn; lia|]. split; [split; assumption|]. split; [vm_compute; discriminate|]. split.
  - rewrite A2. apply not_a_float_example.
  - do 4 eexists. split; reflexivity.
Qed.

(** It is right again, at every lane of every vector, when the slope of a whole
    vector is a float (this is part of [exact_ramp]). *)
Theorem C11_exact_again : 
  forall (n : nans F64) (B : backend) (m : mem (F F64)) (len : Z) (base slope : F F64) (i : Z) d J l,
    fmt_of B = F64 -> lanes B <= len -> exact_ramp B len base slope ->
    (l < vsize B)%nat -> i = Z.of_nat J * lanes B + Z.of_nat l -> i < len ->
    let vector := Nat.iter J (fun r => match r with
                                       | Ok (_, w) => varg_consume (farith n) B m w
                                       | Fault e => Fault e end)
                    (varg_consume (farith n) B m (wrap_vector_arg (farith n) B (ARamp base slope))) in
    exists v w, vector = Ok (v, w) /\ isfin (nth l v d) = true /\ val (nth l v d) = (val base + IZR i * val slope)%R.
Proof. exact C11_exact_again_lemma. Qed.
Print Assumptions C11_exact_again.

Example C11_exact_again_ex :
  
  fmt_of AVX64 = F64 /\ lanes AVX64 <= 1000 /\ exact_ramp AVX64 1000 (f_ofZ F64 (2 ^ 50)) (f_ofZ F64 (2 ^ 22 - 1)) /\
  (3 < vsize AVX64)%nat /\ 103 = Z.of_nat 25 * lanes AVX64 + Z.of_nat 3.
Proof.
  split; [reflexivity|]. split; [discriminate|]. split; [|split; [cbn; lia|reflexivity]].
  change F64 with (fmt_of AVX64).
  apply C10_integer_ramps_are_exact_lemma; [|vm_compute; discriminate..].
  intros i Hi. change (2 ^ sig_bits (fmt_of AVX64)) with 9007199254740992. lia.
Qed.

(** Base 0 and slope 2^24+1: the third sample is 2*(2^24+1) in the scalar loop
    and 2^25 in the SSE2 one. *)
Theorem C11_simd_equals_scalar_refuted : 
  exists base slope : F F64,
    let m := block 0 32 (fun _ => f_ofZ F64 1) in
    on_grid 0 base 0 /\ on_grid 0 slope (2 ^ 24 + 1) /\
    cell_bits' (binary_vec (farith (n0 F64)) (fun _ y => y) m 8 (APtr 8) (ARamp base slope) 8) 10
      = Some (bits (f_ofZ F64 (2 * (2 ^ 24 + 1)))) /\
    cell_bits' (binary_vec_simd (farith (n0 F64)) SSE64 (fun _ y => y) m 8 (APtr 8) (ARamp base slope) 8) 10
      = Some (bits (f_ofZ F64 (2 ^ 25))).
Proof. exact C11_simd_equals_scalar_refuted_lemma. Qed.
Print Assumptions C11_simd_equals_scalar_refuted.
