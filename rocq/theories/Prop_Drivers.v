(** C01-C09: the buffer drivers. *)
From Coq Require Import ZArith List Lia Bool.
From Verif Require Import Base Mem Loop Backend Args Drivers Spec
  DriverClaims2 KaryFacts DriverFacts ExData.
Import ListNotations.
Local Open Scope Z_scope.

(** * C01: scalar drivers *)

(** foo_vec(out, in, n): out[i] = f(in[i]), in-place and overlapping from above included. *)
Theorem C01_foo_vec_maps_unary : 
  forall A (ar : arith A) (f : A -> A) (m : mem A) (out inp n : Z),
    0 < n < 2 ^ 32 ->
    accessible m out n ->
    arg_fit m out n (APtr inp) ->
    leaves m (unary_vec f m out inp n) out n (fun i => lift1 f (m (inp + i))).
Proof. exact C01_foo_vec_maps_unary_lemma. Qed.
Print Assumptions C01_foo_vec_maps_unary.

Example C01_foo_vec_maps_unary_ex :
  let m := block 0 100 (fun a => a * a) in
  0 < 7 < 2 ^ 32 /\ accessible m 10 7 /\ arg_fit m 10 7 (APtr 13) /\
  exists m', unary_vec (fun x => x + 1) m 10 13 7 = Ok m' /\ m' 16 = Some (19 * 19 + 1).
Proof. fit. eexists. split; vm_compute; reflexivity. Qed.

(** The same with 2 arguments, each a pointer, a scalar or a ramp. *)
Theorem C01_foo_vec_maps_binary : 
  forall A (ar : arith A) (f : A -> A -> A) (m : mem A) (out : Z) (a1 a2 : arg A) (n : Z),
    0 < n < 2 ^ 32 ->
    accessible m out n ->
    arg_fit m out n a1 ->
    arg_fit m out n a2 ->
    leaves m (binary_vec ar f m out a1 a2 n) out n
      (fun i => lift2 f (sample ar m a1 i) (sample ar m a2 i)).
Proof. exact C01_foo_vec_maps_binary_lemma. Qed.
Print Assumptions C01_foo_vec_maps_binary.

Example C01_foo_vec_maps_binary_ex :
  let m := block 0 100 (fun a => a * a) in
  0 < 7 < 2 ^ 32 /\ accessible m 10 7 /\ arg_fit m 10 7 (APtr 10) /\ arg_fit m 10 7 (ARamp 5 3) /\
  exists m', binary_vec zarith (fun x y => x * y) m 10 (APtr 10) (ARamp 5 3) 7 = Ok m' /\
             m' 16 = Some (16 * 16 * 23).
Proof. fit. eexists. split; vm_compute; reflexivity. Qed.

(** The same with 3 arguments, each a pointer, a scalar or a ramp. *)
Theorem C01_foo_vec_maps_ternary : 
  forall A (ar : arith A) (f : A -> A -> A -> A) (m : mem A) (out : Z) (a1 a2 a3 : arg A) (n : Z),
    0 < n < 2 ^ 32 ->
    accessible m out n ->
    arg_fit m out n a1 ->
    arg_fit m out n a2 ->
    arg_fit m out n a3 ->
    leaves m (ternary_vec ar f m out a1 a2 a3 n) out n
      (fun i => lift3 f (sample ar m a1 i) (sample ar m a2 i) (sample ar m a3 i)).
Proof. exact C01_foo_vec_maps_ternary_lemma. Qed.
Print Assumptions C01_foo_vec_maps_ternary.

Example C01_foo_vec_maps_ternary_ex :
  let m := block 0 100 (fun a => a * a) in
  0 < 7 < 2 ^ 32 /\ accessible m 10 7 /\ arg_fit m 10 7 (APtr 10) /\ arg_fit m 10 7 (ARamp 5 3) /\ arg_fit m 10 7 (APtr 40) /\
  exists m', ternary_vec zarith (fun x y z => x * y - z) m 10 (APtr 10) (ARamp 5 3) (APtr 40) 7 = Ok m' /\
             m' 16 = Some (16 * 16 * 23 - 46 * 46).
Proof. fit. eexists. split; vm_compute; reflexivity. Qed.

(** The same with 4 arguments, each a pointer, a scalar or a ramp. *)
Theorem C01_foo_vec_maps_quaternary : 
  forall A (ar : arith A) (f : A -> A -> A -> A -> A) (m : mem A) (out : Z) (a1 a2 a3 a4 : arg A) (n : Z),
    0 < n < 2 ^ 32 ->
    accessible m out n ->
    arg_fit m out n a1 ->
    arg_fit m out n a2 ->
    arg_fit m out n a3 ->
    arg_fit m out n a4 ->
    leaves m (quaternary_vec ar f m out a1 a2 a3 a4 n) out n
      (fun i => lift4 f (sample ar m a1 i) (sample ar m a2 i) (sample ar m a3 i) (sample ar m a4 i)).
Proof. exact C01_foo_vec_maps_quaternary_lemma. Qed.
Print Assumptions C01_foo_vec_maps_quaternary.

Example C01_foo_vec_maps_quaternary_ex :
  let m := block 0 100 (fun a => a * a) in
  0 < 7 < 2 ^ 32 /\ accessible m 10 7 /\ arg_fit m 10 7 (APtr 10) /\ arg_fit m 10 7 (ARamp 5 3) /\ arg_fit m 10 7 (APtr 40) /\ arg_fit m 10 7 (AScal 2) /\
  exists m', quaternary_vec zarith (fun x y z w => (x * y - z) * w) m 10 (APtr 10) (ARamp 5 3) (APtr 40) (AScal 2) 7 = Ok m' /\
             m' 16 = Some ((16 * 16 * 23 - 46 * 46) * 2).
Proof. fit. eexists. split; vm_compute; reflexivity. Qed.

(** The compile-time-length scalar loop, 1 argument(s). *)
Theorem C01_fixed_length_unary : 
  forall A (ar : arith A) (f : A -> A) (m : mem A) (out : Z) (a1 : arg A) (size : nat),
    (0 < size)%nat ->
    accessible m out (Z.of_nat size) ->
    arg_fit m out (Z.of_nat size) a1 ->
    leaves m (ct_apply_on_vector1 ar size f m out a1) out (Z.of_nat size)
      (fun i => lift1 f (sample ar m a1 i)).
Proof. exact C01_fixed_length_unary_lemma. Qed.
Print Assumptions C01_fixed_length_unary.

Example C01_fixed_length_unary_ex :
  let m := block 0 100 (fun a => a * a) in
  (0 < 7)%nat /\ accessible m 10 (Z.of_nat 7) /\ arg_fit m 10 (Z.of_nat 7) (APtr 10).
Proof. fit. Qed.

(** The compile-time-length scalar loop, 2 argument(s). *)
Theorem C01_fixed_length_binary : 
  forall A (ar : arith A) (f : A -> A -> A) (m : mem A) (out : Z) (a1 a2 : arg A) (size : nat),
    (0 < size)%nat ->
    accessible m out (Z.of_nat size) ->
    arg_fit m out (Z.of_nat size) a1 ->
    arg_fit m out (Z.of_nat size) a2 ->
    leaves m (ct_apply_on_vector2 ar size f m out a1 a2) out (Z.of_nat size)
      (fun i => lift2 f (sample ar m a1 i) (sample ar m a2 i)).
Proof. exact C01_fixed_length_binary_lemma. Qed.
Print Assumptions C01_fixed_length_binary.

Example C01_fixed_length_binary_ex :
  let m := block 0 100 (fun a => a * a) in
  (0 < 7)%nat /\ accessible m 10 (Z.of_nat 7) /\ arg_fit m 10 (Z.of_nat 7) (APtr 10) /\ arg_fit m 10 (Z.of_nat 7) (ARamp 5 3).
Proof. fit. Qed.

(** The compile-time-length scalar loop, 3 argument(s). *)
Theorem C01_fixed_length_ternary : 
  forall A (ar : arith A) (f : A -> A -> A -> A) (m : mem A) (out : Z) (a1 a2 a3 : arg A) (size : nat),
    (0 < size)%nat ->
    accessible m out (Z.of_nat size) ->
    arg_fit m out (Z.of_nat size) a1 ->
    arg_fit m out (Z.of_nat size) a2 ->
    arg_fit m out (Z.of_nat size) a3 ->
    leaves m (ct_apply_on_vector3 ar size f m out a1 a2 a3) out (Z.of_nat size)
      (fun i => lift3 f (sample ar m a1 i) (sample ar m a2 i) (sample ar m a3 i)).
Proof. exact C01_fixed_length_ternary_lemma. Qed.
Print Assumptions C01_fixed_length_ternary.

Example C01_fixed_length_ternary_ex :
  let m := block 0 100 (fun a => a * a) in
  (0 < 7)%nat /\ accessible m 10 (Z.of_nat 7) /\ arg_fit m 10 (Z.of_nat 7) (APtr 10) /\ arg_fit m 10 (Z.of_nat 7) (ARamp 5 3) /\ arg_fit m 10 (Z.of_nat 7) (APtr 40).
Proof. fit. Qed.

(** The compile-time-length scalar loop, 4 argument(s). *)
Theorem C01_fixed_length_quaternary : 
  forall A (ar : arith A) (f : A -> A -> A -> A -> A) (m : mem A) (out : Z) (a1 a2 a3 a4 : arg A) (size : nat),
    (0 < size)%nat ->
    accessible m out (Z.of_nat size) ->
    arg_fit m out (Z.of_nat size) a1 ->
    arg_fit m out (Z.of_nat size) a2 ->
    arg_fit m out (Z.of_nat size) a3 ->
    arg_fit m out (Z.of_nat size) a4 ->
    leaves m (ct_apply_on_vector4 ar size f m out a1 a2 a3 a4) out (Z.of_nat size)
      (fun i => lift4 f (sample ar m a1 i) (sample ar m a2 i) (sample ar m a3 i) (sample ar m a4 i)).
Proof. exact C01_fixed_length_quaternary_lemma. Qed.
Print Assumptions C01_fixed_length_quaternary.

Example C01_fixed_length_quaternary_ex :
  let m := block 0 100 (fun a => a * a) in
  (0 < 7)%nat /\ accessible m 10 (Z.of_nat 7) /\ arg_fit m 10 (Z.of_nat 7) (APtr 10) /\ arg_fit m 10 (Z.of_nat 7) (ARamp 5 3) /\ arg_fit m 10 (Z.of_nat 7) (APtr 40) /\ arg_fit m 10 (Z.of_nat 7) (AScal 2).
Proof. fit. Qed.

(** * C02: SIMD drivers *)

(** foo_vec_simd on every back-end.  Only in[0,n) and out[0,n) need to be valid:
    the preloading never reads further. *)
Theorem C02_foo_vec_simd_maps_unary : 
  forall A (ar : arith A) (B : backend) (vf : list A -> list A) (f : A -> A)
         (m : mem A) (out inp n : Z),
    lanewise1 B vf f ->
    legal_simd_length B n ->
    aligned B out -> accessible m out n ->
    simd_fit B m out n (APtr inp) ->
    leaves m (unary_vec_simd ar B vf m out inp n) out n (fun i => lift1 f (m (inp + i))).
Proof. exact C02_foo_vec_simd_maps_unary_lemma. Qed.
Print Assumptions C02_foo_vec_simd_maps_unary.

Example C02_foo_vec_simd_maps_unary_ex :
  let m := block 0 72 (fun a => a * a) in
  lanewise1 AVX32 (map (fun x => x + 1)) (fun x => x + 1) /\ legal_simd_length AVX32 32 /\
  aligned AVX32 32 /\ accessible m 32 32 /\ simd_fit AVX32 m 32 32 (APtr 40) /\
  exists m', unary_vec_simd zarith AVX32 (map (fun x => x + 1)) m 32 40 32 = Ok m' /\
             m' 63 = Some (71 * 71 + 1).
Proof. fit. eexists. split; vm_compute; reflexivity. Qed.

(** 2 arguments, pointers or scalars, in any arithmetic (ramps: C09, C10). *)
Theorem C02_foo_vec_simd_maps_binary : 
  forall A (ar : arith A) (B : backend) (vf : list A -> list A -> list A) (f : A -> A -> A)
         (m : mem A) (out : Z) (a1 a2 : arg A) (n : Z),
    lanewise2 B vf f ->
    legal_simd_length B n ->
    aligned B out -> accessible m out n ->
    simd_fit B m out n a1 -> plain a1 ->
    simd_fit B m out n a2 -> plain a2 ->
    leaves m (binary_vec_simd ar B vf m out a1 a2 n) out n
      (fun i => lift2 f (sample ar m a1 i) (sample ar m a2 i)).
Proof. exact C02_foo_vec_simd_maps_binary_lemma. Qed.
Print Assumptions C02_foo_vec_simd_maps_binary.

Example C02_foo_vec_simd_maps_binary_ex :
  let m := block 0 80 (fun a => a * a) in
  lanewise2 SSE32 (map2 (fun x y => x * y)) (fun x y => x * y) /\ legal_simd_length SSE32 32 /\
  aligned SSE32 32 /\ accessible m 32 32 /\
  simd_fit SSE32 m 32 32 (APtr 40) /\ @plain Z (APtr 40) /\ simd_fit SSE32 m 32 32 (AScal 5) /\ @plain Z (AScal 5).
Proof. fit. Qed.

(** 3 arguments, pointers or scalars, in any arithmetic (ramps: C09, C10). *)
Theorem C02_foo_vec_simd_maps_ternary : 
  forall A (ar : arith A) (B : backend) (vf : list A -> list A -> list A -> list A) (f : A -> A -> A -> A)
         (m : mem A) (out : Z) (a1 a2 a3 : arg A) (n : Z),
    lanewise3 B vf f ->
    legal_simd_length B n ->
    aligned B out -> accessible m out n ->
    simd_fit B m out n a1 -> plain a1 ->
    simd_fit B m out n a2 -> plain a2 ->
    simd_fit B m out n a3 -> plain a3 ->
    leaves m (ternary_vec_simd ar B vf m out a1 a2 a3 n) out n
      (fun i => lift3 f (sample ar m a1 i) (sample ar m a2 i) (sample ar m a3 i)).
Proof. exact C02_foo_vec_simd_maps_ternary_lemma. Qed.
Print Assumptions C02_foo_vec_simd_maps_ternary.

Example C02_foo_vec_simd_maps_ternary_ex :
  let m := block 0 80 (fun a => a * a) in
  lanewise3 SSE32 (map3 (fun x y z => x * y - z)) (fun x y z => x * y - z) /\ legal_simd_length SSE32 32 /\
  aligned SSE32 32 /\ accessible m 32 32 /\
  simd_fit SSE32 m 32 32 (APtr 40) /\ @plain Z (APtr 40) /\ simd_fit SSE32 m 32 32 (AScal 5) /\ @plain Z (AScal 5) /\ simd_fit SSE32 m 32 32 (APtr 48) /\ @plain Z (APtr 48).
Proof. fit. Qed.

(** 4 arguments, pointers or scalars, in any arithmetic (ramps: C09, C10). *)
Theorem C02_foo_vec_simd_maps_quaternary : 
  forall A (ar : arith A) (B : backend) (vf : list A -> list A -> list A -> list A -> list A) (f : A -> A -> A -> A -> A)
         (m : mem A) (out : Z) (a1 a2 a3 a4 : arg A) (n : Z),
    lanewise4 B vf f ->
    legal_simd_length B n ->
    aligned B out -> accessible m out n ->
    simd_fit B m out n a1 -> plain a1 ->
    simd_fit B m out n a2 -> plain a2 ->
    simd_fit B m out n a3 -> plain a3 ->
    simd_fit B m out n a4 -> plain a4 ->
    leaves m (quaternary_vec_simd ar B vf m out a1 a2 a3 a4 n) out n
      (fun i => lift4 f (sample ar m a1 i) (sample ar m a2 i) (sample ar m a3 i) (sample ar m a4 i)).
Proof. exact C02_foo_vec_simd_maps_quaternary_lemma. Qed.
Print Assumptions C02_foo_vec_simd_maps_quaternary.

Example C02_foo_vec_simd_maps_quaternary_ex :
  let m := block 0 80 (fun a => a * a) in
  lanewise4 SSE32 (map4 (fun x y z w => (x * y - z) * w)) (fun x y z w => (x * y - z) * w) /\ legal_simd_length SSE32 32 /\
  aligned SSE32 32 /\ accessible m 32 32 /\
  simd_fit SSE32 m 32 32 (APtr 40) /\ @plain Z (APtr 40) /\ simd_fit SSE32 m 32 32 (AScal 5) /\ @plain Z (AScal 5) /\ simd_fit SSE32 m 32 32 (APtr 48) /\ @plain Z (APtr 48) /\ simd_fit SSE32 m 32 32 (AScal 2) /\ @plain Z (AScal 2).
Proof. fit. Qed.

(** * C03: compile-time length *)

(** foo_vec_simd<n> runs n/size vectors in one unrolled block; foo_vec_simd(n)
    runs blocks of one cache line. *)
Theorem C03_compile_time_equals_run_time_unary : 
  forall A (ar : arith A) (B : backend) (vf : list A -> list A) (f : A -> A)
         (m : mem A) (out inp n : Z),
    lanewise1 B vf f ->
    legal_simd_length B n ->
    aligned B out -> accessible m out n ->
    simd_fit B m out n (APtr inp) ->
    same_effect (unary_vec_simd_ct ar B (Z.to_nat (n / Z.of_nat (vsize B))) vf m out inp)
                (unary_vec_simd ar B vf m out inp n).
Proof. exact C03_compile_time_equals_run_time_unary_lemma. Qed.
Print Assumptions C03_compile_time_equals_run_time_unary.

Example C03_compile_time_equals_run_time_unary_ex :
  let m := block 0 72 (fun a => a * a) in
  lanewise1 SSE64 (map (fun x => x + 1)) (fun x => x + 1) /\ legal_simd_length SSE64 24 /\
  aligned SSE64 32 /\ accessible m 32 24 /\ simd_fit SSE64 m 32 24 (APtr 40).
Proof. fit. Qed.

Theorem C03_compile_time_equals_run_time_binary : 
  forall A (ar : arith A) (B : backend) (vf : list A -> list A -> list A) (f : A -> A -> A)
         (m : mem A) (out : Z) (a1 a2 : arg A) (n : Z),
    lanewise2 B vf f ->
    legal_simd_length B n ->
    aligned B out -> accessible m out n ->
    simd_fit B m out n a1 -> plain a1 ->
    simd_fit B m out n a2 -> plain a2 ->
    same_effect (binary_vec_simd_ct ar B (Z.to_nat (n / Z.of_nat (vsize B))) vf m out a1 a2)
                (binary_vec_simd ar B vf m out a1 a2 n).
Proof. exact C03_compile_time_equals_run_time_binary_lemma. Qed.
Print Assumptions C03_compile_time_equals_run_time_binary.

Example C03_compile_time_equals_run_time_binary_ex :
  let m := block 0 80 (fun a => a * a) in
  lanewise2 AVX64 (map2 (fun x y => x * y)) (fun x y => x * y) /\ legal_simd_length AVX64 24 /\
  aligned AVX64 32 /\ accessible m 32 24 /\
  simd_fit AVX64 m 32 24 (APtr 40) /\ @plain Z (APtr 40) /\ simd_fit AVX64 m 32 24 (AScal 5) /\ @plain Z (AScal 5).
Proof. fit. Qed.

Theorem C03_compile_time_equals_run_time_ternary : 
  forall A (ar : arith A) (B : backend) (vf : list A -> list A -> list A -> list A) (f : A -> A -> A -> A)
         (m : mem A) (out : Z) (a1 a2 a3 : arg A) (n : Z),
    lanewise3 B vf f ->
    legal_simd_length B n ->
    aligned B out -> accessible m out n ->
    simd_fit B m out n a1 -> plain a1 ->
    simd_fit B m out n a2 -> plain a2 ->
    simd_fit B m out n a3 -> plain a3 ->
    same_effect (ternary_vec_simd_ct ar B (Z.to_nat (n / Z.of_nat (vsize B))) vf m out a1 a2 a3)
                (ternary_vec_simd ar B vf m out a1 a2 a3 n).
Proof. exact C03_compile_time_equals_run_time_ternary_lemma. Qed.
Print Assumptions C03_compile_time_equals_run_time_ternary.

Example C03_compile_time_equals_run_time_ternary_ex :
  let m := block 0 80 (fun a => a * a) in
  lanewise3 AVX64 (map3 (fun x y z => x * y - z)) (fun x y z => x * y - z) /\ legal_simd_length AVX64 24 /\
  aligned AVX64 32 /\ accessible m 32 24 /\
  simd_fit AVX64 m 32 24 (APtr 40) /\ @plain Z (APtr 40) /\ simd_fit AVX64 m 32 24 (AScal 5) /\ @plain Z (AScal 5) /\ simd_fit AVX64 m 32 24 (APtr 48) /\ @plain Z (APtr 48).
Proof. fit. Qed.

Theorem C03_compile_time_equals_run_time_quaternary : 
  forall A (ar : arith A) (B : backend) (vf : list A -> list A -> list A -> list A -> list A) (f : A -> A -> A -> A -> A)
         (m : mem A) (out : Z) (a1 a2 a3 a4 : arg A) (n : Z),
    lanewise4 B vf f ->
    legal_simd_length B n ->
    aligned B out -> accessible m out n ->
    simd_fit B m out n a1 -> plain a1 ->
    simd_fit B m out n a2 -> plain a2 ->
    simd_fit B m out n a3 -> plain a3 ->
    simd_fit B m out n a4 -> plain a4 ->
    same_effect (quaternary_vec_simd_ct ar B (Z.to_nat (n / Z.of_nat (vsize B))) vf m out a1 a2 a3 a4)
                (quaternary_vec_simd ar B vf m out a1 a2 a3 a4 n).
Proof. exact C03_compile_time_equals_run_time_quaternary_lemma. Qed.
Print Assumptions C03_compile_time_equals_run_time_quaternary.

Example C03_compile_time_equals_run_time_quaternary_ex :
  let m := block 0 80 (fun a => a * a) in
  lanewise4 AVX64 (map4 (fun x y z w => (x * y - z) * w)) (fun x y z w => (x * y - z) * w) /\ legal_simd_length AVX64 24 /\
  aligned AVX64 32 /\ accessible m 32 24 /\
  simd_fit AVX64 m 32 24 (APtr 40) /\ @plain Z (APtr 40) /\ simd_fit AVX64 m 32 24 (AScal 5) /\ @plain Z (AScal 5) /\ simd_fit AVX64 m 32 24 (APtr 48) /\ @plain Z (APtr 48) /\ simd_fit AVX64 m 32 24 (AScal 2) /\ @plain Z (AScal 2).
Proof. fit. Qed.

(** * C04: SIMD and scalar drivers agree *)

Theorem C04_simd_equals_scalar_unary : 
  forall A (ar : arith A) (B : backend) (vf : list A -> list A) (f : A -> A)
         (m : mem A) (out inp n : Z),
    lanewise1 B vf f ->
    legal_simd_length B n ->
    aligned B out -> accessible m out n ->
    simd_fit B m out n (APtr inp) ->
    same_effect (unary_vec f m out inp n) (unary_vec_simd ar B vf m out inp n).
Proof. exact C04_simd_equals_scalar_unary_lemma. Qed.
Print Assumptions C04_simd_equals_scalar_unary.

Example C04_simd_equals_scalar_unary_ex :
  let m := block 0 72 (fun a => a * a) in
  lanewise1 NEON32 (map (fun x => x + 1)) (fun x => x + 1) /\ legal_simd_length NEON32 32 /\
  aligned NEON32 31 /\ accessible m 31 32 /\ simd_fit NEON32 m 31 32 (APtr 33).
Proof. fit. Qed.

Theorem C04_simd_equals_scalar_binary : 
  forall A (ar : arith A) (B : backend) (vf : list A -> list A -> list A) (f : A -> A -> A)
         (m : mem A) (out : Z) (a1 a2 : arg A) (n : Z),
    lanewise2 B vf f ->
    legal_simd_length B n ->
    aligned B out -> accessible m out n ->
    simd_fit B m out n a1 -> plain a1 ->
    simd_fit B m out n a2 -> plain a2 ->
    same_effect (binary_vec ar f m out a1 a2 n) (binary_vec_simd ar B vf m out a1 a2 n).
Proof. exact C04_simd_equals_scalar_binary_lemma. Qed.
Print Assumptions C04_simd_equals_scalar_binary.

Example C04_simd_equals_scalar_binary_ex :
  let m := block 0 80 (fun a => a * a) in
  lanewise2 ALTIVEC32 (map2 (fun x y => x * y)) (fun x y => x * y) /\ legal_simd_length ALTIVEC32 32 /\
  aligned ALTIVEC32 32 /\ accessible m 32 32 /\
  simd_fit ALTIVEC32 m 32 32 (APtr 40) /\ @plain Z (APtr 40) /\ simd_fit ALTIVEC32 m 32 32 (AScal 5) /\ @plain Z (AScal 5).
Proof. fit. Qed.

Theorem C04_simd_equals_scalar_ternary : 
  forall A (ar : arith A) (B : backend) (vf : list A -> list A -> list A -> list A) (f : A -> A -> A -> A)
         (m : mem A) (out : Z) (a1 a2 a3 : arg A) (n : Z),
    lanewise3 B vf f ->
    legal_simd_length B n ->
    aligned B out -> accessible m out n ->
    simd_fit B m out n a1 -> plain a1 ->
    simd_fit B m out n a2 -> plain a2 ->
    simd_fit B m out n a3 -> plain a3 ->
    same_effect (ternary_vec ar f m out a1 a2 a3 n) (ternary_vec_simd ar B vf m out a1 a2 a3 n).
Proof. exact C04_simd_equals_scalar_ternary_lemma. Qed.
Print Assumptions C04_simd_equals_scalar_ternary.

Example C04_simd_equals_scalar_ternary_ex :
  let m := block 0 80 (fun a => a * a) in
  lanewise3 ALTIVEC32 (map3 (fun x y z => x * y - z)) (fun x y z => x * y - z) /\ legal_simd_length ALTIVEC32 32 /\
  aligned ALTIVEC32 32 /\ accessible m 32 32 /\
  simd_fit ALTIVEC32 m 32 32 (APtr 40) /\ @plain Z (APtr 40) /\ simd_fit ALTIVEC32 m 32 32 (AScal 5) /\ @plain Z (AScal 5) /\ simd_fit ALTIVEC32 m 32 32 (APtr 48) /\ @plain Z (APtr 48).
Proof. fit. Qed.

Theorem C04_simd_equals_scalar_quaternary : 
  forall A (ar : arith A) (B : backend) (vf : list A -> list A -> list A -> list A -> list A) (f : A -> A -> A -> A -> A)
         (m : mem A) (out : Z) (a1 a2 a3 a4 : arg A) (n : Z),
    lanewise4 B vf f ->
    legal_simd_length B n ->
    aligned B out -> accessible m out n ->
    simd_fit B m out n a1 -> plain a1 ->
    simd_fit B m out n a2 -> plain a2 ->
    simd_fit B m out n a3 -> plain a3 ->
    simd_fit B m out n a4 -> plain a4 ->
    same_effect (quaternary_vec ar f m out a1 a2 a3 a4 n) (quaternary_vec_simd ar B vf m out a1 a2 a3 a4 n).
Proof. exact C04_simd_equals_scalar_quaternary_lemma. Qed.
Print Assumptions C04_simd_equals_scalar_quaternary.

Example C04_simd_equals_scalar_quaternary_ex :
  let m := block 0 80 (fun a => a * a) in
  lanewise4 ALTIVEC32 (map4 (fun x y z w => (x * y - z) * w)) (fun x y z w => (x * y - z) * w) /\ legal_simd_length ALTIVEC32 32 /\
  aligned ALTIVEC32 32 /\ accessible m 32 32 /\
  simd_fit ALTIVEC32 m 32 32 (APtr 40) /\ @plain Z (APtr 40) /\ simd_fit ALTIVEC32 m 32 32 (AScal 5) /\ @plain Z (AScal 5) /\ simd_fit ALTIVEC32 m 32 32 (APtr 48) /\ @plain Z (APtr 48) /\ simd_fit ALTIVEC32 m 32 32 (AScal 2) /\ @plain Z (AScal 2).
Proof. fit. Qed.

(** * C05: overlapping buffers *)

(** The input is the output buffer (distance 0) or starts above it: the result is
    that of the input as it was before the call. *)
Theorem C05_in_place_and_above_are_safe : 
  forall A (ar : arith A) (B : backend) (vf : list A -> list A) (f : A -> A)
         (m : mem A) (out distance n : Z),
    lanewise1 B vf f ->
    legal_simd_length B n ->
    0 <= distance -> aligned B out -> aligned B (out + distance) ->
    accessible m out (n + distance) ->
    leaves m (unary_vec f m out (out + distance) n) out n (fun i => lift1 f (m (out + distance + i))) /\
    leaves m (unary_vec_simd ar B vf m out (out + distance) n) out n
           (fun i => lift1 f (m (out + distance + i))).
Proof. exact C05_in_place_and_above_are_safe_lemma. Qed.
Print Assumptions C05_in_place_and_above_are_safe.

Example C05_in_place_and_above_are_safe_ex :
  let m := block 0 80 (fun a => a * a) in
  lanewise1 SSE32 (map (fun x => x + 1)) (fun x => x + 1) /\ legal_simd_length SSE32 32 /\
  0 <= 4 /\ aligned SSE32 8 /\ aligned SSE32 (8 + 4) /\ accessible m 8 (32 + 4).
Proof. fit. Qed.

(** The output starts [distance] above the input: foo_vec reads its own results
    back, out[i] is f applied i/distance + 1 times. *)
Theorem C05_below_reads_back : 
  forall A (f : A -> A) (m : mem A) (inp distance n : Z),
    0 < n < 2 ^ 32 -> 0 < distance ->
    accessible m inp (n + distance) ->
    leaves m (unary_vec f m (inp + distance) inp n) (inp + distance) n
      (fun i => option_map (Nat.iter (S (Z.to_nat (i / distance))) f) (m (inp + i mod distance))).
Proof. exact C05_below_reads_back_lemma. Qed.
Print Assumptions C05_below_reads_back.

Example C05_below_reads_back_ex :
  let m := block 0 80 (fun a => a * a) in
  0 < 9 < 2 ^ 32 /\ 0 < 3 /\ accessible m 8 (9 + 3) /\
  exists m', unary_vec (fun x => x + 1) m (8 + 3) 8 9 = Ok m' /\ m' 19 = Some (10 * 10 + 3).
Proof. fit. eexists. split; vm_compute; reflexivity. Qed.

(** Not safe from below: with out = in + size both drivers deviate from the map
    over the original input, and they deviate from each other. *)
Theorem C05_below_is_safe_refuted : 
  exists (m : mem Z) (out inp n : Z) (m1 m2 : mem Z),
    legal_simd_length SSE32 n /\ aligned SSE32 out /\ aligned SSE32 inp /\
    accessible m out n /\ accessible m inp n /\ inp < out /\
    unary_vec Z.succ m out inp n = Ok m1 /\
    unary_vec_simd (MkArith 0 Z.add Z.mul (fun x => x) (fun x => x)) SSE32 (map Z.succ) m out inp n = Ok m2 /\
    (exists i, 0 <= i < n /\ m1 (out + i) <> lift1 Z.succ (m (inp + i))) /\
    (exists i, 0 <= i < n /\ m2 (out + i) <> lift1 Z.succ (m (inp + i))) /\
    (exists i, 0 <= i < n /\ m1 (out + i) <> m2 (out + i)).
Proof. exact C05_below_is_safe_refuted_lemma. Qed.
Print Assumptions C05_below_is_safe_refuted.

(** * C06: zero and short lengths *)

(** n = 0 is not an empty call: whatever the functor and arguments, a memory that
    lacks any of the 2^32 cells out[0], out[1], ... faults. *)
Theorem C06_zero_length_unary : 
  forall A (ar : arith A) (f : A -> A) (m : mem A) (out inp i : Z),
    0 <= i < 2 ^ 32 -> m (out + i) = None ->
    memory_fault (unary_vec f m out inp 0).
Proof. exact C06_zero_length_unary_lemma. Qed.
Print Assumptions C06_zero_length_unary.

Example C06_zero_length_unary_ex :
  let m := block 0 100 (fun a => a) in 0 <= 90 < 2 ^ 32 /\ m (10 + 90) = None.
Proof. fit. Qed.

Theorem C06_zero_length_binary : 
  forall A (ar : arith A) (f : A -> A -> A) (m : mem A) (out : Z) (a1 a2 : arg A) (i : Z),
    0 <= i < 2 ^ 32 -> m (out + i) = None ->
    memory_fault (binary_vec ar f m out a1 a2 0).
Proof. exact C06_zero_length_binary_lemma. Qed.
Print Assumptions C06_zero_length_binary.

Example C06_zero_length_binary_ex :
  let m := block 0 100 (fun a => a) in 0 <= 90 < 2 ^ 32 /\ m (10 + 90) = None.
Proof. fit. Qed.

Theorem C06_zero_length_ternary : 
  forall A (ar : arith A) (f : A -> A -> A -> A) (m : mem A) (out : Z) (a1 a2 a3 : arg A) (i : Z),
    0 <= i < 2 ^ 32 -> m (out + i) = None ->
    memory_fault (ternary_vec ar f m out a1 a2 a3 0).
Proof. exact C06_zero_length_ternary_lemma. Qed.
Print Assumptions C06_zero_length_ternary.

Example C06_zero_length_ternary_ex :
  let m := block 0 100 (fun a => a) in 0 <= 90 < 2 ^ 32 /\ m (10 + 90) = None.
Proof. fit. Qed.

Theorem C06_zero_length_quaternary : 
  forall A (ar : arith A) (f : A -> A -> A -> A -> A) (m : mem A) (out : Z) (a1 a2 a3 a4 : arg A) (i : Z),
    0 <= i < 2 ^ 32 -> m (out + i) = None ->
    memory_fault (quaternary_vec ar f m out a1 a2 a3 a4 0).
Proof. exact C06_zero_length_quaternary_lemma. Qed.
Print Assumptions C06_zero_length_quaternary.

Example C06_zero_length_quaternary_ex :
  let m := block 0 100 (fun a => a) in 0 <= 90 < 2 ^ 32 /\ m (10 + 90) = None.
Proof. fit. Qed.

(** A SIMD length below samples_per_loop wraps the block counter in the same way. *)
Theorem C06_short_simd_length_unary : 
  forall A (ar : arith A) (B : backend) (vf : list A -> list A) (m : mem A) (out inp n i : Z),
    vfun1 B vf -> aligned B out ->
    0 <= n < loop_unit B ->
    0 <= i < 2 ^ 32 * loop_unit B -> m (out + i) = None ->
    memory_fault (unary_vec_simd ar B vf m out inp n).
Proof. exact C06_short_simd_length_unary_lemma. Qed.
Print Assumptions C06_short_simd_length_unary.

Example C06_short_simd_length_unary_ex :
  let m := block 0 100 (fun a => a) in
  vfun1 AVX32 (map Z.succ) /\ aligned AVX32 8 /\ 0 <= 15 < loop_unit AVX32 /\
  0 <= 92 < 2 ^ 32 * loop_unit AVX32 /\ m (8 + 92) = None.
Proof. fit. unfold vfun1. intros. rewrite map_length. assumption. Qed.

Theorem C06_short_simd_length_binary : 
  forall A (ar : arith A) (B : backend) (vf : list A -> list A -> list A) (m : mem A) (out : Z) (a1 a2 : arg A) (n i : Z),
    vfun2 B vf -> aligned B out ->
    0 <= n < loop_unit B ->
    0 <= i < 2 ^ 32 * loop_unit B -> m (out + i) = None ->
    memory_fault (binary_vec_simd ar B vf m out a1 a2 n).
Proof. exact C06_short_simd_length_binary_lemma. Qed.
Print Assumptions C06_short_simd_length_binary.

Example C06_short_simd_length_binary_ex :
  let m := block 0 100 (fun a => a) in
  vfun2 AVX32 (map2 (fun x y => x * y)) /\ aligned AVX32 8 /\ 0 <= 15 < loop_unit AVX32 /\
  0 <= 92 < 2 ^ 32 * loop_unit AVX32 /\ m (8 + 92) = None.
Proof. fit. unfold vfun2. intros. rewrite map2_length; congruence. Qed.

Theorem C06_short_simd_length_ternary : 
  forall A (ar : arith A) (B : backend) (vf : list A -> list A -> list A -> list A) (m : mem A) (out : Z) (a1 a2 a3 : arg A) (n i : Z),
    vfun3 B vf -> aligned B out ->
    0 <= n < loop_unit B ->
    0 <= i < 2 ^ 32 * loop_unit B -> m (out + i) = None ->
    memory_fault (ternary_vec_simd ar B vf m out a1 a2 a3 n).
Proof. exact C06_short_simd_length_ternary_lemma. Qed.
Print Assumptions C06_short_simd_length_ternary.

Example C06_short_simd_length_ternary_ex :
  let m := block 0 100 (fun a => a) in
  vfun3 AVX32 (map3 (fun x y z => x * y - z)) /\ aligned AVX32 8 /\ 0 <= 15 < loop_unit AVX32 /\
  0 <= 92 < 2 ^ 32 * loop_unit AVX32 /\ m (8 + 92) = None.
Proof. fit. unfold vfun3. intros. rewrite map3_length; congruence. Qed.

Theorem C06_short_simd_length_quaternary : 
  forall A (ar : arith A) (B : backend) (vf : list A -> list A -> list A -> list A -> list A) (m : mem A) (out : Z) (a1 a2 a3 a4 : arg A) (n i : Z),
    vfun4 B vf -> aligned B out ->
    0 <= n < loop_unit B ->
    0 <= i < 2 ^ 32 * loop_unit B -> m (out + i) = None ->
    memory_fault (quaternary_vec_simd ar B vf m out a1 a2 a3 a4 n).
Proof. exact C06_short_simd_length_quaternary_lemma. Qed.
Print Assumptions C06_short_simd_length_quaternary.

Example C06_short_simd_length_quaternary_ex :
  let m := block 0 100 (fun a => a) in
  vfun4 AVX32 (map4 (fun x y z w => (x * y - z) * w)) /\ aligned AVX32 8 /\ 0 <= 15 < loop_unit AVX32 /\
  0 <= 92 < 2 ^ 32 * loop_unit AVX32 /\ m (8 + 92) = None.
Proof. fit. unfold vfun4. intros. rewrite map4_length; congruence. Qed.

(** * C07: lengths that are not a multiple *)

(** Only whole blocks are processed: the call is the one with n rounded down, and
    the remaining outputs keep their values. *)
Theorem C07_tail_untouched_unary : 
  forall A (ar : arith A) (B : backend) (vf : list A -> list A) (m : mem A) (out inp n : Z),
    loop_unit B <= n < 2 ^ 32 ->
    unary_vec_simd ar B vf m out inp n = unary_vec_simd ar B vf m out inp (n - n mod loop_unit B) /\
    (forall f, lanewise1 B vf f -> aligned B out ->
       accessible m out (n - n mod loop_unit B) ->
       simd_fit B m out (n - n mod loop_unit B) (APtr inp) ->
       leaves m (unary_vec_simd ar B vf m out inp n) out (n - n mod loop_unit B)
              (fun i => lift1 f (m (inp + i)))).
Proof. exact C07_tail_untouched_unary_lemma. Qed.
Print Assumptions C07_tail_untouched_unary.

Example C07_tail_untouched_unary_ex :
  let m := block 0 60 (fun a => a * a) in
  loop_unit SSE32 <= 27 < 2 ^ 32 /\ lanewise1 SSE32 (map Z.succ) Z.succ /\ aligned SSE32 32 /\
  accessible m 32 (27 - 27 mod loop_unit SSE32) /\
  simd_fit SSE32 m 32 (27 - 27 mod loop_unit SSE32) (APtr 0) /\
  exists m', unary_vec_simd zarith SSE32 (map Z.succ) m 32 0 27 = Ok m' /\ m' 48 = m 48.
Proof. fit.
  eexists. split; vm_compute; reflexivity. Qed.

Theorem C07_tail_untouched_binary : 
  forall A (ar : arith A) (B : backend) (vf : list A -> list A -> list A) (m : mem A) (out : Z) (a1 a2 : arg A) (n : Z),
    loop_unit B <= n < 2 ^ 32 ->
    binary_vec_simd ar B vf m out a1 a2 n =
      binary_vec_simd ar B vf m out a1 a2 (n - n mod loop_unit B) /\
    (forall f, lanewise2 B vf f -> aligned B out ->
       accessible m out (n - n mod loop_unit B) ->
       simd_fit B m out (n - n mod loop_unit B) a1 -> plain a1 ->
    simd_fit B m out (n - n mod loop_unit B) a2 -> plain a2 ->
       leaves m (binary_vec_simd ar B vf m out a1 a2 n) out (n - n mod loop_unit B)
         (fun i => lift2 f (sample ar m a1 i) (sample ar m a2 i))).
Proof. exact C07_tail_untouched_binary_lemma. Qed.
Print Assumptions C07_tail_untouched_binary.

Example C07_tail_untouched_binary_ex :
  let m := block 0 80 (fun a => a * a) in
  loop_unit SSE32 <= 27 < 2 ^ 32 /\ lanewise2 SSE32 (map2 (fun x y => x * y)) (fun x y => x * y) /\ aligned SSE32 32 /\
  accessible m 32 (27 - 27 mod loop_unit SSE32) /\
  simd_fit SSE32 m 32 (27 - 27 mod loop_unit SSE32) (APtr 40) /\ @plain Z (APtr 40) /\ simd_fit SSE32 m 32 (27 - 27 mod loop_unit SSE32) (AScal 5) /\ @plain Z (AScal 5).
Proof. fit. Qed.

Theorem C07_tail_untouched_ternary : 
  forall A (ar : arith A) (B : backend) (vf : list A -> list A -> list A -> list A) (m : mem A) (out : Z) (a1 a2 a3 : arg A) (n : Z),
    loop_unit B <= n < 2 ^ 32 ->
    ternary_vec_simd ar B vf m out a1 a2 a3 n =
      ternary_vec_simd ar B vf m out a1 a2 a3 (n - n mod loop_unit B) /\
    (forall f, lanewise3 B vf f -> aligned B out ->
       accessible m out (n - n mod loop_unit B) ->
       simd_fit B m out (n - n mod loop_unit B) a1 -> plain a1 ->
    simd_fit B m out (n - n mod loop_unit B) a2 -> plain a2 ->
    simd_fit B m out (n - n mod loop_unit B) a3 -> plain a3 ->
       leaves m (ternary_vec_simd ar B vf m out a1 a2 a3 n) out (n - n mod loop_unit B)
         (fun i => lift3 f (sample ar m a1 i) (sample ar m a2 i) (sample ar m a3 i))).
Proof. exact C07_tail_untouched_ternary_lemma. Qed.
Print Assumptions C07_tail_untouched_ternary.

Example C07_tail_untouched_ternary_ex :
  let m := block 0 80 (fun a => a * a) in
  loop_unit SSE32 <= 27 < 2 ^ 32 /\ lanewise3 SSE32 (map3 (fun x y z => x * y - z)) (fun x y z => x * y - z) /\ aligned SSE32 32 /\
  accessible m 32 (27 - 27 mod loop_unit SSE32) /\
  simd_fit SSE32 m 32 (27 - 27 mod loop_unit SSE32) (APtr 40) /\ @plain Z (APtr 40) /\ simd_fit SSE32 m 32 (27 - 27 mod loop_unit SSE32) (AScal 5) /\ @plain Z (AScal 5) /\ simd_fit SSE32 m 32 (27 - 27 mod loop_unit SSE32) (APtr 48) /\ @plain Z (APtr 48).
Proof. fit. Qed.

Theorem C07_tail_untouched_quaternary : 
  forall A (ar : arith A) (B : backend) (vf : list A -> list A -> list A -> list A -> list A) (m : mem A) (out : Z) (a1 a2 a3 a4 : arg A) (n : Z),
    loop_unit B <= n < 2 ^ 32 ->
    quaternary_vec_simd ar B vf m out a1 a2 a3 a4 n =
      quaternary_vec_simd ar B vf m out a1 a2 a3 a4 (n - n mod loop_unit B) /\
    (forall f, lanewise4 B vf f -> aligned B out ->
       accessible m out (n - n mod loop_unit B) ->
       simd_fit B m out (n - n mod loop_unit B) a1 -> plain a1 ->
    simd_fit B m out (n - n mod loop_unit B) a2 -> plain a2 ->
    simd_fit B m out (n - n mod loop_unit B) a3 -> plain a3 ->
    simd_fit B m out (n - n mod loop_unit B) a4 -> plain a4 ->
       leaves m (quaternary_vec_simd ar B vf m out a1 a2 a3 a4 n) out (n - n mod loop_unit B)
         (fun i => lift4 f (sample ar m a1 i) (sample ar m a2 i) (sample ar m a3 i) (sample ar m a4 i))).
Proof. exact C07_tail_untouched_quaternary_lemma. Qed.
Print Assumptions C07_tail_untouched_quaternary.

Example C07_tail_untouched_quaternary_ex :
  let m := block 0 80 (fun a => a * a) in
  loop_unit SSE32 <= 27 < 2 ^ 32 /\ lanewise4 SSE32 (map4 (fun x y z w => (x * y - z) * w)) (fun x y z w => (x * y - z) * w) /\ aligned SSE32 32 /\
  accessible m 32 (27 - 27 mod loop_unit SSE32) /\
  simd_fit SSE32 m 32 (27 - 27 mod loop_unit SSE32) (APtr 40) /\ @plain Z (APtr 40) /\ simd_fit SSE32 m 32 (27 - 27 mod loop_unit SSE32) (AScal 5) /\ @plain Z (AScal 5) /\ simd_fit SSE32 m 32 (27 - 27 mod loop_unit SSE32) (APtr 48) /\ @plain Z (APtr 48) /\ simd_fit SSE32 m 32 (27 - 27 mod loop_unit SSE32) (AScal 2) /\ @plain Z (AScal 2).
Proof. fit. Qed.

(** * C08: alignment *)

(** On SSE and AVX, on valid memory, one misaligned pointer is enough for an
    alignment fault (aligned calls succeed: C02). *)
Theorem C08_misaligned_traps_unary : 
  forall A (ar : arith A) (B : backend) (vf : list A -> list A) (m : mem A) (out inp n : Z),
    traps B -> vfun1 B vf ->
    loop_unit B <= n < 2 ^ 32 ->
    accessible m inp (loop_unit B) ->
    ~ (aligned B out /\ aligned B inp) ->
    exists p, unary_vec_simd ar B vf m out inp n = Fault (Misaligned p).
Proof. exact C08_misaligned_traps_unary_lemma. Qed.
Print Assumptions C08_misaligned_traps_unary.

Example C08_misaligned_traps_unary_ex :
  let m := block 0 80 (fun a => a * a) in
  traps SSE64 /\ vfun1 SSE64 (map (fun x => x + 1)) /\ loop_unit SSE64 <= 16 < 2 ^ 32 /\
  accessible m 13 (loop_unit SSE64) /\ ~ (aligned SSE64 32 /\ aligned SSE64 13).
Proof.
  cbv zeta. split; [exact I|]. split; [unfold vfun1; intros; rewrite map_length; congruence|].
  split; [cbn; lia|].
  repeat (split; [first [exact I | apply accessible_block; cbn; lia]|]).
  intros [_ [q Hq]]. cbn in Hq. lia.
Qed.

Theorem C08_misaligned_traps_binary : 
  forall A (ar : arith A) (B : backend) (vf : list A -> list A -> list A) (m : mem A) (out : Z) (a1 a2 : arg A) (n : Z),
    traps B -> vfun2 B vf ->
    loop_unit B <= n < 2 ^ 32 ->
    arg_accessible m a1 (loop_unit B) ->
    arg_accessible m a2 (loop_unit B) ->
    ~ (aligned B out /\ arg_aligned B a1 /\ arg_aligned B a2) ->
    exists p, binary_vec_simd ar B vf m out a1 a2 n = Fault (Misaligned p).
Proof. exact C08_misaligned_traps_binary_lemma. Qed.
Print Assumptions C08_misaligned_traps_binary.

Example C08_misaligned_traps_binary_ex :
  let m := block 0 80 (fun a => a * a) in
  traps SSE64 /\ vfun2 SSE64 (map2 (fun x y => x * y)) /\ loop_unit SSE64 <= 16 < 2 ^ 32 /\
  arg_accessible m (APtr 13) (loop_unit SSE64) /\ arg_accessible m (AScal 5) (loop_unit SSE64) /\ ~ (aligned SSE64 32 /\ @arg_aligned Z SSE64 (APtr 13) /\ @arg_aligned Z SSE64 (AScal 5)).
Proof.
  cbv zeta. split; [exact I|]. split; [unfold vfun2; intros; rewrite map2_length; congruence|].
  split; [cbn; lia|].
  repeat (split; [first [exact I | apply accessible_block; cbn; lia]|]).
  intros (_ & [q Hq] & _). cbn in Hq. lia.
Qed.

Theorem C08_misaligned_traps_ternary : 
  forall A (ar : arith A) (B : backend) (vf : list A -> list A -> list A -> list A) (m : mem A) (out : Z) (a1 a2 a3 : arg A) (n : Z),
    traps B -> vfun3 B vf ->
    loop_unit B <= n < 2 ^ 32 ->
    arg_accessible m a1 (loop_unit B) ->
    arg_accessible m a2 (loop_unit B) ->
    arg_accessible m a3 (loop_unit B) ->
    ~ (aligned B out /\ arg_aligned B a1 /\ arg_aligned B a2 /\ arg_aligned B a3) ->
    exists p, ternary_vec_simd ar B vf m out a1 a2 a3 n = Fault (Misaligned p).
Proof. exact C08_misaligned_traps_ternary_lemma. Qed.
Print Assumptions C08_misaligned_traps_ternary.

Example C08_misaligned_traps_ternary_ex :
  let m := block 0 80 (fun a => a * a) in
  traps SSE64 /\ vfun3 SSE64 (map3 (fun x y z => x * y - z)) /\ loop_unit SSE64 <= 16 < 2 ^ 32 /\
  arg_accessible m (APtr 13) (loop_unit SSE64) /\ arg_accessible m (AScal 5) (loop_unit SSE64) /\ arg_accessible m (APtr 48) (loop_unit SSE64) /\ ~ (aligned SSE64 32 /\ @arg_aligned Z SSE64 (APtr 13) /\ @arg_aligned Z SSE64 (AScal 5) /\ @arg_aligned Z SSE64 (APtr 48)).
Proof.
  cbv zeta. split; [exact I|]. split; [unfold vfun3; intros; rewrite map3_length; congruence|].
  split; [cbn; lia|].
  repeat (split; [first [exact I | apply accessible_block; cbn; lia]|]).
  intros (_ & [q Hq] & _). cbn in Hq. lia.
Qed.

Theorem C08_misaligned_traps_quaternary : 
  forall A (ar : arith A) (B : backend) (vf : list A -> list A -> list A -> list A -> list A) (m : mem A) (out : Z) (a1 a2 a3 a4 : arg A) (n : Z),
    traps B -> vfun4 B vf ->
    loop_unit B <= n < 2 ^ 32 ->
    arg_accessible m a1 (loop_unit B) ->
    arg_accessible m a2 (loop_unit B) ->
    arg_accessible m a3 (loop_unit B) ->
    arg_accessible m a4 (loop_unit B) ->
    ~ (aligned B out /\ arg_aligned B a1 /\ arg_aligned B a2 /\ arg_aligned B a3 /\ arg_aligned B a4) ->
    exists p, quaternary_vec_simd ar B vf m out a1 a2 a3 a4 n = Fault (Misaligned p).
Proof. exact C08_misaligned_traps_quaternary_lemma. Qed.
Print Assumptions C08_misaligned_traps_quaternary.

Example C08_misaligned_traps_quaternary_ex :
  let m := block 0 80 (fun a => a * a) in
  traps SSE64 /\ vfun4 SSE64 (map4 (fun x y z w => (x * y - z) * w)) /\ loop_unit SSE64 <= 16 < 2 ^ 32 /\
  arg_accessible m (APtr 13) (loop_unit SSE64) /\ arg_accessible m (AScal 5) (loop_unit SSE64) /\ arg_accessible m (APtr 48) (loop_unit SSE64) /\ arg_accessible m (AScal 2) (loop_unit SSE64) /\ ~ (aligned SSE64 32 /\ @arg_aligned Z SSE64 (APtr 13) /\ @arg_aligned Z SSE64 (AScal 5) /\ @arg_aligned Z SSE64 (APtr 48) /\ @arg_aligned Z SSE64 (AScal 2)).
Proof.
  cbv zeta. split; [exact I|]. split; [unfold vfun4; intros; rewrite map4_length; congruence|].
  split; [cbn; lia|].
  repeat (split; [first [exact I | apply accessible_block; cbn; lia]|]).
  intros (_ & [q Hq] & _). cbn in Hq. lia.
Qed.

(** vec::is_aligned accepts exactly the addresses aligned loads and stores accept. *)
Theorem C08_is_aligned_exact : 
  forall (B : backend) (a : Z),
    traps B ->
    (is_aligned B (a * elem_bytes B) = true <-> aligned B a) /\
    (forall A (m : mem A), accessible m a (Z.of_nat (vsize B)) ->
       if is_aligned B (a * elem_bytes B)
       then exists v, vload_aligned B m a = Ok v
       else vload_aligned B m a = Fault (Misaligned a)) /\
    (forall A (m : mem A) (v : list A), length v = vsize B -> accessible m a (Z.of_nat (vsize B)) ->
       if is_aligned B (a * elem_bytes B)
       then exists m', vstore_aligned B m a v = Ok m'
       else vstore_aligned B m a v = Fault (Misaligned a)).
Proof. exact C08_is_aligned_exact_lemma. Qed.
Print Assumptions C08_is_aligned_exact.

Example C08_is_aligned_exact_ex :
  let m := block 0 80 (fun a => a * a) in
  traps AVX64 /\ accessible m 8 (Z.of_nat (vsize AVX64)) /\ accessible m 9 (Z.of_nat (vsize AVX64)) /\
  is_aligned AVX64 (8 * elem_bytes AVX64) = true /\ is_aligned AVX64 (9 * elem_bytes AVX64) = false.
Proof. fit. Qed.

(** On the generic and NEON back-ends every address meets the alignment
    hypothesis of C02. *)
Theorem C08_no_alignment_needed : 
  forall (B : backend) (p : Z),
    B = GEN32 \/ B = GEN64 \/ B = NEON32 -> aligned B p.
Proof. exact C08_no_alignment_needed_lemma. Qed.
Print Assumptions C08_no_alignment_needed.

Example C08_no_alignment_needed_ex : aligned NEON32 13 /\ ~ aligned SSE32 13.
Proof. split; [apply C08_no_alignment_needed; auto|]. intros [q Hq]. cbn in Hq. lia. Qed.

(** * C09: ramps in exact arithmetic *)

(** A ramp (base, slope) is base + slope*i at every sample i of the scalar, the
    run-time SIMD and the compile-time SIMD form, on every back-end. *)
Theorem C09_ramps_are_lines_binary : 
  forall A (ar : arith A) (B : backend) (vf : list A -> list A -> list A) (f : A -> A -> A)
         (m : mem A) (out : Z) (a1 a2 : arg A) (n : Z),
    exact_arith ar ->
    lanewise2 B vf f ->
    legal_simd_length B n ->
    aligned B out -> accessible m out n ->
    simd_fit B m out n a1 ->
    simd_fit B m out n a2 ->
    let result := (fun i => lift2 f (line ar m a1 i) (line ar m a2 i)) in
    leaves m (binary_vec ar f m out a1 a2 n) out n result /\
    leaves m (binary_vec_simd ar B vf m out a1 a2 n) out n result /\
    leaves m (binary_vec_simd_ct ar B (Z.to_nat (n / Z.of_nat (vsize B))) vf m out a1 a2) out n result.
Proof. exact C09_ramps_are_lines_binary_lemma. Qed.
Print Assumptions C09_ramps_are_lines_binary.

Example C09_ramps_are_lines_binary_ex :
  let m := block 0 80 (fun a => a * a) in
  exact_arith zarith /\ lanewise2 AVX32 (map2 (fun x y => x * y)) (fun x y => x * y) /\ legal_simd_length AVX32 32 /\
  aligned AVX32 32 /\ accessible m 32 32 /\
  simd_fit AVX32 m 32 32 (APtr 40) /\ simd_fit AVX32 m 32 32 (ARamp 5 3).
Proof. split; [exact zarith_exact|]. fit. Qed.

Theorem C09_ramps_are_lines_ternary : 
  forall A (ar : arith A) (B : backend) (vf : list A -> list A -> list A -> list A) (f : A -> A -> A -> A)
         (m : mem A) (out : Z) (a1 a2 a3 : arg A) (n : Z),
    exact_arith ar ->
    lanewise3 B vf f ->
    legal_simd_length B n ->
    aligned B out -> accessible m out n ->
    simd_fit B m out n a1 ->
    simd_fit B m out n a2 ->
    simd_fit B m out n a3 ->
    let result := (fun i => lift3 f (line ar m a1 i) (line ar m a2 i) (line ar m a3 i)) in
    leaves m (ternary_vec ar f m out a1 a2 a3 n) out n result /\
    leaves m (ternary_vec_simd ar B vf m out a1 a2 a3 n) out n result /\
    leaves m (ternary_vec_simd_ct ar B (Z.to_nat (n / Z.of_nat (vsize B))) vf m out a1 a2 a3) out n result.
Proof. exact C09_ramps_are_lines_ternary_lemma. Qed.
Print Assumptions C09_ramps_are_lines_ternary.

Example C09_ramps_are_lines_ternary_ex :
  let m := block 0 80 (fun a => a * a) in
  exact_arith zarith /\ lanewise3 AVX32 (map3 (fun x y z => x * y - z)) (fun x y z => x * y - z) /\ legal_simd_length AVX32 32 /\
  aligned AVX32 32 /\ accessible m 32 32 /\
  simd_fit AVX32 m 32 32 (APtr 40) /\ simd_fit AVX32 m 32 32 (ARamp 5 3) /\ simd_fit AVX32 m 32 32 (APtr 48).
Proof. split; [exact zarith_exact|]. fit. Qed.

Theorem C09_ramps_are_lines_quaternary : 
  forall A (ar : arith A) (B : backend) (vf : list A -> list A -> list A -> list A -> list A) (f : A -> A -> A -> A -> A)
         (m : mem A) (out : Z) (a1 a2 a3 a4 : arg A) (n : Z),
    exact_arith ar ->
    lanewise4 B vf f ->
    legal_simd_length B n ->
    aligned B out -> accessible m out n ->
    simd_fit B m out n a1 ->
    simd_fit B m out n a2 ->
    simd_fit B m out n a3 ->
    simd_fit B m out n a4 ->
    let result := (fun i => lift4 f (line ar m a1 i) (line ar m a2 i) (line ar m a3 i) (line ar m a4 i)) in
    leaves m (quaternary_vec ar f m out a1 a2 a3 a4 n) out n result /\
    leaves m (quaternary_vec_simd ar B vf m out a1 a2 a3 a4 n) out n result /\
    leaves m (quaternary_vec_simd_ct ar B (Z.to_nat (n / Z.of_nat (vsize B))) vf m out a1 a2 a3 a4) out n result.
Proof. exact C09_ramps_are_lines_quaternary_lemma. Qed.
Print Assumptions C09_ramps_are_lines_quaternary.

Example C09_ramps_are_lines_quaternary_ex :
  let m := block 0 80 (fun a => a * a) in
  exact_arith zarith /\ lanewise4 AVX32 (map4 (fun x y z w => (x * y - z) * w)) (fun x y z w => (x * y - z) * w) /\ legal_simd_length AVX32 32 /\
  aligned AVX32 32 /\ accessible m 32 32 /\
  simd_fit AVX32 m 32 32 (APtr 40) /\ simd_fit AVX32 m 32 32 (ARamp 5 3) /\ simd_fit AVX32 m 32 32 (APtr 48) /\ simd_fit AVX32 m 32 32 (AScal 2).
Proof. split; [exact zarith_exact|]. fit. Qed.
