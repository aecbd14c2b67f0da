(** C12-C18: the buffer functions of simd_memory.hpp, simd_pan.hpp, simd_mix.hpp,
    simd_ternary_arithmetic.hpp. *)
From Coq Require Import ZArith List Lia.
From Verif Require Import Base Mem Backend Args Drivers Spec MemFuns Pan Functors ExData MemClaims.
Import ListNotations.
Local Open Scope Z_scope.

(** * C12: zerovec, setvec *)

Theorem C12_zerovec : 
  forall A (ar : arith A) (m : mem A) dest n,
    0 <= n -> accessible m dest n ->
    leaves m (zerovec ar m dest n) dest n (fun _ => Some (a_zero ar)).
Proof. exact C12_zerovec_lemma. Qed.
Print Assumptions C12_zerovec.

Example C12_zerovec_ex :
  let m := block 0 40 (fun a => a * a + 1) in
  0 <= 5 /\ accessible m 3 5 /\
  exists m', zerovec zarith m 3 5 = Ok m' /\ map m' [2; 3; 7; 8] = [Some 5; Some 0; Some 0; Some 65].
Proof. fit; try (eexists; split; vm_compute; reflexivity). Qed.

Theorem C12_setvec : 
  forall A (m : mem A) dest f n,
    0 < n < 2 ^ 32 -> accessible m dest n ->
    leaves m (setvec m dest f n) dest n (fun _ => Some f).
Proof. exact C12_setvec_lemma. Qed.
Print Assumptions C12_setvec.

Example C12_setvec_ex :
  let m := block 0 40 (fun a => a * a + 1) in
  0 < 5 < 2 ^ 32 /\ accessible m 3 5 /\
  exists m', setvec m 3 9 5 = Ok m' /\ map m' [2; 3; 7; 8] = [Some 5; Some 9; Some 9; Some 65].
Proof. fit; try (eexists; split; vm_compute; reflexivity). Qed.

Theorem C12_zerovec_simd : 
  forall A (ar : arith A) (B : backend) (m : mem A) dest n,
    legal_simd_length B n -> aligned B dest -> accessible m dest n ->
    leaves m (zerovec_simd ar B m dest n) dest n (fun _ => Some (a_zero ar)).
Proof. exact C12_zerovec_simd_lemma. Qed.
Print Assumptions C12_zerovec_simd.

Example C12_zerovec_simd_ex :
  let m := block 0 80 (fun a => a * a + 1) in
  legal_simd_length AVX32 32 /\ aligned AVX32 32 /\ accessible m 32 32 /\
  exists m', zerovec_simd zarith AVX32 m 32 32 = Ok m' /\
             map m' [31; 40; 66] = [Some 962; Some 0; Some 4357].
Proof. fit; try (intros; discriminate); try (eexists; split; vm_compute; reflexivity). Qed.

Theorem C12_zerovec_simd_fixed_length : 
  forall A (ar : arith A) (B : backend) (m : mem A) dest (k : nat),
    aligned B dest -> accessible m dest (Z.of_nat k * Z.of_nat (vsize B)) ->
    leaves m (zerovec_simd_ct ar B k m dest) dest (Z.of_nat k * Z.of_nat (vsize B)) (fun _ => Some (a_zero ar)).
Proof. exact C12_zerovec_simd_fixed_length_lemma. Qed.
Print Assumptions C12_zerovec_simd_fixed_length.

Example C12_zerovec_simd_fixed_length_ex :
  let m := block 0 80 (fun a => a * a + 1) in
  aligned AVX32 32 /\ accessible m 32 (Z.of_nat 4 * Z.of_nat (vsize AVX32)) /\
  exists m', zerovec_simd_ct zarith AVX32 4 m 32 = Ok m' /\
             map m' [31; 40; 66] = [Some 962; Some 0; Some 4357].
Proof. fit; try (intros; discriminate); try (eexists; split; vm_compute; reflexivity). Qed.

Theorem C12_zerovec_na_simd : 
  forall A (ar : arith A) (B : backend) (m : mem A) dest n,
    legal_simd_length B n -> (B = ALTIVEC32 -> aligned B dest) -> accessible m dest n ->
    leaves m (zerovec_na_simd ar B m dest n) dest n (fun _ => Some (a_zero ar)).
Proof. exact C12_zerovec_na_simd_lemma. Qed.
Print Assumptions C12_zerovec_na_simd.

Example C12_zerovec_na_simd_ex :
  let m := block 0 80 (fun a => a * a + 1) in
  legal_simd_length AVX32 32 /\ (AVX32 = ALTIVEC32 -> aligned AVX32 33) /\ accessible m 33 32 /\
  exists m', zerovec_na_simd zarith AVX32 m 33 32 = Ok m' /\
             map m' [31; 40; 66] = [Some 962; Some 0; Some 4357].
Proof. fit; try (intros; discriminate); try (eexists; split; vm_compute; reflexivity). Qed.

Theorem C12_zerovec_na_simd_fixed_length : 
  forall A (ar : arith A) (B : backend) (m : mem A) dest (k : nat),
    (B = ALTIVEC32 -> aligned B dest) -> accessible m dest (Z.of_nat k * Z.of_nat (vsize B)) ->
    leaves m (zerovec_na_simd_ct ar B k m dest) dest (Z.of_nat k * Z.of_nat (vsize B)) (fun _ => Some (a_zero ar)).
Proof. exact C12_zerovec_na_simd_fixed_length_lemma. Qed.
Print Assumptions C12_zerovec_na_simd_fixed_length.

Example C12_zerovec_na_simd_fixed_length_ex :
  let m := block 0 80 (fun a => a * a + 1) in
  (AVX32 = ALTIVEC32 -> aligned AVX32 33) /\ accessible m 33 (Z.of_nat 4 * Z.of_nat (vsize AVX32)) /\
  exists m', zerovec_na_simd_ct zarith AVX32 4 m 33 = Ok m' /\
             map m' [31; 40; 66] = [Some 962; Some 0; Some 4357].
Proof. fit; try (intros; discriminate); try (eexists; split; vm_compute; reflexivity). Qed.

Theorem C12_setvec_simd : 
  forall A (B : backend) (m : mem A) dest (f : A) n,
    legal_simd_length B n -> aligned B dest -> accessible m dest n ->
    leaves m (setvec_simd B m dest f n) dest n (fun _ => Some (f)).
Proof. exact C12_setvec_simd_lemma. Qed.
Print Assumptions C12_setvec_simd.

Example C12_setvec_simd_ex :
  let m := block 0 80 (fun a => a * a + 1) in
  legal_simd_length AVX32 32 /\ aligned AVX32 32 /\ accessible m 32 32 /\
  exists m', setvec_simd AVX32 m 32 9 32 = Ok m' /\
             map m' [31; 40; 66] = [Some 962; Some 9; Some 4357].
Proof. fit; try (intros; discriminate); try (eexists; split; vm_compute; reflexivity). Qed.

Theorem C12_setvec_simd_fixed_length : 
  forall A (B : backend) (m : mem A) dest (f : A) (k : nat),
    aligned B dest -> accessible m dest (Z.of_nat k * Z.of_nat (vsize B)) ->
    leaves m (setvec_simd_ct B k m dest f) dest (Z.of_nat k * Z.of_nat (vsize B)) (fun _ => Some (f)).
Proof. exact C12_setvec_simd_fixed_length_lemma. Qed.
Print Assumptions C12_setvec_simd_fixed_length.

Example C12_setvec_simd_fixed_length_ex :
  let m := block 0 80 (fun a => a * a + 1) in
  aligned AVX32 32 /\ accessible m 32 (Z.of_nat 4 * Z.of_nat (vsize AVX32)) /\
  exists m', setvec_simd_ct AVX32 4 m 32 9 = Ok m' /\
             map m' [31; 40; 66] = [Some 962; Some 9; Some 4357].
Proof. fit; try (intros; discriminate); try (eexists; split; vm_compute; reflexivity). Qed.

Theorem C12_setvec_na_simd : 
  forall A (B : backend) (m : mem A) dest (f : A) n,
    legal_simd_length B n -> (B = ALTIVEC32 -> aligned B dest) -> accessible m dest n ->
    leaves m (setvec_na_simd B m dest f n) dest n (fun _ => Some (f)).
Proof. exact C12_setvec_na_simd_lemma. Qed.
Print Assumptions C12_setvec_na_simd.

Example C12_setvec_na_simd_ex :
  let m := block 0 80 (fun a => a * a + 1) in
  legal_simd_length AVX32 32 /\ (AVX32 = ALTIVEC32 -> aligned AVX32 33) /\ accessible m 33 32 /\
  exists m', setvec_na_simd AVX32 m 33 9 32 = Ok m' /\
             map m' [31; 40; 66] = [Some 962; Some 9; Some 4357].
Proof. fit; try (intros; discriminate); try (eexists; split; vm_compute; reflexivity). Qed.

Theorem C12_setvec_na_simd_fixed_length : 
  forall A (B : backend) (m : mem A) dest (f : A) (k : nat),
    (B = ALTIVEC32 -> aligned B dest) -> accessible m dest (Z.of_nat k * Z.of_nat (vsize B)) ->
    leaves m (setvec_na_simd_ct B k m dest f) dest (Z.of_nat k * Z.of_nat (vsize B)) (fun _ => Some (f)).
Proof. exact C12_setvec_na_simd_fixed_length_lemma. Qed.
Print Assumptions C12_setvec_na_simd_fixed_length.

Example C12_setvec_na_simd_fixed_length_ex :
  let m := block 0 80 (fun a => a * a + 1) in
  (AVX32 = ALTIVEC32 -> aligned AVX32 33) /\ accessible m 33 (Z.of_nat 4 * Z.of_nat (vsize AVX32)) /\
  exists m', setvec_na_simd_ct AVX32 4 m 33 9 = Ok m' /\
             map m' [31; 40; 66] = [Some 962; Some 9; Some 4357].
Proof. fit; try (intros; discriminate); try (eexists; split; vm_compute; reflexivity). Qed.

(** * C13: copyvec *)

Theorem C13_copyvec : 
  forall A (m : mem A) dest src n,
    0 <= n -> accessible m dest n -> accessible m src n -> disjoint dest src n ->
    leaves m (copyvec m dest src n) dest n (fun i => m (src + i)).
Proof. exact C13_copyvec_lemma. Qed.
Print Assumptions C13_copyvec.

Example C13_copyvec_ex :
  let m := block 0 40 (fun a => a * a + 1) in
  0 <= 5 /\ accessible m 3 5 /\ accessible m 20 5 /\ disjoint 3 20 5 /\
  exists m', copyvec m 3 20 5 = Ok m' /\ map m' [2; 3; 7; 8] = [Some 5; Some 401; Some 577; Some 65].
Proof. fit; try (unfold disjoint; lia); eexists; split; vm_compute; reflexivity. Qed.

Theorem C13_copyvec_simd : 
  forall A (B : backend) (m : mem A) dest src n,
    legal_simd_length B n ->
    access_ok B true dest -> access_ok B true src ->
    accessible m dest n -> accessible m src (n + Z.of_nat (vsize B)) ->
    overlap_ok dest (@APtr A src) n ->
    leaves m (copyvec_simd B m dest src n) dest n (fun i => m (src + i)).
Proof. exact C13_copyvec_simd_lemma. Qed.
Print Assumptions C13_copyvec_simd.

Example C13_copyvec_simd_ex :
  let m := block 0 80 (fun a => a * a + 1) in
  legal_simd_length SSE32 16 /\ access_ok SSE32 true 0 /\ access_ok SSE32 true 32 /\
  accessible m 0 16 /\ accessible m 32 (16 + Z.of_nat (vsize SSE32)) /\ overlap_ok 0 (@APtr Z 32) 16 /\
  exists m', copyvec_simd SSE32 m 0 32 16 = Ok m' /\
             map m' [0 + 0; 0 + 15; 0 + 16] = [Some (32 * 32 + 1); Some ((32 + 15) * (32 + 15) + 1); Some ((0 + 16) * (0 + 16) + 1)].
Proof. fit; try (intros [C | C]; try discriminate C; fit); try (eexists; split; vm_compute; reflexivity). Qed.

Theorem C13_copyvec_simd_over_reads : 
  forall A (B : backend) (m : mem A) dest src n i,
    legal_simd_length B n -> access_ok B true src ->
    n <= i < n + Z.of_nat (vsize B) -> m (src + i) = None ->
    memory_fault (copyvec_simd B m dest src n).
Proof. exact C13_copyvec_simd_over_reads_lemma. Qed.
Print Assumptions C13_copyvec_simd_over_reads.

Example C13_copyvec_simd_over_reads_ex :
  let m := block 0 48 (fun a => a * a + 1) in
  legal_simd_length SSE32 16 /\ access_ok SSE32 true 32 /\ 16 <= 16 < 16 + Z.of_nat (vsize SSE32) /\
  m (32 + 16) = None.
Proof. fit; try (intros [C | C]; try discriminate C; fit). Qed.

Theorem C13_copyvec_aa_simd : 
  forall A (B : backend) (m : mem A) dest src n,
    legal_simd_length B n ->
    access_ok B true dest -> access_ok B true src ->
    accessible m dest n -> accessible m src (n + Z.of_nat (vsize B)) ->
    overlap_ok dest (@APtr A src) n ->
    leaves m (copyvec_aa_simd B m dest src n) dest n (fun i => m (src + i)).
Proof. exact C13_copyvec_aa_simd_lemma. Qed.
Print Assumptions C13_copyvec_aa_simd.

Example C13_copyvec_aa_simd_ex :
  let m := block 0 80 (fun a => a * a + 1) in
  legal_simd_length SSE32 16 /\ access_ok SSE32 true 0 /\ access_ok SSE32 true 32 /\
  accessible m 0 16 /\ accessible m 32 (16 + Z.of_nat (vsize SSE32)) /\ overlap_ok 0 (@APtr Z 32) 16 /\
  exists m', copyvec_aa_simd SSE32 m 0 32 16 = Ok m' /\
             map m' [0 + 0; 0 + 15; 0 + 16] = [Some (32 * 32 + 1); Some ((32 + 15) * (32 + 15) + 1); Some ((0 + 16) * (0 + 16) + 1)].
Proof. fit; try (intros [C | C]; try discriminate C; fit); try (eexists; split; vm_compute; reflexivity). Qed.

Theorem C13_copyvec_aa_simd_fixed_length : 
  forall A (B : backend) (m : mem A) dest src (k : nat),
    let n := Z.of_nat k * Z.of_nat (vsize B) in
    access_ok B true dest -> access_ok B true src ->
    accessible m dest n -> accessible m src (n + Z.of_nat (vsize B)) ->
    overlap_ok dest (@APtr A src) n ->
    leaves m (copyvec_aa_simd_ct B k m dest src) dest n (fun i => m (src + i)).
Proof. exact C13_copyvec_aa_simd_fixed_length_lemma. Qed.
Print Assumptions C13_copyvec_aa_simd_fixed_length.

Example C13_copyvec_aa_simd_fixed_length_ex :
  let m := block 0 80 (fun a => a * a + 1) in
  let n := Z.of_nat 4 * Z.of_nat (vsize SSE32) in
  access_ok SSE32 true 0 /\ access_ok SSE32 true 32 /\
  accessible m 0 n /\ accessible m 32 (n + Z.of_nat (vsize SSE32)) /\ overlap_ok 0 (@APtr Z 32) n /\
  exists m', copyvec_aa_simd_ct SSE32 4 m 0 32 = Ok m' /\
             map m' [0 + 0; 0 + 15; 0 + 16] = [Some (32 * 32 + 1); Some ((32 + 15) * (32 + 15) + 1); Some ((0 + 16) * (0 + 16) + 1)].
Proof. fit; try (intros [C | C]; try discriminate C; fit); try (eexists; split; vm_compute; reflexivity). Qed.

Theorem C13_copyvec_aa_simd_over_reads : 
  forall A (B : backend) (m : mem A) dest src n i,
    legal_simd_length B n -> access_ok B true src ->
    n <= i < n + Z.of_nat (vsize B) -> m (src + i) = None ->
    memory_fault (copyvec_aa_simd B m dest src n).
Proof. exact C13_copyvec_aa_simd_over_reads_lemma. Qed.
Print Assumptions C13_copyvec_aa_simd_over_reads.

Example C13_copyvec_aa_simd_over_reads_ex :
  let m := block 0 48 (fun a => a * a + 1) in
  legal_simd_length SSE32 16 /\ access_ok SSE32 true 32 /\ 16 <= 16 < 16 + Z.of_nat (vsize SSE32) /\
  m (32 + 16) = None.
Proof. fit; try (intros [C | C]; try discriminate C; fit). Qed.

Theorem C13_copyvec_aa_simd_fixed_length_over_reads : 
  forall A (B : backend) (m : mem A) dest src (k : nat) i,
    let n := Z.of_nat k * Z.of_nat (vsize B) in
    access_ok B true src ->
    n <= i < n + Z.of_nat (vsize B) -> m (src + i) = None ->
    memory_fault (copyvec_aa_simd_ct B k m dest src).
Proof. exact C13_copyvec_aa_simd_fixed_length_over_reads_lemma. Qed.
Print Assumptions C13_copyvec_aa_simd_fixed_length_over_reads.

Example C13_copyvec_aa_simd_fixed_length_over_reads_ex :
  let m := block 0 48 (fun a => a * a + 1) in
  let n := Z.of_nat 4 * Z.of_nat (vsize SSE32) in
  access_ok SSE32 true 32 /\ n <= 16 < n + Z.of_nat (vsize SSE32) /\ m (32 + 16) = None.
Proof. fit; try (intros [C | C]; try discriminate C; fit). Qed.

Theorem C13_copyvec_na_simd : 
  forall A (B : backend) (m : mem A) dest src n,
    legal_simd_length B n ->
    access_ok B true dest -> access_ok B false src ->
    accessible m dest n -> accessible m src (n + Z.of_nat (vsize B)) ->
    overlap_ok dest (@APtr A src) n ->
    leaves m (copyvec_na_simd B m dest src n) dest n (fun i => m (src + i)).
Proof. exact C13_copyvec_na_simd_lemma. Qed.
Print Assumptions C13_copyvec_na_simd.

Example C13_copyvec_na_simd_ex :
  let m := block 0 80 (fun a => a * a + 1) in
  legal_simd_length SSE32 16 /\ access_ok SSE32 true 0 /\ access_ok SSE32 false 34 /\
  accessible m 0 16 /\ accessible m 34 (16 + Z.of_nat (vsize SSE32)) /\ overlap_ok 0 (@APtr Z 34) 16 /\
  exists m', copyvec_na_simd SSE32 m 0 34 16 = Ok m' /\
             map m' [0 + 0; 0 + 15; 0 + 16] = [Some (34 * 34 + 1); Some ((34 + 15) * (34 + 15) + 1); Some ((0 + 16) * (0 + 16) + 1)].
Proof. fit; try (intros [C | C]; try discriminate C; fit); try (eexists; split; vm_compute; reflexivity). Qed.

Theorem C13_copyvec_na_simd_fixed_length : 
  forall A (B : backend) (m : mem A) dest src (k : nat),
    let n := Z.of_nat k * Z.of_nat (vsize B) in
    access_ok B true dest -> access_ok B false src ->
    accessible m dest n -> accessible m src (n + Z.of_nat (vsize B)) ->
    overlap_ok dest (@APtr A src) n ->
    leaves m (copyvec_na_simd_ct B k m dest src) dest n (fun i => m (src + i)).
Proof. exact C13_copyvec_na_simd_fixed_length_lemma. Qed.
Print Assumptions C13_copyvec_na_simd_fixed_length.

Example C13_copyvec_na_simd_fixed_length_ex :
  let m := block 0 80 (fun a => a * a + 1) in
  let n := Z.of_nat 4 * Z.of_nat (vsize SSE32) in
  access_ok SSE32 true 0 /\ access_ok SSE32 false 34 /\
  accessible m 0 n /\ accessible m 34 (n + Z.of_nat (vsize SSE32)) /\ overlap_ok 0 (@APtr Z 34) n /\
  exists m', copyvec_na_simd_ct SSE32 4 m 0 34 = Ok m' /\
             map m' [0 + 0; 0 + 15; 0 + 16] = [Some (34 * 34 + 1); Some ((34 + 15) * (34 + 15) + 1); Some ((0 + 16) * (0 + 16) + 1)].
Proof. fit; try (intros [C | C]; try discriminate C; fit); try (eexists; split; vm_compute; reflexivity). Qed.

Theorem C13_copyvec_na_simd_over_reads : 
  forall A (B : backend) (m : mem A) dest src n i,
    legal_simd_length B n -> access_ok B false src ->
    n <= i < n + Z.of_nat (vsize B) -> m (src + i) = None ->
    memory_fault (copyvec_na_simd B m dest src n).
Proof. exact C13_copyvec_na_simd_over_reads_lemma. Qed.
Print Assumptions C13_copyvec_na_simd_over_reads.

Example C13_copyvec_na_simd_over_reads_ex :
  let m := block 0 48 (fun a => a * a + 1) in
  legal_simd_length SSE32 16 /\ access_ok SSE32 false 32 /\ 16 <= 16 < 16 + Z.of_nat (vsize SSE32) /\
  m (32 + 16) = None.
Proof. fit; try (intros [C | C]; try discriminate C; fit). Qed.

Theorem C13_copyvec_na_simd_fixed_length_over_reads : 
  forall A (B : backend) (m : mem A) dest src (k : nat) i,
    let n := Z.of_nat k * Z.of_nat (vsize B) in
    access_ok B false src ->
    n <= i < n + Z.of_nat (vsize B) -> m (src + i) = None ->
    memory_fault (copyvec_na_simd_ct B k m dest src).
Proof. exact C13_copyvec_na_simd_fixed_length_over_reads_lemma. Qed.
Print Assumptions C13_copyvec_na_simd_fixed_length_over_reads.

Example C13_copyvec_na_simd_fixed_length_over_reads_ex :
  let m := block 0 48 (fun a => a * a + 1) in
  let n := Z.of_nat 4 * Z.of_nat (vsize SSE32) in
  access_ok SSE32 false 32 /\ n <= 16 < n + Z.of_nat (vsize SSE32) /\ m (32 + 16) = None.
Proof. fit; try (intros [C | C]; try discriminate C; fit). Qed.

Theorem C13_copyvec_an_simd : 
  forall A (B : backend) (m : mem A) dest src n,
    legal_simd_length B n ->
    access_ok B false dest -> access_ok B true src ->
    accessible m dest n -> accessible m src (n + Z.of_nat (vsize B)) ->
    overlap_ok dest (@APtr A src) n ->
    leaves m (copyvec_an_simd B m dest src n) dest n (fun i => m (src + i)).
Proof. exact C13_copyvec_an_simd_lemma. Qed.
Print Assumptions C13_copyvec_an_simd.

Example C13_copyvec_an_simd_ex :
  let m := block 0 80 (fun a => a * a + 1) in
  legal_simd_length SSE32 16 /\ access_ok SSE32 false 3 /\ access_ok SSE32 true 32 /\
  accessible m 3 16 /\ accessible m 32 (16 + Z.of_nat (vsize SSE32)) /\ overlap_ok 3 (@APtr Z 32) 16 /\
  exists m', copyvec_an_simd SSE32 m 3 32 16 = Ok m' /\
             map m' [3 + 0; 3 + 15; 3 + 16] = [Some (32 * 32 + 1); Some ((32 + 15) * (32 + 15) + 1); Some ((3 + 16) * (3 + 16) + 1)].
Proof. fit; try (intros [C | C]; try discriminate C; fit); try (eexists; split; vm_compute; reflexivity). Qed.

Theorem C13_copyvec_an_simd_fixed_length : 
  forall A (B : backend) (m : mem A) dest src (k : nat),
    let n := Z.of_nat k * Z.of_nat (vsize B) in
    access_ok B false dest -> access_ok B true src ->
    accessible m dest n -> accessible m src (n + Z.of_nat (vsize B)) ->
    overlap_ok dest (@APtr A src) n ->
    leaves m (copyvec_an_simd_ct B k m dest src) dest n (fun i => m (src + i)).
Proof. exact C13_copyvec_an_simd_fixed_length_lemma. Qed.
Print Assumptions C13_copyvec_an_simd_fixed_length.

Example C13_copyvec_an_simd_fixed_length_ex :
  let m := block 0 80 (fun a => a * a + 1) in
  let n := Z.of_nat 4 * Z.of_nat (vsize SSE32) in
  access_ok SSE32 false 3 /\ access_ok SSE32 true 32 /\
  accessible m 3 n /\ accessible m 32 (n + Z.of_nat (vsize SSE32)) /\ overlap_ok 3 (@APtr Z 32) n /\
  exists m', copyvec_an_simd_ct SSE32 4 m 3 32 = Ok m' /\
             map m' [3 + 0; 3 + 15; 3 + 16] = [Some (32 * 32 + 1); Some ((32 + 15) * (32 + 15) + 1); Some ((3 + 16) * (3 + 16) + 1)].
Proof. fit; try (intros [C | C]; try discriminate C; fit); try (eexists; split; vm_compute; reflexivity). Qed.

Theorem C13_copyvec_an_simd_over_reads : 
  forall A (B : backend) (m : mem A) dest src n i,
    legal_simd_length B n -> access_ok B true src ->
    n <= i < n + Z.of_nat (vsize B) -> m (src + i) = None ->
    memory_fault (copyvec_an_simd B m dest src n).
Proof. exact C13_copyvec_an_simd_over_reads_lemma. Qed.
Print Assumptions C13_copyvec_an_simd_over_reads.

Example C13_copyvec_an_simd_over_reads_ex :
  let m := block 0 48 (fun a => a * a + 1) in
  legal_simd_length SSE32 16 /\ access_ok SSE32 true 32 /\ 16 <= 16 < 16 + Z.of_nat (vsize SSE32) /\
  m (32 + 16) = None.
Proof. fit; try (intros [C | C]; try discriminate C; fit). Qed.

Theorem C13_copyvec_an_simd_fixed_length_over_reads : 
  forall A (B : backend) (m : mem A) dest src (k : nat) i,
    let n := Z.of_nat k * Z.of_nat (vsize B) in
    access_ok B true src ->
    n <= i < n + Z.of_nat (vsize B) -> m (src + i) = None ->
    memory_fault (copyvec_an_simd_ct B k m dest src).
Proof. exact C13_copyvec_an_simd_fixed_length_over_reads_lemma. Qed.
Print Assumptions C13_copyvec_an_simd_fixed_length_over_reads.

Example C13_copyvec_an_simd_fixed_length_over_reads_ex :
  let m := block 0 48 (fun a => a * a + 1) in
  let n := Z.of_nat 4 * Z.of_nat (vsize SSE32) in
  access_ok SSE32 true 32 /\ n <= 16 < n + Z.of_nat (vsize SSE32) /\ m (32 + 16) = None.
Proof. fit; try (intros [C | C]; try discriminate C; fit). Qed.

Theorem C13_copyvec_nn_simd : 
  forall A (B : backend) (m : mem A) dest src n,
    legal_simd_length B n ->
    access_ok B false dest -> access_ok B false src ->
    accessible m dest n -> accessible m src (n + Z.of_nat (vsize B)) ->
    overlap_ok dest (@APtr A src) n ->
    leaves m (copyvec_nn_simd B m dest src n) dest n (fun i => m (src + i)).
Proof. exact C13_copyvec_nn_simd_lemma. Qed.
Print Assumptions C13_copyvec_nn_simd.

Example C13_copyvec_nn_simd_ex :
  let m := block 0 80 (fun a => a * a + 1) in
  legal_simd_length SSE32 16 /\ access_ok SSE32 false 3 /\ access_ok SSE32 false 34 /\
  accessible m 3 16 /\ accessible m 34 (16 + Z.of_nat (vsize SSE32)) /\ overlap_ok 3 (@APtr Z 34) 16 /\
  exists m', copyvec_nn_simd SSE32 m 3 34 16 = Ok m' /\
             map m' [3 + 0; 3 + 15; 3 + 16] = [Some (34 * 34 + 1); Some ((34 + 15) * (34 + 15) + 1); Some ((3 + 16) * (3 + 16) + 1)].
Proof. fit; try (intros [C | C]; try discriminate C; fit); try (eexists; split; vm_compute; reflexivity). Qed.

Theorem C13_copyvec_nn_simd_fixed_length : 
  forall A (B : backend) (m : mem A) dest src (k : nat),
    let n := Z.of_nat k * Z.of_nat (vsize B) in
    access_ok B false dest -> access_ok B false src ->
    accessible m dest n -> accessible m src (n + Z.of_nat (vsize B)) ->
    overlap_ok dest (@APtr A src) n ->
    leaves m (copyvec_nn_simd_ct B k m dest src) dest n (fun i => m (src + i)).
Proof. exact C13_copyvec_nn_simd_fixed_length_lemma. Qed.
Print Assumptions C13_copyvec_nn_simd_fixed_length.

Example C13_copyvec_nn_simd_fixed_length_ex :
  let m := block 0 80 (fun a => a * a + 1) in
  let n := Z.of_nat 4 * Z.of_nat (vsize SSE32) in
  access_ok SSE32 false 3 /\ access_ok SSE32 false 34 /\
  accessible m 3 n /\ accessible m 34 (n + Z.of_nat (vsize SSE32)) /\ overlap_ok 3 (@APtr Z 34) n /\
  exists m', copyvec_nn_simd_ct SSE32 4 m 3 34 = Ok m' /\
             map m' [3 + 0; 3 + 15; 3 + 16] = [Some (34 * 34 + 1); Some ((34 + 15) * (34 + 15) + 1); Some ((3 + 16) * (3 + 16) + 1)].
Proof. fit; try (intros [C | C]; try discriminate C; fit); try (eexists; split; vm_compute; reflexivity). Qed.

Theorem C13_copyvec_nn_simd_over_reads : 
  forall A (B : backend) (m : mem A) dest src n i,
    legal_simd_length B n -> access_ok B false src ->
    n <= i < n + Z.of_nat (vsize B) -> m (src + i) = None ->
    memory_fault (copyvec_nn_simd B m dest src n).
Proof. exact C13_copyvec_nn_simd_over_reads_lemma. Qed.
Print Assumptions C13_copyvec_nn_simd_over_reads.

Example C13_copyvec_nn_simd_over_reads_ex :
  let m := block 0 48 (fun a => a * a + 1) in
  legal_simd_length SSE32 16 /\ access_ok SSE32 false 32 /\ 16 <= 16 < 16 + Z.of_nat (vsize SSE32) /\
  m (32 + 16) = None.
Proof. fit; try (intros [C | C]; try discriminate C; fit). Qed.

Theorem C13_copyvec_nn_simd_fixed_length_over_reads : 
  forall A (B : backend) (m : mem A) dest src (k : nat) i,
    let n := Z.of_nat k * Z.of_nat (vsize B) in
    access_ok B false src ->
    n <= i < n + Z.of_nat (vsize B) -> m (src + i) = None ->
    memory_fault (copyvec_nn_simd_ct B k m dest src).
Proof. exact C13_copyvec_nn_simd_fixed_length_over_reads_lemma. Qed.
Print Assumptions C13_copyvec_nn_simd_fixed_length_over_reads.

Example C13_copyvec_nn_simd_fixed_length_over_reads_ex :
  let m := block 0 48 (fun a => a * a + 1) in
  let n := Z.of_nat 4 * Z.of_nat (vsize SSE32) in
  access_ok SSE32 false 32 /\ n <= 16 < n + Z.of_nat (vsize SSE32) /\ m (32 + 16) = None.
Proof. fit; try (intros [C | C]; try discriminate C; fit). Qed.

(** The expectation that only the n source elements are read fails. *)
Theorem C13_reads_only_the_source_refuted : 
  exists (B : backend) (m : mem Z) dest src n,
    legal_simd_length B n /\ aligned B dest /\ aligned B src /\
    accessible m dest n /\ accessible m src n /\ disjoint dest src n /\
    memory_fault (copyvec_simd B m dest src n).
Proof. exact C13_reads_only_the_source_refuted_lemma. Qed.
Print Assumptions C13_reads_only_the_source_refuted.

(** * C14: addvec *)

(** in = out is allowed *)
Theorem C14_addvec : 
  forall A (ar : arith A) (m : mem A) out inp n,
    0 < n < 2 ^ 32 -> accessible m out n -> arg_fit m out n (APtr inp) ->
    leaves m (addvec ar m out inp n) out n (fun i => lift2 (a_add ar) (m (out + i)) (m (inp + i))).
Proof. exact C14_addvec_lemma. Qed.
Print Assumptions C14_addvec.

Example C14_addvec_ex :
  let m := block 0 40 (fun a => a * a) in
  0 < 7 < 2 ^ 32 /\ accessible m 10 7 /\ arg_fit m 10 7 (APtr 10) /\
  exists m', addvec zarith m 10 10 7 = Ok m' /\ map m' [9; 10; 16; 17] = [Some 81; Some 200; Some 512; Some 289].
Proof. fit; try (eexists; split; vm_compute; reflexivity). Qed.

Theorem C14_addvec_scalar : 
  forall A (ar : arith A) (m : mem A) out f n,
    0 < n < 2 ^ 32 -> accessible m out n ->
    leaves m (addvec_scalar ar m out f n) out n (fun i => lift1 (fun x => a_add ar x f) (m (out + i))).
Proof. exact C14_addvec_scalar_lemma. Qed.
Print Assumptions C14_addvec_scalar.

Example C14_addvec_scalar_ex :
  let m := block 0 40 (fun a => a * a) in
  0 < 7 < 2 ^ 32 /\ accessible m 10 7 /\
  exists m', addvec_scalar zarith m 10 5 7 = Ok m' /\ map m' [9; 10; 16; 17] = [Some 81; Some 105; Some 261; Some 289].
Proof. fit; try (eexists; split; vm_compute; reflexivity). Qed.

Theorem C14_addvec_simd : 
  forall A (ar : arith A) (B : backend) (m : mem A) out inp n,
    legal_simd_length B n -> aligned B out -> accessible m out n -> simd_fit B m out n (APtr inp) ->
    leaves m (addvec_simd ar B m out inp n) out n (fun i => lift2 (a_add ar) (m (out + i)) (m (inp + i))).
Proof. exact C14_addvec_simd_lemma. Qed.
Print Assumptions C14_addvec_simd.

Example C14_addvec_simd_ex :
  let m := block 0 80 (fun a => a * a) in
  legal_simd_length SSE64 16 /\ aligned SSE64 10 /\ accessible m 10 16 /\ simd_fit SSE64 m 10 16 (APtr 12) /\
  exists m', addvec_simd zarith SSE64 m 10 12 16 = Ok m' /\ map m' [9; 10; 25; 26] = [Some 81; Some 244; Some (625 + 729); Some 676].
Proof. fit; try (eexists; split; vm_compute; reflexivity). Qed.

Theorem C14_addvec_scalar_simd : 
  forall A (ar : arith A) (B : backend) (m : mem A) out f n,
    legal_simd_length B n -> aligned B out -> accessible m out n ->
    leaves m (addvec_scalar_simd ar B m out f n) out n (fun i => lift1 (fun x => a_add ar x f) (m (out + i))).
Proof. exact C14_addvec_scalar_simd_lemma. Qed.
Print Assumptions C14_addvec_scalar_simd.

Example C14_addvec_scalar_simd_ex :
  let m := block 0 80 (fun a => a * a) in
  legal_simd_length SSE64 16 /\ aligned SSE64 10 /\ accessible m 10 16 /\
  exists m', addvec_scalar_simd zarith SSE64 m 10 5 16 = Ok m' /\ map m' [9; 10; 25; 26] = [Some 81; Some 105; Some 630; Some 676].
Proof. fit; try (eexists; split; vm_compute; reflexivity). Qed.

Theorem C14_addvec_simd_fixed_length : 
  forall A (ar : arith A) (B : backend) (m : mem A) out inp (k : nat),
    let n := Z.of_nat k * Z.of_nat (vsize B) in
    aligned B out -> accessible m out n -> simd_fit B m out n (APtr inp) ->
    leaves m (addvec_simd_ct ar B k m out inp) out n (fun i => lift2 (a_add ar) (m (out + i)) (m (inp + i))).
Proof. exact C14_addvec_simd_fixed_length_lemma. Qed.
Print Assumptions C14_addvec_simd_fixed_length.

Example C14_addvec_simd_fixed_length_ex :
  let m := block 0 80 (fun a => a * a) in let n := Z.of_nat 3 * Z.of_nat (vsize SSE64) in
  aligned SSE64 10 /\ accessible m 10 n /\ simd_fit SSE64 m 10 n (APtr 12) /\
  exists m', addvec_simd_ct zarith SSE64 3 m 10 12 = Ok m' /\ map m' [9; 10; 16] = [Some 81; Some 244; Some 256].
Proof. fit; try (eexists; split; vm_compute; reflexivity). Qed.

Theorem C14_addvec_scalar_simd_fixed_length : 
  forall A (ar : arith A) (B : backend) (m : mem A) out f (k : nat),
    let n := Z.of_nat k * Z.of_nat (vsize B) in
    aligned B out -> accessible m out n ->
    leaves m (addvec_scalar_simd_ct ar B k m out f) out n (fun i => lift1 (fun x => a_add ar x f) (m (out + i))).
Proof. exact C14_addvec_scalar_simd_fixed_length_lemma. Qed.
Print Assumptions C14_addvec_scalar_simd_fixed_length.

Example C14_addvec_scalar_simd_fixed_length_ex :
  let m := block 0 80 (fun a => a * a) in let n := Z.of_nat 3 * Z.of_nat (vsize SSE64) in
  aligned SSE64 10 /\ accessible m 10 n /\
  exists m', addvec_scalar_simd_ct zarith SSE64 3 m 10 5 = Ok m' /\ map m' [9; 10; 16] = [Some 81; Some 105; Some 256].
Proof. fit; try (eexists; split; vm_compute; reflexivity). Qed.

(** * C15: set_slope_vec *)

Theorem C15_set_slope_vec : 
  forall A (ar : arith A) (m : mem A) dest f slope n,
    exact_arith ar ->
    0 < n < 2 ^ 32 -> accessible m dest n ->
    leaves m (set_slope_vec ar m dest f slope n) dest n
      (fun i => Some (a_add ar f (a_mul ar slope (a_ofZ ar i)))).
Proof. exact C15_set_slope_vec_lemma. Qed.
Print Assumptions C15_set_slope_vec.

Example C15_set_slope_vec_ex :
  let m := block 0 40 (fun a => a * a) in
  exact_arith zarith /\ 0 < 7 < 2 ^ 32 /\ accessible m 10 7 /\
  exists m', set_slope_vec zarith m 10 100 (-3) 7 = Ok m' /\ map m' [9; 10; 16; 17] = [Some 81; Some 100; Some 82; Some 289].
Proof. fit; try (eexists; split; vm_compute; reflexivity). Qed.

(** In any arithmetic the scalar form adds the slope i times. *)
Theorem C15_set_slope_vec_any_arithmetic : 
  forall A (ar : arith A) (m : mem A) dest f slope n,
    0 < n < 2 ^ 32 -> accessible m dest n ->
    leaves m (set_slope_vec ar m dest f slope n) dest n (sample ar m (ARamp f slope)).
Proof. exact C15_set_slope_vec_any_arithmetic_lemma. Qed.
Print Assumptions C15_set_slope_vec_any_arithmetic.

Example C15_set_slope_vec_any_arithmetic_ex :
  let m := block 0 40 (fun a => a * a) in
  0 < 7 < 2 ^ 32 /\ accessible m 10 7.
Proof. fit. Qed.

Theorem C15_set_slope_vec_simd : 
  forall A (ar : arith A) (B : backend) (m : mem A) dest f slope n,
    exact_arith ar ->
    legal_simd_length B n -> aligned B dest -> accessible m dest n ->
    leaves m (set_slope_vec_simd ar B m dest f slope n) dest n
      (fun i => Some (a_add ar f (a_mul ar slope (a_ofZ ar i)))).
Proof. exact C15_set_slope_vec_simd_lemma. Qed.
Print Assumptions C15_set_slope_vec_simd.

Example C15_set_slope_vec_simd_ex :
  let m := block 0 80 (fun a => a * a) in
  exact_arith zarith /\ legal_simd_length AVX32 32 /\ aligned AVX32 16 /\ accessible m 16 32 /\
  exists m', set_slope_vec_simd zarith AVX32 m 16 100 (-3) 32 = Ok m' /\
             map m' [15; 16; 47; 48] = [Some 225; Some 100; Some 7; Some (48 * 48)].
Proof. fit; try (eexists; split; vm_compute; reflexivity). Qed.

(** set_slope returns size*slope. *)
Theorem C15_set_slope_increment : 
  forall A (ar : arith A) (B : backend) f slope,
    exact_arith ar ->
    snd (set_slope ar B f slope) = a_mul ar slope (a_ofZ ar (Z.of_nat (vsize B))).
Proof. exact C15_set_slope_increment_lemma. Qed.
Print Assumptions C15_set_slope_increment.

Example C15_set_slope_increment_ex : exact_arith zarith /\ snd (set_slope zarith AVX32 5 3) = 24.
Proof. fit. Qed.

(** * C16: set_exp_vec *)

Theorem C16_set_exp_vec : 
  forall A (ar : arith A) (m : mem A) dest f curve n,
    exact_arith ar ->
    0 < n < 2 ^ 32 -> accessible m dest n ->
    leaves m (set_exp_vec ar m dest f curve n) dest n (fun i => Some (a_mul ar f (power ar curve i))).
Proof. exact C16_set_exp_vec_lemma. Qed.
Print Assumptions C16_set_exp_vec.

Example C16_set_exp_vec_ex :
  let m := block 0 40 (fun a => a * a) in
  exact_arith zarith /\ 0 < 7 < 2 ^ 32 /\ accessible m 10 7 /\
  exists m', set_exp_vec zarith m 10 5 3 7 = Ok m' /\ map m' [9; 10; 16; 17] = [Some 81; Some 5; Some (5 * 729); Some 289].
Proof. fit; try (eexists; split; vm_compute; reflexivity). Qed.

Theorem C16_set_exp_vec_simd : 
  forall A (ar : arith A) (B : backend) (m : mem A) dest f curve n,
    exact_arith ar ->
    legal_simd_length B n -> aligned B dest -> accessible m dest n ->
    leaves m (set_exp_vec_simd ar B m dest f curve n) dest n (fun i => Some (a_mul ar f (power ar curve i))).
Proof. exact C16_set_exp_vec_simd_lemma. Qed.
Print Assumptions C16_set_exp_vec_simd.

Example C16_set_exp_vec_simd_ex :
  let m := block 0 80 (fun a => a * a) in
  exact_arith zarith /\ legal_simd_length AVX64 16 /\ aligned AVX64 16 /\ accessible m 16 16 /\
  exists m', set_exp_vec_simd zarith AVX64 m 16 5 2 16 = Ok m' /\
             map m' [15; 16; 31; 32] = [Some 225; Some 5; Some (5 * 32768); Some 1024].
Proof. fit; try (eexists; split; vm_compute; reflexivity). Qed.

Theorem C16_pow_i : 
  forall A (ar : arith A) curve (k : nat),
    exact_arith ar -> (0 < k)%nat -> pow_i ar k curve = power ar curve (Z.of_nat k).
Proof. exact C16_pow_i_lemma. Qed.
Print Assumptions C16_pow_i.

Example C16_pow_i_ex : exact_arith zarith /\ (0 < 8)%nat /\ pow_i zarith 8 3 = 6561.
Proof. fit. Qed.

(** vec::set_exp returns the value following the last lane. *)
Theorem C16_set_exp_next : 
  forall A (ar : arith A) (B : backend) f curve,
    exact_arith ar ->
    snd (set_exp ar B f curve) = a_mul ar f (power ar curve (Z.of_nat (vsize B))).
Proof. exact C16_set_exp_next_lemma. Qed.
Print Assumptions C16_set_exp_next.

Example C16_set_exp_next_ex : exact_arith zarith /\ snd (set_exp zarith AVX32 5 3) = 5 * 6561.
Proof. fit. Qed.

(** * C17: pan2 *)

(** constant factors; the input may be one of the outputs *)
Theorem C17_pan2_vec : 
  forall A (ar : arith A) (m : mem A) out0 out1 inp f0 f1 n,
    0 < n < 2 ^ 32 ->
    accessible m out0 n -> accessible m out1 n -> disjoint out0 out1 n ->
    arg_fit m out0 n (APtr inp) -> arg_fit m out1 n (APtr inp) ->
    leaves_both m (pan2_vec ar m out0 out1 inp f0 f1 n) out0 out1 n
      (fun i => lift1 (fun x => a_mul ar x f0) (m (inp + i)))
      (fun i => lift1 (fun x => a_mul ar x f1) (m (inp + i))).
Proof. exact C17_pan2_vec_lemma. Qed.
Print Assumptions C17_pan2_vec.

Example C17_pan2_vec_ex :
  let m := block 0 80 (fun a => a * a) in
  0 < 7 < 2 ^ 32 /\ accessible m 10 7 /\ accessible m 20 7 /\ disjoint 10 20 7 /\
  arg_fit m 10 7 (APtr 10) /\ arg_fit m 20 7 (APtr 10) /\
  exists m', pan2_vec zarith m 10 20 10 2 3 7 = Ok m' /\ map m' [9; 16; 19; 26; 27] = [Some 81; Some 512; Some 361; Some 768; Some 729].
Proof. fit; try (unfold disjoint; lia); eexists; split; vm_compute; reflexivity. Qed.

(** ramped factors, in any arithmetic *)
Theorem C17_pan2_slope_vec : 
  forall A (ar : arith A) (m : mem A) out0 out1 inp f0 slope0 f1 slope1 n,
    0 < n < 2 ^ 32 ->
    accessible m out0 n -> accessible m out1 n -> disjoint out0 out1 n ->
    arg_fit m out0 n (APtr inp) -> arg_fit m out1 n (APtr inp) ->
    leaves_both m (pan2_slope_vec ar m out0 out1 inp f0 slope0 f1 slope1 n) out0 out1 n
      (fun i => lift2 (a_mul ar) (m (inp + i)) (sample ar m (ARamp f0 slope0) i))
      (fun i => lift2 (a_mul ar) (m (inp + i)) (sample ar m (ARamp f1 slope1) i)).
Proof. exact C17_pan2_slope_vec_lemma. Qed.
Print Assumptions C17_pan2_slope_vec.

Example C17_pan2_slope_vec_ex :
  let m := block 0 80 (fun a => a * a) in
  0 < 7 < 2 ^ 32 /\ accessible m 10 7 /\ accessible m 20 7 /\ disjoint 10 20 7 /\
  arg_fit m 10 7 (APtr 40) /\ arg_fit m 20 7 (APtr 40) /\
  exists m', pan2_slope_vec zarith m 10 20 40 2 1 3 5 7 = Ok m' /\ map m' [9; 16; 19; 26; 27] = [Some 81; Some (46 * 46 * 8); Some 361; Some (46 * 46 * 33); Some 729].
Proof. fit; try (unfold disjoint; lia); eexists; split; vm_compute; reflexivity. Qed.

Theorem C17_pan2_vec_simd : 
  forall A (ar : arith A) (B : backend) (m : mem A) out0 out1 inp f0 f1 n,
    legal_simd_length B n ->
    aligned B out0 -> aligned B out1 ->
    accessible m out0 n -> accessible m out1 n -> disjoint out0 out1 n ->
    simd_fit B m out0 n (APtr inp) -> simd_fit B m out1 n (APtr inp) ->
    leaves_both m (pan2_vec_simd ar B m out0 out1 inp f0 f1 n) out0 out1 n
      (fun i => lift1 (fun x => a_mul ar x f0) (m (inp + i)))
      (fun i => lift1 (fun x => a_mul ar x f1) (m (inp + i))).
Proof. exact C17_pan2_vec_simd_lemma. Qed.
Print Assumptions C17_pan2_vec_simd.

Example C17_pan2_vec_simd_ex :
  let m := block 0 80 (fun a => a * a) in
  legal_simd_length NEON32 16 /\ aligned NEON32 10 /\ aligned NEON32 26 /\
  accessible m 10 16 /\ accessible m 26 16 /\ disjoint 10 26 16 /\
  simd_fit NEON32 m 10 16 (APtr 42) /\ simd_fit NEON32 m 26 16 (APtr 42) /\
  exists m', pan2_vec_simd zarith NEON32 m 10 26 42 2 3 16 = Ok m' /\ map m' [9; 25; 41; 42] = [Some 81; Some (57 * 57 * 2); Some (57 * 57 * 3); Some (42 * 42)].
Proof. fit; try (unfold disjoint; lia); eexists; split; vm_compute; reflexivity. Qed.

Theorem C17_pan2_slope_vec_simd : 
  forall A (ar : arith A) (B : backend) (m : mem A) out0 out1 inp f0 slope0 f1 slope1 n,
    exact_arith ar ->
    legal_simd_length B n ->
    aligned B out0 -> aligned B out1 ->
    accessible m out0 n -> accessible m out1 n -> disjoint out0 out1 n ->
    simd_fit B m out0 n (APtr inp) -> simd_fit B m out1 n (APtr inp) ->
    leaves_both m (pan2_slope_vec_simd ar B m out0 out1 inp f0 slope0 f1 slope1 n) out0 out1 n
      (fun i => lift1 (fun x => a_mul ar x (a_add ar f0 (a_mul ar slope0 (a_ofZ ar i)))) (m (inp + i)))
      (fun i => lift1 (fun x => a_mul ar x (a_add ar f1 (a_mul ar slope1 (a_ofZ ar i)))) (m (inp + i))).
Proof. exact C17_pan2_slope_vec_simd_lemma. Qed.
Print Assumptions C17_pan2_slope_vec_simd.

Example C17_pan2_slope_vec_simd_ex :
  let m := block 0 80 (fun a => a * a) in
  exact_arith zarith /\ legal_simd_length NEON32 16 /\ aligned NEON32 10 /\ aligned NEON32 26 /\
  accessible m 10 16 /\ accessible m 26 16 /\ disjoint 10 26 16 /\
  simd_fit NEON32 m 10 16 (APtr 42) /\ simd_fit NEON32 m 26 16 (APtr 42) /\
  exists m', pan2_slope_vec_simd zarith NEON32 m 10 26 42 2 1 3 5 16 = Ok m' /\ map m' [9; 25; 41; 42] = [Some 81; Some (57 * 57 * 17); Some (57 * 57 * 78); Some (42 * 42)].
Proof. fit; try (unfold disjoint; lia); eexists; split; vm_compute; reflexivity. Qed.

Theorem C17_pan2_vec_simd_fixed_length : 
  forall A (ar : arith A) (B : backend) (m : mem A) out0 out1 inp f0 f1 (k : nat),
    let n := Z.of_nat k * Z.of_nat (vsize B) in
    aligned B out0 -> aligned B out1 ->
    accessible m out0 n -> accessible m out1 n -> disjoint out0 out1 n ->
    simd_fit B m out0 n (APtr inp) -> simd_fit B m out1 n (APtr inp) ->
    leaves_both m (pan2_vec_simd_ct ar B k m out0 out1 inp f0 f1) out0 out1 n
      (fun i => lift1 (fun x => a_mul ar x f0) (m (inp + i)))
      (fun i => lift1 (fun x => a_mul ar x f1) (m (inp + i))).
Proof. exact C17_pan2_vec_simd_fixed_length_lemma. Qed.
Print Assumptions C17_pan2_vec_simd_fixed_length.

Example C17_pan2_vec_simd_fixed_length_ex :
  let m := block 0 80 (fun a => a * a) in let n := Z.of_nat 4 * Z.of_nat (vsize NEON32) in
  aligned NEON32 10 /\ aligned NEON32 26 /\
  accessible m 10 n /\ accessible m 26 n /\ disjoint 10 26 n /\
  simd_fit NEON32 m 10 n (APtr 42) /\ simd_fit NEON32 m 26 n (APtr 42).
Proof. fit; try (unfold disjoint; cbn; lia). Qed.

Theorem C17_pan2_slope_vec_simd_fixed_length : 
  forall A (ar : arith A) (B : backend) (m : mem A) out0 out1 inp f0 slope0 f1 slope1 (k : nat),
    let n := Z.of_nat k * Z.of_nat (vsize B) in
    exact_arith ar ->
    aligned B out0 -> aligned B out1 ->
    accessible m out0 n -> accessible m out1 n -> disjoint out0 out1 n ->
    simd_fit B m out0 n (APtr inp) -> simd_fit B m out1 n (APtr inp) ->
    leaves_both m (pan2_slope_vec_simd_ct ar B k m out0 out1 inp f0 slope0 f1 slope1) out0 out1 n
      (fun i => lift1 (fun x => a_mul ar x (a_add ar f0 (a_mul ar slope0 (a_ofZ ar i)))) (m (inp + i)))
      (fun i => lift1 (fun x => a_mul ar x (a_add ar f1 (a_mul ar slope1 (a_ofZ ar i)))) (m (inp + i))).
Proof. exact C17_pan2_slope_vec_simd_fixed_length_lemma. Qed.
Print Assumptions C17_pan2_slope_vec_simd_fixed_length.

Example C17_pan2_slope_vec_simd_fixed_length_ex :
  let m := block 0 80 (fun a => a * a) in let n := Z.of_nat 4 * Z.of_nat (vsize NEON32) in
  exact_arith zarith /\ aligned NEON32 10 /\ aligned NEON32 26 /\
  accessible m 10 n /\ accessible m 26 n /\ disjoint 10 26 n /\
  simd_fit NEON32 m 10 n (APtr 42) /\ simd_fit NEON32 m 26 n (APtr 42).
Proof. fit; try (unfold disjoint; cbn; lia). Qed.

(** * C18: mix, sum, muladd, ampmod, clip *)

Theorem C18_mix_vec : 
  forall A (ar : arith A) (o : ops A) (m : mem A) (out : Z) (a1 a2 a3 a4 : arg A) n,
    0 < n < 2 ^ 32 -> accessible m out n ->
    arg_fit m out n a1 -> arg_fit m out n a2 -> arg_fit m out n a3 -> arg_fit m out n a4 ->
    leaves m (mix_vec ar o m out a1 a2 a3 a4 n) out n
      (fun i => lift4 (fun sig0 factor0 sig1 factor1 => o_add o (o_mul o sig0 factor0) (o_mul o sig1 factor1))
                  (sample ar m a1 i) (sample ar m a2 i) (sample ar m a3 i) (sample ar m a4 i)).
Proof. exact C18_mix_vec_lemma. Qed.
Print Assumptions C18_mix_vec.

Example C18_mix_vec_ex :
  let m := block 0 80 (fun a => a * a) in
  0 < 7 < 2 ^ 32 /\ accessible m 32 7 /\ arg_fit m 32 7 (APtr 40) /\ arg_fit m 32 7 (ARamp 3 1) /\ arg_fit m 32 7 (APtr 32) /\ arg_fit m 32 7 (ARamp 5 (-2)).
Proof. fit. Qed.

Theorem C18_mix_vec_simd : 
  forall A (ar : arith A) (o : ops A) (B : backend) (m : mem A) (out : Z) (a1 a2 a3 a4 : arg A) n,
    legal_simd_length B n -> aligned B out -> accessible m out n ->
    simd_fit B m out n a1 -> plain a1 -> simd_fit B m out n a2 -> plain a2 -> simd_fit B m out n a3 -> plain a3 -> simd_fit B m out n a4 -> plain a4 ->
    leaves m (mix_vec_simd ar o B m out a1 a2 a3 a4 n) out n
      (fun i => lift4 (fun sig0 factor0 sig1 factor1 => o_add o (o_mul o sig0 factor0) (o_mul o sig1 factor1))
                  (sample ar m a1 i) (sample ar m a2 i) (sample ar m a3 i) (sample ar m a4 i)).
Proof. exact C18_mix_vec_simd_lemma. Qed.
Print Assumptions C18_mix_vec_simd.

Example C18_mix_vec_simd_ex :
  let m := block 0 80 (fun a => a * a) in
  legal_simd_length SSE32 32 /\ aligned SSE32 32 /\ accessible m 32 32 /\ simd_fit SSE32 m 32 32 (APtr 40) /\ @plain Z (APtr 40) /\ simd_fit SSE32 m 32 32 (AScal 3) /\ @plain Z (AScal 3) /\ simd_fit SSE32 m 32 32 (APtr 32) /\ @plain Z (APtr 32) /\ simd_fit SSE32 m 32 32 (AScal 5) /\ @plain Z (AScal 5).
Proof. fit. Qed.

(** ramped arguments, exact ramp arithmetic *)
Theorem C18_mix_vec_simd_ramps : 
  forall A (ar : arith A) (o : ops A) (B : backend) (m : mem A) (out : Z) (a1 a2 a3 a4 : arg A) n,
    exact_arith ar ->
    legal_simd_length B n -> aligned B out -> accessible m out n ->
    simd_fit B m out n a1 -> simd_fit B m out n a2 -> simd_fit B m out n a3 -> simd_fit B m out n a4 ->
    leaves m (mix_vec_simd ar o B m out a1 a2 a3 a4 n) out n
      (fun i => lift4 (fun sig0 factor0 sig1 factor1 => o_add o (o_mul o sig0 factor0) (o_mul o sig1 factor1))
                  (line ar m a1 i) (line ar m a2 i) (line ar m a3 i) (line ar m a4 i)).
Proof. exact C18_mix_vec_simd_ramps_lemma. Qed.
Print Assumptions C18_mix_vec_simd_ramps.

Example C18_mix_vec_simd_ramps_ex :
  let m := block 0 80 (fun a => a * a) in
  exact_arith zarith /\ legal_simd_length SSE32 32 /\ aligned SSE32 32 /\ accessible m 32 32 /\ simd_fit SSE32 m 32 32 (APtr 40) /\ simd_fit SSE32 m 32 32 (ARamp 3 1) /\ simd_fit SSE32 m 32 32 (APtr 32) /\ simd_fit SSE32 m 32 32 (ARamp 5 (-2)).
Proof. fit. Qed.

Theorem C18_sum_vec2 : 
  forall A (ar : arith A) (o : ops A) (m : mem A) (out : Z) (a1 a2 : arg A) n,
    0 < n < 2 ^ 32 -> accessible m out n ->
    arg_fit m out n a1 -> arg_fit m out n a2 ->
    leaves m (sum_vec2 ar o m out a1 a2 n) out n
      (fun i => lift2 (fun x y => o_add o x y)
                  (sample ar m a1 i) (sample ar m a2 i)).
Proof. exact C18_sum_vec2_lemma. Qed.
Print Assumptions C18_sum_vec2.

Example C18_sum_vec2_ex :
  let m := block 0 80 (fun a => a * a) in
  0 < 7 < 2 ^ 32 /\ accessible m 32 7 /\ arg_fit m 32 7 (APtr 40) /\ arg_fit m 32 7 (ARamp 3 1).
Proof. fit. Qed.

Theorem C18_sum_vec2_simd : 
  forall A (ar : arith A) (o : ops A) (B : backend) (m : mem A) (out : Z) (a1 a2 : arg A) n,
    legal_simd_length B n -> aligned B out -> accessible m out n ->
    simd_fit B m out n a1 -> plain a1 -> simd_fit B m out n a2 -> plain a2 ->
    leaves m (sum_vec2_simd ar o B m out a1 a2 n) out n
      (fun i => lift2 (fun x y => o_add o x y)
                  (sample ar m a1 i) (sample ar m a2 i)).
Proof. exact C18_sum_vec2_simd_lemma. Qed.
Print Assumptions C18_sum_vec2_simd.

Example C18_sum_vec2_simd_ex :
  let m := block 0 80 (fun a => a * a) in
  legal_simd_length SSE32 32 /\ aligned SSE32 32 /\ accessible m 32 32 /\ simd_fit SSE32 m 32 32 (APtr 40) /\ @plain Z (APtr 40) /\ simd_fit SSE32 m 32 32 (AScal 3) /\ @plain Z (AScal 3).
Proof. fit. Qed.

Theorem C18_sum_vec3 : 
  forall A (ar : arith A) (o : ops A) (m : mem A) (out : Z) (a1 a2 a3 : arg A) n,
    0 < n < 2 ^ 32 -> accessible m out n ->
    arg_fit m out n a1 -> arg_fit m out n a2 -> arg_fit m out n a3 ->
    leaves m (sum_vec3 ar o m out a1 a2 a3 n) out n
      (fun i => lift3 (fun x y z => o_add o (o_add o x y) z)
                  (sample ar m a1 i) (sample ar m a2 i) (sample ar m a3 i)).
Proof. exact C18_sum_vec3_lemma. Qed.
Print Assumptions C18_sum_vec3.

Example C18_sum_vec3_ex :
  let m := block 0 80 (fun a => a * a) in
  0 < 7 < 2 ^ 32 /\ accessible m 32 7 /\ arg_fit m 32 7 (APtr 40) /\ arg_fit m 32 7 (ARamp 3 1) /\ arg_fit m 32 7 (APtr 32).
Proof. fit. Qed.

Theorem C18_sum_vec3_simd : 
  forall A (ar : arith A) (o : ops A) (B : backend) (m : mem A) (out : Z) (a1 a2 a3 : arg A) n,
    legal_simd_length B n -> aligned B out -> accessible m out n ->
    simd_fit B m out n a1 -> plain a1 -> simd_fit B m out n a2 -> plain a2 -> simd_fit B m out n a3 -> plain a3 ->
    leaves m (sum_vec3_simd ar o B m out a1 a2 a3 n) out n
      (fun i => lift3 (fun x y z => o_add o (o_add o x y) z)
                  (sample ar m a1 i) (sample ar m a2 i) (sample ar m a3 i)).
Proof. exact C18_sum_vec3_simd_lemma. Qed.
Print Assumptions C18_sum_vec3_simd.

Example C18_sum_vec3_simd_ex :
  let m := block 0 80 (fun a => a * a) in
  legal_simd_length SSE32 32 /\ aligned SSE32 32 /\ accessible m 32 32 /\ simd_fit SSE32 m 32 32 (APtr 40) /\ @plain Z (APtr 40) /\ simd_fit SSE32 m 32 32 (AScal 3) /\ @plain Z (AScal 3) /\ simd_fit SSE32 m 32 32 (APtr 32) /\ @plain Z (APtr 32).
Proof. fit. Qed.

Theorem C18_sum_vec4 : 
  forall A (ar : arith A) (o : ops A) (m : mem A) (out : Z) (a1 a2 a3 a4 : arg A) n,
    0 < n < 2 ^ 32 -> accessible m out n ->
    arg_fit m out n a1 -> arg_fit m out n a2 -> arg_fit m out n a3 -> arg_fit m out n a4 ->
    leaves m (sum_vec4 ar o m out a1 a2 a3 a4 n) out n
      (fun i => lift4 (fun x y z w => o_add o (o_add o x y) (o_add o z w))
                  (sample ar m a1 i) (sample ar m a2 i) (sample ar m a3 i) (sample ar m a4 i)).
Proof. exact C18_sum_vec4_lemma. Qed.
Print Assumptions C18_sum_vec4.

Example C18_sum_vec4_ex :
  let m := block 0 80 (fun a => a * a) in
  0 < 7 < 2 ^ 32 /\ accessible m 32 7 /\ arg_fit m 32 7 (APtr 40) /\ arg_fit m 32 7 (ARamp 3 1) /\ arg_fit m 32 7 (APtr 32) /\ arg_fit m 32 7 (ARamp 5 (-2)).
Proof. fit. Qed.

Theorem C18_sum_vec4_simd : 
  forall A (ar : arith A) (o : ops A) (B : backend) (m : mem A) (out : Z) (a1 a2 a3 a4 : arg A) n,
    legal_simd_length B n -> aligned B out -> accessible m out n ->
    simd_fit B m out n a1 -> plain a1 -> simd_fit B m out n a2 -> plain a2 -> simd_fit B m out n a3 -> plain a3 -> simd_fit B m out n a4 -> plain a4 ->
    leaves m (sum_vec4_simd ar o B m out a1 a2 a3 a4 n) out n
      (fun i => lift4 (fun x y z w => o_add o (o_add o x y) (o_add o z w))
                  (sample ar m a1 i) (sample ar m a2 i) (sample ar m a3 i) (sample ar m a4 i)).
Proof. exact C18_sum_vec4_simd_lemma. Qed.
Print Assumptions C18_sum_vec4_simd.

Example C18_sum_vec4_simd_ex :
  let m := block 0 80 (fun a => a * a) in
  legal_simd_length SSE32 32 /\ aligned SSE32 32 /\ accessible m 32 32 /\ simd_fit SSE32 m 32 32 (APtr 40) /\ @plain Z (APtr 40) /\ simd_fit SSE32 m 32 32 (AScal 3) /\ @plain Z (AScal 3) /\ simd_fit SSE32 m 32 32 (APtr 32) /\ @plain Z (APtr 32) /\ simd_fit SSE32 m 32 32 (AScal 5) /\ @plain Z (AScal 5).
Proof. fit. Qed.

Theorem C18_muladd_vec : 
  forall A (ar : arith A) (o : ops A) (m : mem A) (out : Z) (a1 a2 a3 : arg A) n,
    0 < n < 2 ^ 32 -> accessible m out n ->
    arg_fit m out n a1 -> arg_fit m out n a2 -> arg_fit m out n a3 ->
    leaves m (muladd_vec ar o m out a1 a2 a3 n) out n
      (fun i => lift3 (fun x y z => o_add o (o_mul o x y) z)
                  (sample ar m a1 i) (sample ar m a2 i) (sample ar m a3 i)).
Proof. exact C18_muladd_vec_lemma. Qed.
Print Assumptions C18_muladd_vec.

Example C18_muladd_vec_ex :
  let m := block 0 80 (fun a => a * a) in
  0 < 7 < 2 ^ 32 /\ accessible m 32 7 /\ arg_fit m 32 7 (APtr 40) /\ arg_fit m 32 7 (ARamp 3 1) /\ arg_fit m 32 7 (APtr 32).
Proof. fit. Qed.

Theorem C18_muladd_vec_simd : 
  forall A (ar : arith A) (o : ops A) (B : backend) (m : mem A) (out : Z) (a1 a2 a3 : arg A) n,
    legal_simd_length B n -> aligned B out -> accessible m out n ->
    simd_fit B m out n a1 -> plain a1 -> simd_fit B m out n a2 -> plain a2 -> simd_fit B m out n a3 -> plain a3 ->
    leaves m (muladd_vec_simd ar o B m out a1 a2 a3 n) out n
      (fun i => lift3 (fun x y z => o_madd o x y z)
                  (sample ar m a1 i) (sample ar m a2 i) (sample ar m a3 i)).
Proof. exact C18_muladd_vec_simd_lemma. Qed.
Print Assumptions C18_muladd_vec_simd.

Example C18_muladd_vec_simd_ex :
  let m := block 0 80 (fun a => a * a) in
  legal_simd_length SSE32 32 /\ aligned SSE32 32 /\ accessible m 32 32 /\ simd_fit SSE32 m 32 32 (APtr 40) /\ @plain Z (APtr 40) /\ simd_fit SSE32 m 32 32 (AScal 3) /\ @plain Z (AScal 3) /\ simd_fit SSE32 m 32 32 (APtr 32) /\ @plain Z (APtr 32).
Proof. fit. Qed.

(** ramped arguments, exact ramp arithmetic *)
Theorem C18_muladd_vec_simd_ramps : 
  forall A (ar : arith A) (o : ops A) (B : backend) (m : mem A) (out : Z) (a1 a2 a3 : arg A) n,
    exact_arith ar ->
    legal_simd_length B n -> aligned B out -> accessible m out n ->
    simd_fit B m out n a1 -> simd_fit B m out n a2 -> simd_fit B m out n a3 ->
    leaves m (muladd_vec_simd ar o B m out a1 a2 a3 n) out n
      (fun i => lift3 (fun x y z => o_madd o x y z)
                  (line ar m a1 i) (line ar m a2 i) (line ar m a3 i)).
Proof. exact C18_muladd_vec_simd_ramps_lemma. Qed.
Print Assumptions C18_muladd_vec_simd_ramps.

Example C18_muladd_vec_simd_ramps_ex :
  let m := block 0 80 (fun a => a * a) in
  exact_arith zarith /\ legal_simd_length SSE32 32 /\ aligned SSE32 32 /\ accessible m 32 32 /\ simd_fit SSE32 m 32 32 (APtr 40) /\ simd_fit SSE32 m 32 32 (ARamp 3 1) /\ simd_fit SSE32 m 32 32 (APtr 32).
Proof. fit. Qed.

Theorem C18_ampmod_vec : 
  forall A (ar : arith A) (o : ops A) (m : mem A) (out : Z) (a1 a2 a3 : arg A) n,
    0 < n < 2 ^ 32 -> accessible m out n ->
    arg_fit m out n a1 -> arg_fit m out n a2 -> arg_fit m out n a3 ->
    leaves m (ampmod_vec ar o m out a1 a2 a3 n) out n
      (fun i => lift3 (fun signal modulator amount => o_mul o signal (o_add o (o_one o) (o_mul o modulator amount)))
                  (sample ar m a1 i) (sample ar m a2 i) (sample ar m a3 i)).
Proof. exact C18_ampmod_vec_lemma. Qed.
Print Assumptions C18_ampmod_vec.

Example C18_ampmod_vec_ex :
  let m := block 0 80 (fun a => a * a) in
  0 < 7 < 2 ^ 32 /\ accessible m 32 7 /\ arg_fit m 32 7 (APtr 40) /\ arg_fit m 32 7 (ARamp 3 1) /\ arg_fit m 32 7 (APtr 32).
Proof. fit. Qed.

Theorem C18_ampmod_vec_simd : 
  forall A (ar : arith A) (o : ops A) (B : backend) (m : mem A) (out : Z) (a1 a2 a3 : arg A) n,
    legal_simd_length B n -> aligned B out -> accessible m out n ->
    simd_fit B m out n a1 -> plain a1 -> simd_fit B m out n a2 -> plain a2 -> simd_fit B m out n a3 -> plain a3 ->
    leaves m (ampmod_vec_simd ar o B m out a1 a2 a3 n) out n
      (fun i => lift3 (fun signal modulator amount => o_mul o signal (o_add o (o_one o) (o_mul o modulator amount)))
                  (sample ar m a1 i) (sample ar m a2 i) (sample ar m a3 i)).
Proof. exact C18_ampmod_vec_simd_lemma. Qed.
Print Assumptions C18_ampmod_vec_simd.

Example C18_ampmod_vec_simd_ex :
  let m := block 0 80 (fun a => a * a) in
  legal_simd_length SSE32 32 /\ aligned SSE32 32 /\ accessible m 32 32 /\ simd_fit SSE32 m 32 32 (APtr 40) /\ @plain Z (APtr 40) /\ simd_fit SSE32 m 32 32 (AScal 3) /\ @plain Z (AScal 3) /\ simd_fit SSE32 m 32 32 (APtr 32) /\ @plain Z (APtr 32).
Proof. fit. Qed.

(** ramped arguments, exact ramp arithmetic *)
Theorem C18_ampmod_vec_simd_ramps : 
  forall A (ar : arith A) (o : ops A) (B : backend) (m : mem A) (out : Z) (a1 a2 a3 : arg A) n,
    exact_arith ar ->
    legal_simd_length B n -> aligned B out -> accessible m out n ->
    simd_fit B m out n a1 -> simd_fit B m out n a2 -> simd_fit B m out n a3 ->
    leaves m (ampmod_vec_simd ar o B m out a1 a2 a3 n) out n
      (fun i => lift3 (fun signal modulator amount => o_mul o signal (o_add o (o_one o) (o_mul o modulator amount)))
                  (line ar m a1 i) (line ar m a2 i) (line ar m a3 i)).
Proof. exact C18_ampmod_vec_simd_ramps_lemma. Qed.
Print Assumptions C18_ampmod_vec_simd_ramps.

Example C18_ampmod_vec_simd_ramps_ex :
  let m := block 0 80 (fun a => a * a) in
  exact_arith zarith /\ legal_simd_length SSE32 32 /\ aligned SSE32 32 /\ accessible m 32 32 /\ simd_fit SSE32 m 32 32 (APtr 40) /\ simd_fit SSE32 m 32 32 (ARamp 3 1) /\ simd_fit SSE32 m 32 32 (APtr 32).
Proof. fit. Qed.

Theorem C18_clip_vec : 
  forall A (ar : arith A) (o : ops A) (m : mem A) (out : Z) (a1 a2 a3 : arg A) n,
    0 < n < 2 ^ 32 -> accessible m out n ->
    arg_fit m out n a1 -> arg_fit m out n a2 -> arg_fit m out n a3 ->
    leaves m (clip_vec ar o m out a1 a2 a3 n) out n
      (fun i => lift3 (fun value low high => o_max o (o_min o value high) low)
                  (sample ar m a1 i) (sample ar m a2 i) (sample ar m a3 i)).
Proof. exact C18_clip_vec_lemma. Qed.
Print Assumptions C18_clip_vec.

Example C18_clip_vec_ex :
  let m := block 0 80 (fun a => a * a) in
  0 < 7 < 2 ^ 32 /\ accessible m 32 7 /\ arg_fit m 32 7 (APtr 40) /\ arg_fit m 32 7 (ARamp 3 1) /\ arg_fit m 32 7 (APtr 32).
Proof. fit. Qed.

Theorem C18_clip_vec_simd : 
  forall A (ar : arith A) (o : ops A) (B : backend) (m : mem A) (out : Z) (a1 a2 a3 : arg A) n,
    legal_simd_length B n -> aligned B out -> accessible m out n ->
    simd_fit B m out n a1 -> plain a1 -> simd_fit B m out n a2 -> plain a2 -> simd_fit B m out n a3 -> plain a3 ->
    leaves m (clip_vec_simd ar o B m out a1 a2 a3 n) out n
      (fun i => lift3 (fun value low high => o_max o (o_min o value high) low)
                  (sample ar m a1 i) (sample ar m a2 i) (sample ar m a3 i)).
Proof. exact C18_clip_vec_simd_lemma. Qed.
Print Assumptions C18_clip_vec_simd.

Example C18_clip_vec_simd_ex :
  let m := block 0 80 (fun a => a * a) in
  legal_simd_length SSE32 32 /\ aligned SSE32 32 /\ accessible m 32 32 /\ simd_fit SSE32 m 32 32 (APtr 40) /\ @plain Z (APtr 40) /\ simd_fit SSE32 m 32 32 (AScal 3) /\ @plain Z (AScal 3) /\ simd_fit SSE32 m 32 32 (APtr 32) /\ @plain Z (APtr 32).
Proof. fit. Qed.

Theorem C18_clip2_vec : 
  forall A (ar : arith A) (o : ops A) (m : mem A) (out : Z) (a1 a2 : arg A) n,
    0 < n < 2 ^ 32 -> accessible m out n ->
    arg_fit m out n a1 -> arg_fit m out n a2 ->
    leaves m (clip2_vec ar o m out a1 a2 n) out n
      (fun i => lift2 (fun x limit => o_max o (o_sub o (o_zero o) limit) (o_min o x limit))
                  (sample ar m a1 i) (sample ar m a2 i)).
Proof. exact C18_clip2_vec_lemma. Qed.
Print Assumptions C18_clip2_vec.

Example C18_clip2_vec_ex :
  let m := block 0 80 (fun a => a * a) in
  0 < 7 < 2 ^ 32 /\ accessible m 32 7 /\ arg_fit m 32 7 (APtr 40) /\ arg_fit m 32 7 (ARamp 3 1).
Proof. fit. Qed.

Theorem C18_clip2_vec_simd : 
  forall A (ar : arith A) (o : ops A) (B : backend) (m : mem A) (out : Z) (a1 a2 : arg A) n,
    legal_simd_length B n -> aligned B out -> accessible m out n ->
    simd_fit B m out n a1 -> plain a1 -> simd_fit B m out n a2 -> plain a2 ->
    leaves m (clip2_vec_simd ar o B m out a1 a2 n) out n
      (fun i => lift2 (fun x limit => o_max o (o_sub o (o_zero o) limit) (o_min o x limit))
                  (sample ar m a1 i) (sample ar m a2 i)).
Proof. exact C18_clip2_vec_simd_lemma. Qed.
Print Assumptions C18_clip2_vec_simd.

Example C18_clip2_vec_simd_ex :
  let m := block 0 80 (fun a => a * a) in
  legal_simd_length SSE32 32 /\ aligned SSE32 32 /\ accessible m 32 32 /\ simd_fit SSE32 m 32 32 (APtr 40) /\ @plain Z (APtr 40) /\ simd_fit SSE32 m 32 32 (AScal 3) /\ @plain Z (AScal 3).
Proof. fit. Qed.

Theorem C18_plus_vec : 
  forall A (ar : arith A) (o : ops A) (m : mem A) (out : Z) (a1 a2 : arg A) n,
    0 < n < 2 ^ 32 -> accessible m out n ->
    arg_fit m out n a1 -> arg_fit m out n a2 ->
    leaves m (plus_vec ar o m out a1 a2 n) out n
      (fun i => lift2 (fun x y => o_add o x y)
                  (sample ar m a1 i) (sample ar m a2 i)).
Proof. exact C18_plus_vec_lemma. Qed.
Print Assumptions C18_plus_vec.

Example C18_plus_vec_ex :
  let m := block 0 80 (fun a => a * a) in
  0 < 7 < 2 ^ 32 /\ accessible m 32 7 /\ arg_fit m 32 7 (APtr 40) /\ arg_fit m 32 7 (ARamp 3 1).
Proof. fit. Qed.

Theorem C18_plus_vec_simd : 
  forall A (ar : arith A) (o : ops A) (B : backend) (m : mem A) (out : Z) (a1 a2 : arg A) n,
    legal_simd_length B n -> aligned B out -> accessible m out n ->
    simd_fit B m out n a1 -> plain a1 -> simd_fit B m out n a2 -> plain a2 ->
    leaves m (plus_vec_simd ar o B m out a1 a2 n) out n
      (fun i => lift2 (fun x y => o_add o x y)
                  (sample ar m a1 i) (sample ar m a2 i)).
Proof. exact C18_plus_vec_simd_lemma. Qed.
Print Assumptions C18_plus_vec_simd.

Example C18_plus_vec_simd_ex :
  let m := block 0 80 (fun a => a * a) in
  legal_simd_length SSE32 32 /\ aligned SSE32 32 /\ accessible m 32 32 /\ simd_fit SSE32 m 32 32 (APtr 40) /\ @plain Z (APtr 40) /\ simd_fit SSE32 m 32 32 (AScal 3) /\ @plain Z (AScal 3).
Proof. fit. Qed.

Theorem C18_minus_vec : 
  forall A (ar : arith A) (o : ops A) (m : mem A) (out : Z) (a1 a2 : arg A) n,
    0 < n < 2 ^ 32 -> accessible m out n ->
    arg_fit m out n a1 -> arg_fit m out n a2 ->
    leaves m (minus_vec ar o m out a1 a2 n) out n
      (fun i => lift2 (fun x y => o_sub o x y)
                  (sample ar m a1 i) (sample ar m a2 i)).
Proof. exact C18_minus_vec_lemma. Qed.
Print Assumptions C18_minus_vec.

Example C18_minus_vec_ex :
  let m := block 0 80 (fun a => a * a) in
  0 < 7 < 2 ^ 32 /\ accessible m 32 7 /\ arg_fit m 32 7 (APtr 40) /\ arg_fit m 32 7 (ARamp 3 1).
Proof. fit. Qed.

Theorem C18_minus_vec_simd : 
  forall A (ar : arith A) (o : ops A) (B : backend) (m : mem A) (out : Z) (a1 a2 : arg A) n,
    legal_simd_length B n -> aligned B out -> accessible m out n ->
    simd_fit B m out n a1 -> plain a1 -> simd_fit B m out n a2 -> plain a2 ->
    leaves m (minus_vec_simd ar o B m out a1 a2 n) out n
      (fun i => lift2 (fun x y => o_sub o x y)
                  (sample ar m a1 i) (sample ar m a2 i)).
Proof. exact C18_minus_vec_simd_lemma. Qed.
Print Assumptions C18_minus_vec_simd.

Example C18_minus_vec_simd_ex :
  let m := block 0 80 (fun a => a * a) in
  legal_simd_length SSE32 32 /\ aligned SSE32 32 /\ accessible m 32 32 /\ simd_fit SSE32 m 32 32 (APtr 40) /\ @plain Z (APtr 40) /\ simd_fit SSE32 m 32 32 (AScal 3) /\ @plain Z (AScal 3).
Proof. fit. Qed.

Theorem C18_times_vec : 
  forall A (ar : arith A) (o : ops A) (m : mem A) (out : Z) (a1 a2 : arg A) n,
    0 < n < 2 ^ 32 -> accessible m out n ->
    arg_fit m out n a1 -> arg_fit m out n a2 ->
    leaves m (times_vec ar o m out a1 a2 n) out n
      (fun i => lift2 (fun x y => o_mul o x y)
                  (sample ar m a1 i) (sample ar m a2 i)).
Proof. exact C18_times_vec_lemma. Qed.
Print Assumptions C18_times_vec.

Example C18_times_vec_ex :
  let m := block 0 80 (fun a => a * a) in
  0 < 7 < 2 ^ 32 /\ accessible m 32 7 /\ arg_fit m 32 7 (APtr 40) /\ arg_fit m 32 7 (ARamp 3 1).
Proof. fit. Qed.

Theorem C18_times_vec_simd : 
  forall A (ar : arith A) (o : ops A) (B : backend) (m : mem A) (out : Z) (a1 a2 : arg A) n,
    legal_simd_length B n -> aligned B out -> accessible m out n ->
    simd_fit B m out n a1 -> plain a1 -> simd_fit B m out n a2 -> plain a2 ->
    leaves m (times_vec_simd ar o B m out a1 a2 n) out n
      (fun i => lift2 (fun x y => o_mul o x y)
                  (sample ar m a1 i) (sample ar m a2 i)).
Proof. exact C18_times_vec_simd_lemma. Qed.
Print Assumptions C18_times_vec_simd.

Example C18_times_vec_simd_ex :
  let m := block 0 80 (fun a => a * a) in
  legal_simd_length SSE32 32 /\ aligned SSE32 32 /\ accessible m 32 32 /\ simd_fit SSE32 m 32 32 (APtr 40) /\ @plain Z (APtr 40) /\ simd_fit SSE32 m 32 32 (AScal 3) /\ @plain Z (AScal 3).
Proof. fit. Qed.

Theorem C18_over_vec : 
  forall A (ar : arith A) (o : ops A) (m : mem A) (out : Z) (a1 a2 : arg A) n,
    0 < n < 2 ^ 32 -> accessible m out n ->
    arg_fit m out n a1 -> arg_fit m out n a2 ->
    leaves m (over_vec ar o m out a1 a2 n) out n
      (fun i => lift2 (fun x y => o_div o x y)
                  (sample ar m a1 i) (sample ar m a2 i)).
Proof. exact C18_over_vec_lemma. Qed.
Print Assumptions C18_over_vec.

Example C18_over_vec_ex :
  let m := block 0 80 (fun a => a * a) in
  0 < 7 < 2 ^ 32 /\ accessible m 32 7 /\ arg_fit m 32 7 (APtr 40) /\ arg_fit m 32 7 (ARamp 3 1).
Proof. fit. Qed.

Theorem C18_over_vec_simd : 
  forall A (ar : arith A) (o : ops A) (B : backend) (m : mem A) (out : Z) (a1 a2 : arg A) n,
    legal_simd_length B n -> aligned B out -> accessible m out n ->
    simd_fit B m out n a1 -> plain a1 -> simd_fit B m out n a2 -> plain a2 ->
    leaves m (over_vec_simd ar o B m out a1 a2 n) out n
      (fun i => lift2 (fun x y => o_div o x y)
                  (sample ar m a1 i) (sample ar m a2 i)).
Proof. exact C18_over_vec_simd_lemma. Qed.
Print Assumptions C18_over_vec_simd.

Example C18_over_vec_simd_ex :
  let m := block 0 80 (fun a => a * a) in
  legal_simd_length SSE32 32 /\ aligned SSE32 32 /\ accessible m 32 32 /\ simd_fit SSE32 m 32 32 (APtr 40) /\ @plain Z (APtr 40) /\ simd_fit SSE32 m 32 32 (AScal 3) /\ @plain Z (AScal 3).
Proof. fit. Qed.

Theorem C18_min_vec : 
  forall A (ar : arith A) (o : ops A) (m : mem A) (out : Z) (a1 a2 : arg A) n,
    0 < n < 2 ^ 32 -> accessible m out n ->
    arg_fit m out n a1 -> arg_fit m out n a2 ->
    leaves m (min_vec ar o m out a1 a2 n) out n
      (fun i => lift2 (fun x y => o_min o x y)
                  (sample ar m a1 i) (sample ar m a2 i)).
Proof. exact C18_min_vec_lemma. Qed.
Print Assumptions C18_min_vec.

Example C18_min_vec_ex :
  let m := block 0 80 (fun a => a * a) in
  0 < 7 < 2 ^ 32 /\ accessible m 32 7 /\ arg_fit m 32 7 (APtr 40) /\ arg_fit m 32 7 (ARamp 3 1).
Proof. fit. Qed.

Theorem C18_min_vec_simd : 
  forall A (ar : arith A) (o : ops A) (B : backend) (m : mem A) (out : Z) (a1 a2 : arg A) n,
    legal_simd_length B n -> aligned B out -> accessible m out n ->
    simd_fit B m out n a1 -> plain a1 -> simd_fit B m out n a2 -> plain a2 ->
    leaves m (min_vec_simd ar o B m out a1 a2 n) out n
      (fun i => lift2 (fun x y => o_min o x y)
                  (sample ar m a1 i) (sample ar m a2 i)).
Proof. exact C18_min_vec_simd_lemma. Qed.
Print Assumptions C18_min_vec_simd.

Example C18_min_vec_simd_ex :
  let m := block 0 80 (fun a => a * a) in
  legal_simd_length SSE32 32 /\ aligned SSE32 32 /\ accessible m 32 32 /\ simd_fit SSE32 m 32 32 (APtr 40) /\ @plain Z (APtr 40) /\ simd_fit SSE32 m 32 32 (AScal 3) /\ @plain Z (AScal 3).
Proof. fit. Qed.

Theorem C18_max_vec : 
  forall A (ar : arith A) (o : ops A) (m : mem A) (out : Z) (a1 a2 : arg A) n,
    0 < n < 2 ^ 32 -> accessible m out n ->
    arg_fit m out n a1 -> arg_fit m out n a2 ->
    leaves m (max_vec ar o m out a1 a2 n) out n
      (fun i => lift2 (fun x y => o_max o x y)
                  (sample ar m a1 i) (sample ar m a2 i)).
Proof. exact C18_max_vec_lemma. Qed.
Print Assumptions C18_max_vec.

Example C18_max_vec_ex :
  let m := block 0 80 (fun a => a * a) in
  0 < 7 < 2 ^ 32 /\ accessible m 32 7 /\ arg_fit m 32 7 (APtr 40) /\ arg_fit m 32 7 (ARamp 3 1).
Proof. fit. Qed.

Theorem C18_max_vec_simd : 
  forall A (ar : arith A) (o : ops A) (B : backend) (m : mem A) (out : Z) (a1 a2 : arg A) n,
    legal_simd_length B n -> aligned B out -> accessible m out n ->
    simd_fit B m out n a1 -> plain a1 -> simd_fit B m out n a2 -> plain a2 ->
    leaves m (max_vec_simd ar o B m out a1 a2 n) out n
      (fun i => lift2 (fun x y => o_max o x y)
                  (sample ar m a1 i) (sample ar m a2 i)).
Proof. exact C18_max_vec_simd_lemma. Qed.
Print Assumptions C18_max_vec_simd.

Example C18_max_vec_simd_ex :
  let m := block 0 80 (fun a => a * a) in
  legal_simd_length SSE32 32 /\ aligned SSE32 32 /\ accessible m 32 32 /\ simd_fit SSE32 m 32 32 (APtr 40) /\ @plain Z (APtr 40) /\ simd_fit SSE32 m 32 32 (AScal 3) /\ @plain Z (AScal 3).
Proof. fit. Qed.

Theorem C18_muladd_unfused_simd_equals_scalar : 
  forall A (ar : arith A) (o : ops A) (B : backend) (m : mem A) (out : Z) (a1 a2 a3 : arg A) n,
    (forall x y z, o_madd o x y z = o_add o (o_mul o x y) z) ->
    legal_simd_length B n -> aligned B out -> accessible m out n ->
    simd_fit B m out n a1 -> plain a1 -> simd_fit B m out n a2 -> plain a2 -> simd_fit B m out n a3 -> plain a3 ->
    same_effect (muladd_vec ar o m out a1 a2 a3 n) (muladd_vec_simd ar o B m out a1 a2 a3 n).
Proof. exact C18_muladd_unfused_simd_equals_scalar_lemma. Qed.
Print Assumptions C18_muladd_unfused_simd_equals_scalar.

Example C18_muladd_unfused_simd_equals_scalar_ex :
  let m := block 0 80 (fun a => a * a) in
  (forall x y z, o_madd zops x y z = o_add zops (o_mul zops x y) z) /\
  legal_simd_length SSE32 32 /\ aligned SSE32 32 /\ accessible m 32 32 /\
  simd_fit SSE32 m 32 32 (APtr 40) /\ simd_fit SSE32 m 32 32 (AScal 3) /\ simd_fit SSE32 m 32 32 (APtr 32) /\
  exists m', muladd_vec_simd zarith zops SSE32 m 32 (APtr 40) (AScal 3) (APtr 32) 32 = Ok m' /\ m' 33 = Some (41 * 41 * 3 + 33 * 33).
Proof. fit; eexists; split; vm_compute; reflexivity. Qed.
