(** Proofs of the theorems of Prop_Drivers.v. *)
From Coq Require Import ZArith List Lia Bool.
From Verif Require Import Base Mem Loop Backend Args Drivers Spec LoopFacts MemFacts KaryFacts
  DriverFacts RampFacts FaultFacts DriverClaims OverlapFacts ExData.
Import ListNotations.
Local Open Scope Z_scope.

Lemma C01_foo_vec_maps_unary_lemma : 
  forall A (ar : arith A) (f : A -> A) (m : mem A) (out inp n : Z),
    0 < n < 2 ^ 32 ->
    accessible m out n ->
    arg_fit m out n (APtr inp) ->
    leaves m (unary_vec f m out inp n) out n (fun i => lift1 f (m (inp + i))).
Proof.
  intros A ar f m out inp n Hn Ho [H1 H2]. exact (unary_vec_ok ar f m out inp n Hn Ho H1 H2).
Qed.

Lemma C01_foo_vec_maps_binary_lemma : 
  forall A (ar : arith A) (f : A -> A -> A) (m : mem A) (out : Z) (a1 a2 : arg A) (n : Z),
    0 < n < 2 ^ 32 ->
    accessible m out n ->
    arg_fit m out n a1 ->
    arg_fit m out n a2 ->
    leaves m (binary_vec ar f m out a1 a2 n) out n
      (fun i => lift2 f (sample ar m a1 i) (sample ar m a2 i)).
Proof.
  intros A ar f m out a1 a2 n Hn Ho [? ?] [? ?].
  apply binary_vec_ok; assumption.
Qed.

Lemma C01_foo_vec_maps_ternary_lemma : 
  forall A (ar : arith A) (f : A -> A -> A -> A) (m : mem A) (out : Z) (a1 a2 a3 : arg A) (n : Z),
    0 < n < 2 ^ 32 ->
    accessible m out n ->
    arg_fit m out n a1 ->
    arg_fit m out n a2 ->
    arg_fit m out n a3 ->
    leaves m (ternary_vec ar f m out a1 a2 a3 n) out n
      (fun i => lift3 f (sample ar m a1 i) (sample ar m a2 i) (sample ar m a3 i)).
Proof.
  intros A ar f m out a1 a2 a3 n Hn Ho [? ?] [? ?] [? ?].
  apply ternary_vec_ok; assumption.
Qed.

Lemma C01_foo_vec_maps_quaternary_lemma : 
  forall A (ar : arith A) (f : A -> A -> A -> A -> A) (m : mem A) (out : Z) (a1 a2 a3 a4 : arg A) (n : Z),
    0 < n < 2 ^ 32 ->
    accessible m out n ->
    arg_fit m out n a1 ->
    arg_fit m out n a2 ->
    arg_fit m out n a3 ->
    arg_fit m out n a4 ->
    leaves m (quaternary_vec ar f m out a1 a2 a3 a4 n) out n
      (fun i => lift4 f (sample ar m a1 i) (sample ar m a2 i) (sample ar m a3 i) (sample ar m a4 i)).
Proof.
  intros A ar f m out a1 a2 a3 a4 n Hn Ho [? ?] [? ?] [? ?] [? ?].
  apply quaternary_vec_ok; assumption.
Qed.

Lemma C01_fixed_length_unary_lemma : 
  forall A (ar : arith A) (f : A -> A) (m : mem A) (out : Z) (a1 : arg A) (size : nat),
    (0 < size)%nat ->
    accessible m out (Z.of_nat size) ->
    arg_fit m out (Z.of_nat size) a1 ->
    leaves m (ct_apply_on_vector1 ar size f m out a1) out (Z.of_nat size)
      (fun i => lift1 f (sample ar m a1 i)).
Proof.
  intros A ar f m out a1 n Hn Ho [? ?].
  destruct (ct_iter1_ok ar f m out a1 n) as (m' & s0 & s1 & E & G); auto.
  exists m'. unfold ct_apply_on_vector1. rewrite E. split; [reflexivity|exact G].
Qed.

Lemma C01_fixed_length_binary_lemma : 
  forall A (ar : arith A) (f : A -> A -> A) (m : mem A) (out : Z) (a1 a2 : arg A) (size : nat),
    (0 < size)%nat ->
    accessible m out (Z.of_nat size) ->
    arg_fit m out (Z.of_nat size) a1 ->
    arg_fit m out (Z.of_nat size) a2 ->
    leaves m (ct_apply_on_vector2 ar size f m out a1 a2) out (Z.of_nat size)
      (fun i => lift2 f (sample ar m a1 i) (sample ar m a2 i)).
Proof.
  intros A ar f m out a1 a2 n Hn Ho [? ?] [? ?].
  destruct (iter2_ok ar f m out a1 a2 n) as (m' & s0 & s1 & s2 & E & G); auto.
  exists m'. unfold ct_apply_on_vector2. rewrite E. split; [reflexivity|exact G].
Qed.

Lemma C01_fixed_length_ternary_lemma : 
  forall A (ar : arith A) (f : A -> A -> A -> A) (m : mem A) (out : Z) (a1 a2 a3 : arg A) (size : nat),
    (0 < size)%nat ->
    accessible m out (Z.of_nat size) ->
    arg_fit m out (Z.of_nat size) a1 ->
    arg_fit m out (Z.of_nat size) a2 ->
    arg_fit m out (Z.of_nat size) a3 ->
    leaves m (ct_apply_on_vector3 ar size f m out a1 a2 a3) out (Z.of_nat size)
      (fun i => lift3 f (sample ar m a1 i) (sample ar m a2 i) (sample ar m a3 i)).
Proof.
  intros A ar f m out a1 a2 a3 n Hn Ho [? ?] [? ?] [? ?].
  destruct (iter3_ok ar f m out a1 a2 a3 n) as (m' & s0 & s1 & s2 & s3 & E & G); auto.
  exists m'. unfold ct_apply_on_vector3. rewrite E. split; [reflexivity|exact G].
Qed.

Lemma C01_fixed_length_quaternary_lemma : 
  forall A (ar : arith A) (f : A -> A -> A -> A -> A) (m : mem A) (out : Z) (a1 a2 a3 a4 : arg A) (size : nat),
    (0 < size)%nat ->
    accessible m out (Z.of_nat size) ->
    arg_fit m out (Z.of_nat size) a1 ->
    arg_fit m out (Z.of_nat size) a2 ->
    arg_fit m out (Z.of_nat size) a3 ->
    arg_fit m out (Z.of_nat size) a4 ->
    leaves m (ct_apply_on_vector4 ar size f m out a1 a2 a3 a4) out (Z.of_nat size)
      (fun i => lift4 f (sample ar m a1 i) (sample ar m a2 i) (sample ar m a3 i) (sample ar m a4 i)).
Proof.
  intros A ar f m out a1 a2 a3 a4 n Hn Ho [? ?] [? ?] [? ?] [? ?].
  destruct (iter4_ok ar f m out a1 a2 a3 a4 n) as (m' & s0 & s1 & s2 & s3 & s4 & E & G); auto.
  exists m'. unfold ct_apply_on_vector4. rewrite E. split; [reflexivity|exact G].
Qed.

Lemma C02_foo_vec_simd_maps_unary_lemma : 
  forall A (ar : arith A) (B : backend) (vf : list A -> list A) (f : A -> A)
         (m : mem A) (out inp n : Z),
    lanewise1 B vf f ->
    legal_simd_length B n ->
    aligned B out -> accessible m out n ->
    simd_fit B m out n (APtr inp) ->
    leaves m (unary_vec_simd ar B vf m out inp n) out n (fun i => lift1 f (m (inp + i))).
Proof.
  intros A ar B vf f m out inp n Hf Hn Hal Ho H1.
  destruct (legal_bounds B n Hn) as [Hb Hr].
  pose proof (unary_simd_ok ar B vf f m out inp n Hf Hb Hal) as G. rewrite Hr in G.
  exact (G Ho (fit_simd_arg ar B m out n _ H1 I)).
Qed.

Lemma C02_foo_vec_simd_maps_binary_lemma : 
  forall A (ar : arith A) (B : backend) (vf : list A -> list A -> list A) (f : A -> A -> A)
         (m : mem A) (out : Z) (a1 a2 : arg A) (n : Z),
    lanewise2 B vf f ->
    legal_simd_length B n ->
    aligned B out -> accessible m out n ->
    simd_fit B m out n a1 -> plain a1 ->
    simd_fit B m out n a2 -> plain a2 ->
    leaves m (binary_vec_simd ar B vf m out a1 a2 n) out n
      (fun i => lift2 f (sample ar m a1 i) (sample ar m a2 i)).
Proof.
  intros A ar B vf f m out a1 a2 n Hf Hn Hal Ho H1 P1 H2 P2.
  destruct (legal_bounds B n Hn) as [Hb Hr].
  pose proof (binary_simd_ok ar B vf f m out a1 a2 n Hf Hb Hal) as G. rewrite Hr in G.
  apply G; auto using fit_simd_arg.
Qed.

Lemma C02_foo_vec_simd_maps_ternary_lemma : 
  forall A (ar : arith A) (B : backend) (vf : list A -> list A -> list A -> list A) (f : A -> A -> A -> A)
         (m : mem A) (out : Z) (a1 a2 a3 : arg A) (n : Z),
    lanewise3 B vf f ->
    legal_simd_length B n ->
    aligned B out -> accessible m out n ->
    simd_fit B m out n a1 -> plain a1 ->
    simd_fit B m out n a2 -> plain a2 ->
    simd_fit B m out n a3 -> plain a3 ->
    leaves m (ternary_vec_simd ar B vf m out a1 a2 a3 n) out n
      (fun i => lift3 f (sample ar m a1 i) (sample ar m a2 i) (sample ar m a3 i)).
Proof.
  intros A ar B vf f m out a1 a2 a3 n Hf Hn Hal Ho H1 P1 H2 P2 H3 P3.
  destruct (legal_bounds B n Hn) as [Hb Hr].
  pose proof (ternary_simd_ok ar B vf f m out a1 a2 a3 n Hf Hb Hal) as G. rewrite Hr in G.
  apply G; auto using fit_simd_arg.
Qed.

Lemma C02_foo_vec_simd_maps_quaternary_lemma : 
  forall A (ar : arith A) (B : backend) (vf : list A -> list A -> list A -> list A -> list A) (f : A -> A -> A -> A -> A)
         (m : mem A) (out : Z) (a1 a2 a3 a4 : arg A) (n : Z),
    lanewise4 B vf f ->
    legal_simd_length B n ->
    aligned B out -> accessible m out n ->
    simd_fit B m out n a1 -> plain a1 ->
    simd_fit B m out n a2 -> plain a2 ->
    simd_fit B m out n a3 -> plain a3 ->
    simd_fit B m out n a4 -> plain a4 ->
    leaves m (quaternary_vec_simd ar B vf m out a1 a2 a3 a4 n) out n
      (fun i => lift4 f (sample ar m a1 i) (sample ar m a2 i) (sample ar m a3 i) (sample ar m a4 i)).
Proof.
  intros A ar B vf f m out a1 a2 a3 a4 n Hf Hn Hal Ho H1 P1 H2 P2 H3 P3 H4 P4.
  destruct (legal_bounds B n Hn) as [Hb Hr].
  pose proof (quaternary_simd_ok ar B vf f m out a1 a2 a3 a4 n Hf Hb Hal) as G. rewrite Hr in G.
  apply G; auto using fit_simd_arg.
Qed.

Lemma C03_compile_time_equals_run_time_unary_lemma : 
  forall A (ar : arith A) (B : backend) (vf : list A -> list A) (f : A -> A)
         (m : mem A) (out inp n : Z),
    lanewise1 B vf f ->
    legal_simd_length B n ->
    aligned B out -> accessible m out n ->
    simd_fit B m out n (APtr inp) ->
    same_effect (unary_vec_simd_ct ar B (Z.to_nat (n / Z.of_nat (vsize B))) vf m out inp)
                (unary_vec_simd ar B vf m out inp n).
Proof.
  intros A ar B vf f m out inp n Hf Hn Hal Ho H1.
  destruct (vecs_of_legal B n Hn) as [Hk Hkn].
  pose proof (unary_ct_ok ar B vf f m out inp _ Hf Hk Hal) as G. rewrite Hkn in G.
  eapply leaves_same; [apply (G Ho (fit_simd_arg ar B m out n _ H1 I))|].
  eapply C02_foo_vec_simd_maps_unary_lemma; eauto.
Qed.

Lemma C03_compile_time_equals_run_time_binary_lemma : 
  forall A (ar : arith A) (B : backend) (vf : list A -> list A -> list A) (f : A -> A -> A)
         (m : mem A) (out : Z) (a1 a2 : arg A) (n : Z),
    lanewise2 B vf f ->
    legal_simd_length B n ->
    aligned B out -> accessible m out n ->
    simd_fit B m out n a1 -> plain a1 ->
    simd_fit B m out n a2 -> plain a2 ->
    same_effect (binary_vec_simd_ct ar B (Z.to_nat (n / Z.of_nat (vsize B))) vf m out a1 a2)
                (binary_vec_simd ar B vf m out a1 a2 n).
Proof.
  intros A ar B vf f m out a1 a2 n Hf Hn Hal Ho H1 P1 H2 P2.
  destruct (vecs_of_legal B n Hn) as [Hk Hkn].
  pose proof (binary_ct_ok ar B vf f m out a1 a2 _ Hf Hk Hal) as G. rewrite Hkn in G.
  eapply leaves_same; [apply G; auto using fit_simd_arg|].
  eapply C02_foo_vec_simd_maps_binary_lemma; eauto.
Qed.

Lemma C03_compile_time_equals_run_time_ternary_lemma : 
  forall A (ar : arith A) (B : backend) (vf : list A -> list A -> list A -> list A) (f : A -> A -> A -> A)
         (m : mem A) (out : Z) (a1 a2 a3 : arg A) (n : Z),
    lanewise3 B vf f ->
    legal_simd_length B n ->
    aligned B out -> accessible m out n ->
    simd_fit B m out n a1 -> plain a1 ->
    simd_fit B m out n a2 -> plain a2 ->
    simd_fit B m out n a3 -> plain a3 ->
    same_effect (ternary_vec_simd_ct ar B (Z.to_nat (n / Z.of_nat (vsize B))) vf m out a1 a2 a3)
                (ternary_vec_simd ar B vf m out a1 a2 a3 n).
Proof.
  intros A ar B vf f m out a1 a2 a3 n Hf Hn Hal Ho H1 P1 H2 P2 H3 P3.
  destruct (vecs_of_legal B n Hn) as [Hk Hkn].
  pose proof (ternary_ct_ok ar B vf f m out a1 a2 a3 _ Hf Hk Hal) as G. rewrite Hkn in G.
  eapply leaves_same; [apply G; auto using fit_simd_arg|].
  eapply C02_foo_vec_simd_maps_ternary_lemma; eauto.
Qed.

Lemma C03_compile_time_equals_run_time_quaternary_lemma : 
  forall A (ar : arith A) (B : backend) (vf : list A -> list A -> list A -> list A -> list A) (f : A -> A -> A -> A -> A)
         (m : mem A) (out : Z) (a1 a2 a3 a4 : arg A) (n : Z),
    lanewise4 B vf f ->
    legal_simd_length B n ->
    aligned B out -> accessible m out n ->
    simd_fit B m out n a1 -> plain a1 ->
    simd_fit B m out n a2 -> plain a2 ->
    simd_fit B m out n a3 -> plain a3 ->
    simd_fit B m out n a4 -> plain a4 ->
    same_effect (quaternary_vec_simd_ct ar B (Z.to_nat (n / Z.of_nat (vsize B))) vf m out a1 a2 a3 a4)
                (quaternary_vec_simd ar B vf m out a1 a2 a3 a4 n).
Proof.
  intros A ar B vf f m out a1 a2 a3 a4 n Hf Hn Hal Ho H1 P1 H2 P2 H3 P3 H4 P4.
  destruct (vecs_of_legal B n Hn) as [Hk Hkn].
  pose proof (quaternary_ct_ok ar B vf f m out a1 a2 a3 a4 _ Hf Hk Hal) as G. rewrite Hkn in G.
  eapply leaves_same; [apply G; auto using fit_simd_arg|].
  eapply C02_foo_vec_simd_maps_quaternary_lemma; eauto.
Qed.

Lemma C04_simd_equals_scalar_unary_lemma : 
  forall A (ar : arith A) (B : backend) (vf : list A -> list A) (f : A -> A)
         (m : mem A) (out inp n : Z),
    lanewise1 B vf f ->
    legal_simd_length B n ->
    aligned B out -> accessible m out n ->
    simd_fit B m out n (APtr inp) ->
    same_effect (unary_vec f m out inp n) (unary_vec_simd ar B vf m out inp n).
Proof.
  intros A ar B vf f m out inp n Hf Hn Hal Ho H1.
  eapply leaves_same; [|eapply C02_foo_vec_simd_maps_unary_lemma; eauto].
  destruct Hn as [Hn _]. destruct H1 as (Ha & Hb & _).
  apply (C01_foo_vec_maps_unary_lemma A ar); auto. split; assumption.
Qed.

Lemma C04_simd_equals_scalar_binary_lemma : 
  forall A (ar : arith A) (B : backend) (vf : list A -> list A -> list A) (f : A -> A -> A)
         (m : mem A) (out : Z) (a1 a2 : arg A) (n : Z),
    lanewise2 B vf f ->
    legal_simd_length B n ->
    aligned B out -> accessible m out n ->
    simd_fit B m out n a1 -> plain a1 ->
    simd_fit B m out n a2 -> plain a2 ->
    same_effect (binary_vec ar f m out a1 a2 n) (binary_vec_simd ar B vf m out a1 a2 n).
Proof.
  intros A ar B vf f m out a1 a2 n Hf Hn Hal Ho H1 P1 H2 P2.
  eapply leaves_same; [|eapply C02_foo_vec_simd_maps_binary_lemma; eauto].
  destruct Hn as [Hn _].
  apply C01_foo_vec_maps_binary_lemma; auto; unfold arg_fit, simd_fit in *; tauto.
Qed.

Lemma C04_simd_equals_scalar_ternary_lemma : 
  forall A (ar : arith A) (B : backend) (vf : list A -> list A -> list A -> list A) (f : A -> A -> A -> A)
         (m : mem A) (out : Z) (a1 a2 a3 : arg A) (n : Z),
    lanewise3 B vf f ->
    legal_simd_length B n ->
    aligned B out -> accessible m out n ->
    simd_fit B m out n a1 -> plain a1 ->
    simd_fit B m out n a2 -> plain a2 ->
    simd_fit B m out n a3 -> plain a3 ->
    same_effect (ternary_vec ar f m out a1 a2 a3 n) (ternary_vec_simd ar B vf m out a1 a2 a3 n).
Proof.
  intros A ar B vf f m out a1 a2 a3 n Hf Hn Hal Ho H1 P1 H2 P2 H3 P3.
  eapply leaves_same; [|eapply C02_foo_vec_simd_maps_ternary_lemma; eauto].
  destruct Hn as [Hn _].
  apply C01_foo_vec_maps_ternary_lemma; auto; unfold arg_fit, simd_fit in *; tauto.
Qed.

Lemma C04_simd_equals_scalar_quaternary_lemma : 
  forall A (ar : arith A) (B : backend) (vf : list A -> list A -> list A -> list A -> list A) (f : A -> A -> A -> A -> A)
         (m : mem A) (out : Z) (a1 a2 a3 a4 : arg A) (n : Z),
    lanewise4 B vf f ->
    legal_simd_length B n ->
    aligned B out -> accessible m out n ->
    simd_fit B m out n a1 -> plain a1 ->
    simd_fit B m out n a2 -> plain a2 ->
    simd_fit B m out n a3 -> plain a3 ->
    simd_fit B m out n a4 -> plain a4 ->
    same_effect (quaternary_vec ar f m out a1 a2 a3 a4 n) (quaternary_vec_simd ar B vf m out a1 a2 a3 a4 n).
Proof.
  intros A ar B vf f m out a1 a2 a3 a4 n Hf Hn Hal Ho H1 P1 H2 P2 H3 P3 H4 P4.
  eapply leaves_same; [|eapply C02_foo_vec_simd_maps_quaternary_lemma; eauto].
  destruct Hn as [Hn _].
  apply C01_foo_vec_maps_quaternary_lemma; auto; unfold arg_fit, simd_fit in *; tauto.
Qed.

Lemma C05_in_place_and_above_are_safe_lemma : 
  forall A (ar : arith A) (B : backend) (vf : list A -> list A) (f : A -> A)
         (m : mem A) (out distance n : Z),
    lanewise1 B vf f ->
    legal_simd_length B n ->
    0 <= distance -> aligned B out -> aligned B (out + distance) ->
    accessible m out (n + distance) ->
    leaves m (unary_vec f m out (out + distance) n) out n (fun i => lift1 f (m (out + distance + i))) /\
    leaves m (unary_vec_simd ar B vf m out (out + distance) n) out n
           (fun i => lift1 f (m (out + distance + i))).
Proof.
  intros A ar B vf f m out dist n Hf Hn Hd Hal Hal2 Ha.
  assert (H1 : accessible m out n) by (intros i Hi; apply Ha; lia).
  assert (H2 : accessible m (out + dist) n).
  { intros i Hi. rewrite <- Z.add_assoc. apply Ha. lia. }
  split.
  - apply (C01_foo_vec_maps_unary_lemma A ar); auto; [apply Hn|]. split; [exact H2|]. cbn. lia.
  - apply C02_foo_vec_simd_maps_unary_lemma; auto. split; [exact H2|]. split; [cbn; lia|exact Hal2].
Qed.

Lemma C05_below_reads_back_lemma : 
  forall A (f : A -> A) (m : mem A) (inp distance n : Z),
    0 < n < 2 ^ 32 -> 0 < distance ->
    accessible m inp (n + distance) ->
    leaves m (unary_vec f m (inp + distance) inp n) (inp + distance) n
      (fun i => option_map (Nat.iter (S (Z.to_nat (i / distance))) f) (m (inp + i mod distance))).
Proof.
  exact @unary_vec_forward.
Qed.

Lemma C05_below_is_safe_refuted_lemma : 
  exists (m : mem Z) (out inp n : Z) (m1 m2 : mem Z),
    legal_simd_length SSE32 n /\ aligned SSE32 out /\ aligned SSE32 inp /\
    accessible m out n /\ accessible m inp n /\ inp < out /\
    unary_vec Z.succ m out inp n = Ok m1 /\
    unary_vec_simd (MkArith 0 Z.add Z.mul (fun x => x) (fun x => x)) SSE32 (map Z.succ) m out inp n = Ok m2 /\
    (exists i, 0 <= i < n /\ m1 (out + i) <> lift1 Z.succ (m (inp + i))) /\
    (exists i, 0 <= i < n /\ m2 (out + i) <> lift1 Z.succ (m (inp + i))) /\
    (exists i, 0 <= i < n /\ m1 (out + i) <> m2 (out + i)).
Proof.
  exists (block 0 64 (fun a => a * a)), 4, 0, 32.
  do 2 eexists. split; [split; [lia|exists 2; reflexivity]|].
  split; [exists 1; reflexivity|]. split; [exists 0; reflexivity|].
  split; [apply accessible_block; lia|]. split; [apply accessible_block; lia|]. split; [lia|].
  split; [vm_compute; reflexivity|]. split; [vm_compute; reflexivity|].
  split; [exists 4|split; [exists 16|exists 4]]; (split; [lia|]); vm_compute; discriminate.
Qed.

Lemma C06_zero_length_unary_lemma : 
  forall A (ar : arith A) (f : A -> A) (m : mem A) (out inp i : Z),
    0 <= i < 2 ^ 32 -> m (out + i) = None ->
    memory_fault (unary_vec f m out inp 0).
Proof.
  intros A ar f m out inp i Hi Hm. destruct (unary_vec_zero ar f m out inp i Hi Hm) as [a E].
  exists a. left. exact E.
Qed.

Lemma C06_zero_length_binary_lemma : 
  forall A (ar : arith A) (f : A -> A -> A) (m : mem A) (out : Z) (a1 a2 : arg A) (i : Z),
    0 <= i < 2 ^ 32 -> m (out + i) = None ->
    memory_fault (binary_vec ar f m out a1 a2 0).
Proof.
  intros A ar f m out a1 a2 i Hi Hm. destruct (binary_vec_zero ar f m out a1 a2 i Hi Hm) as [a E].
  exists a. left. exact E.
Qed.

Lemma C06_zero_length_ternary_lemma : 
  forall A (ar : arith A) (f : A -> A -> A -> A) (m : mem A) (out : Z) (a1 a2 a3 : arg A) (i : Z),
    0 <= i < 2 ^ 32 -> m (out + i) = None ->
    memory_fault (ternary_vec ar f m out a1 a2 a3 0).
Proof.
  intros A ar f m out a1 a2 a3 i Hi Hm. destruct (ternary_vec_zero ar f m out a1 a2 a3 i Hi Hm) as [a E].
  exists a. left. exact E.
Qed.

Lemma C06_zero_length_quaternary_lemma : 
  forall A (ar : arith A) (f : A -> A -> A -> A -> A) (m : mem A) (out : Z) (a1 a2 a3 a4 : arg A) (i : Z),
    0 <= i < 2 ^ 32 -> m (out + i) = None ->
    memory_fault (quaternary_vec ar f m out a1 a2 a3 a4 0).
Proof.
  intros A ar f m out a1 a2 a3 a4 i Hi Hm. destruct (quaternary_vec_zero ar f m out a1 a2 a3 a4 i Hi Hm) as [a E].
  exists a. left. exact E.
Qed.

Lemma C06_short_simd_length_unary_lemma : 
  forall A (ar : arith A) (B : backend) (vf : list A -> list A) (m : mem A) (out inp n i : Z),
    vfun1 B vf -> aligned B out ->
    0 <= n < loop_unit B ->
    0 <= i < 2 ^ 32 * loop_unit B -> m (out + i) = None ->
    memory_fault (unary_vec_simd ar B vf m out inp n).
Proof.
  intros A ar B vf m out inp n i. apply unary_simd_short.
Qed.

Lemma C06_short_simd_length_binary_lemma : 
  forall A (ar : arith A) (B : backend) (vf : list A -> list A -> list A) (m : mem A) (out : Z) (a1 a2 : arg A) (n i : Z),
    vfun2 B vf -> aligned B out ->
    0 <= n < loop_unit B ->
    0 <= i < 2 ^ 32 * loop_unit B -> m (out + i) = None ->
    memory_fault (binary_vec_simd ar B vf m out a1 a2 n).
Proof.
  intros A ar B vf m out a1 a2 n i. apply binary_simd_short.
Qed.

Lemma C06_short_simd_length_ternary_lemma : 
  forall A (ar : arith A) (B : backend) (vf : list A -> list A -> list A -> list A) (m : mem A) (out : Z) (a1 a2 a3 : arg A) (n i : Z),
    vfun3 B vf -> aligned B out ->
    0 <= n < loop_unit B ->
    0 <= i < 2 ^ 32 * loop_unit B -> m (out + i) = None ->
    memory_fault (ternary_vec_simd ar B vf m out a1 a2 a3 n).
Proof.
  intros A ar B vf m out a1 a2 a3 n i. apply ternary_simd_short.
Qed.

Lemma C06_short_simd_length_quaternary_lemma : 
  forall A (ar : arith A) (B : backend) (vf : list A -> list A -> list A -> list A -> list A) (m : mem A) (out : Z) (a1 a2 a3 a4 : arg A) (n i : Z),
    vfun4 B vf -> aligned B out ->
    0 <= n < loop_unit B ->
    0 <= i < 2 ^ 32 * loop_unit B -> m (out + i) = None ->
    memory_fault (quaternary_vec_simd ar B vf m out a1 a2 a3 a4 n).
Proof.
  intros A ar B vf m out a1 a2 a3 a4 n i. apply quaternary_simd_short.
Qed.

Lemma C07_tail_untouched_unary_lemma : 
  forall A (ar : arith A) (B : backend) (vf : list A -> list A) (m : mem A) (out inp n : Z),
    loop_unit B <= n < 2 ^ 32 ->
    unary_vec_simd ar B vf m out inp n = unary_vec_simd ar B vf m out inp (n - n mod loop_unit B) /\
    (forall f, lanewise1 B vf f -> aligned B out ->
       accessible m out (n - n mod loop_unit B) ->
       simd_fit B m out (n - n mod loop_unit B) (APtr inp) ->
       leaves m (unary_vec_simd ar B vf m out inp n) out (n - n mod loop_unit B)
              (fun i => lift1 f (m (inp + i)))).
Proof.
  intros A ar B vf m out inp n Hn. destruct (rounded_down B n Hn) as (E & R & HL). split.
  - unfold unary_vec_simd, generate_simd_loop1. rewrite E. reflexivity.
  - intros f Hf Hal Ho H1. rewrite <- two32_eq in Hn.
    pose proof (unary_simd_ok ar B vf f m out inp n Hf Hn Hal) as G. rewrite R in G.
    exact (G Ho (fit_simd_arg ar B m out _ _ H1 I)).
Qed.

Lemma C07_tail_untouched_binary_lemma : 
  forall A (ar : arith A) (B : backend) (vf : list A -> list A -> list A) (m : mem A) (out : Z) (a1 a2 : arg A) (n : Z),
    loop_unit B <= n < 2 ^ 32 ->
    binary_vec_simd ar B vf m out a1 a2 n =
      binary_vec_simd ar B vf m out a1 a2 (n - n mod loop_unit B) /\
    (forall f, lanewise2 B vf f -> aligned B out ->
       accessible m out (n - n mod loop_unit B) ->
       simd_fit B m out (n - n mod loop_unit B) a1 -> plain a1 ->
    simd_fit B m out (n - n mod loop_unit B) a2 -> plain a2 ->
       leaves m (binary_vec_simd ar B vf m out a1 a2 n) out (n - n mod loop_unit B)
         (fun i => lift2 f (sample ar m a1 i) (sample ar m a2 i))).
Proof.
  intros A ar B vf m out a1 a2 n Hn. destruct (rounded_down B n Hn) as (E & R & HL). split.
  - unfold binary_vec_simd, generate_simd_loop2. rewrite E. reflexivity.
  - intros f Hf Hal Ho H1 P1 H2 P2. rewrite <- two32_eq in Hn.
    pose proof (binary_simd_ok ar B vf f m out a1 a2 n Hf Hn Hal) as G. rewrite R in G.
    apply G; auto using fit_simd_arg.
Qed.

Lemma C07_tail_untouched_ternary_lemma : 
  forall A (ar : arith A) (B : backend) (vf : list A -> list A -> list A -> list A) (m : mem A) (out : Z) (a1 a2 a3 : arg A) (n : Z),
    loop_unit B <= n < 2 ^ 32 ->
    ternary_vec_simd ar B vf m out a1 a2 a3 n =
      ternary_vec_simd ar B vf m out a1 a2 a3 (n - n mod loop_unit B) /\
    (forall f, lanewise3 B vf f -> aligned B out ->
       accessible m out (n - n mod loop_unit B) ->
       simd_fit B m out (n - n mod loop_unit B) a1 -> plain a1 ->
    simd_fit B m out (n - n mod loop_unit B) a2 -> plain a2 ->
    simd_fit B m out (n - n mod loop_unit B) a3 -> plain a3 ->
       leaves m (ternary_vec_simd ar B vf m out a1 a2 a3 n) out (n - n mod loop_unit B)
         (fun i => lift3 f (sample ar m a1 i) (sample ar m a2 i) (sample ar m a3 i))).
Proof.
  intros A ar B vf m out a1 a2 a3 n Hn. destruct (rounded_down B n Hn) as (E & R & HL). split.
  - unfold ternary_vec_simd, generate_simd_loop3. rewrite E. reflexivity.
  - intros f Hf Hal Ho H1 P1 H2 P2 H3 P3. rewrite <- two32_eq in Hn.
    pose proof (ternary_simd_ok ar B vf f m out a1 a2 a3 n Hf Hn Hal) as G. rewrite R in G.
    apply G; auto using fit_simd_arg.
Qed.

Lemma C07_tail_untouched_quaternary_lemma : 
  forall A (ar : arith A) (B : backend) (vf : list A -> list A -> list A -> list A -> list A) (m : mem A) (out : Z) (a1 a2 a3 a4 : arg A) (n : Z),
    loop_unit B <= n < 2 ^ 32 ->
    quaternary_vec_simd ar B vf m out a1 a2 a3 a4 n =
      quaternary_vec_simd ar B vf m out a1 a2 a3 a4 (n - n mod loop_unit B) /\
    (forall f, lanewise4 B vf f -> aligned B out ->
       accessible m out (n - n mod loop_unit B) ->
       simd_fit B m out (n - n mod loop_unit B) a1 -> plain a1 ->
    simd_fit B m out (n - n mod loop_unit B) a2 -> plain a2 ->
    simd_fit B m out (n - n mod loop_unit B) a3 -> plain a3 ->
    simd_fit B m out (n - n mod loop_unit B) a4 -> plain a4 ->
       leaves m (quaternary_vec_simd ar B vf m out a1 a2 a3 a4 n) out (n - n mod loop_unit B)
         (fun i => lift4 f (sample ar m a1 i) (sample ar m a2 i) (sample ar m a3 i) (sample ar m a4 i))).
Proof.
  intros A ar B vf m out a1 a2 a3 a4 n Hn. destruct (rounded_down B n Hn) as (E & R & HL). split.
  - unfold quaternary_vec_simd, generate_simd_loop4. rewrite E. reflexivity.
  - intros f Hf Hal Ho H1 P1 H2 P2 H3 P3 H4 P4. rewrite <- two32_eq in Hn.
    pose proof (quaternary_simd_ok ar B vf f m out a1 a2 a3 a4 n Hf Hn Hal) as G. rewrite R in G.
    apply G; auto using fit_simd_arg.
Qed.

Lemma C08_misaligned_traps_unary_lemma : 
  forall A (ar : arith A) (B : backend) (vf : list A -> list A) (m : mem A) (out inp n : Z),
    traps B -> vfun1 B vf ->
    loop_unit B <= n < 2 ^ 32 ->
    accessible m inp (loop_unit B) ->
    ~ (aligned B out /\ aligned B inp) ->
    exists p, unary_vec_simd ar B vf m out inp n = Fault (Misaligned p).
Proof.
  intros A ar B vf m out inp n HT Hf Hn. apply unary_simd_misaligned; auto.
Qed.

Lemma C08_misaligned_traps_binary_lemma : 
  forall A (ar : arith A) (B : backend) (vf : list A -> list A -> list A) (m : mem A) (out : Z) (a1 a2 : arg A) (n : Z),
    traps B -> vfun2 B vf ->
    loop_unit B <= n < 2 ^ 32 ->
    arg_accessible m a1 (loop_unit B) ->
    arg_accessible m a2 (loop_unit B) ->
    ~ (aligned B out /\ arg_aligned B a1 /\ arg_aligned B a2) ->
    exists p, binary_vec_simd ar B vf m out a1 a2 n = Fault (Misaligned p).
Proof.
  intros A ar B vf m out a1 a2 n HT Hf Hn. apply binary_simd_misaligned; auto.
Qed.

Lemma C08_misaligned_traps_ternary_lemma : 
  forall A (ar : arith A) (B : backend) (vf : list A -> list A -> list A -> list A) (m : mem A) (out : Z) (a1 a2 a3 : arg A) (n : Z),
    traps B -> vfun3 B vf ->
    loop_unit B <= n < 2 ^ 32 ->
    arg_accessible m a1 (loop_unit B) ->
    arg_accessible m a2 (loop_unit B) ->
    arg_accessible m a3 (loop_unit B) ->
    ~ (aligned B out /\ arg_aligned B a1 /\ arg_aligned B a2 /\ arg_aligned B a3) ->
    exists p, ternary_vec_simd ar B vf m out a1 a2 a3 n = Fault (Misaligned p).
Proof.
  intros A ar B vf m out a1 a2 a3 n HT Hf Hn. apply ternary_simd_misaligned; auto.
Qed.

Lemma C08_misaligned_traps_quaternary_lemma : 
  forall A (ar : arith A) (B : backend) (vf : list A -> list A -> list A -> list A -> list A) (m : mem A) (out : Z) (a1 a2 a3 a4 : arg A) (n : Z),
    traps B -> vfun4 B vf ->
    loop_unit B <= n < 2 ^ 32 ->
    arg_accessible m a1 (loop_unit B) ->
    arg_accessible m a2 (loop_unit B) ->
    arg_accessible m a3 (loop_unit B) ->
    arg_accessible m a4 (loop_unit B) ->
    ~ (aligned B out /\ arg_aligned B a1 /\ arg_aligned B a2 /\ arg_aligned B a3 /\ arg_aligned B a4) ->
    exists p, quaternary_vec_simd ar B vf m out a1 a2 a3 a4 n = Fault (Misaligned p).
Proof.
  intros A ar B vf m out a1 a2 a3 a4 n HT Hf Hn. apply quaternary_simd_misaligned; auto.
Qed.

Lemma C08_is_aligned_exact_lemma : 
  forall (B : backend) (a : Z),
    traps B ->
    (is_aligned B (a * elem_bytes B) = true <-> aligned B a) /\
    (forall A (m : mem A), accessible m a (Z.of_nat (vsize B)) ->
       if is_aligned B (a * elem_bytes B)
       then exists v, vload_aligned B m a = Ok v
       else vload_aligned B m a = Fault (Misaligned a)) /\
    (forall A (m : mem A) (v : list A), length v = vsize B -> accessible m a (Z.of_nat (vsize B)) ->
       if is_aligned B (a * elem_bytes B)
       then exists m', vstore_aligned B m a v = Ok m'
       else vstore_aligned B m a v = Fault (Misaligned a)).
Proof.
  exact is_aligned_exact.
Qed.

Lemma C08_no_alignment_needed_lemma : 
  forall (B : backend) (p : Z),
    B = GEN32 \/ B = GEN64 \/ B = NEON32 -> aligned B p.
Proof.
  intros B p [-> | [-> | ->]]; exists p; cbn; lia.
Qed.

Lemma C09_ramps_are_lines_binary_lemma : 
  forall A (ar : arith A) (B : backend) (vf : list A -> list A -> list A) (f : A -> A -> A)
         (m : mem A) (out : Z) (a1 a2 : arg A) (n : Z),
    exact_arith ar ->
    lanewise2 B vf f ->
    legal_simd_length B n ->
    aligned B out -> accessible m out n ->
    simd_fit B m out n a1 ->
    simd_fit B m out n a2 ->
    let result := (fun i => lift2 f (line ar m a1 i) (line ar m a2 i)) in
    leaves m (binary_vec ar f m out a1 a2 n) out n result /\
    leaves m (binary_vec_simd ar B vf m out a1 a2 n) out n result /\
    leaves m (binary_vec_simd_ct ar B (Z.to_nat (n / Z.of_nat (vsize B))) vf m out a1 a2) out n result.
Proof.
  intros A ar B vf f m out a1 a2 n E Hf Hn Hal Ho H1 H2 result.
  assert (L : forall i, 0 <= i < n -> (fun i => lift2 f (sample ar m a1 i) (sample ar m a2 i)) i = result i).
  { intros i Hi. unfold result. rewrite !(sample_line ar E) by lia. reflexivity. }
  split; [|split]; (eapply leaves_ext; [exact L|]).
  - apply C01_foo_vec_maps_binary_lemma; auto; [apply Hn|..]; unfold arg_fit, simd_fit in *; tauto.
  - destruct (legal_bounds B n Hn) as [Hb Hr].
    pose proof (binary_simd_ok ar B vf f m out a1 a2 n Hf Hb Hal) as G. rewrite Hr in G.
    apply G; auto using fit_simd_arg_exact.
  - destruct (vecs_of_legal B n Hn) as [Hk Hkn].
    pose proof (binary_ct_ok ar B vf f m out a1 a2 _ Hf Hk Hal) as G. rewrite Hkn in G.
    apply G; auto using fit_simd_arg_exact.
Qed.

Lemma C09_ramps_are_lines_ternary_lemma : 
  forall A (ar : arith A) (B : backend) (vf : list A -> list A -> list A -> list A) (f : A -> A -> A -> A)
         (m : mem A) (out : Z) (a1 a2 a3 : arg A) (n : Z),
    exact_arith ar ->
    lanewise3 B vf f ->
    legal_simd_length B n ->
    aligned B out -> accessible m out n ->
    simd_fit B m out n a1 ->
    simd_fit B m out n a2 ->
    simd_fit B m out n a3 ->
    let result := (fun i => lift3 f (line ar m a1 i) (line ar m a2 i) (line ar m a3 i)) in
    leaves m (ternary_vec ar f m out a1 a2 a3 n) out n result /\
    leaves m (ternary_vec_simd ar B vf m out a1 a2 a3 n) out n result /\
    leaves m (ternary_vec_simd_ct ar B (Z.to_nat (n / Z.of_nat (vsize B))) vf m out a1 a2 a3) out n result.
Proof.
  intros A ar B vf f m out a1 a2 a3 n E Hf Hn Hal Ho H1 H2 H3 result.
  assert (L : forall i, 0 <= i < n -> (fun i => lift3 f (sample ar m a1 i) (sample ar m a2 i) (sample ar m a3 i)) i = result i).
  { intros i Hi. unfold result. rewrite !(sample_line ar E) by lia. reflexivity. }
  split; [|split]; (eapply leaves_ext; [exact L|]).
  - apply C01_foo_vec_maps_ternary_lemma; auto; [apply Hn|..]; unfold arg_fit, simd_fit in *; tauto.
  - destruct (legal_bounds B n Hn) as [Hb Hr].
    pose proof (ternary_simd_ok ar B vf f m out a1 a2 a3 n Hf Hb Hal) as G. rewrite Hr in G.
    apply G; auto using fit_simd_arg_exact.
  - destruct (vecs_of_legal B n Hn) as [Hk Hkn].
    pose proof (ternary_ct_ok ar B vf f m out a1 a2 a3 _ Hf Hk Hal) as G. rewrite Hkn in G.
    apply G; auto using fit_simd_arg_exact.
Qed.

Lemma C09_ramps_are_lines_quaternary_lemma : 
  forall A (ar : arith A) (B : backend) (vf : list A -> list A -> list A -> list A -> list A) (f : A -> A -> A -> A -> A)
         (m : mem A) (out : Z) (a1 a2 a3 a4 : arg A) (n : Z),
    exact_arith ar ->
    lanewise4 B vf f ->
    legal_simd_length B n ->
    aligned B out -> accessible m out n ->
    simd_fit B m out n a1 ->
    simd_fit B m out n a2 ->
    simd_fit B m out n a3 ->
    simd_fit B m out n a4 ->
    let result := (fun i => lift4 f (line ar m a1 i) (line ar m a2 i) (line ar m a3 i) (line ar m a4 i)) in
    leaves m (quaternary_vec ar f m out a1 a2 a3 a4 n) out n result /\
    leaves m (quaternary_vec_simd ar B vf m out a1 a2 a3 a4 n) out n result /\
    leaves m (quaternary_vec_simd_ct ar B (Z.to_nat (n / Z.of_nat (vsize B))) vf m out a1 a2 a3 a4) out n result.
Proof.
  intros A ar B vf f m out a1 a2 a3 a4 n E Hf Hn Hal Ho H1 H2 H3 H4 result.
  assert (L : forall i, 0 <= i < n -> (fun i => lift4 f (sample ar m a1 i) (sample ar m a2 i) (sample ar m a3 i) (sample ar m a4 i)) i = result i).
  { intros i Hi. unfold result. rewrite !(sample_line ar E) by lia. reflexivity. }
  split; [|split]; (eapply leaves_ext; [exact L|]).
  - apply C01_foo_vec_maps_quaternary_lemma; auto; [apply Hn|..]; unfold arg_fit, simd_fit in *; tauto.
  - destruct (legal_bounds B n Hn) as [Hb Hr].
    pose proof (quaternary_simd_ok ar B vf f m out a1 a2 a3 a4 n Hf Hb Hal) as G. rewrite Hr in G.
    apply G; auto using fit_simd_arg_exact.
  - destruct (vecs_of_legal B n Hn) as [Hk Hkn].
    pose proof (quaternary_ct_ok ar B vf f m out a1 a2 a3 a4 _ Hf Hk Hal) as G. rewrite Hkn in G.
    apply G; auto using fit_simd_arg_exact.
Qed.
