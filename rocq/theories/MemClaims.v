(** Proofs of the theorems of Prop_Memory.v (generated by script). *)
From Coq Require Import ZArith List Lia Bool.
From Verif Require Import Base Mem Loop Backend Args Drivers Spec LoopFacts MemFacts KaryFacts DriverFacts RampFacts
  FaultFacts DriverClaims OverlapFacts DriverClaims2 MemFuns Pan Functors BlockFacts MemFunFacts CopyFacts PanFacts ExData.
Import ListNotations.
Local Open Scope Z_scope.


Lemma as_lanes {A} B (u : list A) d : length u = vsize B -> u = lanesf B (fun j => nth j u d).
Proof. apply lanesf_nth. Qed.
Lemma map3_ext {A B C D} (f g : A -> B -> C -> D) : (forall x y z, f x y z = g x y z) ->
  forall u v w, map3 f u v w = map3 g u v w.
Proof. intros H. induction u; destruct v, w; cbn; try reflexivity. rewrite H, IHu. reflexivity. Qed.
Lemma map3_lanesf {A} B (f : A -> A -> A -> A) g h k :
  map3 f (lanesf B g) (lanesf B h) (lanesf B k) = lanesf B (fun l => f (g l) (h l) (k l)).
Proof. destruct B; reflexivity. Qed.
Lemma map4_lanesf {A} B (f : A -> A -> A -> A -> A) g h k j :
  map4 f (lanesf B g) (lanesf B h) (lanesf B k) (lanesf B j) = lanesf B (fun l => f (g l) (h l) (k l) (j l)).
Proof. destruct B; reflexivity. Qed.

Lemma lw_mix_vec {A} (o : ops A) B : lanewise4 B (scaled_mix2_functor (vops B o)) (fun sig0 factor0 sig1 factor1 => o_add o (o_mul o sig0 factor0) (o_mul o sig1 factor1)).
Proof.
  intros u v w x Hu Hv Hw Hx. rewrite (as_lanes B u (o_zero o) Hu). rewrite (as_lanes B v (o_zero o) Hv). rewrite (as_lanes B w (o_zero o) Hw). rewrite (as_lanes B x (o_zero o) Hx).
  unfold scaled_mix2_functor, vops; cbn [o_zero o_one o_add o_sub o_mul o_div o_max o_min o_madd].
  rewrite ?set_vec_lanesf, ?map3_lanesf, ?map4_lanesf, ?map2_lanesf, ?map3_lanesf. reflexivity.
Qed.
Lemma lw_sum_vec2 {A} (o : ops A) B : lanewise2 B (sum2_functor (vops B o)) (fun x y => o_add o x y).
Proof.
  intros u v Hu Hv. rewrite (as_lanes B u (o_zero o) Hu). rewrite (as_lanes B v (o_zero o) Hv).
  unfold sum2_functor, vops; cbn [o_zero o_one o_add o_sub o_mul o_div o_max o_min o_madd].
  rewrite ?set_vec_lanesf, ?map3_lanesf, ?map4_lanesf, ?map2_lanesf, ?map3_lanesf. reflexivity.
Qed.
Lemma lw_sum_vec3 {A} (o : ops A) B : lanewise3 B (sum3_functor (vops B o)) (fun x y z => o_add o (o_add o x y) z).
Proof.
  intros u v w Hu Hv Hw. rewrite (as_lanes B u (o_zero o) Hu). rewrite (as_lanes B v (o_zero o) Hv). rewrite (as_lanes B w (o_zero o) Hw).
  unfold sum3_functor, vops; cbn [o_zero o_one o_add o_sub o_mul o_div o_max o_min o_madd].
  rewrite ?set_vec_lanesf, ?map3_lanesf, ?map4_lanesf, ?map2_lanesf, ?map3_lanesf. reflexivity.
Qed.
Lemma lw_sum_vec4 {A} (o : ops A) B : lanewise4 B (sum4_functor (vops B o)) (fun x y z w => o_add o (o_add o x y) (o_add o z w)).
Proof.
  intros u v w x Hu Hv Hw Hx. rewrite (as_lanes B u (o_zero o) Hu). rewrite (as_lanes B v (o_zero o) Hv). rewrite (as_lanes B w (o_zero o) Hw). rewrite (as_lanes B x (o_zero o) Hx).
  unfold sum4_functor, vops; cbn [o_zero o_one o_add o_sub o_mul o_div o_max o_min o_madd].
  rewrite ?set_vec_lanesf, ?map3_lanesf, ?map4_lanesf, ?map2_lanesf, ?map3_lanesf. reflexivity.
Qed.
Lemma lw_muladd_vec {A} (o : ops A) B : lanewise3 B (muladd_vec_functor (vops B o)) (fun x y z => o_madd o x y z).
Proof.
  intros u v w Hu Hv Hw. rewrite (as_lanes B u (o_zero o) Hu). rewrite (as_lanes B v (o_zero o) Hv). rewrite (as_lanes B w (o_zero o) Hw).
  unfold muladd_vec_functor, vops; cbn [o_zero o_one o_add o_sub o_mul o_div o_max o_min o_madd].
  rewrite ?set_vec_lanesf, ?map3_lanesf, ?map4_lanesf, ?map2_lanesf, ?map3_lanesf. reflexivity.
Qed.
Lemma lw_ampmod_vec {A} (o : ops A) B : lanewise3 B (ampmod_functor (vops B o)) (fun signal modulator amount => o_mul o signal (o_add o (o_one o) (o_mul o modulator amount))).
Proof.
  intros u v w Hu Hv Hw. rewrite (as_lanes B u (o_zero o) Hu). rewrite (as_lanes B v (o_zero o) Hv). rewrite (as_lanes B w (o_zero o) Hw).
  unfold ampmod_functor, vops; cbn [o_zero o_one o_add o_sub o_mul o_div o_max o_min o_madd].
  rewrite ?set_vec_lanesf, ?map3_lanesf, ?map4_lanesf, ?map2_lanesf, ?map3_lanesf. reflexivity.
Qed.
Lemma lw_clip_vec {A} (o : ops A) B : lanewise3 B (clip_functor (vops B o)) (fun value low high => o_max o (o_min o value high) low).
Proof.
  intros u v w Hu Hv Hw. rewrite (as_lanes B u (o_zero o) Hu). rewrite (as_lanes B v (o_zero o) Hv). rewrite (as_lanes B w (o_zero o) Hw).
  unfold clip_functor, vops; cbn [o_zero o_one o_add o_sub o_mul o_div o_max o_min o_madd].
  rewrite ?set_vec_lanesf, ?map3_lanesf, ?map4_lanesf, ?map2_lanesf, ?map3_lanesf. reflexivity.
Qed.
Lemma lw_clip2_vec {A} (o : ops A) B : lanewise2 B (clip2_functor (vops B o)) (fun x limit => o_max o (o_sub o (o_zero o) limit) (o_min o x limit)).
Proof.
  intros u v Hu Hv. rewrite (as_lanes B u (o_zero o) Hu). rewrite (as_lanes B v (o_zero o) Hv).
  unfold clip2_functor, vops; cbn [o_zero o_one o_add o_sub o_mul o_div o_max o_min o_madd].
  rewrite ?set_vec_lanesf, ?map3_lanesf, ?map4_lanesf, ?map2_lanesf, ?map3_lanesf. reflexivity.
Qed.
Lemma lw_plus_vec {A} (o : ops A) B : lanewise2 B (o_add (vops B o)) (fun x y => o_add o x y).
Proof.
  intros u v Hu Hv. rewrite (as_lanes B u (o_zero o) Hu). rewrite (as_lanes B v (o_zero o) Hv).
  unfold o_add, vops; cbn [o_zero o_one o_add o_sub o_mul o_div o_max o_min o_madd].
  rewrite ?set_vec_lanesf, ?map3_lanesf, ?map4_lanesf, ?map2_lanesf, ?map3_lanesf. reflexivity.
Qed.
Lemma lw_minus_vec {A} (o : ops A) B : lanewise2 B (o_sub (vops B o)) (fun x y => o_sub o x y).
Proof.
  intros u v Hu Hv. rewrite (as_lanes B u (o_zero o) Hu). rewrite (as_lanes B v (o_zero o) Hv).
  unfold o_sub, vops; cbn [o_zero o_one o_add o_sub o_mul o_div o_max o_min o_madd].
  rewrite ?set_vec_lanesf, ?map3_lanesf, ?map4_lanesf, ?map2_lanesf, ?map3_lanesf. reflexivity.
Qed.
Lemma lw_times_vec {A} (o : ops A) B : lanewise2 B (o_mul (vops B o)) (fun x y => o_mul o x y).
Proof.
  intros u v Hu Hv. rewrite (as_lanes B u (o_zero o) Hu). rewrite (as_lanes B v (o_zero o) Hv).
  unfold o_mul, vops; cbn [o_zero o_one o_add o_sub o_mul o_div o_max o_min o_madd].
  rewrite ?set_vec_lanesf, ?map3_lanesf, ?map4_lanesf, ?map2_lanesf, ?map3_lanesf. reflexivity.
Qed.
Lemma lw_over_vec {A} (o : ops A) B : lanewise2 B (o_div (vops B o)) (fun x y => o_div o x y).
Proof.
  intros u v Hu Hv. rewrite (as_lanes B u (o_zero o) Hu). rewrite (as_lanes B v (o_zero o) Hv).
  unfold o_div, vops; cbn [o_zero o_one o_add o_sub o_mul o_div o_max o_min o_madd].
  rewrite ?set_vec_lanesf, ?map3_lanesf, ?map4_lanesf, ?map2_lanesf, ?map3_lanesf. reflexivity.
Qed.
Lemma lw_min_vec {A} (o : ops A) B : lanewise2 B (o_min (vops B o)) (fun x y => o_min o x y).
Proof.
  intros u v Hu Hv. rewrite (as_lanes B u (o_zero o) Hu). rewrite (as_lanes B v (o_zero o) Hv).
  unfold o_min, vops; cbn [o_zero o_one o_add o_sub o_mul o_div o_max o_min o_madd].
  rewrite ?set_vec_lanesf, ?map3_lanesf, ?map4_lanesf, ?map2_lanesf, ?map3_lanesf. reflexivity.
Qed.
Lemma lw_max_vec {A} (o : ops A) B : lanewise2 B (o_max (vops B o)) (fun x y => o_max o x y).
Proof.
  intros u v Hu Hv. rewrite (as_lanes B u (o_zero o) Hu). rewrite (as_lanes B v (o_zero o) Hv).
  unfold o_max, vops; cbn [o_zero o_one o_add o_sub o_mul o_div o_max o_min o_madd].
  rewrite ?set_vec_lanesf, ?map3_lanesf, ?map4_lanesf, ?map2_lanesf, ?map3_lanesf. reflexivity.
Qed.

Lemma C12_zerovec_lemma : 
  forall A (ar : arith A) (m : mem A) dest n,
    0 <= n -> accessible m dest n ->
    leaves m (zerovec ar m dest n) dest n (fun _ => Some (a_zero ar)).
Proof.
  intros. apply zerovec_ok; assumption.
Qed.

Lemma C12_setvec_lemma : 
  forall A (m : mem A) dest f n,
    0 < n < 2 ^ 32 -> accessible m dest n ->
    leaves m (setvec m dest f n) dest n (fun _ => Some f).
Proof.
  intros. apply setvec_ok; assumption.
Qed.

Lemma C12_zerovec_simd_lemma : 
  forall A (ar : arith A) (B : backend) (m : mem A) dest n,
    legal_simd_length B n -> aligned B dest -> accessible m dest n ->
    leaves m (zerovec_simd ar B m dest n) dest n (fun _ => Some (a_zero ar)).
Proof.
  intros. unfold zerovec_simd. apply setvec_rt_ok; [assumption| |assumption].
  apply aligned_access; assumption.
Qed.

Lemma C12_zerovec_simd_fixed_length_lemma : 
  forall A (ar : arith A) (B : backend) (m : mem A) dest (k : nat),
    aligned B dest -> accessible m dest (Z.of_nat k * Z.of_nat (vsize B)) ->
    leaves m (zerovec_simd_ct ar B k m dest) dest (Z.of_nat k * Z.of_nat (vsize B)) (fun _ => Some (a_zero ar)).
Proof.
  intros. unfold zerovec_simd_ct. apply setvec_ct_ok; [|assumption].
  apply aligned_access; assumption.
Qed.

Lemma C12_zerovec_na_simd_lemma : 
  forall A (ar : arith A) (B : backend) (m : mem A) dest n,
    legal_simd_length B n -> (B = ALTIVEC32 -> aligned B dest) -> accessible m dest n ->
    leaves m (zerovec_na_simd ar B m dest n) dest n (fun _ => Some (a_zero ar)).
Proof.
  intros. unfold zerovec_na_simd. apply setvec_rt_ok; [assumption| |assumption].
  intros [C | C]; [discriminate|auto].
Qed.

Lemma C12_zerovec_na_simd_fixed_length_lemma : 
  forall A (ar : arith A) (B : backend) (m : mem A) dest (k : nat),
    (B = ALTIVEC32 -> aligned B dest) -> accessible m dest (Z.of_nat k * Z.of_nat (vsize B)) ->
    leaves m (zerovec_na_simd_ct ar B k m dest) dest (Z.of_nat k * Z.of_nat (vsize B)) (fun _ => Some (a_zero ar)).
Proof.
  intros. unfold zerovec_na_simd_ct. apply setvec_ct_ok; [|assumption].
  intros [C | C]; [discriminate|auto].
Qed.

Lemma C12_setvec_simd_lemma : 
  forall A (B : backend) (m : mem A) dest (f : A) n,
    legal_simd_length B n -> aligned B dest -> accessible m dest n ->
    leaves m (setvec_simd B m dest f n) dest n (fun _ => Some (f)).
Proof.
  intros. unfold setvec_simd. apply setvec_rt_ok; [assumption| |assumption].
  apply aligned_access; assumption.
Qed.

Lemma C12_setvec_simd_fixed_length_lemma : 
  forall A (B : backend) (m : mem A) dest (f : A) (k : nat),
    aligned B dest -> accessible m dest (Z.of_nat k * Z.of_nat (vsize B)) ->
    leaves m (setvec_simd_ct B k m dest f) dest (Z.of_nat k * Z.of_nat (vsize B)) (fun _ => Some (f)).
Proof.
  intros. unfold setvec_simd_ct. apply setvec_ct_ok; [|assumption].
  apply aligned_access; assumption.
Qed.

Lemma C12_setvec_na_simd_lemma : 
  forall A (B : backend) (m : mem A) dest (f : A) n,
    legal_simd_length B n -> (B = ALTIVEC32 -> aligned B dest) -> accessible m dest n ->
    leaves m (setvec_na_simd B m dest f n) dest n (fun _ => Some (f)).
Proof.
  intros. unfold setvec_na_simd. apply setvec_rt_ok; [assumption| |assumption].
  intros [C | C]; [discriminate|auto].
Qed.

Lemma C12_setvec_na_simd_fixed_length_lemma : 
  forall A (B : backend) (m : mem A) dest (f : A) (k : nat),
    (B = ALTIVEC32 -> aligned B dest) -> accessible m dest (Z.of_nat k * Z.of_nat (vsize B)) ->
    leaves m (setvec_na_simd_ct B k m dest f) dest (Z.of_nat k * Z.of_nat (vsize B)) (fun _ => Some (f)).
Proof.
  intros. unfold setvec_na_simd_ct. apply setvec_ct_ok; [|assumption].
  intros [C | C]; [discriminate|auto].
Qed.

Lemma C13_copyvec_lemma : 
  forall A (m : mem A) dest src n,
    0 <= n -> accessible m dest n -> accessible m src n -> disjoint dest src n ->
    leaves m (copyvec m dest src n) dest n (fun i => m (src + i)).
Proof.
  intros. apply copyvec_ok; assumption.
Qed.

Lemma C13_copyvec_simd_lemma : 
  forall A (B : backend) (m : mem A) dest src n,
    legal_simd_length B n ->
    access_ok B true dest -> access_ok B true src ->
    accessible m dest n -> accessible m src (n + Z.of_nat (vsize B)) ->
    overlap_ok dest (@APtr A src) n ->
    leaves m (copyvec_simd B m dest src n) dest n (fun i => m (src + i)).
Proof.
  intros. apply copy_rt_ok; assumption.
Qed.

Lemma C13_copyvec_simd_over_reads_lemma : 
  forall A (B : backend) (m : mem A) dest src n i,
    legal_simd_length B n -> access_ok B true src ->
    n <= i < n + Z.of_nat (vsize B) -> m (src + i) = None ->
    memory_fault (copyvec_simd B m dest src n).
Proof.
  intros A B m dest src n i Hn Ha Hi Hm. assert (0 <= n) by (destruct Hn; lia). apply (copy_rt_short B true true m dest src n i); auto; lia.
Qed.

Lemma C13_copyvec_aa_simd_lemma : 
  forall A (B : backend) (m : mem A) dest src n,
    legal_simd_length B n ->
    access_ok B true dest -> access_ok B true src ->
    accessible m dest n -> accessible m src (n + Z.of_nat (vsize B)) ->
    overlap_ok dest (@APtr A src) n ->
    leaves m (copyvec_aa_simd B m dest src n) dest n (fun i => m (src + i)).
Proof.
  intros. apply copy_rt_ok; assumption.
Qed.

Lemma C13_copyvec_aa_simd_fixed_length_lemma : 
  forall A (B : backend) (m : mem A) dest src (k : nat),
    let n := Z.of_nat k * Z.of_nat (vsize B) in
    access_ok B true dest -> access_ok B true src ->
    accessible m dest n -> accessible m src (n + Z.of_nat (vsize B)) ->
    overlap_ok dest (@APtr A src) n ->
    leaves m (copyvec_aa_simd_ct B k m dest src) dest n (fun i => m (src + i)).
Proof.
  intros. apply copy_ct_ok; assumption.
Qed.

Lemma C13_copyvec_aa_simd_over_reads_lemma : 
  forall A (B : backend) (m : mem A) dest src n i,
    legal_simd_length B n -> access_ok B true src ->
    n <= i < n + Z.of_nat (vsize B) -> m (src + i) = None ->
    memory_fault (copyvec_aa_simd B m dest src n).
Proof.
  intros A B m dest src n i Hn Ha Hi Hm. assert (0 <= n) by (destruct Hn; lia). apply (copy_rt_short B true true m dest src n i); auto; lia.
Qed.

Lemma C13_copyvec_aa_simd_fixed_length_over_reads_lemma : 
  forall A (B : backend) (m : mem A) dest src (k : nat) i,
    let n := Z.of_nat k * Z.of_nat (vsize B) in
    access_ok B true src ->
    n <= i < n + Z.of_nat (vsize B) -> m (src + i) = None ->
    memory_fault (copyvec_aa_simd_ct B k m dest src).
Proof.
  cbv zeta. intros A B m dest src k i Ha Hi Hm. apply (copy_ct_short B true true m dest src k i); auto; nia.
Qed.

Lemma C13_copyvec_na_simd_lemma : 
  forall A (B : backend) (m : mem A) dest src n,
    legal_simd_length B n ->
    access_ok B true dest -> access_ok B false src ->
    accessible m dest n -> accessible m src (n + Z.of_nat (vsize B)) ->
    overlap_ok dest (@APtr A src) n ->
    leaves m (copyvec_na_simd B m dest src n) dest n (fun i => m (src + i)).
Proof.
  intros. apply copy_rt_ok; assumption.
Qed.

Lemma C13_copyvec_na_simd_fixed_length_lemma : 
  forall A (B : backend) (m : mem A) dest src (k : nat),
    let n := Z.of_nat k * Z.of_nat (vsize B) in
    access_ok B true dest -> access_ok B false src ->
    accessible m dest n -> accessible m src (n + Z.of_nat (vsize B)) ->
    overlap_ok dest (@APtr A src) n ->
    leaves m (copyvec_na_simd_ct B k m dest src) dest n (fun i => m (src + i)).
Proof.
  intros. apply copy_ct_ok; assumption.
Qed.

Lemma C13_copyvec_na_simd_over_reads_lemma : 
  forall A (B : backend) (m : mem A) dest src n i,
    legal_simd_length B n -> access_ok B false src ->
    n <= i < n + Z.of_nat (vsize B) -> m (src + i) = None ->
    memory_fault (copyvec_na_simd B m dest src n).
Proof.
  intros A B m dest src n i Hn Ha Hi Hm. assert (0 <= n) by (destruct Hn; lia). apply (copy_rt_short B false true m dest src n i); auto; lia.
Qed.

Lemma C13_copyvec_na_simd_fixed_length_over_reads_lemma : 
  forall A (B : backend) (m : mem A) dest src (k : nat) i,
    let n := Z.of_nat k * Z.of_nat (vsize B) in
    access_ok B false src ->
    n <= i < n + Z.of_nat (vsize B) -> m (src + i) = None ->
    memory_fault (copyvec_na_simd_ct B k m dest src).
Proof.
  cbv zeta. intros A B m dest src k i Ha Hi Hm. apply (copy_ct_short B false true m dest src k i); auto; nia.
Qed.

Lemma C13_copyvec_an_simd_lemma : 
  forall A (B : backend) (m : mem A) dest src n,
    legal_simd_length B n ->
    access_ok B false dest -> access_ok B true src ->
    accessible m dest n -> accessible m src (n + Z.of_nat (vsize B)) ->
    overlap_ok dest (@APtr A src) n ->
    leaves m (copyvec_an_simd B m dest src n) dest n (fun i => m (src + i)).
Proof.
  intros. apply copy_rt_ok; assumption.
Qed.

Lemma C13_copyvec_an_simd_fixed_length_lemma : 
  forall A (B : backend) (m : mem A) dest src (k : nat),
    let n := Z.of_nat k * Z.of_nat (vsize B) in
    access_ok B false dest -> access_ok B true src ->
    accessible m dest n -> accessible m src (n + Z.of_nat (vsize B)) ->
    overlap_ok dest (@APtr A src) n ->
    leaves m (copyvec_an_simd_ct B k m dest src) dest n (fun i => m (src + i)).
Proof.
  intros. apply copy_ct_ok; assumption.
Qed.

Lemma C13_copyvec_an_simd_over_reads_lemma : 
  forall A (B : backend) (m : mem A) dest src n i,
    legal_simd_length B n -> access_ok B true src ->
    n <= i < n + Z.of_nat (vsize B) -> m (src + i) = None ->
    memory_fault (copyvec_an_simd B m dest src n).
Proof.
  intros A B m dest src n i Hn Ha Hi Hm. assert (0 <= n) by (destruct Hn; lia). apply (copy_rt_short B true false m dest src n i); auto; lia.
Qed.

Lemma C13_copyvec_an_simd_fixed_length_over_reads_lemma : 
  forall A (B : backend) (m : mem A) dest src (k : nat) i,
    let n := Z.of_nat k * Z.of_nat (vsize B) in
    access_ok B true src ->
    n <= i < n + Z.of_nat (vsize B) -> m (src + i) = None ->
    memory_fault (copyvec_an_simd_ct B k m dest src).
Proof.
  cbv zeta. intros A B m dest src k i Ha Hi Hm. apply (copy_ct_short B true false m dest src k i); auto; nia.
Qed.

Lemma C13_copyvec_nn_simd_lemma : 
  forall A (B : backend) (m : mem A) dest src n,
    legal_simd_length B n ->
    access_ok B false dest -> access_ok B false src ->
    accessible m dest n -> accessible m src (n + Z.of_nat (vsize B)) ->
    overlap_ok dest (@APtr A src) n ->
    leaves m (copyvec_nn_simd B m dest src n) dest n (fun i => m (src + i)).
Proof.
  intros. apply copy_rt_ok; assumption.
Qed.

Lemma C13_copyvec_nn_simd_fixed_length_lemma : 
  forall A (B : backend) (m : mem A) dest src (k : nat),
    let n := Z.of_nat k * Z.of_nat (vsize B) in
    access_ok B false dest -> access_ok B false src ->
    accessible m dest n -> accessible m src (n + Z.of_nat (vsize B)) ->
    overlap_ok dest (@APtr A src) n ->
    leaves m (copyvec_nn_simd_ct B k m dest src) dest n (fun i => m (src + i)).
Proof.
  intros. apply copy_ct_ok; assumption.
Qed.

Lemma C13_copyvec_nn_simd_over_reads_lemma : 
  forall A (B : backend) (m : mem A) dest src n i,
    legal_simd_length B n -> access_ok B false src ->
    n <= i < n + Z.of_nat (vsize B) -> m (src + i) = None ->
    memory_fault (copyvec_nn_simd B m dest src n).
Proof.
  intros A B m dest src n i Hn Ha Hi Hm. assert (0 <= n) by (destruct Hn; lia). apply (copy_rt_short B false false m dest src n i); auto; lia.
Qed.

Lemma C13_copyvec_nn_simd_fixed_length_over_reads_lemma : 
  forall A (B : backend) (m : mem A) dest src (k : nat) i,
    let n := Z.of_nat k * Z.of_nat (vsize B) in
    access_ok B false src ->
    n <= i < n + Z.of_nat (vsize B) -> m (src + i) = None ->
    memory_fault (copyvec_nn_simd_ct B k m dest src).
Proof.
  cbv zeta. intros A B m dest src k i Ha Hi Hm. apply (copy_ct_short B false false m dest src k i); auto; nia.
Qed.

Lemma C13_reads_only_the_source_refuted_lemma : 
  exists (B : backend) (m : mem Z) dest src n,
    legal_simd_length B n /\ aligned B dest /\ aligned B src /\
    accessible m dest n /\ accessible m src n /\ disjoint dest src n /\
    memory_fault (copyvec_simd B m dest src n).
Proof.
  exists SSE32, (block 0 48 (fun a => a)), 0, 32, 16.
  fit; try (unfold disjoint; lia).
  exists 48. left. vm_compute. reflexivity.
Qed.

Lemma C14_addvec_lemma : 
  forall A (ar : arith A) (m : mem A) out inp n,
    0 < n < 2 ^ 32 -> accessible m out n -> arg_fit m out n (APtr inp) ->
    leaves m (addvec ar m out inp n) out n (fun i => lift2 (a_add ar) (m (out + i)) (m (inp + i))).
Proof.
  intros. apply addvec_ok; assumption.
Qed.

Lemma C14_addvec_scalar_lemma : 
  forall A (ar : arith A) (m : mem A) out f n,
    0 < n < 2 ^ 32 -> accessible m out n ->
    leaves m (addvec_scalar ar m out f n) out n (fun i => lift1 (fun x => a_add ar x f) (m (out + i))).
Proof.
  intros. apply addvec_scalar_ok; assumption.
Qed.

Lemma C14_addvec_simd_lemma : 
  forall A (ar : arith A) (B : backend) (m : mem A) out inp n,
    legal_simd_length B n -> aligned B out -> accessible m out n -> simd_fit B m out n (APtr inp) ->
    leaves m (addvec_simd ar B m out inp n) out n (fun i => lift2 (a_add ar) (m (out + i)) (m (inp + i))).
Proof.
  intros. apply addvec_simd_ok; assumption.
Qed.

Lemma C14_addvec_scalar_simd_lemma : 
  forall A (ar : arith A) (B : backend) (m : mem A) out f n,
    legal_simd_length B n -> aligned B out -> accessible m out n ->
    leaves m (addvec_scalar_simd ar B m out f n) out n (fun i => lift1 (fun x => a_add ar x f) (m (out + i))).
Proof.
  intros. apply addvec_scalar_simd_ok; assumption.
Qed.

Lemma C14_addvec_simd_fixed_length_lemma : 
  forall A (ar : arith A) (B : backend) (m : mem A) out inp (k : nat),
    let n := Z.of_nat k * Z.of_nat (vsize B) in
    aligned B out -> accessible m out n -> simd_fit B m out n (APtr inp) ->
    leaves m (addvec_simd_ct ar B k m out inp) out n (fun i => lift2 (a_add ar) (m (out + i)) (m (inp + i))).
Proof.
  intros. apply addvec_ct_ok; assumption.
Qed.

Lemma C14_addvec_scalar_simd_fixed_length_lemma : 
  forall A (ar : arith A) (B : backend) (m : mem A) out f (k : nat),
    let n := Z.of_nat k * Z.of_nat (vsize B) in
    aligned B out -> accessible m out n ->
    leaves m (addvec_scalar_simd_ct ar B k m out f) out n (fun i => lift1 (fun x => a_add ar x f) (m (out + i))).
Proof.
  intros. apply addvec_scalar_ct_ok; assumption.
Qed.

Lemma C15_set_slope_vec_lemma : 
  forall A (ar : arith A) (m : mem A) dest f slope n,
    exact_arith ar ->
    0 < n < 2 ^ 32 -> accessible m dest n ->
    leaves m (set_slope_vec ar m dest f slope n) dest n
      (fun i => Some (a_add ar f (a_mul ar slope (a_ofZ ar i)))).
Proof.
  intros A ar m dest f slope n E Hn Ha.
  eapply leaves_ext; [|apply set_slope_vec_ok; assumption].
  intros i Hi. rewrite (sample_line ar E) by lia. reflexivity.
Qed.

Lemma C15_set_slope_vec_any_arithmetic_lemma : 
  forall A (ar : arith A) (m : mem A) dest f slope n,
    0 < n < 2 ^ 32 -> accessible m dest n ->
    leaves m (set_slope_vec ar m dest f slope n) dest n (sample ar m (ARamp f slope)).
Proof.
  intros. apply set_slope_vec_ok; assumption.
Qed.

Lemma C15_set_slope_vec_simd_lemma : 
  forall A (ar : arith A) (B : backend) (m : mem A) dest f slope n,
    exact_arith ar ->
    legal_simd_length B n -> aligned B dest -> accessible m dest n ->
    leaves m (set_slope_vec_simd ar B m dest f slope n) dest n
      (fun i => Some (a_add ar f (a_mul ar slope (a_ofZ ar i)))).
Proof.
  intros. apply set_slope_simd_exact; assumption.
Qed.

Lemma C15_set_slope_increment_lemma : 
  forall A (ar : arith A) (B : backend) f slope,
    exact_arith ar ->
    snd (set_slope ar B f slope) = a_mul ar slope (a_ofZ ar (Z.of_nat (vsize B))).
Proof.
  intros. apply set_slope_inc_mul; assumption.
Qed.

Lemma C16_set_exp_vec_lemma : 
  forall A (ar : arith A) (m : mem A) dest f curve n,
    exact_arith ar ->
    0 < n < 2 ^ 32 -> accessible m dest n ->
    leaves m (set_exp_vec ar m dest f curve n) dest n (fun i => Some (a_mul ar f (power ar curve i))).
Proof.
  intros. apply set_exp_vec_exact; assumption.
Qed.

Lemma C16_set_exp_vec_simd_lemma : 
  forall A (ar : arith A) (B : backend) (m : mem A) dest f curve n,
    exact_arith ar ->
    legal_simd_length B n -> aligned B dest -> accessible m dest n ->
    leaves m (set_exp_vec_simd ar B m dest f curve n) dest n (fun i => Some (a_mul ar f (power ar curve i))).
Proof.
  intros. apply set_exp_simd_exact; assumption.
Qed.

Lemma C16_pow_i_lemma : 
  forall A (ar : arith A) curve (k : nat),
    exact_arith ar -> (0 < k)%nat -> pow_i ar k curve = power ar curve (Z.of_nat k).
Proof.
  intros. apply pow_i_power; assumption.
Qed.

Lemma C16_set_exp_next_lemma : 
  forall A (ar : arith A) (B : backend) f curve,
    exact_arith ar ->
    snd (set_exp ar B f curve) = a_mul ar f (power ar curve (Z.of_nat (vsize B))).
Proof.
  intros. apply set_exp_next; assumption.
Qed.

Lemma C17_pan2_vec_lemma : 
  forall A (ar : arith A) (m : mem A) out0 out1 inp f0 f1 n,
    0 < n < 2 ^ 32 ->
    accessible m out0 n -> accessible m out1 n -> disjoint out0 out1 n ->
    arg_fit m out0 n (APtr inp) -> arg_fit m out1 n (APtr inp) ->
    leaves_both m (pan2_vec ar m out0 out1 inp f0 f1 n) out0 out1 n
      (fun i => lift1 (fun x => a_mul ar x f0) (m (inp + i)))
      (fun i => lift1 (fun x => a_mul ar x f1) (m (inp + i))).
Proof.
  intros. apply pan2_ok; assumption.
Qed.

Lemma C17_pan2_slope_vec_lemma : 
  forall A (ar : arith A) (m : mem A) out0 out1 inp f0 slope0 f1 slope1 n,
    0 < n < 2 ^ 32 ->
    accessible m out0 n -> accessible m out1 n -> disjoint out0 out1 n ->
    arg_fit m out0 n (APtr inp) -> arg_fit m out1 n (APtr inp) ->
    leaves_both m (pan2_slope_vec ar m out0 out1 inp f0 slope0 f1 slope1 n) out0 out1 n
      (fun i => lift2 (a_mul ar) (m (inp + i)) (sample ar m (ARamp f0 slope0) i))
      (fun i => lift2 (a_mul ar) (m (inp + i)) (sample ar m (ARamp f1 slope1) i)).
Proof.
  intros. apply pan2_slope_ok; assumption.
Qed.

Lemma C17_pan2_vec_simd_lemma : 
  forall A (ar : arith A) (B : backend) (m : mem A) out0 out1 inp f0 f1 n,
    legal_simd_length B n ->
    aligned B out0 -> aligned B out1 ->
    accessible m out0 n -> accessible m out1 n -> disjoint out0 out1 n ->
    simd_fit B m out0 n (APtr inp) -> simd_fit B m out1 n (APtr inp) ->
    leaves_both m (pan2_vec_simd ar B m out0 out1 inp f0 f1 n) out0 out1 n
      (fun i => lift1 (fun x => a_mul ar x f0) (m (inp + i)))
      (fun i => lift1 (fun x => a_mul ar x f1) (m (inp + i))).
Proof.
  intros. apply pan2_simd_ok; assumption.
Qed.

Lemma C17_pan2_slope_vec_simd_lemma : 
  forall A (ar : arith A) (B : backend) (m : mem A) out0 out1 inp f0 slope0 f1 slope1 n,
    exact_arith ar ->
    legal_simd_length B n ->
    aligned B out0 -> aligned B out1 ->
    accessible m out0 n -> accessible m out1 n -> disjoint out0 out1 n ->
    simd_fit B m out0 n (APtr inp) -> simd_fit B m out1 n (APtr inp) ->
    leaves_both m (pan2_slope_vec_simd ar B m out0 out1 inp f0 slope0 f1 slope1 n) out0 out1 n
      (fun i => lift1 (fun x => a_mul ar x (a_add ar f0 (a_mul ar slope0 (a_ofZ ar i)))) (m (inp + i)))
      (fun i => lift1 (fun x => a_mul ar x (a_add ar f1 (a_mul ar slope1 (a_ofZ ar i)))) (m (inp + i))).
Proof.
  intros. apply pan2_slope_simd_ok; assumption.
Qed.

Lemma C17_pan2_vec_simd_fixed_length_lemma : 
  forall A (ar : arith A) (B : backend) (m : mem A) out0 out1 inp f0 f1 (k : nat),
    let n := Z.of_nat k * Z.of_nat (vsize B) in
    aligned B out0 -> aligned B out1 ->
    accessible m out0 n -> accessible m out1 n -> disjoint out0 out1 n ->
    simd_fit B m out0 n (APtr inp) -> simd_fit B m out1 n (APtr inp) ->
    leaves_both m (pan2_vec_simd_ct ar B k m out0 out1 inp f0 f1) out0 out1 n
      (fun i => lift1 (fun x => a_mul ar x f0) (m (inp + i)))
      (fun i => lift1 (fun x => a_mul ar x f1) (m (inp + i))).
Proof.
  intros. apply pan2_ct_ok; assumption.
Qed.

Lemma C17_pan2_slope_vec_simd_fixed_length_lemma : 
  forall A (ar : arith A) (B : backend) (m : mem A) out0 out1 inp f0 slope0 f1 slope1 (k : nat),
    let n := Z.of_nat k * Z.of_nat (vsize B) in
    exact_arith ar ->
    aligned B out0 -> aligned B out1 ->
    accessible m out0 n -> accessible m out1 n -> disjoint out0 out1 n ->
    simd_fit B m out0 n (APtr inp) -> simd_fit B m out1 n (APtr inp) ->
    leaves_both m (pan2_slope_vec_simd_ct ar B k m out0 out1 inp f0 slope0 f1 slope1) out0 out1 n
      (fun i => lift1 (fun x => a_mul ar x (a_add ar f0 (a_mul ar slope0 (a_ofZ ar i)))) (m (inp + i)))
      (fun i => lift1 (fun x => a_mul ar x (a_add ar f1 (a_mul ar slope1 (a_ofZ ar i)))) (m (inp + i))).
Proof.
  intros. apply pan2_slope_ct_ok; assumption.
Qed.

Lemma C18_mix_vec_lemma : 
  forall A (ar : arith A) (o : ops A) (m : mem A) (out : Z) (a1 a2 a3 a4 : arg A) n,
    0 < n < 2 ^ 32 -> accessible m out n ->
    arg_fit m out n a1 -> arg_fit m out n a2 -> arg_fit m out n a3 -> arg_fit m out n a4 ->
    leaves m (mix_vec ar o m out a1 a2 a3 a4 n) out n
      (fun i => lift4 (fun sig0 factor0 sig1 factor1 => o_add o (o_mul o sig0 factor0) (o_mul o sig1 factor1))
                  (sample ar m a1 i) (sample ar m a2 i) (sample ar m a3 i) (sample ar m a4 i)).
Proof.
  intros A ar o m out a1 a2 a3 a4 n Hn Ho [? ?] [? ?] [? ?] [? ?].
  apply quaternary_vec_ok; assumption.
Qed.

Lemma C18_mix_vec_simd_lemma : 
  forall A (ar : arith A) (o : ops A) (B : backend) (m : mem A) (out : Z) (a1 a2 a3 a4 : arg A) n,
    legal_simd_length B n -> aligned B out -> accessible m out n ->
    simd_fit B m out n a1 -> plain a1 -> simd_fit B m out n a2 -> plain a2 -> simd_fit B m out n a3 -> plain a3 -> simd_fit B m out n a4 -> plain a4 ->
    leaves m (mix_vec_simd ar o B m out a1 a2 a3 a4 n) out n
      (fun i => lift4 (fun sig0 factor0 sig1 factor1 => o_add o (o_mul o sig0 factor0) (o_mul o sig1 factor1))
                  (sample ar m a1 i) (sample ar m a2 i) (sample ar m a3 i) (sample ar m a4 i)).
Proof.
  intros. apply C02_foo_vec_simd_maps_quaternary_lemma; auto. apply lw_mix_vec.
Qed.

Lemma C18_mix_vec_simd_ramps_lemma : 
  forall A (ar : arith A) (o : ops A) (B : backend) (m : mem A) (out : Z) (a1 a2 a3 a4 : arg A) n,
    exact_arith ar ->
    legal_simd_length B n -> aligned B out -> accessible m out n ->
    simd_fit B m out n a1 -> simd_fit B m out n a2 -> simd_fit B m out n a3 -> simd_fit B m out n a4 ->
    leaves m (mix_vec_simd ar o B m out a1 a2 a3 a4 n) out n
      (fun i => lift4 (fun sig0 factor0 sig1 factor1 => o_add o (o_mul o sig0 factor0) (o_mul o sig1 factor1))
                  (line ar m a1 i) (line ar m a2 i) (line ar m a3 i) (line ar m a4 i)).
Proof.
  intros. eapply C09_ramps_are_lines_quaternary_lemma; eauto. apply lw_mix_vec.
Qed.

Lemma C18_sum_vec2_lemma : 
  forall A (ar : arith A) (o : ops A) (m : mem A) (out : Z) (a1 a2 : arg A) n,
    0 < n < 2 ^ 32 -> accessible m out n ->
    arg_fit m out n a1 -> arg_fit m out n a2 ->
    leaves m (sum_vec2 ar o m out a1 a2 n) out n
      (fun i => lift2 (fun x y => o_add o x y)
                  (sample ar m a1 i) (sample ar m a2 i)).
Proof.
  intros A ar o m out a1 a2 n Hn Ho [? ?] [? ?].
  apply binary_vec_ok; assumption.
Qed.

Lemma C18_sum_vec2_simd_lemma : 
  forall A (ar : arith A) (o : ops A) (B : backend) (m : mem A) (out : Z) (a1 a2 : arg A) n,
    legal_simd_length B n -> aligned B out -> accessible m out n ->
    simd_fit B m out n a1 -> plain a1 -> simd_fit B m out n a2 -> plain a2 ->
    leaves m (sum_vec2_simd ar o B m out a1 a2 n) out n
      (fun i => lift2 (fun x y => o_add o x y)
                  (sample ar m a1 i) (sample ar m a2 i)).
Proof.
  intros. apply C02_foo_vec_simd_maps_binary_lemma; auto. apply lw_sum_vec2.
Qed.

Lemma C18_sum_vec3_lemma : 
  forall A (ar : arith A) (o : ops A) (m : mem A) (out : Z) (a1 a2 a3 : arg A) n,
    0 < n < 2 ^ 32 -> accessible m out n ->
    arg_fit m out n a1 -> arg_fit m out n a2 -> arg_fit m out n a3 ->
    leaves m (sum_vec3 ar o m out a1 a2 a3 n) out n
      (fun i => lift3 (fun x y z => o_add o (o_add o x y) z)
                  (sample ar m a1 i) (sample ar m a2 i) (sample ar m a3 i)).
Proof.
  intros A ar o m out a1 a2 a3 n Hn Ho [? ?] [? ?] [? ?].
  apply ternary_vec_ok; assumption.
Qed.

Lemma C18_sum_vec3_simd_lemma : 
  forall A (ar : arith A) (o : ops A) (B : backend) (m : mem A) (out : Z) (a1 a2 a3 : arg A) n,
    legal_simd_length B n -> aligned B out -> accessible m out n ->
    simd_fit B m out n a1 -> plain a1 -> simd_fit B m out n a2 -> plain a2 -> simd_fit B m out n a3 -> plain a3 ->
    leaves m (sum_vec3_simd ar o B m out a1 a2 a3 n) out n
      (fun i => lift3 (fun x y z => o_add o (o_add o x y) z)
                  (sample ar m a1 i) (sample ar m a2 i) (sample ar m a3 i)).
Proof.
  intros. apply C02_foo_vec_simd_maps_ternary_lemma; auto. apply lw_sum_vec3.
Qed.

Lemma C18_sum_vec4_lemma : 
  forall A (ar : arith A) (o : ops A) (m : mem A) (out : Z) (a1 a2 a3 a4 : arg A) n,
    0 < n < 2 ^ 32 -> accessible m out n ->
    arg_fit m out n a1 -> arg_fit m out n a2 -> arg_fit m out n a3 -> arg_fit m out n a4 ->
    leaves m (sum_vec4 ar o m out a1 a2 a3 a4 n) out n
      (fun i => lift4 (fun x y z w => o_add o (o_add o x y) (o_add o z w))
                  (sample ar m a1 i) (sample ar m a2 i) (sample ar m a3 i) (sample ar m a4 i)).
Proof.
  intros A ar o m out a1 a2 a3 a4 n Hn Ho [? ?] [? ?] [? ?] [? ?].
  apply quaternary_vec_ok; assumption.
Qed.

Lemma C18_sum_vec4_simd_lemma : 
  forall A (ar : arith A) (o : ops A) (B : backend) (m : mem A) (out : Z) (a1 a2 a3 a4 : arg A) n,
    legal_simd_length B n -> aligned B out -> accessible m out n ->
    simd_fit B m out n a1 -> plain a1 -> simd_fit B m out n a2 -> plain a2 -> simd_fit B m out n a3 -> plain a3 -> simd_fit B m out n a4 -> plain a4 ->
    leaves m (sum_vec4_simd ar o B m out a1 a2 a3 a4 n) out n
      (fun i => lift4 (fun x y z w => o_add o (o_add o x y) (o_add o z w))
                  (sample ar m a1 i) (sample ar m a2 i) (sample ar m a3 i) (sample ar m a4 i)).
Proof.
  intros. apply C02_foo_vec_simd_maps_quaternary_lemma; auto. apply lw_sum_vec4.
Qed.

Lemma C18_muladd_vec_lemma : 
  forall A (ar : arith A) (o : ops A) (m : mem A) (out : Z) (a1 a2 a3 : arg A) n,
    0 < n < 2 ^ 32 -> accessible m out n ->
    arg_fit m out n a1 -> arg_fit m out n a2 -> arg_fit m out n a3 ->
    leaves m (muladd_vec ar o m out a1 a2 a3 n) out n
      (fun i => lift3 (fun x y z => o_add o (o_mul o x y) z)
                  (sample ar m a1 i) (sample ar m a2 i) (sample ar m a3 i)).
Proof.
  intros A ar o m out a1 a2 a3 n Hn Ho [? ?] [? ?] [? ?].
  apply ternary_vec_ok; assumption.
Qed.

Lemma C18_muladd_vec_simd_lemma : 
  forall A (ar : arith A) (o : ops A) (B : backend) (m : mem A) (out : Z) (a1 a2 a3 : arg A) n,
    legal_simd_length B n -> aligned B out -> accessible m out n ->
    simd_fit B m out n a1 -> plain a1 -> simd_fit B m out n a2 -> plain a2 -> simd_fit B m out n a3 -> plain a3 ->
    leaves m (muladd_vec_simd ar o B m out a1 a2 a3 n) out n
      (fun i => lift3 (fun x y z => o_madd o x y z)
                  (sample ar m a1 i) (sample ar m a2 i) (sample ar m a3 i)).
Proof.
  intros. apply C02_foo_vec_simd_maps_ternary_lemma; auto. apply lw_muladd_vec.
Qed.

Lemma C18_muladd_vec_simd_ramps_lemma : 
  forall A (ar : arith A) (o : ops A) (B : backend) (m : mem A) (out : Z) (a1 a2 a3 : arg A) n,
    exact_arith ar ->
    legal_simd_length B n -> aligned B out -> accessible m out n ->
    simd_fit B m out n a1 -> simd_fit B m out n a2 -> simd_fit B m out n a3 ->
    leaves m (muladd_vec_simd ar o B m out a1 a2 a3 n) out n
      (fun i => lift3 (fun x y z => o_madd o x y z)
                  (line ar m a1 i) (line ar m a2 i) (line ar m a3 i)).
Proof.
  intros. eapply C09_ramps_are_lines_ternary_lemma; eauto. apply lw_muladd_vec.
Qed.

Lemma C18_ampmod_vec_lemma : 
  forall A (ar : arith A) (o : ops A) (m : mem A) (out : Z) (a1 a2 a3 : arg A) n,
    0 < n < 2 ^ 32 -> accessible m out n ->
    arg_fit m out n a1 -> arg_fit m out n a2 -> arg_fit m out n a3 ->
    leaves m (ampmod_vec ar o m out a1 a2 a3 n) out n
      (fun i => lift3 (fun signal modulator amount => o_mul o signal (o_add o (o_one o) (o_mul o modulator amount)))
                  (sample ar m a1 i) (sample ar m a2 i) (sample ar m a3 i)).
Proof.
  intros A ar o m out a1 a2 a3 n Hn Ho [? ?] [? ?] [? ?].
  apply ternary_vec_ok; assumption.
Qed.

Lemma C18_ampmod_vec_simd_lemma : 
  forall A (ar : arith A) (o : ops A) (B : backend) (m : mem A) (out : Z) (a1 a2 a3 : arg A) n,
    legal_simd_length B n -> aligned B out -> accessible m out n ->
    simd_fit B m out n a1 -> plain a1 -> simd_fit B m out n a2 -> plain a2 -> simd_fit B m out n a3 -> plain a3 ->
    leaves m (ampmod_vec_simd ar o B m out a1 a2 a3 n) out n
      (fun i => lift3 (fun signal modulator amount => o_mul o signal (o_add o (o_one o) (o_mul o modulator amount)))
                  (sample ar m a1 i) (sample ar m a2 i) (sample ar m a3 i)).
Proof.
  intros. apply C02_foo_vec_simd_maps_ternary_lemma; auto. apply lw_ampmod_vec.
Qed.

Lemma C18_ampmod_vec_simd_ramps_lemma : 
  forall A (ar : arith A) (o : ops A) (B : backend) (m : mem A) (out : Z) (a1 a2 a3 : arg A) n,
    exact_arith ar ->
    legal_simd_length B n -> aligned B out -> accessible m out n ->
    simd_fit B m out n a1 -> simd_fit B m out n a2 -> simd_fit B m out n a3 ->
    leaves m (ampmod_vec_simd ar o B m out a1 a2 a3 n) out n
      (fun i => lift3 (fun signal modulator amount => o_mul o signal (o_add o (o_one o) (o_mul o modulator amount)))
                  (line ar m a1 i) (line ar m a2 i) (line ar m a3 i)).
Proof.
  intros. eapply C09_ramps_are_lines_ternary_lemma; eauto. apply lw_ampmod_vec.
Qed.

Lemma C18_clip_vec_lemma : 
  forall A (ar : arith A) (o : ops A) (m : mem A) (out : Z) (a1 a2 a3 : arg A) n,
    0 < n < 2 ^ 32 -> accessible m out n ->
    arg_fit m out n a1 -> arg_fit m out n a2 -> arg_fit m out n a3 ->
    leaves m (clip_vec ar o m out a1 a2 a3 n) out n
      (fun i => lift3 (fun value low high => o_max o (o_min o value high) low)
                  (sample ar m a1 i) (sample ar m a2 i) (sample ar m a3 i)).
Proof.
  intros A ar o m out a1 a2 a3 n Hn Ho [? ?] [? ?] [? ?].
  apply ternary_vec_ok; assumption.
Qed.

Lemma C18_clip_vec_simd_lemma : 
  forall A (ar : arith A) (o : ops A) (B : backend) (m : mem A) (out : Z) (a1 a2 a3 : arg A) n,
    legal_simd_length B n -> aligned B out -> accessible m out n ->
    simd_fit B m out n a1 -> plain a1 -> simd_fit B m out n a2 -> plain a2 -> simd_fit B m out n a3 -> plain a3 ->
    leaves m (clip_vec_simd ar o B m out a1 a2 a3 n) out n
      (fun i => lift3 (fun value low high => o_max o (o_min o value high) low)
                  (sample ar m a1 i) (sample ar m a2 i) (sample ar m a3 i)).
Proof.
  intros. apply C02_foo_vec_simd_maps_ternary_lemma; auto. apply lw_clip_vec.
Qed.

Lemma C18_clip2_vec_lemma : 
  forall A (ar : arith A) (o : ops A) (m : mem A) (out : Z) (a1 a2 : arg A) n,
    0 < n < 2 ^ 32 -> accessible m out n ->
    arg_fit m out n a1 -> arg_fit m out n a2 ->
    leaves m (clip2_vec ar o m out a1 a2 n) out n
      (fun i => lift2 (fun x limit => o_max o (o_sub o (o_zero o) limit) (o_min o x limit))
                  (sample ar m a1 i) (sample ar m a2 i)).
Proof.
  intros A ar o m out a1 a2 n Hn Ho [? ?] [? ?].
  apply binary_vec_ok; assumption.
Qed.

Lemma C18_clip2_vec_simd_lemma : 
  forall A (ar : arith A) (o : ops A) (B : backend) (m : mem A) (out : Z) (a1 a2 : arg A) n,
    legal_simd_length B n -> aligned B out -> accessible m out n ->
    simd_fit B m out n a1 -> plain a1 -> simd_fit B m out n a2 -> plain a2 ->
    leaves m (clip2_vec_simd ar o B m out a1 a2 n) out n
      (fun i => lift2 (fun x limit => o_max o (o_sub o (o_zero o) limit) (o_min o x limit))
                  (sample ar m a1 i) (sample ar m a2 i)).
Proof.
  intros. apply C02_foo_vec_simd_maps_binary_lemma; auto. apply lw_clip2_vec.
Qed.

Lemma C18_plus_vec_lemma : 
  forall A (ar : arith A) (o : ops A) (m : mem A) (out : Z) (a1 a2 : arg A) n,
    0 < n < 2 ^ 32 -> accessible m out n ->
    arg_fit m out n a1 -> arg_fit m out n a2 ->
    leaves m (plus_vec ar o m out a1 a2 n) out n
      (fun i => lift2 (fun x y => o_add o x y)
                  (sample ar m a1 i) (sample ar m a2 i)).
Proof.
  intros A ar o m out a1 a2 n Hn Ho [? ?] [? ?].
  apply binary_vec_ok; assumption.
Qed.

Lemma C18_plus_vec_simd_lemma : 
  forall A (ar : arith A) (o : ops A) (B : backend) (m : mem A) (out : Z) (a1 a2 : arg A) n,
    legal_simd_length B n -> aligned B out -> accessible m out n ->
    simd_fit B m out n a1 -> plain a1 -> simd_fit B m out n a2 -> plain a2 ->
    leaves m (plus_vec_simd ar o B m out a1 a2 n) out n
      (fun i => lift2 (fun x y => o_add o x y)
                  (sample ar m a1 i) (sample ar m a2 i)).
Proof.
  intros. apply C02_foo_vec_simd_maps_binary_lemma; auto. apply lw_plus_vec.
Qed.

Lemma C18_minus_vec_lemma : 
  forall A (ar : arith A) (o : ops A) (m : mem A) (out : Z) (a1 a2 : arg A) n,
    0 < n < 2 ^ 32 -> accessible m out n ->
    arg_fit m out n a1 -> arg_fit m out n a2 ->
    leaves m (minus_vec ar o m out a1 a2 n) out n
      (fun i => lift2 (fun x y => o_sub o x y)
                  (sample ar m a1 i) (sample ar m a2 i)).
Proof.
  intros A ar o m out a1 a2 n Hn Ho [? ?] [? ?].
  apply binary_vec_ok; assumption.
Qed.

Lemma C18_minus_vec_simd_lemma : 
  forall A (ar : arith A) (o : ops A) (B : backend) (m : mem A) (out : Z) (a1 a2 : arg A) n,
    legal_simd_length B n -> aligned B out -> accessible m out n ->
    simd_fit B m out n a1 -> plain a1 -> simd_fit B m out n a2 -> plain a2 ->
    leaves m (minus_vec_simd ar o B m out a1 a2 n) out n
      (fun i => lift2 (fun x y => o_sub o x y)
                  (sample ar m a1 i) (sample ar m a2 i)).
Proof.
  intros. apply C02_foo_vec_simd_maps_binary_lemma; auto. apply lw_minus_vec.
Qed.

Lemma C18_times_vec_lemma : 
  forall A (ar : arith A) (o : ops A) (m : mem A) (out : Z) (a1 a2 : arg A) n,
    0 < n < 2 ^ 32 -> accessible m out n ->
    arg_fit m out n a1 -> arg_fit m out n a2 ->
    leaves m (times_vec ar o m out a1 a2 n) out n
      (fun i => lift2 (fun x y => o_mul o x y)
                  (sample ar m a1 i) (sample ar m a2 i)).
Proof.
  intros A ar o m out a1 a2 n Hn Ho [? ?] [? ?].
  apply binary_vec_ok; assumption.
Qed.

Lemma C18_times_vec_simd_lemma : 
  forall A (ar : arith A) (o : ops A) (B : backend) (m : mem A) (out : Z) (a1 a2 : arg A) n,
    legal_simd_length B n -> aligned B out -> accessible m out n ->
    simd_fit B m out n a1 -> plain a1 -> simd_fit B m out n a2 -> plain a2 ->
    leaves m (times_vec_simd ar o B m out a1 a2 n) out n
      (fun i => lift2 (fun x y => o_mul o x y)
                  (sample ar m a1 i) (sample ar m a2 i)).
Proof.
  intros. apply C02_foo_vec_simd_maps_binary_lemma; auto. apply lw_times_vec.
Qed.

Lemma C18_over_vec_lemma : 
  forall A (ar : arith A) (o : ops A) (m : mem A) (out : Z) (a1 a2 : arg A) n,
    0 < n < 2 ^ 32 -> accessible m out n ->
    arg_fit m out n a1 -> arg_fit m out n a2 ->
    leaves m (over_vec ar o m out a1 a2 n) out n
      (fun i => lift2 (fun x y => o_div o x y)
                  (sample ar m a1 i) (sample ar m a2 i)).
Proof.
  intros A ar o m out a1 a2 n Hn Ho [? ?] [? ?].
  apply binary_vec_ok; assumption.
Qed.

Lemma C18_over_vec_simd_lemma : 
  forall A (ar : arith A) (o : ops A) (B : backend) (m : mem A) (out : Z) (a1 a2 : arg A) n,
    legal_simd_length B n -> aligned B out -> accessible m out n ->
    simd_fit B m out n a1 -> plain a1 -> simd_fit B m out n a2 -> plain a2 ->
    leaves m (over_vec_simd ar o B m out a1 a2 n) out n
      (fun i => lift2 (fun x y => o_div o x y)
                  (sample ar m a1 i) (sample ar m a2 i)).
Proof.
  intros. apply C02_foo_vec_simd_maps_binary_lemma; auto. apply lw_over_vec.
Qed.

Lemma C18_min_vec_lemma : 
  forall A (ar : arith A) (o : ops A) (m : mem A) (out : Z) (a1 a2 : arg A) n,
    0 < n < 2 ^ 32 -> accessible m out n ->
    arg_fit m out n a1 -> arg_fit m out n a2 ->
    leaves m (min_vec ar o m out a1 a2 n) out n
      (fun i => lift2 (fun x y => o_min o x y)
                  (sample ar m a1 i) (sample ar m a2 i)).
Proof.
  intros A ar o m out a1 a2 n Hn Ho [? ?] [? ?].
  apply binary_vec_ok; assumption.
Qed.

Lemma C18_min_vec_simd_lemma : 
  forall A (ar : arith A) (o : ops A) (B : backend) (m : mem A) (out : Z) (a1 a2 : arg A) n,
    legal_simd_length B n -> aligned B out -> accessible m out n ->
    simd_fit B m out n a1 -> plain a1 -> simd_fit B m out n a2 -> plain a2 ->
    leaves m (min_vec_simd ar o B m out a1 a2 n) out n
      (fun i => lift2 (fun x y => o_min o x y)
                  (sample ar m a1 i) (sample ar m a2 i)).
Proof.
  intros. apply C02_foo_vec_simd_maps_binary_lemma; auto. apply lw_min_vec.
Qed.

Lemma C18_max_vec_lemma : 
  forall A (ar : arith A) (o : ops A) (m : mem A) (out : Z) (a1 a2 : arg A) n,
    0 < n < 2 ^ 32 -> accessible m out n ->
    arg_fit m out n a1 -> arg_fit m out n a2 ->
    leaves m (max_vec ar o m out a1 a2 n) out n
      (fun i => lift2 (fun x y => o_max o x y)
                  (sample ar m a1 i) (sample ar m a2 i)).
Proof.
  intros A ar o m out a1 a2 n Hn Ho [? ?] [? ?].
  apply binary_vec_ok; assumption.
Qed.

Lemma C18_max_vec_simd_lemma : 
  forall A (ar : arith A) (o : ops A) (B : backend) (m : mem A) (out : Z) (a1 a2 : arg A) n,
    legal_simd_length B n -> aligned B out -> accessible m out n ->
    simd_fit B m out n a1 -> plain a1 -> simd_fit B m out n a2 -> plain a2 ->
    leaves m (max_vec_simd ar o B m out a1 a2 n) out n
      (fun i => lift2 (fun x y => o_max o x y)
                  (sample ar m a1 i) (sample ar m a2 i)).
Proof.
  intros. apply C02_foo_vec_simd_maps_binary_lemma; auto. apply lw_max_vec.
Qed.

Lemma C18_muladd_unfused_simd_equals_scalar_lemma : 
  forall A (ar : arith A) (o : ops A) (B : backend) (m : mem A) (out : Z) (a1 a2 a3 : arg A) n,
    (forall x y z, o_madd o x y z = o_add o (o_mul o x y) z) ->
    legal_simd_length B n -> aligned B out -> accessible m out n ->
    simd_fit B m out n a1 -> plain a1 -> simd_fit B m out n a2 -> plain a2 -> simd_fit B m out n a3 -> plain a3 ->
    same_effect (muladd_vec ar o m out a1 a2 a3 n) (muladd_vec_simd ar o B m out a1 a2 a3 n).
Proof.
  intros A ar o B m out a1 a2 a3 n H. intros. apply C04_simd_equals_scalar_ternary_lemma; auto.
  intros u v w _ _ _. unfold muladd_vec_functor, muladd_functor. cbn [vops o_madd].
  apply map3_ext. exact H.
Qed.
