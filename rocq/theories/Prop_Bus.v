(** Mixing any number of buffers into one (C93). *)
From Coq Require Import ZArith Reals List Lia Bool Lra Permutation.
From Flocq Require Import Core IEEE754.Binary IEEE754.Bits.
From Verif Require Import
  Base Mem Backend Args MemFuns Drivers Functors Lanes Float LaneOps Reduce FloatOps VecMath FloatFuns Spec SpecLane SpecReduce SpecDrift SpecAgree SpecAlike SpecSwap SpecChain SpecParts SpecBus
  FloatFacts FloatRound ReduceMore ExDrift ExData ExFloat ExMath SwapFacts ChainFacts PartsFacts CallsFacts BusFacts BusClaims.
Import ListNotations.
Local Open Scope Z_scope.

(** * C93: mixing any number of buffers into one *)

(** Clearing a buffer and adding any number of others to it leaves, at every index, their samples added up from zero in the order of the calls, in any arithmetic; *)
Theorem C93_bus : 
  forall A (ar : arith A) (m : mem A) (out len : Z) (ps : list Z), bus_fits m out len ps ->
    mixes (fun l r => r = fold_left (a_add ar) l (a_zero ar)) m (in_turn ((fun m => zerovec ar m out len) :: map (fun p m => addvec ar m out p len) ps) m) out len ps.
Proof. exact C93_bus_lemma. Qed.

Example C93_bus_ex :
  bus_fits polar 0 16 [16; 32; 48; 32].
Proof. bus_ex. Qed.

Theorem C93_bus_simd : 
  forall A (ar : arith A) (B : backend) (m : mem A) (out len : Z) (ps : list Z), simd_bus_fits B m out len ps ->
    mixes (fun l r => r = fold_left (a_add ar) l (a_zero ar)) m (in_turn ((fun m => zerovec_simd ar B m out len) :: map (fun p m => addvec_simd ar B m out p len) ps) m) out len ps.
Proof. exact C93_bus_simd_lemma. Qed.

Example C93_bus_simd_ex :
  simd_bus_fits AVX32 polar 0 16 [16; 32; 48; 32].
Proof. bus_ex. Qed.

(** the scalar and the SIMD functions leave the same memory. *)
Theorem C93_scalar_and_simd_agree : 
  forall A (ar : arith A) (B : backend) (m : mem A) (out len : Z) (ps : list Z), simd_bus_fits B m out len ps ->
    Spec.same_effect (in_turn ((fun m => zerovec ar m out len) :: map (fun p m => addvec ar m out p len) ps) m) (in_turn ((fun m => zerovec_simd ar B m out len) :: map (fun p m => addvec_simd ar B m out p len) ps) m).
Proof. exact C93_scalar_and_simd_agree_lemma. Qed.

Example C93_scalar_and_simd_agree_ex :
  simd_bus_fits AVX32 polar 0 16 [16; 32; 48; 32].
Proof. bus_ex. Qed.

(** Integer samples are mixed exactly as long as their absolute values add up to at most 2^24 (2^53); *)
Theorem C93_integers : 
  forall (t : fmt) (n : nans t) (m : mem (F t)) (out len : Z) (ps : list Z), bus_fits m out len ps ->
    mixes (fun l r => forall ks, integers l ks -> zsum_abs ks <= 2 ^ prec t -> isfin r = true /\ val r = IZR (zsum ks)) m
      (in_turn ((fun m => zerovec (farith n) m out len) :: map (fun p m => addvec (farith n) m out p len) ps) m) out len ps.
Proof. exact C93_integers_lemma. Qed.

Example C93_integers_ex :
  bus_fits polar 0 16 [16; 32; 48; 32] /\ integers (map (f_ofZ F32) [5; -3; 70000]) [5; -3; 70000] /\ zsum_abs [5; -3; 70000] <= 2 ^ prec F32.
Proof. split; [bus_ex|split; [apply (integers_ofZ (n0 F32)); vm_compute; reflexivity|vm_compute; discriminate]]. Qed.

Theorem C93_integers_simd : 
  forall (B : backend) (n : nans (fmt_of B)) (m : mem (F (fmt_of B))) (out len : Z) (ps : list Z), simd_bus_fits B m out len ps ->
    mixes (fun l r => forall ks, integers l ks -> zsum_abs ks <= 2 ^ prec (fmt_of B) -> isfin r = true /\ val r = IZR (zsum ks)) m
      (in_turn ((fun m => zerovec_simd (farith n) B m out len) :: map (fun p m => addvec_simd (farith n) B m out p len) ps) m) out len ps.
Proof. exact C93_integers_simd_lemma. Qed.

Example C93_integers_simd_ex :
  simd_bus_fits AVX32 polar 0 16 [16; 32; 48; 32] /\ integers (map (f_ofZ F32) [5; -3; 70000]) [5; -3; 70000] /\ zsum_abs [5; -3; 70000] <= 2 ^ prec F32.
Proof. split; [bus_ex|split; [apply (integers_ofZ (n0 F32)); vm_compute; reflexivity|vm_compute; discriminate]]. Qed.

(** other samples to within one rounding less than there are inputs. *)
Theorem C93_rounding : 
  forall (t : fmt) (n : nans t) (m : mem (F t)) (out len : Z) (ps : list Z), bus_fits m out len ps ->
    mixes (fun l r => all_finite l -> sum_fits l -> near_sum l r) m
      (in_turn ((fun m => zerovec (farith n) m out len) :: map (fun p m => addvec (farith n) m out p len) ps) m) out len ps.
Proof. exact C93_rounding_lemma. Qed.

Example C93_rounding_ex :
  bus_fits polar 0 16 [16; 32; 48; 32] /\ all_finite (map (f_ofZ F32) [5; -3; 70000]) /\ sum_fits (map (f_ofZ F32) [5; -3; 70000]).
Proof.
  assert (I : integers (map (f_ofZ F32) [5; -3; 70000]) [5; -3; 70000]) by (apply (integers_ofZ (n0 F32)); vm_compute; reflexivity).
  split; [bus_ex|split; [exact (proj1 (ints_sums _ _ I))|apply (sum_fits_ints _ _ I); vm_compute; discriminate]].
Qed.

Theorem C93_rounding_simd : 
  forall (B : backend) (n : nans (fmt_of B)) (m : mem (F (fmt_of B))) (out len : Z) (ps : list Z), simd_bus_fits B m out len ps ->
    mixes (fun l r => all_finite l -> sum_fits l -> near_sum l r) m
      (in_turn ((fun m => zerovec_simd (farith n) B m out len) :: map (fun p m => addvec_simd (farith n) B m out p len) ps) m) out len ps.
Proof. exact C93_rounding_simd_lemma. Qed.

Example C93_rounding_simd_ex :
  simd_bus_fits AVX32 polar 0 16 [16; 32; 48; 32] /\ all_finite (map (f_ofZ F32) [5; -3; 70000]) /\ sum_fits (map (f_ofZ F32) [5; -3; 70000]).
Proof.
  assert (I : integers (map (f_ofZ F32) [5; -3; 70000]) [5; -3; 70000]) by (apply (integers_ofZ (n0 F32)); vm_compute; reflexivity).
  split; [bus_ex|split; [exact (proj1 (ints_sums _ _ I))|apply (sum_fits_ints _ _ I); vm_compute; discriminate]].
Qed.

(** In exact arithmetic the order of the calls does not matter; *)
Theorem C93_any_order : 
  forall A (ar : arith A) (m : mem A) (out len : Z) (ps qs : list Z),
    exact_arith ar -> Permutation ps qs -> bus_fits m out len ps ->
    Spec.same_effect (in_turn ((fun m => zerovec ar m out len) :: map (fun p m => addvec ar m out p len) ps) m) (in_turn ((fun m => zerovec ar m out len) :: map (fun p m => addvec ar m out p len) qs) m).
Proof. exact C93_any_order_lemma. Qed.

Example C93_any_order_ex :
  exact_arith zarith /\ Permutation [16; 32; 48] [48; 16; 32] /\ bus_fits (block 0 80 (fun a => a)) 0 16 [16; 32; 48].
Proof. split; [exact zarith_exact|split; [apply (Permutation_app_comm [16; 32] [48])|bus_ex]]. Qed.

(** in float it does. *)
Theorem C93_any_order_refuted : 
  forall (n : nans F32), exists (m : mem (F F32)) (out len : Z) (ps qs : list Z), Permutation ps qs /\ bus_fits m out len ps /\
    ~ Spec.same_effect (in_turn ((fun m => zerovec (farith n) m out len) :: map (fun p m => addvec (farith n) m out p len) ps) m) (in_turn ((fun m => zerovec (farith n) m out len) :: map (fun p m => addvec (farith n) m out p len) qs) m).
Proof. exact C93_any_order_refuted_lemma. Qed.

Example C93_any_order_refuted_ex :
  Permutation [1; 2; 3] [1; 3; 2] /\ bus_fits polar 0 1 [1; 2; 3].
Proof. split; [constructor; constructor|bus_ex]. Qed.

(** Two or three inputs give what plus_vec and sum_vec give, up to the sign of zeros. *)
Theorem C93_bus_of_2 : 
  forall (t : fmt) (n : nans t) (m : mem (F t)) (out p1 p2 len : Z), bus_fits m out len [p1; p2] ->
    same_in_turn same_number m (plus_vec (farith n) (fops_scalar n) m out (APtr p1) (APtr p2) len)
      ((fun m => zerovec (farith n) m out len) :: map (fun p m => addvec (farith n) m out p len) [p1; p2]) out len.
Proof. exact C93_bus_of_2_lemma. Qed.

Example C93_bus_of_2_ex :
  bus_fits polar 0 16 [16; 32].
Proof. bus_ex. Qed.

Theorem C93_bus_of_3 : 
  forall (t : fmt) (n : nans t) (m : mem (F t)) (out p1 p2 p3 len : Z), bus_fits m out len [p1; p2; p3] ->
    same_in_turn same_number m (sum_vec3 (farith n) (fops_scalar n) m out (APtr p1) (APtr p2) (APtr p3) len)
      ((fun m => zerovec (farith n) m out len) :: map (fun p m => addvec (farith n) m out p len) [p1; p2; p3]) out len.
Proof. exact C93_bus_of_3_lemma. Qed.

Example C93_bus_of_3_ex :
  bus_fits polar 0 16 [16; 32; 48].
Proof. bus_ex. Qed.

Theorem C93_bus_of_2_simd : 
  forall (c : cfg) (B : backend) (n : nans (fmt_of B)) (m : mem (F (fmt_of B))) (out p1 p2 len : Z), simd_bus_fits B m out len [p1; p2] ->
    same_in_turn same_number m (plus_vec_simd (farith n) (fops c B n) B m out (APtr p1) (APtr p2) len)
      ((fun m => zerovec_simd (farith n) B m out len) :: map (fun p m => addvec_simd (farith n) B m out p len) [p1; p2]) out len.
Proof. exact C93_bus_of_2_simd_lemma. Qed.

Example C93_bus_of_2_simd_ex :
  simd_bus_fits AVX32 polar 0 16 [16; 32].
Proof. bus_ex. Qed.

Theorem C93_bus_of_3_simd : 
  forall (c : cfg) (B : backend) (n : nans (fmt_of B)) (m : mem (F (fmt_of B))) (out p1 p2 p3 len : Z), simd_bus_fits B m out len [p1; p2; p3] ->
    same_in_turn same_number m (sum_vec3_simd (farith n) (fops c B n) B m out (APtr p1) (APtr p2) (APtr p3) len)
      ((fun m => zerovec_simd (farith n) B m out len) :: map (fun p m => addvec_simd (farith n) B m out p len) [p1; p2; p3]) out len.
Proof. exact C93_bus_of_3_simd_lemma. Qed.

Example C93_bus_of_3_simd_ex :
  simd_bus_fits AVX32 polar 0 16 [16; 32; 48].
Proof. bus_ex. Qed.

(** All theorems of this file together, for one run of Print Assumptions. *)
Definition all_Bus := (
  C93_bus,
  C93_bus_simd,
  C93_scalar_and_simd_agree,
  C93_integers,
  C93_integers_simd,
  C93_rounding,
  C93_rounding_simd,
  C93_any_order,
  C93_any_order_refuted,
  C93_bus_of_2,
  C93_bus_of_3,
  C93_bus_of_2_simd,
  C93_bus_of_3_simd).
Print Assumptions all_Bus.
