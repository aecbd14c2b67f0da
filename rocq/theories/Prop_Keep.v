(** Functions that keep the order of the samples (C82), and functions that have
    nothing to do the second time (C83). *)
From Coq Require Import ZArith Reals List Lia Bool Lra.
From Flocq Require Import Core IEEE754.Binary IEEE754.Bits.
From Verif Require Import
  Base Mem Backend Args Drivers Functors Lanes Float LaneOps FloatOps ScalarMath VecMath FloatFuns MemFuns Spec SpecLane SpecRound SpecTrunc SpecKeep
  FloatFacts FloatRound RoundFacts MathMore KeepFacts ExData ExFloat ExMath KeepClaims.
Import ListNotations.
Local Open Scope Z_scope.

(** * C82: functions that keep the order of the samples *)

(** Rounding keeps the order of the samples: floor, *)
Theorem C82_floor_vec : 
  forall (B : backend) (n : nans (fmt_of B)) (m : mem (F (fmt_of B))) (out inp len : Z), scalar_fit m out inp len -> order_kept m (floor_vec B n m out inp len) out inp len.
Proof. exact C82_floor_vec_lemma. Qed.

Example C82_floor_vec_ex :
  let m := block 0 80 (fun a => f_lit F32 (1 - 2 * a) (-1)) in scalar_fit m 32 40 32 /\ m (40 + 1) = Some (f_lit F32 (-81) (-1)) /\ m (40 + 0) = Some (f_lit F32 (-79) (-1)) /\ fle (f_lit F32 (-81) (-1)) (f_lit F32 (-79) (-1)) = true.
Proof. cbv zeta. split; [unfold scalar_fit; (split; [lia|split; [fitm|split; [fitm|cbn; lia]]])|]. split; [reflexivity|]. split; [reflexivity|vm_compute; reflexivity]. Qed.

Theorem C82_floor_vec_simd : 
  forall (c : cfg) (B : backend) (n : nans (fmt_of B)) (m : mem (F (fmt_of B))) (out inp len : Z), buffers_fit B m out inp len -> order_kept m (floor_vec_simd c B n m out inp len) out inp len.
Proof. exact C82_floor_vec_simd_lemma. Qed.

Example C82_floor_vec_simd_ex :
  let m := block 0 80 (fun a => f_lit F32 (1 - 2 * a) (-1)) in buffers_fit AVX32 m 32 40 32 /\ m (40 + 1) = Some (f_lit F32 (-81) (-1)) /\ m (40 + 0) = Some (f_lit F32 (-79) (-1)) /\ fle (f_lit F32 (-81) (-1)) (f_lit F32 (-79) (-1)) = true.
Proof. cbv zeta. split; [unfold buffers_fit; fitm|]. split; [reflexivity|]. split; [reflexivity|vm_compute; reflexivity]. Qed.

(** ceil *)
Theorem C82_ceil_vec : 
  forall (B : backend) (n : nans (fmt_of B)) (m : mem (F (fmt_of B))) (out inp len : Z), scalar_fit m out inp len -> order_kept m (ceil_vec B n m out inp len) out inp len.
Proof. exact C82_ceil_vec_lemma. Qed.

Example C82_ceil_vec_ex :
  let m := block 0 80 (fun a => f_lit F32 (1 - 2 * a) (-1)) in scalar_fit m 32 40 32 /\ m (40 + 1) = Some (f_lit F32 (-81) (-1)) /\ m (40 + 0) = Some (f_lit F32 (-79) (-1)) /\ fle (f_lit F32 (-81) (-1)) (f_lit F32 (-79) (-1)) = true.
Proof. cbv zeta. split; [unfold scalar_fit; (split; [lia|split; [fitm|split; [fitm|cbn; lia]]])|]. split; [reflexivity|]. split; [reflexivity|vm_compute; reflexivity]. Qed.

Theorem C82_ceil_vec_simd : 
  forall (c : cfg) (B : backend) (n : nans (fmt_of B)) (m : mem (F (fmt_of B))) (out inp len : Z), buffers_fit B m out inp len -> order_kept m (ceil_vec_simd c B n m out inp len) out inp len.
Proof. exact C82_ceil_vec_simd_lemma. Qed.

Example C82_ceil_vec_simd_ex :
  let m := block 0 80 (fun a => f_lit F32 (1 - 2 * a) (-1)) in buffers_fit AVX32 m 32 40 32 /\ m (40 + 1) = Some (f_lit F32 (-81) (-1)) /\ m (40 + 0) = Some (f_lit F32 (-79) (-1)) /\ fle (f_lit F32 (-81) (-1)) (f_lit F32 (-79) (-1)) = true.
Proof. cbv zeta. split; [unfold buffers_fit; fitm|]. split; [reflexivity|]. split; [reflexivity|vm_compute; reflexivity]. Qed.

(** and round, on every back-end and for all numbers, also beyond 2^23 where
    some back-ends return wrong integers. *)
Theorem C82_round_vec : 
  forall (B : backend) (n : nans (fmt_of B)) (m : mem (F (fmt_of B))) (out inp len : Z), scalar_fit m out inp len -> order_kept m (round_vec B n m out inp len) out inp len.
Proof. exact C82_round_vec_lemma. Qed.

Example C82_round_vec_ex :
  let m := block 0 80 (fun a => f_lit F32 (1 - 2 * a) (-1)) in scalar_fit m 32 40 32 /\ m (40 + 1) = Some (f_lit F32 (-81) (-1)) /\ m (40 + 0) = Some (f_lit F32 (-79) (-1)) /\ fle (f_lit F32 (-81) (-1)) (f_lit F32 (-79) (-1)) = true.
Proof. cbv zeta. split; [unfold scalar_fit; (split; [lia|split; [fitm|split; [fitm|cbn; lia]]])|]. split; [reflexivity|]. split; [reflexivity|vm_compute; reflexivity]. Qed.

Theorem C82_round_vec_simd : 
  forall (c : cfg) (B : backend) (n : nans (fmt_of B)) (m : mem (F (fmt_of B))) (out inp len : Z), buffers_fit B m out inp len -> order_kept m (round_vec_simd c B n m out inp len) out inp len.
Proof. exact C82_round_vec_simd_lemma. Qed.

Example C82_round_vec_simd_ex :
  let m := block 0 80 (fun a => f_lit F32 (1 - 2 * a) (-1)) in buffers_fit AVX32 m 32 40 32 /\ m (40 + 1) = Some (f_lit F32 (-81) (-1)) /\ m (40 + 0) = Some (f_lit F32 (-79) (-1)) /\ fle (f_lit F32 (-81) (-1)) (f_lit F32 (-79) (-1)) = true.
Proof. cbv zeta. split; [unfold buffers_fit; fitm|]. split; [reflexivity|]. split; [reflexivity|vm_compute; reflexivity]. Qed.

(** So do the sign, *)
Theorem C82_sgn_vec : 
  forall (B : backend) (n : nans (fmt_of B)) (m : mem (F (fmt_of B))) (out inp len : Z), scalar_fit m out inp len -> order_kept m (sgn_vec B m out inp len) out inp len.
Proof. exact C82_sgn_vec_lemma. Qed.

Example C82_sgn_vec_ex :
  let m := block 0 80 (fun a => f_lit F32 (1 - 2 * a) (-1)) in scalar_fit m 32 40 32 /\ m (40 + 1) = Some (f_lit F32 (-81) (-1)) /\ m (40 + 0) = Some (f_lit F32 (-79) (-1)) /\ fle (f_lit F32 (-81) (-1)) (f_lit F32 (-79) (-1)) = true.
Proof. cbv zeta. split; [unfold scalar_fit; (split; [lia|split; [fitm|split; [fitm|cbn; lia]]])|]. split; [reflexivity|]. split; [reflexivity|vm_compute; reflexivity]. Qed.

Theorem C82_sgn_vec_simd : 
  forall (c : cfg) (B : backend) (n : nans (fmt_of B)) (m : mem (F (fmt_of B))) (out inp len : Z), buffers_fit B m out inp len -> order_kept m (sgn_vec_simd c B n m out inp len) out inp len.
Proof. exact C82_sgn_vec_simd_lemma. Qed.

Example C82_sgn_vec_simd_ex :
  let m := block 0 80 (fun a => f_lit F32 (1 - 2 * a) (-1)) in buffers_fit AVX32 m 32 40 32 /\ m (40 + 1) = Some (f_lit F32 (-81) (-1)) /\ m (40 + 0) = Some (f_lit F32 (-79) (-1)) /\ fle (f_lit F32 (-81) (-1)) (f_lit F32 (-79) (-1)) = true.
Proof. cbv zeta. split; [unfold buffers_fit; fitm|]. split; [reflexivity|]. split; [reflexivity|vm_compute; reflexivity]. Qed.

(** flushing subnormals, *)
Theorem C82_undenormalize_vec : 
  forall (B : backend) (n : nans (fmt_of B)) (m : mem (F (fmt_of B))) (out inp len : Z), scalar_fit m out inp len -> order_kept m (undenormalize_vec B m out inp len) out inp len.
Proof. exact C82_undenormalize_vec_lemma. Qed.

Example C82_undenormalize_vec_ex :
  let m := block 0 80 (fun a => f_lit F32 (1 - 2 * a) (-1)) in scalar_fit m 32 40 32 /\ m (40 + 1) = Some (f_lit F32 (-81) (-1)) /\ m (40 + 0) = Some (f_lit F32 (-79) (-1)) /\ fle (f_lit F32 (-81) (-1)) (f_lit F32 (-79) (-1)) = true.
Proof. cbv zeta. split; [unfold scalar_fit; (split; [lia|split; [fitm|split; [fitm|cbn; lia]]])|]. split; [reflexivity|]. split; [reflexivity|vm_compute; reflexivity]. Qed.

Theorem C82_undenormalize_vec_simd : 
  forall (c : cfg) (B : backend) (n : nans (fmt_of B)) (m : mem (F (fmt_of B))) (out inp len : Z), isa_of B <> NEON -> buffers_fit B m out inp len -> order_kept m (undenormalize_vec_simd c B n m out inp len) out inp len.
Proof. exact C82_undenormalize_vec_simd_lemma. Qed.

Example C82_undenormalize_vec_simd_ex :
  let m := block 0 80 (fun a => f_lit F32 (1 - 2 * a) (-1)) in isa_of AVX32 <> NEON /\ buffers_fit AVX32 m 32 40 32 /\ m (40 + 1) = Some (f_lit F32 (-81) (-1)) /\ m (40 + 0) = Some (f_lit F32 (-79) (-1)) /\ fle (f_lit F32 (-81) (-1)) (f_lit F32 (-79) (-1)) = true.
Proof. cbv zeta. split; [discriminate|]. split; [unfold buffers_fit; fitm|]. split; [reflexivity|]. split; [reflexivity|vm_compute; reflexivity]. Qed.

(** the cube, overflow included, *)
Theorem C82_cube_vec : 
  forall (B : backend) (n : nans (fmt_of B)) (m : mem (F (fmt_of B))) (out inp len : Z), scalar_fit m out inp len -> order_kept m (cube_vec B n m out inp len) out inp len.
Proof. exact C82_cube_vec_lemma. Qed.

Example C82_cube_vec_ex :
  let m := block 0 80 (fun a => f_lit F32 (1 - 2 * a) (-1)) in scalar_fit m 32 40 32 /\ m (40 + 1) = Some (f_lit F32 (-81) (-1)) /\ m (40 + 0) = Some (f_lit F32 (-79) (-1)) /\ fle (f_lit F32 (-81) (-1)) (f_lit F32 (-79) (-1)) = true.
Proof. cbv zeta. split; [unfold scalar_fit; (split; [lia|split; [fitm|split; [fitm|cbn; lia]]])|]. split; [reflexivity|]. split; [reflexivity|vm_compute; reflexivity]. Qed.

Theorem C82_cube_vec_simd : 
  forall (c : cfg) (B : backend) (n : nans (fmt_of B)) (m : mem (F (fmt_of B))) (out inp len : Z), buffers_fit B m out inp len -> order_kept m (cube_vec_simd B n m out inp len) out inp len.
Proof. exact C82_cube_vec_simd_lemma. Qed.

Example C82_cube_vec_simd_ex :
  let m := block 0 80 (fun a => f_lit F32 (1 - 2 * a) (-1)) in buffers_fit AVX32 m 32 40 32 /\ m (40 + 1) = Some (f_lit F32 (-81) (-1)) /\ m (40 + 0) = Some (f_lit F32 (-79) (-1)) /\ fle (f_lit F32 (-81) (-1)) (f_lit F32 (-79) (-1)) = true.
Proof. cbv zeta. split; [unfold buffers_fit; fitm|]. split; [reflexivity|]. split; [reflexivity|vm_compute; reflexivity]. Qed.

(** the square root with the sign (on NEON it is an estimate), *)
Theorem C82_signed_sqrt_vec : 
  forall (B : backend) (n : nans (fmt_of B)) (m : mem (F (fmt_of B))) (out inp len : Z), scalar_fit m out inp len -> order_kept m (signed_sqrt_vec B n m out inp len) out inp len.
Proof. exact C82_signed_sqrt_vec_lemma. Qed.

Example C82_signed_sqrt_vec_ex :
  let m := block 0 80 (fun a => f_lit F32 (1 - 2 * a) (-1)) in scalar_fit m 32 40 32 /\ m (40 + 1) = Some (f_lit F32 (-81) (-1)) /\ m (40 + 0) = Some (f_lit F32 (-79) (-1)) /\ fle (f_lit F32 (-81) (-1)) (f_lit F32 (-79) (-1)) = true.
Proof. cbv zeta. split; [unfold scalar_fit; (split; [lia|split; [fitm|split; [fitm|cbn; lia]]])|]. split; [reflexivity|]. split; [reflexivity|vm_compute; reflexivity]. Qed.

Theorem C82_signed_sqrt_vec_simd : 
  forall (c : cfg) (B : backend) (n : nans (fmt_of B)) (m : mem (F (fmt_of B))) (out inp len : Z), isa_of B <> NEON -> buffers_fit B m out inp len -> order_kept m (signed_sqrt_vec_simd c B n m out inp len) out inp len.
Proof. exact C82_signed_sqrt_vec_simd_lemma. Qed.

Example C82_signed_sqrt_vec_simd_ex :
  let m := block 0 80 (fun a => f_lit F32 (1 - 2 * a) (-1)) in isa_of AVX32 <> NEON /\ buffers_fit AVX32 m 32 40 32 /\ m (40 + 1) = Some (f_lit F32 (-81) (-1)) /\ m (40 + 0) = Some (f_lit F32 (-79) (-1)) /\ fle (f_lit F32 (-81) (-1)) (f_lit F32 (-79) (-1)) = true.
Proof. cbv zeta. split; [discriminate|]. split; [unfold buffers_fit; fitm|]. split; [reflexivity|]. split; [reflexivity|vm_compute; reflexivity]. Qed.

(** the square of samples that are not negative, *)
Theorem C82_square_vec : 
  forall (B : backend) (n : nans (fmt_of B)) (m : mem (F (fmt_of B))) (out inp len : Z), scalar_fit m out inp len -> each not_negative m inp len -> order_kept m (square_vec B n m out inp len) out inp len.
Proof. exact C82_square_vec_lemma. Qed.

Example C82_square_vec_ex :
  let m := block 0 80 (fun a => f_lit F32 (1 + 2 * a) (-1)) in scalar_fit m 32 40 32 /\ each not_negative m 40 32 /\ m (40 + 0) = Some (f_lit F32 81 (-1)) /\ m (40 + 1) = Some (f_lit F32 83 (-1)) /\ fle (f_lit F32 81 (-1)) (f_lit F32 83 (-1)) = true.
Proof. intros m. split; [unfold scalar_fit; (split; [lia|split; [unfold m; fitm|split; [unfold m; fitm|cbn; lia]]])|]. split; [intros i x Hi E; right; unfold m in E; rewrite block_in in E by lia; assert (x = f_lit F32 (1 + 2 * (40 + i)) (-1)) as -> by congruence; destruct (lit_half (1 + 2 * (40 + i)) ltac:(lia)) as (A1 & A2 & _); apply fle_x; [reflexivity|apply isfin_isnan; exact A1|rewrite !xval_fin by (exact A1 || reflexivity); rewrite A2; assert (0 <= IZR (1 + 2 * (40 + i)))%R by (apply IZR_le; lia); change (val (f_ofZ F32 0)) with 0%R; lra]|]. split; [reflexivity|]. split; [reflexivity|vm_compute; reflexivity]. Qed.

Theorem C82_square_vec_simd : 
  forall (c : cfg) (B : backend) (n : nans (fmt_of B)) (m : mem (F (fmt_of B))) (out inp len : Z), buffers_fit B m out inp len -> each not_negative m inp len -> order_kept m (square_vec_simd B n m out inp len) out inp len.
Proof. exact C82_square_vec_simd_lemma. Qed.

Example C82_square_vec_simd_ex :
  let m := block 0 80 (fun a => f_lit F32 (1 + 2 * a) (-1)) in buffers_fit AVX32 m 32 40 32 /\ each not_negative m 40 32 /\ m (40 + 0) = Some (f_lit F32 81 (-1)) /\ m (40 + 1) = Some (f_lit F32 83 (-1)) /\ fle (f_lit F32 81 (-1)) (f_lit F32 83 (-1)) = true.
Proof. intros m. split; [unfold buffers_fit; unfold m; fitm|]. split; [intros i x Hi E; right; unfold m in E; rewrite block_in in E by lia; assert (x = f_lit F32 (1 + 2 * (40 + i)) (-1)) as -> by congruence; destruct (lit_half (1 + 2 * (40 + i)) ltac:(lia)) as (A1 & A2 & _); apply fle_x; [reflexivity|apply isfin_isnan; exact A1|rewrite !xval_fin by (exact A1 || reflexivity); rewrite A2; assert (0 <= IZR (1 + 2 * (40 + i)))%R by (apply IZR_le; lia); change (val (f_ofZ F32 0)) with 0%R; lra]|]. split; [reflexivity|]. split; [reflexivity|vm_compute; reflexivity]. Qed.

(** adding a constant, *)
Theorem C82_plus_vec : 
  forall (B : backend) (n : nans (fmt_of B)) (m : mem (F (fmt_of B))) (out inp len : Z) (k : F (fmt_of B)), isfin k = true ->
    scalar_fit m out inp len -> order_kept m (plus_vec (farith n) (fops_scalar n) m out (APtr inp) (AScal k) len) out inp len.
Proof. exact C82_plus_vec_lemma. Qed.

Example C82_plus_vec_ex :
  let m := block 0 80 (fun a => f_lit F32 (1 - 2 * a) (-1)) in isfin (f_lit F32 3 0) = true /\ scalar_fit m 32 40 32 /\ m (40 + 1) = Some (f_lit F32 (-81) (-1)) /\ m (40 + 0) = Some (f_lit F32 (-79) (-1)) /\ fle (f_lit F32 (-81) (-1)) (f_lit F32 (-79) (-1)) = true.
Proof. cbv zeta. split; [reflexivity|]. split; [unfold scalar_fit; (split; [lia|split; [fitm|split; [fitm|cbn; lia]]])|]. split; [reflexivity|]. split; [reflexivity|vm_compute; reflexivity]. Qed.

Theorem C82_plus_vec_simd : 
  forall (c : cfg) (B : backend) (n : nans (fmt_of B)) (m : mem (F (fmt_of B))) (out inp len : Z) (k : F (fmt_of B)), isfin k = true ->
    buffers_fit B m out inp len -> order_kept m (plus_vec_simd (farith n) (fops c B n) B m out (APtr inp) (AScal k) len) out inp len.
Proof. exact C82_plus_vec_simd_lemma. Qed.

Example C82_plus_vec_simd_ex :
  let m := block 0 80 (fun a => f_lit F32 (1 - 2 * a) (-1)) in isfin (f_lit F32 3 0) = true /\ buffers_fit AVX32 m 32 40 32 /\ m (40 + 1) = Some (f_lit F32 (-81) (-1)) /\ m (40 + 0) = Some (f_lit F32 (-79) (-1)) /\ fle (f_lit F32 (-81) (-1)) (f_lit F32 (-79) (-1)) = true.
Proof. cbv zeta. split; [reflexivity|]. split; [unfold buffers_fit; fitm|]. split; [reflexivity|]. split; [reflexivity|vm_compute; reflexivity]. Qed.

(** subtracting one, *)
Theorem C82_minus_vec : 
  forall (B : backend) (n : nans (fmt_of B)) (m : mem (F (fmt_of B))) (out inp len : Z) (k : F (fmt_of B)), isfin k = true ->
    scalar_fit m out inp len -> order_kept m (minus_vec (farith n) (fops_scalar n) m out (APtr inp) (AScal k) len) out inp len.
Proof. exact C82_minus_vec_lemma. Qed.

Example C82_minus_vec_ex :
  let m := block 0 80 (fun a => f_lit F32 (1 - 2 * a) (-1)) in isfin (f_lit F32 3 0) = true /\ scalar_fit m 32 40 32 /\ m (40 + 1) = Some (f_lit F32 (-81) (-1)) /\ m (40 + 0) = Some (f_lit F32 (-79) (-1)) /\ fle (f_lit F32 (-81) (-1)) (f_lit F32 (-79) (-1)) = true.
Proof. cbv zeta. split; [reflexivity|]. split; [unfold scalar_fit; (split; [lia|split; [fitm|split; [fitm|cbn; lia]]])|]. split; [reflexivity|]. split; [reflexivity|vm_compute; reflexivity]. Qed.

Theorem C82_minus_vec_simd : 
  forall (c : cfg) (B : backend) (n : nans (fmt_of B)) (m : mem (F (fmt_of B))) (out inp len : Z) (k : F (fmt_of B)), isfin k = true ->
    buffers_fit B m out inp len -> order_kept m (minus_vec_simd (farith n) (fops c B n) B m out (APtr inp) (AScal k) len) out inp len.
Proof. exact C82_minus_vec_simd_lemma. Qed.

Example C82_minus_vec_simd_ex :
  let m := block 0 80 (fun a => f_lit F32 (1 - 2 * a) (-1)) in isfin (f_lit F32 3 0) = true /\ buffers_fit AVX32 m 32 40 32 /\ m (40 + 1) = Some (f_lit F32 (-81) (-1)) /\ m (40 + 0) = Some (f_lit F32 (-79) (-1)) /\ fle (f_lit F32 (-81) (-1)) (f_lit F32 (-79) (-1)) = true.
Proof. cbv zeta. split; [reflexivity|]. split; [unfold buffers_fit; fitm|]. split; [reflexivity|]. split; [reflexivity|vm_compute; reflexivity]. Qed.

(** multiplying with a positive one, *)
Theorem C82_times_vec : 
  forall (B : backend) (n : nans (fmt_of B)) (m : mem (F (fmt_of B))) (out inp len : Z) (k : F (fmt_of B)), isfin k = true -> (0 < val k)%R ->
    scalar_fit m out inp len -> order_kept m (times_vec (farith n) (fops_scalar n) m out (APtr inp) (AScal k) len) out inp len.
Proof. exact C82_times_vec_lemma. Qed.

Example C82_times_vec_ex :
  let m := block 0 80 (fun a => f_lit F32 (1 - 2 * a) (-1)) in (isfin (f_lit F32 3 0) = true /\ (0 < val (f_lit F32 3 0))%R) /\ scalar_fit m 32 40 32 /\ m (40 + 1) = Some (f_lit F32 (-81) (-1)) /\ m (40 + 0) = Some (f_lit F32 (-79) (-1)) /\ fle (f_lit F32 (-81) (-1)) (f_lit F32 (-79) (-1)) = true.
Proof. cbv zeta. split; [split; [reflexivity|vm_compute; lra]|]. split; [unfold scalar_fit; (split; [lia|split; [fitm|split; [fitm|cbn; lia]]])|]. split; [reflexivity|]. split; [reflexivity|vm_compute; reflexivity]. Qed.

Theorem C82_times_vec_simd : 
  forall (c : cfg) (B : backend) (n : nans (fmt_of B)) (m : mem (F (fmt_of B))) (out inp len : Z) (k : F (fmt_of B)), isfin k = true -> (0 < val k)%R ->
    buffers_fit B m out inp len -> order_kept m (times_vec_simd (farith n) (fops c B n) B m out (APtr inp) (AScal k) len) out inp len.
Proof. exact C82_times_vec_simd_lemma. Qed.

Example C82_times_vec_simd_ex :
  let m := block 0 80 (fun a => f_lit F32 (1 - 2 * a) (-1)) in (isfin (f_lit F32 3 0) = true /\ (0 < val (f_lit F32 3 0))%R) /\ buffers_fit AVX32 m 32 40 32 /\ m (40 + 1) = Some (f_lit F32 (-81) (-1)) /\ m (40 + 0) = Some (f_lit F32 (-79) (-1)) /\ fle (f_lit F32 (-81) (-1)) (f_lit F32 (-79) (-1)) = true.
Proof. cbv zeta. split; [split; [reflexivity|vm_compute; lra]|]. split; [unfold buffers_fit; fitm|]. split; [reflexivity|]. split; [reflexivity|vm_compute; reflexivity]. Qed.

(** dividing by one (where there is a division instruction), *)
Theorem C82_over_vec : 
  forall (B : backend) (n : nans (fmt_of B)) (m : mem (F (fmt_of B))) (out inp len : Z) (k : F (fmt_of B)), isfin k = true -> (0 < val k)%R ->
    scalar_fit m out inp len -> order_kept m (over_vec (farith n) (fops_scalar n) m out (APtr inp) (AScal k) len) out inp len.
Proof. exact C82_over_vec_lemma. Qed.

Example C82_over_vec_ex :
  let m := block 0 80 (fun a => f_lit F32 (1 - 2 * a) (-1)) in (isfin (f_lit F32 3 0) = true /\ (0 < val (f_lit F32 3 0))%R) /\ scalar_fit m 32 40 32 /\ m (40 + 1) = Some (f_lit F32 (-81) (-1)) /\ m (40 + 0) = Some (f_lit F32 (-79) (-1)) /\ fle (f_lit F32 (-81) (-1)) (f_lit F32 (-79) (-1)) = true.
Proof. cbv zeta. split; [split; [reflexivity|vm_compute; lra]|]. split; [unfold scalar_fit; (split; [lia|split; [fitm|split; [fitm|cbn; lia]]])|]. split; [reflexivity|]. split; [reflexivity|vm_compute; reflexivity]. Qed.

Theorem C82_over_vec_simd : 
  forall (c : cfg) (B : backend) (n : nans (fmt_of B)) (m : mem (F (fmt_of B))) (out inp len : Z) (k : F (fmt_of B)), B <> NEON32 -> B <> ALTIVEC32 -> isfin k = true -> (0 < val k)%R ->
    buffers_fit B m out inp len -> order_kept m (over_vec_simd (farith n) (fops c B n) B m out (APtr inp) (AScal k) len) out inp len.
Proof. exact C82_over_vec_simd_lemma. Qed.

Example C82_over_vec_simd_ex :
  let m := block 0 80 (fun a => f_lit F32 (1 - 2 * a) (-1)) in (AVX32 <> NEON32 /\ AVX32 <> ALTIVEC32 /\ isfin (f_lit F32 3 0) = true /\ (0 < val (f_lit F32 3 0))%R) /\ buffers_fit AVX32 m 32 40 32 /\ m (40 + 1) = Some (f_lit F32 (-81) (-1)) /\ m (40 + 0) = Some (f_lit F32 (-79) (-1)) /\ fle (f_lit F32 (-81) (-1)) (f_lit F32 (-79) (-1)) = true.
Proof. cbv zeta. split; [split; [discriminate|]; split; [discriminate|]; split; [reflexivity|vm_compute; lra]|]. split; [unfold buffers_fit; fitm|]. split; [reflexivity|]. split; [reflexivity|vm_compute; reflexivity]. Qed.

(** both (fused or not), *)
Theorem C82_muladd_vec : 
  forall (B : backend) (n : nans (fmt_of B)) (m : mem (F (fmt_of B))) (out inp len : Z) (k l : F (fmt_of B)), isfin k = true -> (0 < val k)%R -> isfin l = true ->
    scalar_fit m out inp len -> order_kept m (muladd_vec (farith n) (fops_scalar n) m out (APtr inp) (AScal k) (AScal l) len) out inp len.
Proof. exact C82_muladd_vec_lemma. Qed.

Example C82_muladd_vec_ex :
  let m := block 0 80 (fun a => f_lit F32 (1 - 2 * a) (-1)) in ((isfin (f_lit F32 3 0) = true /\ (0 < val (f_lit F32 3 0))%R) /\ isfin (f_lit F32 (-1) 0) = true) /\ scalar_fit m 32 40 32 /\ m (40 + 1) = Some (f_lit F32 (-81) (-1)) /\ m (40 + 0) = Some (f_lit F32 (-79) (-1)) /\ fle (f_lit F32 (-81) (-1)) (f_lit F32 (-79) (-1)) = true.
Proof. cbv zeta. split; [split; [split; [reflexivity|vm_compute; lra]|reflexivity]|]. split; [unfold scalar_fit; (split; [lia|split; [fitm|split; [fitm|cbn; lia]]])|]. split; [reflexivity|]. split; [reflexivity|vm_compute; reflexivity]. Qed.

Theorem C82_muladd_vec_simd : 
  forall (c : cfg) (B : backend) (n : nans (fmt_of B)) (m : mem (F (fmt_of B))) (out inp len : Z) (k l : F (fmt_of B)), isfin k = true -> (0 < val k)%R -> isfin l = true ->
    buffers_fit B m out inp len -> order_kept m (muladd_vec_simd (farith n) (fops c B n) B m out (APtr inp) (AScal k) (AScal l) len) out inp len.
Proof. exact C82_muladd_vec_simd_lemma. Qed.

Example C82_muladd_vec_simd_ex :
  let m := block 0 80 (fun a => f_lit F32 (1 - 2 * a) (-1)) in ((isfin (f_lit F32 3 0) = true /\ (0 < val (f_lit F32 3 0))%R) /\ isfin (f_lit F32 (-1) 0) = true) /\ buffers_fit AVX32 m 32 40 32 /\ m (40 + 1) = Some (f_lit F32 (-81) (-1)) /\ m (40 + 0) = Some (f_lit F32 (-79) (-1)) /\ fle (f_lit F32 (-81) (-1)) (f_lit F32 (-79) (-1)) = true.
Proof. cbv zeta. split; [split; [split; [reflexivity|vm_compute; lra]|reflexivity]|]. split; [unfold buffers_fit; fitm|]. split; [reflexivity|]. split; [reflexivity|vm_compute; reflexivity]. Qed.

(** and the limiters min, *)
Theorem C82_min_vec : 
  forall (B : backend) (n : nans (fmt_of B)) (m : mem (F (fmt_of B))) (out inp len : Z) (k : F (fmt_of B)), isnan k = false ->
    scalar_fit m out inp len -> order_kept m (min_vec (farith n) (fops_scalar n) m out (APtr inp) (AScal k) len) out inp len.
Proof. exact C82_min_vec_lemma. Qed.

Example C82_min_vec_ex :
  let m := block 0 80 (fun a => f_lit F32 (1 - 2 * a) (-1)) in isnan (f_lit F32 3 0) = false /\ scalar_fit m 32 40 32 /\ m (40 + 1) = Some (f_lit F32 (-81) (-1)) /\ m (40 + 0) = Some (f_lit F32 (-79) (-1)) /\ fle (f_lit F32 (-81) (-1)) (f_lit F32 (-79) (-1)) = true.
Proof. cbv zeta. split; [reflexivity|]. split; [unfold scalar_fit; (split; [lia|split; [fitm|split; [fitm|cbn; lia]]])|]. split; [reflexivity|]. split; [reflexivity|vm_compute; reflexivity]. Qed.

Theorem C82_min_vec_simd : 
  forall (c : cfg) (B : backend) (n : nans (fmt_of B)) (m : mem (F (fmt_of B))) (out inp len : Z) (k : F (fmt_of B)), isnan k = false ->
    buffers_fit B m out inp len -> order_kept m (min_vec_simd (farith n) (fops c B n) B m out (APtr inp) (AScal k) len) out inp len.
Proof. exact C82_min_vec_simd_lemma. Qed.

Example C82_min_vec_simd_ex :
  let m := block 0 80 (fun a => f_lit F32 (1 - 2 * a) (-1)) in isnan (f_lit F32 3 0) = false /\ buffers_fit AVX32 m 32 40 32 /\ m (40 + 1) = Some (f_lit F32 (-81) (-1)) /\ m (40 + 0) = Some (f_lit F32 (-79) (-1)) /\ fle (f_lit F32 (-81) (-1)) (f_lit F32 (-79) (-1)) = true.
Proof. cbv zeta. split; [reflexivity|]. split; [unfold buffers_fit; fitm|]. split; [reflexivity|]. split; [reflexivity|vm_compute; reflexivity]. Qed.

(** max, *)
Theorem C82_max_vec : 
  forall (B : backend) (n : nans (fmt_of B)) (m : mem (F (fmt_of B))) (out inp len : Z) (k : F (fmt_of B)), isnan k = false ->
    scalar_fit m out inp len -> order_kept m (max_vec (farith n) (fops_scalar n) m out (APtr inp) (AScal k) len) out inp len.
Proof. exact C82_max_vec_lemma. Qed.

Example C82_max_vec_ex :
  let m := block 0 80 (fun a => f_lit F32 (1 - 2 * a) (-1)) in isnan (f_lit F32 3 0) = false /\ scalar_fit m 32 40 32 /\ m (40 + 1) = Some (f_lit F32 (-81) (-1)) /\ m (40 + 0) = Some (f_lit F32 (-79) (-1)) /\ fle (f_lit F32 (-81) (-1)) (f_lit F32 (-79) (-1)) = true.
Proof. cbv zeta. split; [reflexivity|]. split; [unfold scalar_fit; (split; [lia|split; [fitm|split; [fitm|cbn; lia]]])|]. split; [reflexivity|]. split; [reflexivity|vm_compute; reflexivity]. Qed.

Theorem C82_max_vec_simd : 
  forall (c : cfg) (B : backend) (n : nans (fmt_of B)) (m : mem (F (fmt_of B))) (out inp len : Z) (k : F (fmt_of B)), isnan k = false ->
    buffers_fit B m out inp len -> order_kept m (max_vec_simd (farith n) (fops c B n) B m out (APtr inp) (AScal k) len) out inp len.
Proof. exact C82_max_vec_simd_lemma. Qed.

Example C82_max_vec_simd_ex :
  let m := block 0 80 (fun a => f_lit F32 (1 - 2 * a) (-1)) in isnan (f_lit F32 3 0) = false /\ buffers_fit AVX32 m 32 40 32 /\ m (40 + 1) = Some (f_lit F32 (-81) (-1)) /\ m (40 + 0) = Some (f_lit F32 (-79) (-1)) /\ fle (f_lit F32 (-81) (-1)) (f_lit F32 (-79) (-1)) = true.
Proof. cbv zeta. split; [reflexivity|]. split; [unfold buffers_fit; fitm|]. split; [reflexivity|]. split; [reflexivity|vm_compute; reflexivity]. Qed.

(** clip *)
Theorem C82_clip_vec : 
  forall (B : backend) (n : nans (fmt_of B)) (m : mem (F (fmt_of B))) (out inp len : Z) (k l : F (fmt_of B)), isnan k = false -> isnan l = false ->
    scalar_fit m out inp len -> order_kept m (clip_vec (farith n) (fops_scalar n) m out (APtr inp) (AScal k) (AScal l) len) out inp len.
Proof. exact C82_clip_vec_lemma. Qed.

Example C82_clip_vec_ex :
  let m := block 0 80 (fun a => f_lit F32 (1 - 2 * a) (-1)) in (isnan (f_lit F32 (-1) 0) = false /\ isnan (f_lit F32 3 0) = false) /\ scalar_fit m 32 40 32 /\ m (40 + 1) = Some (f_lit F32 (-81) (-1)) /\ m (40 + 0) = Some (f_lit F32 (-79) (-1)) /\ fle (f_lit F32 (-81) (-1)) (f_lit F32 (-79) (-1)) = true.
Proof. cbv zeta. split; [split; reflexivity|]. split; [unfold scalar_fit; (split; [lia|split; [fitm|split; [fitm|cbn; lia]]])|]. split; [reflexivity|]. split; [reflexivity|vm_compute; reflexivity]. Qed.

Theorem C82_clip_vec_simd : 
  forall (c : cfg) (B : backend) (n : nans (fmt_of B)) (m : mem (F (fmt_of B))) (out inp len : Z) (k l : F (fmt_of B)), isnan k = false -> isnan l = false ->
    buffers_fit B m out inp len -> order_kept m (clip_vec_simd (farith n) (fops c B n) B m out (APtr inp) (AScal k) (AScal l) len) out inp len.
Proof. exact C82_clip_vec_simd_lemma. Qed.

Example C82_clip_vec_simd_ex :
  let m := block 0 80 (fun a => f_lit F32 (1 - 2 * a) (-1)) in (isnan (f_lit F32 (-1) 0) = false /\ isnan (f_lit F32 3 0) = false) /\ buffers_fit AVX32 m 32 40 32 /\ m (40 + 1) = Some (f_lit F32 (-81) (-1)) /\ m (40 + 0) = Some (f_lit F32 (-79) (-1)) /\ fle (f_lit F32 (-81) (-1)) (f_lit F32 (-79) (-1)) = true.
Proof. cbv zeta. split; [split; reflexivity|]. split; [unfold buffers_fit; fitm|]. split; [reflexivity|]. split; [reflexivity|vm_compute; reflexivity]. Qed.

(** and clip2. *)
Theorem C82_clip2_vec : 
  forall (B : backend) (n : nans (fmt_of B)) (m : mem (F (fmt_of B))) (out inp len : Z) (k : F (fmt_of B)), isnan k = false ->
    scalar_fit m out inp len -> order_kept m (clip2_vec (farith n) (fops_scalar n) m out (APtr inp) (AScal k) len) out inp len.
Proof. exact C82_clip2_vec_lemma. Qed.

Example C82_clip2_vec_ex :
  let m := block 0 80 (fun a => f_lit F32 (1 - 2 * a) (-1)) in isnan (f_lit F32 3 0) = false /\ scalar_fit m 32 40 32 /\ m (40 + 1) = Some (f_lit F32 (-81) (-1)) /\ m (40 + 0) = Some (f_lit F32 (-79) (-1)) /\ fle (f_lit F32 (-81) (-1)) (f_lit F32 (-79) (-1)) = true.
Proof. cbv zeta. split; [reflexivity|]. split; [unfold scalar_fit; (split; [lia|split; [fitm|split; [fitm|cbn; lia]]])|]. split; [reflexivity|]. split; [reflexivity|vm_compute; reflexivity]. Qed.

Theorem C82_clip2_vec_simd : 
  forall (c : cfg) (B : backend) (n : nans (fmt_of B)) (m : mem (F (fmt_of B))) (out inp len : Z) (k : F (fmt_of B)), isnan k = false ->
    buffers_fit B m out inp len -> order_kept m (clip2_vec_simd (farith n) (fops c B n) B m out (APtr inp) (AScal k) len) out inp len.
Proof. exact C82_clip2_vec_simd_lemma. Qed.

Example C82_clip2_vec_simd_ex :
  let m := block 0 80 (fun a => f_lit F32 (1 - 2 * a) (-1)) in isnan (f_lit F32 3 0) = false /\ buffers_fit AVX32 m 32 40 32 /\ m (40 + 1) = Some (f_lit F32 (-81) (-1)) /\ m (40 + 0) = Some (f_lit F32 (-79) (-1)) /\ fle (f_lit F32 (-81) (-1)) (f_lit F32 (-79) (-1)) = true.
Proof. cbv zeta. split; [reflexivity|]. split; [unfold buffers_fit; fitm|]. split; [reflexivity|]. split; [reflexivity|vm_compute; reflexivity]. Qed.

(** floor is never above round, and round never above ceil, *)
Theorem C82_floor_round_ceil_vec : 
  forall (B : backend) (n : nans (fmt_of B)) (m : mem (F (fmt_of B))) (out inp len : Z), scalar_fit m out inp len ->
    in_order m (floor_vec B n m out inp len) (round_vec B n m out inp len) (ceil_vec B n m out inp len) out inp len.
Proof. exact C82_floor_round_ceil_vec_lemma. Qed.

Example C82_floor_round_ceil_vec_ex :
  let m := block 0 80 (fun a => f_lit F32 (1 - 2 * a) (-1)) in scalar_fit m 32 40 32 /\ m (40 + 0) = Some (f_lit F32 (-79) (-1)) /\ isnan (f_lit F32 (-79) (-1)) = false.
Proof. cbv zeta. split; [unfold scalar_fit; (split; [lia|split; [fitm|split; [fitm|cbn; lia]]])|]. split; reflexivity. Qed.

Theorem C82_floor_round_ceil_vec_simd : 
  forall (c : cfg) (B : backend) (n : nans (fmt_of B)) (m : mem (F (fmt_of B))) (out inp len : Z), B <> ALTIVEC32 -> buffers_fit B m out inp len ->
    in_order m (floor_vec_simd c B n m out inp len) (round_vec_simd c B n m out inp len) (ceil_vec_simd c B n m out inp len) out inp len.
Proof. exact C82_floor_round_ceil_vec_simd_lemma. Qed.

Example C82_floor_round_ceil_vec_simd_ex :
  let m := block 0 80 (fun a => f_lit F32 (1 - 2 * a) (-1)) in SSE32 <> ALTIVEC32 /\ buffers_fit SSE32 m 32 40 32 /\ m (40 + 0) = Some (f_lit F32 (-79) (-1)) /\ isnan (f_lit F32 (-79) (-1)) = false.
Proof. cbv zeta. split; [discriminate|]. split; [unfold buffers_fit; fitm|]. split; reflexivity. Qed.

(** except on Altivec beyond 2^23, whose floor is an instruction and whose round is
    vec_round_float: 8388609 has the floor 8388609 and is rounded to 8388608. *)
Theorem C82_floor_round_altivec_refuted : 
  forall (c : cfg) (n : nans F32), exists (m : mem (F F32)) (out inp len : Z), buffers_fit ALTIVEC32 m out inp len /\
    ~ in_order m (floor_vec_simd c ALTIVEC32 n m out inp len) (round_vec_simd c ALTIVEC32 n m out inp len) (ceil_vec_simd c ALTIVEC32 n m out inp len) out inp len.
Proof. exact C82_floor_round_altivec_refuted_lemma. Qed.

Example C82_floor_round_altivec_refuted_ex :
  let m := block 0 80 (fun _ => f_ofZ F32 8388609) in buffers_fit ALTIVEC32 m 32 40 32 /\ m 40 = Some (f_ofZ F32 8388609).
Proof. cbv zeta. split; [unfold buffers_fit; fitm|reflexivity]. Qed.

(** * C83: functions that have nothing to do the second time *)

(** A second call, in place, changes nothing after floor, *)
Theorem C83_floor_vec : 
  forall (B : backend) (n : nans (fmt_of B)) (m : mem (F (fmt_of B))) (out inp len : Z), scalar_fit m out inp len -> each number m inp len -> 
    once_is_enough (floor_vec B n) m out inp len.
Proof. exact C83_floor_vec_lemma. Qed.

Example C83_floor_vec_ex :
  let m := block 0 80 (fun a => f_lit F32 (1 - 2 * a) (-1)) in scalar_fit m 32 40 32 /\ each number m 40 32 /\ m 40 = Some (f_lit F32 (-79) (-1)).
Proof. intros m. split; [unfold scalar_fit, m; (split; [lia|split; [fitm|split; [fitm|cbn; lia]]])|]. split; [intros i x Hi E; unfold m in E; rewrite block_in in E by lia; assert (x = f_lit F32 (1 - 2 * (40 + i)) (-1)) as -> by congruence; destruct (lit_half (1 - 2 * (40 + i)) ltac:(lia)) as (A1 & A2 & W); apply isfin_isnan; exact A1|reflexivity]. Qed.

Theorem C83_floor_vec_simd : 
  forall (c : cfg) (B : backend) (n : nans (fmt_of B)) (m : mem (F (fmt_of B))) (out inp len : Z), buffers_fit B m out inp len -> each (roundable (magic_floor c B)) m inp len -> 
    once_is_enough (floor_vec_simd c B n) m out inp len.
Proof. exact C83_floor_vec_simd_lemma. Qed.

Example C83_floor_vec_simd_ex :
  let m := block 0 80 (fun a => f_lit F32 (1 - 2 * a) (-1)) in buffers_fit AVX32 m 32 40 32 /\ each (roundable (magic_floor all_ext AVX32)) m 40 32 /\ m 40 = Some (f_lit F32 (-79) (-1)).
Proof. intros m. split; [unfold buffers_fit, m; fitm|]. split; [intros i x Hi E; unfold m in E; rewrite block_in in E by lia; assert (x = f_lit F32 (1 - 2 * (40 + i)) (-1)) as -> by congruence; destruct (lit_half (1 - 2 * (40 + i)) ltac:(lia)) as (A1 & A2 & W); split; [apply isfin_isnan; exact A1|intros _; exact W]|reflexivity]. Qed.

(** ceil *)
Theorem C83_ceil_vec : 
  forall (B : backend) (n : nans (fmt_of B)) (m : mem (F (fmt_of B))) (out inp len : Z), scalar_fit m out inp len -> each number m inp len -> 
    once_is_enough (ceil_vec B n) m out inp len.
Proof. exact C83_ceil_vec_lemma. Qed.

Example C83_ceil_vec_ex :
  let m := block 0 80 (fun a => f_lit F32 (1 - 2 * a) (-1)) in scalar_fit m 32 40 32 /\ each number m 40 32 /\ m 40 = Some (f_lit F32 (-79) (-1)).
Proof. intros m. split; [unfold scalar_fit, m; (split; [lia|split; [fitm|split; [fitm|cbn; lia]]])|]. split; [intros i x Hi E; unfold m in E; rewrite block_in in E by lia; assert (x = f_lit F32 (1 - 2 * (40 + i)) (-1)) as -> by congruence; destruct (lit_half (1 - 2 * (40 + i)) ltac:(lia)) as (A1 & A2 & W); apply isfin_isnan; exact A1|reflexivity]. Qed.

Theorem C83_ceil_vec_simd : 
  forall (c : cfg) (B : backend) (n : nans (fmt_of B)) (m : mem (F (fmt_of B))) (out inp len : Z), buffers_fit B m out inp len -> each (roundable (magic_floor c B)) m inp len -> 
    once_is_enough (ceil_vec_simd c B n) m out inp len.
Proof. exact C83_ceil_vec_simd_lemma. Qed.

Example C83_ceil_vec_simd_ex :
  let m := block 0 80 (fun a => f_lit F32 (1 - 2 * a) (-1)) in buffers_fit AVX32 m 32 40 32 /\ each (roundable (magic_floor all_ext AVX32)) m 40 32 /\ m 40 = Some (f_lit F32 (-79) (-1)).
Proof. intros m. split; [unfold buffers_fit, m; fitm|]. split; [intros i x Hi E; unfold m in E; rewrite block_in in E by lia; assert (x = f_lit F32 (1 - 2 * (40 + i)) (-1)) as -> by congruence; destruct (lit_half (1 - 2 * (40 + i)) ltac:(lia)) as (A1 & A2 & W); split; [apply isfin_isnan; exact A1|intros _; exact W]|reflexivity]. Qed.

(** and round (where the back-end rounds with 2^23, for numbers within 2^23), *)
Theorem C83_round_vec : 
  forall (B : backend) (n : nans (fmt_of B)) (m : mem (F (fmt_of B))) (out inp len : Z), scalar_fit m out inp len -> each number m inp len -> 
    once_is_enough (round_vec B n) m out inp len.
Proof. exact C83_round_vec_lemma. Qed.

Example C83_round_vec_ex :
  let m := block 0 80 (fun a => f_lit F32 (1 - 2 * a) (-1)) in scalar_fit m 32 40 32 /\ each number m 40 32 /\ m 40 = Some (f_lit F32 (-79) (-1)).
Proof. intros m. split; [unfold scalar_fit, m; (split; [lia|split; [fitm|split; [fitm|cbn; lia]]])|]. split; [intros i x Hi E; unfold m in E; rewrite block_in in E by lia; assert (x = f_lit F32 (1 - 2 * (40 + i)) (-1)) as -> by congruence; destruct (lit_half (1 - 2 * (40 + i)) ltac:(lia)) as (A1 & A2 & W); apply isfin_isnan; exact A1|reflexivity]. Qed.

Theorem C83_round_vec_simd : 
  forall (c : cfg) (B : backend) (n : nans (fmt_of B)) (m : mem (F (fmt_of B))) (out inp len : Z), buffers_fit B m out inp len -> each (roundable (magic_round c B)) m inp len -> 
    once_is_enough (round_vec_simd c B n) m out inp len.
Proof. exact C83_round_vec_simd_lemma. Qed.

Example C83_round_vec_simd_ex :
  let m := block 0 80 (fun a => f_lit F32 (1 - 2 * a) (-1)) in buffers_fit AVX32 m 32 40 32 /\ each (roundable (magic_round all_ext AVX32)) m 40 32 /\ m 40 = Some (f_lit F32 (-79) (-1)).
Proof. intros m. split; [unfold buffers_fit, m; fitm|]. split; [intros i x Hi E; unfold m in E; rewrite block_in in E by lia; assert (x = f_lit F32 (1 - 2 * (40 + i)) (-1)) as -> by congruence; destruct (lit_half (1 - 2 * (40 + i)) ltac:(lia)) as (A1 & A2 & W); split; [apply isfin_isnan; exact A1|intros _; exact W]|reflexivity]. Qed.

(** the sign, *)
Theorem C83_sgn_vec : 
  forall (B : backend) (n : nans (fmt_of B)) (m : mem (F (fmt_of B))) (out inp len : Z), scalar_fit m out inp len -> each number m inp len -> 
    once_is_enough (sgn_vec B) m out inp len.
Proof. exact C83_sgn_vec_lemma. Qed.

Example C83_sgn_vec_ex :
  let m := block 0 80 (fun a => f_lit F32 (1 - 2 * a) (-1)) in scalar_fit m 32 40 32 /\ each number m 40 32 /\ m 40 = Some (f_lit F32 (-79) (-1)).
Proof. intros m. split; [unfold scalar_fit, m; (split; [lia|split; [fitm|split; [fitm|cbn; lia]]])|]. split; [intros i x Hi E; unfold m in E; rewrite block_in in E by lia; assert (x = f_lit F32 (1 - 2 * (40 + i)) (-1)) as -> by congruence; destruct (lit_half (1 - 2 * (40 + i)) ltac:(lia)) as (A1 & A2 & W); apply isfin_isnan; exact A1|reflexivity]. Qed.

Theorem C83_sgn_vec_simd : 
  forall (c : cfg) (B : backend) (n : nans (fmt_of B)) (m : mem (F (fmt_of B))) (out inp len : Z), buffers_fit B m out inp len -> each number m inp len -> 
    once_is_enough (sgn_vec_simd c B n) m out inp len.
Proof. exact C83_sgn_vec_simd_lemma. Qed.

Example C83_sgn_vec_simd_ex :
  let m := block 0 80 (fun a => f_lit F32 (1 - 2 * a) (-1)) in buffers_fit AVX32 m 32 40 32 /\ each number m 40 32 /\ m 40 = Some (f_lit F32 (-79) (-1)).
Proof. intros m. split; [unfold buffers_fit, m; fitm|]. split; [intros i x Hi E; unfold m in E; rewrite block_in in E by lia; assert (x = f_lit F32 (1 - 2 * (40 + i)) (-1)) as -> by congruence; destruct (lit_half (1 - 2 * (40 + i)) ltac:(lia)) as (A1 & A2 & W); apply isfin_isnan; exact A1|reflexivity]. Qed.

(** the absolute value *)
Theorem C83_abs_vec : 
  forall (B : backend) (n : nans (fmt_of B)) (m : mem (F (fmt_of B))) (out inp len : Z), scalar_fit m out inp len -> 
    once_is_enough (abs_vec B) m out inp len.
Proof. exact C83_abs_vec_lemma. Qed.

Example C83_abs_vec_ex :
  let m := block 0 80 (fun a => f_lit F32 (1 - 2 * a) (-1)) in scalar_fit m 32 40 32 /\ m 40 = Some (f_lit F32 (-79) (-1)).
Proof. intros m. split; [unfold scalar_fit, m; (split; [lia|split; [fitm|split; [fitm|cbn; lia]]])|]. reflexivity. Qed.

Theorem C83_abs_vec_simd : 
  forall (c : cfg) (B : backend) (n : nans (fmt_of B)) (m : mem (F (fmt_of B))) (out inp len : Z), buffers_fit B m out inp len -> 
    once_is_enough (abs_vec_simd c B n) m out inp len.
Proof. exact C83_abs_vec_simd_lemma. Qed.

Example C83_abs_vec_simd_ex :
  let m := block 0 80 (fun a => f_lit F32 (1 - 2 * a) (-1)) in buffers_fit AVX32 m 32 40 32 /\ m 40 = Some (f_lit F32 (-79) (-1)).
Proof. intros m. split; [unfold buffers_fit, m; fitm|]. reflexivity. Qed.

(** and the flushing of subnormals, bit for bit and for NaNs too. *)
Theorem C83_undenormalize_vec : 
  forall (B : backend) (n : nans (fmt_of B)) (m : mem (F (fmt_of B))) (out inp len : Z), scalar_fit m out inp len -> 
    once_is_enough (undenormalize_vec B) m out inp len.
Proof. exact C83_undenormalize_vec_lemma. Qed.

Example C83_undenormalize_vec_ex :
  let m := block 0 80 (fun a => f_lit F32 (1 - 2 * a) (-1)) in scalar_fit m 32 40 32 /\ m 40 = Some (f_lit F32 (-79) (-1)).
Proof. intros m. split; [unfold scalar_fit, m; (split; [lia|split; [fitm|split; [fitm|cbn; lia]]])|]. reflexivity. Qed.

Theorem C83_undenormalize_vec_simd : 
  forall (c : cfg) (B : backend) (n : nans (fmt_of B)) (m : mem (F (fmt_of B))) (out inp len : Z), isa_of B <> NEON -> buffers_fit B m out inp len -> 
    once_is_enough (undenormalize_vec_simd c B n) m out inp len.
Proof. exact C83_undenormalize_vec_simd_lemma. Qed.

Example C83_undenormalize_vec_simd_ex :
  let m := block 0 80 (fun a => f_lit F32 (1 - 2 * a) (-1)) in isa_of AVX32 <> NEON /\ buffers_fit AVX32 m 32 40 32 /\ m 40 = Some (f_lit F32 (-79) (-1)).
Proof. intros m. split; [discriminate|]. split; [unfold buffers_fit, m; fitm|]. reflexivity. Qed.

(** frac too, for samples that are not negative or at most -1/2, *)
Theorem C83_frac_vec : 
  forall (B : backend) (n : nans (fmt_of B)) (m : mem (F (fmt_of B))) (out inp len : Z), scalar_fit m out inp len -> each not_slightly_negative m inp len -> 
    once_is_enough (frac_vec B n) m out inp len.
Proof. exact C83_frac_vec_lemma. Qed.

Example C83_frac_vec_ex :
  let m := block 0 80 (fun a => f_lit F32 (1 - 2 * a) (-1)) in scalar_fit m 32 40 32 /\ each not_slightly_negative m 40 32 /\ m 40 = Some (f_lit F32 (-79) (-1)).
Proof. intros m. split; [unfold scalar_fit, m; (split; [lia|split; [fitm|split; [fitm|cbn; lia]]])|]. split; [intros i x Hi E; unfold m in E; rewrite block_in in E by lia; assert (x = f_lit F32 (1 - 2 * (40 + i)) (-1)) as -> by congruence; destruct (lit_half (1 - 2 * (40 + i)) ltac:(lia)) as (A1 & A2 & W); assert (Q : (1 - 2 * (40 + i) <= -1)%Z) by lia; assert (NS : not_slightly_negative (f_lit F32 (1 - 2 * (40 + i)) (-1))) by (split; [exact A1|]; right; rewrite A2; apply IZR_le in Q; lra); exact NS|reflexivity]. Qed.

Theorem C83_frac_vec_simd : 
  forall (c : cfg) (B : backend) (n : nans (fmt_of B)) (m : mem (F (fmt_of B))) (out inp len : Z), buffers_fit B m out inp len -> each (fun x => not_slightly_negative x /\ (magic_floor c B -> within_2_23 x)) m inp len -> 
    once_is_enough (frac_vec_simd c B n) m out inp len.
Proof. exact C83_frac_vec_simd_lemma. Qed.

Example C83_frac_vec_simd_ex :
  let m := block 0 80 (fun a => f_lit F32 (1 - 2 * a) (-1)) in buffers_fit AVX32 m 32 40 32 /\ each (fun x => not_slightly_negative x /\ (magic_floor all_ext AVX32 -> within_2_23 x)) m 40 32 /\ m 40 = Some (f_lit F32 (-79) (-1)).
Proof. intros m. split; [unfold buffers_fit, m; fitm|]. split; [intros i x Hi E; unfold m in E; rewrite block_in in E by lia; assert (x = f_lit F32 (1 - 2 * (40 + i)) (-1)) as -> by congruence; destruct (lit_half (1 - 2 * (40 + i)) ltac:(lia)) as (A1 & A2 & W); assert (Q : (1 - 2 * (40 + i) <= -1)%Z) by lia; assert (NS : not_slightly_negative (f_lit F32 (1 - 2 * (40 + i)) (-1))) by (split; [exact A1|]; right; rewrite A2; apply IZR_le in Q; lra); split; [exact NS|intros _; exact W]|reflexivity]. Qed.

(** but not for tiny negative samples: the frac of -2^-60 is 1, whose frac is 0. *)
Theorem C83_frac_refuted : 
  forall n : nans F32, exists (m : mem (F F32)) (out inp len : Z), scalar_fit m out inp len /\
    ~ once_is_enough_numbers (frac_vec GEN32 n) m out inp len.
Proof. exact C83_frac_refuted_lemma. Qed.

Example C83_frac_refuted_ex :
  let m := block 0 80 (fun _ => f_lit F32 (-1) (-60)) in scalar_fit m 32 40 32 /\ m 40 = Some (f_lit F32 (-1) (-60)).
Proof. cbv zeta. split; [unfold scalar_fit; (split; [lia|split; [fitm|split; [fitm|cbn; lia]]])|reflexivity]. Qed.

(** The limiters min, *)
Theorem C83_min_vec : 
  forall (B : backend) (n : nans (fmt_of B)) (m : mem (F (fmt_of B))) (out inp len : Z) (k : F (fmt_of B)), isnan k = false ->
    scalar_fit m out inp len -> each number m inp len ->
    once_is_enough_numbers (fun m out inp len => min_vec (farith n) (fops_scalar n) m out (APtr inp) (AScal k) len) m out inp len.
Proof. exact C83_min_vec_lemma. Qed.

Example C83_min_vec_ex :
  let m := block 0 80 (fun a => f_lit F32 (1 - 2 * a) (-1)) in isnan (f_lit F32 3 0) = false /\ scalar_fit m 32 40 32 /\ each number m 40 32 /\ m 40 = Some (f_lit F32 (-79) (-1)).
Proof. intros m. split; [reflexivity|]. split; [unfold scalar_fit, m; (split; [lia|split; [fitm|split; [fitm|cbn; lia]]])|]. split; [intros i x Hi E; unfold m in E; rewrite block_in in E by lia; assert (x = f_lit F32 (1 - 2 * (40 + i)) (-1)) as -> by congruence; destruct (lit_half (1 - 2 * (40 + i)) ltac:(lia)) as (A1 & A2 & W); apply isfin_isnan; exact A1|reflexivity]. Qed.

Theorem C83_min_vec_simd : 
  forall (c : cfg) (B : backend) (n : nans (fmt_of B)) (m : mem (F (fmt_of B))) (out inp len : Z) (k : F (fmt_of B)), isnan k = false ->
    buffers_fit B m out inp len -> each number m inp len ->
    once_is_enough_numbers (fun m out inp len => min_vec_simd (farith n) (fops c B n) B m out (APtr inp) (AScal k) len) m out inp len.
Proof. exact C83_min_vec_simd_lemma. Qed.

Example C83_min_vec_simd_ex :
  let m := block 0 80 (fun a => f_lit F32 (1 - 2 * a) (-1)) in isnan (f_lit F32 3 0) = false /\ buffers_fit AVX32 m 32 40 32 /\ each number m 40 32 /\ m 40 = Some (f_lit F32 (-79) (-1)).
Proof. intros m. split; [reflexivity|]. split; [unfold buffers_fit, m; fitm|]. split; [intros i x Hi E; unfold m in E; rewrite block_in in E by lia; assert (x = f_lit F32 (1 - 2 * (40 + i)) (-1)) as -> by congruence; destruct (lit_half (1 - 2 * (40 + i)) ltac:(lia)) as (A1 & A2 & W); apply isfin_isnan; exact A1|reflexivity]. Qed.

(** max, *)
Theorem C83_max_vec : 
  forall (B : backend) (n : nans (fmt_of B)) (m : mem (F (fmt_of B))) (out inp len : Z) (k : F (fmt_of B)), isnan k = false ->
    scalar_fit m out inp len -> each number m inp len ->
    once_is_enough_numbers (fun m out inp len => max_vec (farith n) (fops_scalar n) m out (APtr inp) (AScal k) len) m out inp len.
Proof. exact C83_max_vec_lemma. Qed.

Example C83_max_vec_ex :
  let m := block 0 80 (fun a => f_lit F32 (1 - 2 * a) (-1)) in isnan (f_lit F32 3 0) = false /\ scalar_fit m 32 40 32 /\ each number m 40 32 /\ m 40 = Some (f_lit F32 (-79) (-1)).
Proof. intros m. split; [reflexivity|]. split; [unfold scalar_fit, m; (split; [lia|split; [fitm|split; [fitm|cbn; lia]]])|]. split; [intros i x Hi E; unfold m in E; rewrite block_in in E by lia; assert (x = f_lit F32 (1 - 2 * (40 + i)) (-1)) as -> by congruence; destruct (lit_half (1 - 2 * (40 + i)) ltac:(lia)) as (A1 & A2 & W); apply isfin_isnan; exact A1|reflexivity]. Qed.

Theorem C83_max_vec_simd : 
  forall (c : cfg) (B : backend) (n : nans (fmt_of B)) (m : mem (F (fmt_of B))) (out inp len : Z) (k : F (fmt_of B)), isnan k = false ->
    buffers_fit B m out inp len -> each number m inp len ->
    once_is_enough_numbers (fun m out inp len => max_vec_simd (farith n) (fops c B n) B m out (APtr inp) (AScal k) len) m out inp len.
Proof. exact C83_max_vec_simd_lemma. Qed.

Example C83_max_vec_simd_ex :
  let m := block 0 80 (fun a => f_lit F32 (1 - 2 * a) (-1)) in isnan (f_lit F32 3 0) = false /\ buffers_fit AVX32 m 32 40 32 /\ each number m 40 32 /\ m 40 = Some (f_lit F32 (-79) (-1)).
Proof. intros m. split; [reflexivity|]. split; [unfold buffers_fit, m; fitm|]. split; [intros i x Hi E; unfold m in E; rewrite block_in in E by lia; assert (x = f_lit F32 (1 - 2 * (40 + i)) (-1)) as -> by congruence; destruct (lit_half (1 - 2 * (40 + i)) ltac:(lia)) as (A1 & A2 & W); apply isfin_isnan; exact A1|reflexivity]. Qed.

(** clip *)
Theorem C83_clip_vec : 
  forall (B : backend) (n : nans (fmt_of B)) (m : mem (F (fmt_of B))) (out inp len : Z) (k l : F (fmt_of B)), isnan k = false -> isnan l = false ->
    scalar_fit m out inp len -> each number m inp len ->
    once_is_enough_numbers (fun m out inp len => clip_vec (farith n) (fops_scalar n) m out (APtr inp) (AScal k) (AScal l) len) m out inp len.
Proof. exact C83_clip_vec_lemma. Qed.

Example C83_clip_vec_ex :
  let m := block 0 80 (fun a => f_lit F32 (1 - 2 * a) (-1)) in (isnan (f_lit F32 (-1) 0) = false /\ isnan (f_lit F32 3 0) = false) /\ scalar_fit m 32 40 32 /\ each number m 40 32 /\ m 40 = Some (f_lit F32 (-79) (-1)).
Proof. intros m. split; [split; reflexivity|]. split; [unfold scalar_fit, m; (split; [lia|split; [fitm|split; [fitm|cbn; lia]]])|]. split; [intros i x Hi E; unfold m in E; rewrite block_in in E by lia; assert (x = f_lit F32 (1 - 2 * (40 + i)) (-1)) as -> by congruence; destruct (lit_half (1 - 2 * (40 + i)) ltac:(lia)) as (A1 & A2 & W); apply isfin_isnan; exact A1|reflexivity]. Qed.

Theorem C83_clip_vec_simd : 
  forall (c : cfg) (B : backend) (n : nans (fmt_of B)) (m : mem (F (fmt_of B))) (out inp len : Z) (k l : F (fmt_of B)), isnan k = false -> isnan l = false ->
    buffers_fit B m out inp len -> each number m inp len ->
    once_is_enough_numbers (fun m out inp len => clip_vec_simd (farith n) (fops c B n) B m out (APtr inp) (AScal k) (AScal l) len) m out inp len.
Proof. exact C83_clip_vec_simd_lemma. Qed.

Example C83_clip_vec_simd_ex :
  let m := block 0 80 (fun a => f_lit F32 (1 - 2 * a) (-1)) in (isnan (f_lit F32 (-1) 0) = false /\ isnan (f_lit F32 3 0) = false) /\ buffers_fit AVX32 m 32 40 32 /\ each number m 40 32 /\ m 40 = Some (f_lit F32 (-79) (-1)).
Proof. intros m. split; [split; reflexivity|]. split; [unfold buffers_fit, m; fitm|]. split; [intros i x Hi E; unfold m in E; rewrite block_in in E by lia; assert (x = f_lit F32 (1 - 2 * (40 + i)) (-1)) as -> by congruence; destruct (lit_half (1 - 2 * (40 + i)) ltac:(lia)) as (A1 & A2 & W); apply isfin_isnan; exact A1|reflexivity]. Qed.

(** and clip2 leave the same numbers the second time. *)
Theorem C83_clip2_vec : 
  forall (B : backend) (n : nans (fmt_of B)) (m : mem (F (fmt_of B))) (out inp len : Z) (k : F (fmt_of B)), isnan k = false ->
    scalar_fit m out inp len -> each number m inp len ->
    once_is_enough_numbers (fun m out inp len => clip2_vec (farith n) (fops_scalar n) m out (APtr inp) (AScal k) len) m out inp len.
Proof. exact C83_clip2_vec_lemma. Qed.

Example C83_clip2_vec_ex :
  let m := block 0 80 (fun a => f_lit F32 (1 - 2 * a) (-1)) in isnan (f_lit F32 3 0) = false /\ scalar_fit m 32 40 32 /\ each number m 40 32 /\ m 40 = Some (f_lit F32 (-79) (-1)).
Proof. intros m. split; [reflexivity|]. split; [unfold scalar_fit, m; (split; [lia|split; [fitm|split; [fitm|cbn; lia]]])|]. split; [intros i x Hi E; unfold m in E; rewrite block_in in E by lia; assert (x = f_lit F32 (1 - 2 * (40 + i)) (-1)) as -> by congruence; destruct (lit_half (1 - 2 * (40 + i)) ltac:(lia)) as (A1 & A2 & W); apply isfin_isnan; exact A1|reflexivity]. Qed.

Theorem C83_clip2_vec_simd : 
  forall (c : cfg) (B : backend) (n : nans (fmt_of B)) (m : mem (F (fmt_of B))) (out inp len : Z) (k : F (fmt_of B)), isnan k = false ->
    buffers_fit B m out inp len -> each number m inp len ->
    once_is_enough_numbers (fun m out inp len => clip2_vec_simd (farith n) (fops c B n) B m out (APtr inp) (AScal k) len) m out inp len.
Proof. exact C83_clip2_vec_simd_lemma. Qed.

Example C83_clip2_vec_simd_ex :
  let m := block 0 80 (fun a => f_lit F32 (1 - 2 * a) (-1)) in isnan (f_lit F32 3 0) = false /\ buffers_fit AVX32 m 32 40 32 /\ each number m 40 32 /\ m 40 = Some (f_lit F32 (-79) (-1)).
Proof. intros m. split; [reflexivity|]. split; [unfold buffers_fit, m; fitm|]. split; [intros i x Hi E; unfold m in E; rewrite block_in in E by lia; assert (x = f_lit F32 (1 - 2 * (40 + i)) (-1)) as -> by congruence; destruct (lit_half (1 - 2 * (40 + i)) ltac:(lia)) as (A1 & A2 & W); apply isfin_isnan; exact A1|reflexivity]. Qed.

(** softclip is not a limiter of that kind: 1 becomes 3/4, and 3/4 becomes 2/3. *)
Theorem C83_softclip_refuted : 
  forall n : nans F32, exists (m : mem (F F32)) (out inp len : Z), scalar_fit m out inp len /\
    ~ once_is_enough_numbers (softclip_vec GEN32 n) m out inp len.
Proof. exact C83_softclip_refuted_lemma. Qed.

Example C83_softclip_refuted_ex :
  let m := block 0 80 (fun _ => f_ofZ F32 1) in scalar_fit m 32 40 32 /\ m 40 = Some (f_ofZ F32 1).
Proof. cbv zeta. split; [unfold scalar_fit; (split; [lia|split; [fitm|split; [fitm|cbn; lia]]])|reflexivity]. Qed.

(** All theorems of this file together, for one run of Print Assumptions. *)
Definition all_Keep := (
  C82_floor_vec,
  C82_floor_vec_simd,
  C82_ceil_vec,
  C82_ceil_vec_simd,
  C82_round_vec,
  C82_round_vec_simd,
  C82_sgn_vec,
  C82_sgn_vec_simd,
  C82_undenormalize_vec,
  C82_undenormalize_vec_simd,
  C82_cube_vec,
  C82_cube_vec_simd,
  C82_signed_sqrt_vec,
  C82_signed_sqrt_vec_simd,
  C82_square_vec,
  C82_square_vec_simd,
  C82_plus_vec,
  C82_plus_vec_simd,
  C82_minus_vec,
  C82_minus_vec_simd,
  C82_times_vec,
  C82_times_vec_simd,
  C82_over_vec,
  C82_over_vec_simd,
  C82_muladd_vec,
  C82_muladd_vec_simd,
  C82_min_vec,
  C82_min_vec_simd,
  C82_max_vec,
  C82_max_vec_simd,
  C82_clip_vec,
  C82_clip_vec_simd,
  C82_clip2_vec,
  C82_clip2_vec_simd,
  C82_floor_round_ceil_vec,
  C82_floor_round_ceil_vec_simd,
  C82_floor_round_altivec_refuted,
  C83_floor_vec,
  C83_floor_vec_simd,
  C83_ceil_vec,
  C83_ceil_vec_simd,
  C83_round_vec,
  C83_round_vec_simd,
  C83_sgn_vec,
  C83_sgn_vec_simd,
  C83_abs_vec,
  C83_abs_vec_simd,
  C83_undenormalize_vec,
  C83_undenormalize_vec_simd,
  C83_frac_vec,
  C83_frac_vec_simd,
  C83_frac_refuted,
  C83_min_vec,
  C83_min_vec_simd,
  C83_max_vec,
  C83_max_vec_simd,
  C83_clip_vec,
  C83_clip_vec_simd,
  C83_clip2_vec,
  C83_clip2_vec_simd,
  C83_softclip_refuted).
Print Assumptions all_Keep.
