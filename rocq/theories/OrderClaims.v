(** Proofs of the statements of Prop_Order.v. *)
From Coq Require Import ZArith Reals Ratan List Lia Bool Lra.
From Flocq Require Import Core IEEE754.Binary IEEE754.Bits.
From Verif Require Import
  Base Mem Backend Args Drivers Functors Lanes Float LaneOps FloatOps ScalarMath VecMath FloatFuns IntVec TransMath TransFuns Spec SpecLane SpecRound SpecInt SpecMath SpecOrder
  FloatFacts FloatRound LaneFacts VecFacts VecMore VecMore2 NearFacts TransFacts TrigMore MathMore ArcOrder AtanOrder OrderMore ExFloat ExMath.
Import ListNotations.
Local Open Scope Z_scope.

Lemma C75_sin_range_lemma : 
  forall (c : cfg) (I : isa) (n : nans F32), math_isa c I -> ranges (fun r => (Rabs r <= 8192)%R) (-1) 1 (vec_sin_float c I n).
Proof.
  intros c I n HI. pose proof (isa_x86 _ _ HI) as HX. exact (sin_ranges c I n HX).
Qed.

Lemma C75_sin_vec_simd_range_lemma : 
  forall (c : cfg) (B : backend) (n : nans F32) (m : mem (F F32)) (out inp len : Z), math_backend c B -> unary_fit B m out inp len -> all_in (fun r => (Rabs r <= 8192)%R) m inp len ->
    all_between (-1) 1 m (sin_vec_simd c B n m out inp len) out len.
Proof.
  intros c B n m out inp len HB FT HA. pose proof (backend_isa _ _ HB) as HI.
  apply (between_unary n B _ (fun r => (Rabs r <= 8192)%R) (-1) 1); [|exact FT|exact HA]. exact (C75_sin_range_lemma c (isa_of B) n HI).
Qed.

Lemma C75_cos_range_lemma : 
  forall (c : cfg) (I : isa) (n : nans F32), math_isa c I -> ranges (fun r => (Rabs r <= 8192)%R) (-1) 1 (vec_cos_float c I n).
Proof.
  intros c I n HI. pose proof (isa_x86 _ _ HI) as HX. exact (cos_ranges c I n HX).
Qed.

Lemma C75_cos_vec_simd_range_lemma : 
  forall (c : cfg) (B : backend) (n : nans F32) (m : mem (F F32)) (out inp len : Z), math_backend c B -> unary_fit B m out inp len -> all_in (fun r => (Rabs r <= 8192)%R) m inp len ->
    all_between (-1) 1 m (cos_vec_simd c B n m out inp len) out len.
Proof.
  intros c B n m out inp len HB FT HA. pose proof (backend_isa _ _ HB) as HI.
  apply (between_unary n B _ (fun r => (Rabs r <= 8192)%R) (-1) 1); [|exact FT|exact HA]. exact (C75_cos_range_lemma c (isa_of B) n HI).
Qed.

Lemma C75_sin_rises_lemma : 
  forall (c : cfg) (I : isa) (n : nans F32) (k : Z), math_isa c I -> rising (half_wave (2 * k)) (vec_sin_float c I n).
Proof.
  intros c I n k HI. pose proof (isa_x86 _ _ HI) as HX. exact (sin_rising c I n HX k).
Qed.

Lemma C75_sin_vec_simd_rises_lemma : 
  forall (c : cfg) (B : backend) (n : nans F32) (m : mem (F F32)) (out inp len : Z) (k : Z), math_backend c B -> unary_fit B m out inp len -> all_in (half_wave (2 * k)) m inp len ->
    same_order m (sin_vec_simd c B n m out inp len) out inp len.
Proof.
  intros c B n m out inp len k HB FT HA. pose proof (backend_isa _ _ HB) as HI.
  apply (order_unary n B _ (half_wave (2 * k))); [|exact FT|exact HA]. exact (C75_sin_rises_lemma c (isa_of B) n k HI).
Qed.

Lemma C75_sin_falls_lemma : 
  forall (c : cfg) (I : isa) (n : nans F32) (k : Z), math_isa c I -> falling (half_wave (2 * k + 1)) (vec_sin_float c I n).
Proof.
  intros c I n k HI. pose proof (isa_x86 _ _ HI) as HX. exact (sin_falling c I n HX k).
Qed.

Lemma C75_sin_vec_simd_falls_lemma : 
  forall (c : cfg) (B : backend) (n : nans F32) (m : mem (F F32)) (out inp len : Z) (k : Z), math_backend c B -> unary_fit B m out inp len -> all_in (half_wave (2 * k + 1)) m inp len ->
    reverse_order m (sin_vec_simd c B n m out inp len) out inp len.
Proof.
  intros c B n m out inp len k HB FT HA. pose proof (backend_isa _ _ HB) as HI.
  apply (reverse_unary n B _ (half_wave (2 * k + 1))); [|exact FT|exact HA]. exact (C75_sin_falls_lemma c (isa_of B) n k HI).
Qed.

Lemma C75_cos_falls_lemma : 
  forall (c : cfg) (I : isa) (n : nans F32) (k : Z), math_isa c I -> falling (half_turn (2 * k)) (vec_cos_float c I n).
Proof.
  intros c I n k HI. pose proof (isa_x86 _ _ HI) as HX. exact (cos_falling c I n HX k).
Qed.

Lemma C75_cos_vec_simd_falls_lemma : 
  forall (c : cfg) (B : backend) (n : nans F32) (m : mem (F F32)) (out inp len : Z) (k : Z), math_backend c B -> unary_fit B m out inp len -> all_in (half_turn (2 * k)) m inp len ->
    reverse_order m (cos_vec_simd c B n m out inp len) out inp len.
Proof.
  intros c B n m out inp len k HB FT HA. pose proof (backend_isa _ _ HB) as HI.
  apply (reverse_unary n B _ (half_turn (2 * k))); [|exact FT|exact HA]. exact (C75_cos_falls_lemma c (isa_of B) n k HI).
Qed.

Lemma C75_cos_rises_lemma : 
  forall (c : cfg) (I : isa) (n : nans F32) (k : Z), math_isa c I -> rising (half_turn (2 * k + 1)) (vec_cos_float c I n).
Proof.
  intros c I n k HI. pose proof (isa_x86 _ _ HI) as HX. exact (cos_rising c I n HX k).
Qed.

Lemma C75_cos_vec_simd_rises_lemma : 
  forall (c : cfg) (B : backend) (n : nans F32) (m : mem (F F32)) (out inp len : Z) (k : Z), math_backend c B -> unary_fit B m out inp len -> all_in (half_turn (2 * k + 1)) m inp len ->
    same_order m (cos_vec_simd c B n m out inp len) out inp len.
Proof.
  intros c B n m out inp len k HB FT HA. pose proof (backend_isa _ _ HB) as HI.
  apply (order_unary n B _ (half_turn (2 * k + 1))); [|exact FT|exact HA]. exact (C75_cos_rises_lemma c (isa_of B) n k HI).
Qed.

Lemma C75_tan_rises_lemma : 
  forall (c : cfg) (I : isa) (n : nans F32) (k : Z), math_isa c I -> rising (half_wave k) (vec_tan_float c I n).
Proof.
  intros c I n k HI. pose proof (isa_x86 _ _ HI) as HX. exact (tan_rising c I n HX k).
Qed.

Lemma C75_tan_vec_simd_rises_lemma : 
  forall (c : cfg) (B : backend) (n : nans F32) (m : mem (F F32)) (out inp len : Z) (k : Z), math_backend c B -> unary_fit B m out inp len -> all_in (half_wave k) m inp len ->
    same_order m (tan_vec_simd c B n m out inp len) out inp len.
Proof.
  intros c B n m out inp len k HB FT HA. pose proof (backend_isa _ _ HB) as HI.
  apply (order_unary n B _ (half_wave k)); [|exact FT|exact HA]. exact (C75_tan_rises_lemma c (isa_of B) n k HI).
Qed.

Lemma C76_asin_rises_lemma : 
  forall (c : cfg) (I : isa) (n : nans F32), math_isa c I -> rising (from_to (-1) 1) (vec_asin_float c I n).
Proof.
  intros c I n HI. pose proof (isa_x86 _ _ HI) as HX. exact (asin_rising c I n HX).
Qed.

Lemma C76_asin_vec_simd_rises_lemma : 
  forall (c : cfg) (B : backend) (n : nans F32) (m : mem (F F32)) (out inp len : Z), math_backend c B -> unary_fit B m out inp len -> all_in (from_to (-1) 1) m inp len ->
    same_order m (asin_vec_simd c B n m out inp len) out inp len.
Proof.
  intros c B n m out inp len HB FT HA. pose proof (backend_isa _ _ HB) as HI.
  apply (order_unary n B _ (from_to (-1) 1)); [|exact FT|exact HA]. exact (C76_asin_rises_lemma c (isa_of B) n HI).
Qed.

Lemma C76_asin_range_lemma : 
  forall (c : cfg) (I : isa) (n : nans F32), math_isa c I -> ranges (from_to (-1) 1) (- (13176795 / 8388608))%R (13176795 / 8388608)%R (vec_asin_float c I n).
Proof.
  intros c I n HI. pose proof (isa_x86 _ _ HI) as HX. exact (asin_ranges c I n HX).
Qed.

Lemma C76_asin_vec_simd_range_lemma : 
  forall (c : cfg) (B : backend) (n : nans F32) (m : mem (F F32)) (out inp len : Z), math_backend c B -> unary_fit B m out inp len -> all_in (from_to (-1) 1) m inp len ->
    all_between (- (13176795 / 8388608))%R (13176795 / 8388608)%R m (asin_vec_simd c B n m out inp len) out len.
Proof.
  intros c B n m out inp len HB FT HA. pose proof (backend_isa _ _ HB) as HI.
  apply (between_unary n B _ (from_to (-1) 1) (- (13176795 / 8388608))%R (13176795 / 8388608)%R); [|exact FT|exact HA]. exact (C76_asin_range_lemma c (isa_of B) n HI).
Qed.

Lemma C76_acos_falls_lemma : 
  forall (c : cfg) (I : isa) (n : nans F32), math_isa c I -> falling (fun r => (-1 <= r <= 1 /\ r <> - 0.5)%R) (vec_acos_float c I n).
Proof.
  intros c I n HI. pose proof (isa_x86 _ _ HI) as HX. exact (acos_falling c I n HX).
Qed.

Lemma C76_acos_vec_simd_falls_lemma : 
  forall (c : cfg) (B : backend) (n : nans F32) (m : mem (F F32)) (out inp len : Z), math_backend c B -> unary_fit B m out inp len -> all_in (fun r => (-1 <= r <= 1 /\ r <> - 0.5)%R) m inp len ->
    reverse_order m (acos_vec_simd c B n m out inp len) out inp len.
Proof.
  intros c B n m out inp len HB FT HA. pose proof (backend_isa _ _ HB) as HI.
  apply (reverse_unary n B _ (fun r => (-1 <= r <= 1 /\ r <> - 0.5)%R)); [|exact FT|exact HA]. exact (C76_acos_falls_lemma c (isa_of B) n HI).
Qed.

Lemma C76_acos_range_lemma : 
  forall (c : cfg) (I : isa) (n : nans F32), math_isa c I -> ranges (fun r => (-1 <= r <= 1 /\ r <> - 0.5)%R) 0%R (13176795 / 4194304)%R (vec_acos_float c I n).
Proof.
  intros c I n HI. pose proof (isa_x86 _ _ HI) as HX. exact (acos_ranges c I n HX).
Qed.

Lemma C76_acos_vec_simd_range_lemma : 
  forall (c : cfg) (B : backend) (n : nans F32) (m : mem (F F32)) (out inp len : Z), math_backend c B -> unary_fit B m out inp len -> all_in (fun r => (-1 <= r <= 1 /\ r <> - 0.5)%R) m inp len ->
    all_between 0%R (13176795 / 4194304)%R m (acos_vec_simd c B n m out inp len) out len.
Proof.
  intros c B n m out inp len HB FT HA. pose proof (backend_isa _ _ HB) as HI.
  apply (between_unary n B _ (fun r => (-1 <= r <= 1 /\ r <> - 0.5)%R) 0%R (13176795 / 4194304)%R); [|exact FT|exact HA]. exact (C76_acos_range_lemma c (isa_of B) n HI).
Qed.

Lemma C76_acos_minus_half_refuted_lemma : 
  forall (c : cfg) (I : isa) (n : nans F32), math_isa c I -> exists x y : F F32, isfin x = true /\ isfin y = true /\ (-1 <= val x < val y)%R /\ (val y <= 1)%R /\
    (val (vec_acos_float c I n x) < val (vec_acos_float c I n y))%R.
Proof.
  intros c I n HI. pose proof (isa_x86 _ _ HI) as HX. exists (f_lit F32 (-1) 0), (f_lit F32 (-1) (-1)). destruct (lit32 (-1) 0) as [A V]; [lia|lia|]. destruct (lit32 (-1) (-1)) as [A' W]; [lia|lia|].
  change (bpow radix2 0) with 1%R in V. change (bpow radix2 (-1)) with (/ 2)%R in W. split; [exact A|]. split; [exact A'|]. split; [lra|]. split; [lra|].
  pose proof (acos_m05_val c I n HX). destruct (acos_ranges c I n HX _ A ltac:(rewrite V; lra)) as [_ Q]. lra.
Qed.

Lemma C76_atan_range_lemma : 
  forall (c : cfg) (I : isa) (n : nans F32), math_isa c I -> ranges (fun _ => True) (- (13176795 / 8388608))%R (13176795 / 8388608)%R (vec_atan_float c I n).
Proof.
  intros c I n HI. pose proof (isa_x86 _ _ HI) as HX. exact (atan_ranges c I n HX).
Qed.

Lemma C76_atan_vec_simd_range_lemma : 
  forall (c : cfg) (B : backend) (n : nans F32) (m : mem (F F32)) (out inp len : Z), math_backend c B -> unary_fit B m out inp len -> all_in (fun _ => True) m inp len ->
    all_between (- (13176795 / 8388608))%R (13176795 / 8388608)%R m (atan_vec_simd c B n m out inp len) out len.
Proof.
  intros c B n m out inp len HB FT HA. pose proof (backend_isa _ _ HB) as HI.
  apply (between_unary n B _ (fun _ => True) (- (13176795 / 8388608))%R (13176795 / 8388608)%R); [|exact FT|exact HA]. exact (C76_atan_range_lemma c (isa_of B) n HI).
Qed.

Lemma C76_atan_order_refuted_lemma : 
  forall (c : cfg) (I : isa) (n : nans F32), math_isa c I -> exists x y : F F32, isfin x = true /\ isfin y = true /\ (0 < val x < val y)%R /\
    (val (vec_atan_float c I n y) < val (vec_atan_float c I n x))%R.
Proof.
  intros c I n HI. pose proof (isa_x86 _ _ HI) as HX. exists (f_lit F32 9327149 (-24)), (f_lit F32 9327150 (-24)). destruct (lit32 9327149 (-24)) as [A V]; [lia|lia|]. destruct (lit32 9327150 (-24)) as [A' W]; [lia|lia|].
  change (bpow radix2 (-24)) with (/ 16777216)%R in V, W. split; [exact A|]. split; [exact A'|]. split; [lra|].
  destruct (atan_dip_bits c I n HX) as [B1 B2]. rewrite (bits_inj _ _ B1), (bits_inj _ _ B2). destruct (lit32 8512647 (-24)) as [_ K]; [lia|lia|]. destruct (lit32 8512648 (-24)) as [_ K']; [lia|lia|].
  change (bpow radix2 (-24)) with (/ 16777216)%R in K, K'. lra.
Qed.
