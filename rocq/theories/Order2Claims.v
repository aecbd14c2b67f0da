(** Proofs of the statements of Prop_Order2.v. *)
From Coq Require Import ZArith Reals List Lia Bool Lra.
From Flocq Require Import Core IEEE754.Binary IEEE754.Bits.
From Verif Require Import
  Base Mem Backend Args Drivers Functors Lanes Float LaneOps FloatOps ScalarMath VecMath FloatFuns IntVec TransMath TransFuns Spec SpecLane SpecRound SpecInt SpecMath SpecOrder
  FloatFacts FloatRound LaneFacts VecFacts VecMore VecMore2 NearFacts TransFacts TrigMore MathMore OrderMore LogOrder2 ExFloat ExMath.
Import ListNotations.
Local Open Scope Z_scope.

Lemma C77_log_rises_lemma : 
  forall (c : cfg) (I : isa) (n : nans F32), math_isa c I -> rising (fun r => (bpow radix2 (-126) <= r)%R) (vec_log_float c I n).
Proof.
  intros c I n HI. pose proof (isa_x86 _ _ HI) as HX. exact (log_rising c I n HX).
Qed.

Lemma C77_log_vec_simd_rises_lemma : 
  forall (c : cfg) (B : backend) (n : nans F32) (m : mem (F F32)) (out inp len : Z), math_backend c B -> unary_fit B m out inp len -> all_in (fun r => (bpow radix2 (-126) <= r)%R) m inp len ->
    same_order m (log_vec_simd c B n m out inp len) out inp len.
Proof.
  intros c B n m out inp len HB FT HA. pose proof (backend_isa _ _ HB) as HI.
  apply (order_unary n B _ (fun r => (bpow radix2 (-126) <= r)%R)); [|exact FT|exact HA]. exact (C77_log_rises_lemma c (isa_of B) n HI).
Qed.

Lemma C77_log2_rises_lemma : 
  forall (c : cfg) (I : isa) (n : nans F32) (k : nans F64), math_isa c I -> rising (fun r => (bpow radix2 (-126) <= r)%R) (vec_log2 c I n k).
Proof.
  intros c I n k HI. pose proof (isa_x86 _ _ HI) as HX. exact (log2_rising c I n k HX).
Qed.

Lemma C77_log2_vec_simd_rises_lemma : 
  forall (c : cfg) (B : backend) (n : nans F32) (k : nans F64) (m : mem (F F32)) (out inp len : Z), math_backend c B -> unary_fit B m out inp len -> all_in (fun r => (bpow radix2 (-126) <= r)%R) m inp len ->
    same_order m (log2_vec_simd c B n k m out inp len) out inp len.
Proof.
  intros c B n k m out inp len HB FT HA. pose proof (backend_isa _ _ HB) as HI.
  apply (order_unary n B _ (fun r => (bpow radix2 (-126) <= r)%R)); [|exact FT|exact HA]. exact (C77_log2_rises_lemma c (isa_of B) n k HI).
Qed.

Lemma C77_log10_rises_lemma : 
  forall (c : cfg) (I : isa) (n : nans F32) (k : nans F64), math_isa c I -> rising (fun r => (bpow radix2 (-126) <= r)%R) (vec_log10 c I n k).
Proof.
  intros c I n k HI. pose proof (isa_x86 _ _ HI) as HX. exact (log10_rising c I n k HX).
Qed.

Lemma C77_log10_vec_simd_rises_lemma : 
  forall (c : cfg) (B : backend) (n : nans F32) (k : nans F64) (m : mem (F F32)) (out inp len : Z), math_backend c B -> unary_fit B m out inp len -> all_in (fun r => (bpow radix2 (-126) <= r)%R) m inp len ->
    same_order m (log10_vec_simd c B n k m out inp len) out inp len.
Proof.
  intros c B n k m out inp len HB FT HA. pose proof (backend_isa _ _ HB) as HI.
  apply (order_unary n B _ (fun r => (bpow radix2 (-126) <= r)%R)); [|exact FT|exact HA]. exact (C77_log10_rises_lemma c (isa_of B) n k HI).
Qed.

Lemma C77_tanh_rises_lemma : 
  forall (c : cfg) (I : isa) (n : nans F32), math_isa c I -> rising (fun _ => True) (vec_tanh_float c I n).
Proof.
  intros c I n HI. pose proof (isa_x86 _ _ HI) as HX. exact (tanh_rising c I n HX).
Qed.

Lemma C77_tanh_vec_simd_rises_lemma : 
  forall (c : cfg) (B : backend) (n : nans F32) (m : mem (F F32)) (out inp len : Z), math_backend c B -> unary_fit B m out inp len -> all_in (fun _ => True) m inp len ->
    same_order m (tanh_vec_simd c B n m out inp len) out inp len.
Proof.
  intros c B n m out inp len HB FT HA. pose proof (backend_isa _ _ HB) as HI.
  apply (order_unary n B _ (fun _ => True)); [|exact FT|exact HA]. exact (C77_tanh_rises_lemma c (isa_of B) n HI).
Qed.

Lemma C77_exp_rises_lemma : 
  forall (c : cfg) (I : isa) (n : nans F32), math_isa c I -> rising (from_to 1 88) (vec_exp_float c I n).
Proof.
  intros c I n HI. pose proof (isa_x86 _ _ HI) as HX. exact (exp_rising c I n HX).
Qed.

Lemma C77_exp_vec_simd_rises_lemma : 
  forall (c : cfg) (B : backend) (n : nans F32) (m : mem (F F32)) (out inp len : Z), math_backend c B -> unary_fit B m out inp len -> all_in (from_to 1 88) m inp len ->
    same_order m (exp_vec_simd c B n m out inp len) out inp len.
Proof.
  intros c B n m out inp len HB FT HA. pose proof (backend_isa _ _ HB) as HI.
  apply (order_unary n B _ (from_to 1 88)); [|exact FT|exact HA]. exact (C77_exp_rises_lemma c (isa_of B) n HI).
Qed.

Lemma C77_exp_order_refuted_lemma : 
  forall (c : cfg) (I : isa) (n : nans F32), math_isa c I -> exists x y : F F32, isfin x = true /\ isfin y = true /\ (-1 < val x < val y)%R /\ (val y < 0)%R /\
    (val (vec_exp_float c I n y) < val (vec_exp_float c I n x))%R.
Proof.
  intros c I n HI. pose proof (isa_x86 _ _ HI) as HX. exists (f_lit F32 (-16667702) (-29)), (f_lit F32 (-16667701) (-29)). destruct (lit32 (-16667702) (-29)) as [A V]; [lia|lia|]. destruct (lit32 (-16667701) (-29)) as [A' W]; [lia|lia|].
  change (bpow radix2 (-29)) with (/ 536870912)%R in V, W. split; [exact A|]. split; [exact A'|]. split; [lra|]. split; [lra|].
  destruct (exp_dip_bits c I n HX) as [B1 B2]. rewrite (bits_inj _ _ B1), (bits_inj _ _ B2). destruct (lit32 16264353 (-24)) as [_ K]; [lia|lia|]. destruct (lit32 16264352 (-24)) as [_ K']; [lia|lia|].
  change (bpow radix2 (-24)) with (/ 16777216)%R in K, K'. lra.
Qed.

Lemma C77_ratio2midi_rises_lemma : 
  forall (c : cfg) (I : isa) (n : nans F32) (k : nans F64), math_isa c I -> rising (fun r => (bpow radix2 (-126) <= r)%R) (ratio2midi c I n k).
Proof.
  intros c I n k HI. pose proof (isa_x86 _ _ HI) as HX. exact (ratio2midi_rising c I n k HX).
Qed.

Lemma C77_ratio2midi_vec_simd_rises_lemma : 
  forall (c : cfg) (B : backend) (n : nans F32) (k : nans F64) (m : mem (F F32)) (out inp len : Z), math_backend c B -> unary_fit B m out inp len -> all_in (fun r => (bpow radix2 (-126) <= r)%R) m inp len ->
    same_order m (ratio2midi_vec_simd c B n k m out inp len) out inp len.
Proof.
  intros c B n k m out inp len HB FT HA. pose proof (backend_isa _ _ HB) as HI.
  apply (order_unary n B _ (fun r => (bpow radix2 (-126) <= r)%R)); [|exact FT|exact HA]. exact (C77_ratio2midi_rises_lemma c (isa_of B) n k HI).
Qed.

Lemma C77_amp2db_rises_lemma : 
  forall (c : cfg) (I : isa) (n : nans F32) (k : nans F64), math_isa c I -> rising (fun r => (bpow radix2 (-126) <= r)%R) (amp2db c I n k).
Proof.
  intros c I n k HI. pose proof (isa_x86 _ _ HI) as HX. exact (amp2db_rising c I n k HX).
Qed.

Lemma C77_amp2db_vec_simd_rises_lemma : 
  forall (c : cfg) (B : backend) (n : nans F32) (k : nans F64) (m : mem (F F32)) (out inp len : Z), math_backend c B -> unary_fit B m out inp len -> all_in (fun r => (bpow radix2 (-126) <= r)%R) m inp len ->
    same_order m (amp2db_vec_simd c B n k m out inp len) out inp len.
Proof.
  intros c B n k m out inp len HB FT HA. pose proof (backend_isa _ _ HB) as HI.
  apply (order_unary n B _ (fun r => (bpow radix2 (-126) <= r)%R)); [|exact FT|exact HA]. exact (C77_amp2db_rises_lemma c (isa_of B) n k HI).
Qed.

Lemma C77_freq2midi_rises_lemma : 
  forall (c : cfg) (I : isa) (n : nans F32) (k : nans F64), math_isa c I -> rising (fun r => (bpow radix2 (-117) <= r)%R) (freq2midi c I n k).
Proof.
  intros c I n k HI. pose proof (isa_x86 _ _ HI) as HX. exact (freq2midi_rising c I n k HX).
Qed.

Lemma C77_freq2midi_vec_simd_rises_lemma : 
  forall (c : cfg) (B : backend) (n : nans F32) (k : nans F64) (m : mem (F F32)) (out inp len : Z), math_backend c B -> unary_fit B m out inp len -> all_in (fun r => (bpow radix2 (-117) <= r)%R) m inp len ->
    same_order m (freq2midi_vec_simd c B n k m out inp len) out inp len.
Proof.
  intros c B n k m out inp len HB FT HA. pose proof (backend_isa _ _ HB) as HI.
  apply (order_unary n B _ (fun r => (bpow radix2 (-117) <= r)%R)); [|exact FT|exact HA]. exact (C77_freq2midi_rises_lemma c (isa_of B) n k HI).
Qed.

Lemma C77_freq2oct_rises_lemma : 
  forall (c : cfg) (I : isa) (n : nans F32) (k : nans F64), math_isa c I -> rising (fun r => (bpow radix2 (-117) <= r)%R) (freq2oct c I n k).
Proof.
  intros c I n k HI. pose proof (isa_x86 _ _ HI) as HX. exact (freq2oct_rising c I n k HX).
Qed.

Lemma C77_freq2oct_vec_simd_rises_lemma : 
  forall (c : cfg) (B : backend) (n : nans F32) (k : nans F64) (m : mem (F F32)) (out inp len : Z), math_backend c B -> unary_fit B m out inp len -> all_in (fun r => (bpow radix2 (-117) <= r)%R) m inp len ->
    same_order m (freq2oct_vec_simd c B n k m out inp len) out inp len.
Proof.
  intros c B n k m out inp len HB FT HA. pose proof (backend_isa _ _ HB) as HI.
  apply (order_unary n B _ (fun r => (bpow radix2 (-117) <= r)%R)); [|exact FT|exact HA]. exact (C77_freq2oct_rises_lemma c (isa_of B) n k HI).
Qed.
