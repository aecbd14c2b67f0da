(** Proofs of the statements of Prop_Trig.v. *)
From Coq Require Import ZArith Reals Ratan List Lia Bool Lra.
From Flocq Require Import Core IEEE754.Binary IEEE754.Bits.
From Verif Require Import
  Base Mem Backend Args Drivers Functors Lanes Float LaneOps FloatOps ScalarMath VecMath FloatFuns IntVec TransMath TransFuns Spec SpecLane SpecRound SpecInt SpecMath
  FloatFacts FloatRound LaneFacts VecFacts VecMore VecMore2 NearFacts SinFacts TanFacts ArcFacts AtanFacts TrigMore MathMore ExFloat ExMath.
Import ListNotations.
Local Open Scope Z_scope.

Lemma C59_sin_lemma : 
  forall (c : cfg) (I : isa) (n : nans F32) (x : F F32), math_isa c I -> isfin x = true -> (Rabs (val x) <= 8192)%R ->
    (isfin (vec_sin_float c I n x) = true /\ Rabs (val (vec_sin_float c I n x) - sin (val x)) <= 27e-8 * Rabs (sin (val x)) + 1.01e-14 * Rabs (val x) + bpow radix2 (-148))%R.
Proof.
  intros c I n x HI Fx B. pose proof (isa_x86 _ _ HI) as HX. exact (sin_accurate c I n HX x Fx B).
Qed.

Lemma C59_sin_vec_simd_lemma : 
  forall (c : cfg) (B : backend) (n : nans F32) (m : mem (F F32)) (out inp len : Z), math_backend c B -> unary_fit B m out inp len -> each (fun x => isfin x = true /\ (Rabs (val x) <= 8192)%R) m inp len ->
    computes (fun x y => (isfin y = true /\ Rabs (val y - sin (val x)) <= 27e-8 * Rabs (sin (val x)) + 1.01e-14 * Rabs (val x) + bpow radix2 (-148))%R) m (sin_vec_simd c B n m out inp len) out inp len.
Proof.
  intros c B n m out inp len HB FT HN. pose proof (backend_isa _ _ HB) as HI.
  apply (computes_unary n B _ (fun x => isfin x = true /\ (Rabs (val x) <= 8192)%R)); [|exact FT|exact HN]. intros x HQ. apply (C59_sin_lemma c (isa_of B) n x HI); apply HQ.
Qed.

Lemma C59_cos_lemma : 
  forall (c : cfg) (I : isa) (n : nans F32) (x : F F32), math_isa c I -> isfin x = true -> (Rabs (val x) <= 8192)%R ->
    (isfin (vec_cos_float c I n x) = true /\ Rabs (val (vec_cos_float c I n x) - cos (val x)) <= 27e-8 * Rabs (cos (val x)) + 1.01e-14 * Rabs (val x) + bpow radix2 (-148))%R.
Proof.
  intros c I n x HI Fx B. pose proof (isa_x86 _ _ HI) as HX. exact (cos_accurate c I n HX x Fx B).
Qed.

Lemma C59_cos_vec_simd_lemma : 
  forall (c : cfg) (B : backend) (n : nans F32) (m : mem (F F32)) (out inp len : Z), math_backend c B -> unary_fit B m out inp len -> each (fun x => isfin x = true /\ (Rabs (val x) <= 8192)%R) m inp len ->
    computes (fun x y => (isfin y = true /\ Rabs (val y - cos (val x)) <= 27e-8 * Rabs (cos (val x)) + 1.01e-14 * Rabs (val x) + bpow radix2 (-148))%R) m (cos_vec_simd c B n m out inp len) out inp len.
Proof.
  intros c B n m out inp len HB FT HN. pose proof (backend_isa _ _ HB) as HI.
  apply (computes_unary n B _ (fun x => isfin x = true /\ (Rabs (val x) <= 8192)%R)); [|exact FT|exact HN]. intros x HQ. apply (C59_cos_lemma c (isa_of B) n x HI); apply HQ.
Qed.

Lemma C59_circle_lemma : 
  forall (c : cfg) (I : isa) (n : nans F32) (x : F F32), math_isa c I -> isfin x = true -> (Rabs (val x) <= 8192)%R ->
    let s := val (vec_sin_float c I n x) in let k := val (vec_cos_float c I n x) in
    (Rabs (s * s + k * k - 1) <= 6e-7)%R.
Proof.
  intros c I n x HI Fx B. pose proof (isa_x86 _ _ HI) as HX. exact (unit_circle c I n HX x Fx B).
Qed.

Lemma C59_sin_zero_lemma : 
  forall (c : cfg) (I : isa) (n : nans F32) (s : bool), math_isa c I -> vec_sin_float c I n (B754_zero 24 128 s) = (B754_zero 24 128 s : F F32).
Proof.
  intros c I n s HI. pose proof (isa_x86 _ _ HI) as HX. exact (bits_inj _ _ (sin_zero c I n HX s)).
Qed.

Lemma C59_cos_zero_lemma : 
  forall (c : cfg) (I : isa) (n : nans F32) (s : bool), math_isa c I -> vec_cos_float c I n (B754_zero 24 128 s) = f_ofZ F32 1.
Proof.
  intros c I n s HI. pose proof (isa_x86 _ _ HI) as HX. exact (bits_inj _ _ (cos_zero c I n HX s)).
Qed.

Lemma C59_sin_large_refuted_lemma : 
  forall (c : cfg) (I : isa) (n : nans F32), math_isa c I -> exists x : F F32, isfin x = true /\ val x = IZR (2 ^ 30) /\ (val (vec_sin_float c I n x) < - 1000000)%R.
Proof.
  intros c I n HI. pose proof (isa_x86 _ _ HI) as HX. exists (f_lit F32 1 30). destruct (lit32 1 30) as [A V]; [lia|lia|]. split; [exact A|].
  split; [rewrite V; change (bpow radix2 30) with (IZR (2 ^ 30)); apply Rmult_1_l|]. exact (sin_far c I n HX).
Qed.

Lemma C59_cos_large_refuted_lemma : 
  forall (c : cfg) (I : isa) (n : nans F32), math_isa c I -> exists x : F F32, isfin x = true /\ val x = IZR (2 ^ 30) /\ (val (vec_cos_float c I n x) > 1000000)%R.
Proof.
  intros c I n HI. pose proof (isa_x86 _ _ HI) as HX. exists (f_lit F32 1 30). destruct (lit32 1 30) as [A V]; [lia|lia|]. split; [exact A|].
  split; [rewrite V; change (bpow radix2 30) with (IZR (2 ^ 30)); apply Rmult_1_l|]. exact (cos_far c I n HX).
Qed.

Lemma C60_tan_lemma : 
  forall (c : cfg) (I : isa) (n : nans F32) (x : F F32), math_isa c I -> isfin x = true -> (Rabs (val x) <= 8192)%R ->
    (isfin (vec_tan_float c I n x) = true /\ Rabs (val (vec_tan_float c I n x) - tan (val x)) <= 43e-8 * Rabs (tan (val x)) + 2.2e-14 * Rabs (val x) * (1 + tan (val x) * tan (val x)) + bpow radix2 (-146))%R.
Proof.
  intros c I n x HI Fx B. pose proof (isa_x86 _ _ HI) as HX. destruct (tan_accurate c I n HX x Fx B) as [A E]. split; [exact A|]. pose proof eta_146. lra.
Qed.

Lemma C60_tan_vec_simd_lemma : 
  forall (c : cfg) (B : backend) (n : nans F32) (m : mem (F F32)) (out inp len : Z), math_backend c B -> unary_fit B m out inp len -> each (fun x => isfin x = true /\ (Rabs (val x) <= 8192)%R) m inp len ->
    computes (fun x y => (isfin y = true /\ Rabs (val y - tan (val x)) <= 43e-8 * Rabs (tan (val x)) + 2.2e-14 * Rabs (val x) * (1 + tan (val x) * tan (val x)) + bpow radix2 (-146))%R) m (tan_vec_simd c B n m out inp len) out inp len.
Proof.
  intros c B n m out inp len HB FT HN. pose proof (backend_isa _ _ HB) as HI.
  apply (computes_unary n B _ (fun x => isfin x = true /\ (Rabs (val x) <= 8192)%R)); [|exact FT|exact HN]. intros x HQ. apply (C60_tan_lemma c (isa_of B) n x HI); apply HQ.
Qed.

Lemma C60_tan_zero_lemma : 
  forall (c : cfg) (I : isa) (n : nans F32) (s : bool), math_isa c I -> vec_tan_float c I n (B754_zero 24 128 s) = (B754_zero 24 128 s : F F32).
Proof.
  intros c I n s HI. pose proof (isa_x86 _ _ HI) as HX. exact (bits_inj _ _ (tan_zero c I n HX s)).
Qed.

Lemma C61_asin_lemma : 
  forall (c : cfg) (I : isa) (n : nans F32) (x : F F32), math_isa c I -> isfin x = true -> (Rabs (val x) <= 1)%R ->
    (isfin (vec_asin_float c I n x) = true /\ Rabs (val (vec_asin_float c I n x) - asin (val x)) <= 7e-7 * Rabs (asin (val x)) + bpow radix2 (-146))%R.
Proof.
  intros c I n x HI Fx B. pose proof (isa_x86 _ _ HI) as HX. destruct (asin_accurate c I n HX x Fx B) as [A E]. split; [exact A|]. pose proof eta_146. lra.
Qed.

Lemma C61_asin_vec_simd_lemma : 
  forall (c : cfg) (B : backend) (n : nans F32) (m : mem (F F32)) (out inp len : Z), math_backend c B -> unary_fit B m out inp len -> each (fun x => isfin x = true /\ (Rabs (val x) <= 1)%R) m inp len ->
    computes (fun x y => (isfin y = true /\ Rabs (val y - asin (val x)) <= 7e-7 * Rabs (asin (val x)) + bpow radix2 (-146))%R) m (asin_vec_simd c B n m out inp len) out inp len.
Proof.
  intros c B n m out inp len HB FT HN. pose proof (backend_isa _ _ HB) as HI.
  apply (computes_unary n B _ (fun x => isfin x = true /\ (Rabs (val x) <= 1)%R)); [|exact FT|exact HN]. intros x HQ. apply (C61_asin_lemma c (isa_of B) n x HI); apply HQ.
Qed.

Lemma C61_acos_lemma : 
  forall (c : cfg) (I : isa) (n : nans F32) (x : F F32), math_isa c I -> isfin x = true -> (Rabs (val x) <= 1)%R -> (val x <> - 0.5)%R ->
    (isfin (vec_acos_float c I n x) = true /\ Rabs (val (vec_acos_float c I n x) - acos (val x)) <= 21e-8 * acos (val x) + bpow radix2 (-145))%R.
Proof.
  intros c I n x HI Fx B NX. pose proof (isa_x86 _ _ HI) as HX. destruct (acos_accurate c I n HX x Fx B NX) as [A E]. split; [exact A|]. pose proof eta_145. lra.
Qed.

Lemma C61_acos_vec_simd_lemma : 
  forall (c : cfg) (B : backend) (n : nans F32) (m : mem (F F32)) (out inp len : Z), math_backend c B -> unary_fit B m out inp len -> each (fun x => isfin x = true /\ (Rabs (val x) <= 1)%R /\ (val x <> - 0.5)%R) m inp len ->
    computes (fun x y => (isfin y = true /\ Rabs (val y - acos (val x)) <= 21e-8 * acos (val x) + bpow radix2 (-145))%R) m (acos_vec_simd c B n m out inp len) out inp len.
Proof.
  intros c B n m out inp len HB FT HN. pose proof (backend_isa _ _ HB) as HI.
  apply (computes_unary n B _ (fun x => isfin x = true /\ (Rabs (val x) <= 1)%R /\ (val x <> - 0.5)%R)); [|exact FT|exact HN]. intros x HQ. apply (C61_acos_lemma c (isa_of B) n x HI); apply HQ.
Qed.

Lemma C61_acos_minus_half_refuted_lemma : 
  forall (c : cfg) (I : isa) (n : nans F32), math_isa c I -> exists x : F F32, isfin x = true /\ val x = (- 0.5)%R /\ (val (vec_acos_float c I n x) > 4)%R.
Proof.
  intros c I n HI. pose proof (isa_x86 _ _ HI) as HX. exists (f_lit F32 (-1) (-1)). destruct (lit32 (-1) (-1)) as [A V]; [lia|lia|]. split; [exact A|].
  split; [rewrite V; change (bpow radix2 (-1)) with (/ 2)%R; lra|]. exact (acos_m05_val c I n HX).
Qed.

Lemma C61_atan_lemma : 
  forall (c : cfg) (I : isa) (n : nans F32) (x : F F32), math_isa c I -> isfin x = true ->
    (isfin (vec_atan_float c I n x) = true /\ Rabs (val (vec_atan_float c I n x) - atan (val x)) <= 5e-7 * Rabs (atan (val x)) + bpow radix2 (-146))%R.
Proof.
  intros c I n x HI Fx. pose proof (isa_x86 _ _ HI) as HX. destruct (atan_accurate c I n HX x Fx) as [A E]. split; [exact A|]. pose proof eta_146. lra.
Qed.

Lemma C61_atan_vec_simd_lemma : 
  forall (c : cfg) (B : backend) (n : nans F32) (m : mem (F F32)) (out inp len : Z), math_backend c B -> unary_fit B m out inp len -> each (fun x => isfin x = true) m inp len ->
    computes (fun x y => (isfin y = true /\ Rabs (val y - atan (val x)) <= 5e-7 * Rabs (atan (val x)) + bpow radix2 (-146))%R) m (atan_vec_simd c B n m out inp len) out inp len.
Proof.
  intros c B n m out inp len HB FT HN. pose proof (backend_isa _ _ HB) as HI.
  apply (computes_unary n B _ (fun x => isfin x = true)); [|exact FT|exact HN]. intros x HQ. apply (C61_atan_lemma c (isa_of B) n x HI); apply HQ.
Qed.

Lemma C61_atan_inf_lemma : 
  forall (c : cfg) (I : isa) (n : nans F32) (s : bool), math_isa c I -> let y := vec_atan_float c I n (B754_infinity 24 128 s) in
    isfin y = true /\ (Rabs (val y - (if s then - (PI / 2) else PI / 2)) <= 1e-7)%R.
Proof.
  intros c I n s HI. pose proof (isa_x86 _ _ HI) as HX. exact (atan_inf_val c I n HX s).
Qed.

Lemma C61_asin_zero_lemma : 
  forall (c : cfg) (I : isa) (n : nans F32) (s : bool), math_isa c I -> vec_asin_float c I n (B754_zero 24 128 s) = (B754_zero 24 128 s : F F32).
Proof.
  intros c I n s HI. pose proof (isa_x86 _ _ HI) as HX. exact (bits_inj _ _ (asin_zero c I n HX s)).
Qed.

Lemma C61_atan_zero_lemma : 
  forall (c : cfg) (I : isa) (n : nans F32) (s : bool), math_isa c I -> vec_atan_float c I n (B754_zero 24 128 s) = (B754_zero 24 128 s : F F32).
Proof.
  intros c I n s HI. pose proof (isa_x86 _ _ HI) as HX. exact (bits_inj _ _ (atan_zero c I n HX s)).
Qed.

Lemma C61_acos_one_lemma : 
  forall (c : cfg) (I : isa) (n : nans F32), math_isa c I -> vec_acos_float c I n (f_ofZ F32 1) = f_ofZ F32 0.
Proof.
  intros c I n HI. pose proof (isa_x86 _ _ HI) as HX. exact (bits_inj _ _ (acos_one c I n HX)).
Qed.
