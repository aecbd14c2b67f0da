(** Proofs of the statements of Prop_Nan.v. *)
From Coq Require Import ZArith Reals List Lia Bool.
From Flocq Require Import Core IEEE754.Binary IEEE754.Bits.
From Verif Require Import
  Base Mem Backend Args Drivers Functors Lanes Float LaneOps FloatOps ScalarMath VecMath FloatFuns IntVec TransMath TransFuns Spec SpecLane SpecRound SpecInt SpecMath SpecOrder
  FloatFacts FloatRound LaneFacts VecFacts VecMore VecMore2 TransFacts LogFacts MathMore NanFacts ExFloat.
Import ListNotations.
Local Open Scope Z_scope.

Lemma C78_sin_not_finite_lemma : 
  forall (c : cfg) (I : isa) (n : nans F32) (x : F F32), math_isa c I -> isfin x = false -> isnan (vec_sin_float c I n x) = true.
Proof.
  intros c I n x HI Nx. pose proof (isa_x86 _ _ HI) as HX. destruct x as [s|s|s pl Q|s mm e Q]; try discriminate Nx; [apply sin_inf; exact HX|apply sin_nan; [exact HX|reflexivity]].
Qed.

Lemma C78_cos_not_finite_lemma : 
  forall (c : cfg) (I : isa) (n : nans F32) (x : F F32), math_isa c I -> isfin x = false -> isnan (vec_cos_float c I n x) = true.
Proof.
  intros c I n x HI Nx. pose proof (isa_x86 _ _ HI) as HX. destruct x as [s|s|s pl Q|s mm e Q]; try discriminate Nx; [apply cos_inf; exact HX|apply cos_nan; [exact HX|reflexivity]].
Qed.

Lemma C78_tan_nan_lemma : 
  forall (c : cfg) (I : isa) (n : nans F32) (x : F F32), math_isa c I -> isnan x = true -> isnan (vec_tan_float c I n x) = true.
Proof.
  intros c I n x HI Nx. pose proof (isa_x86 _ _ HI) as HX. apply tan_nan; [exact HX|exact Nx].
Qed.

Lemma C78_atan_nan_lemma : 
  forall (c : cfg) (I : isa) (n : nans F32) (x : F F32), math_isa c I -> isnan x = true -> isnan (vec_atan_float c I n x) = true.
Proof.
  intros c I n x HI Nx. pose proof (isa_x86 _ _ HI) as HX. apply atan_nan; [exact HX|exact Nx].
Qed.

Lemma C78_tan_infinite_lemma : 
  forall (c : cfg) (I : isa) (n : nans F32) (x : F F32), math_isa c I -> isfin x = false -> number x -> bits (vec_tan_float c I n x) = bits x.
Proof.
  intros c I n x HI Fx Nx. pose proof (isa_x86 _ _ HI) as HX. destruct x as [s|s|s pl Q|s mm e Q]; try discriminate Fx; try discriminate Nx. f_equal. apply tan_inf. exact HX.
Qed.

Lemma C78_asin_nan_sse_lemma : 
  forall (c : cfg) (n : nans F32) (x : F F32), has_sse2 c = true -> isnan x = true -> isnan (vec_asin_float c SSE n x) = true.
Proof.
  intros c n x _ Nx. apply asin_nan_sse. exact Nx.
Qed.

Lemma C78_acos_nan_sse_lemma : 
  forall (c : cfg) (n : nans F32) (x : F F32), has_sse2 c = true -> isnan x = true -> isnan (vec_acos_float c SSE n x) = true.
Proof.
  intros c n x _ Nx. apply acos_nan_sse. exact Nx.
Qed.

Lemma C78_sin_finite_refuted_lemma : 
  forall (c : cfg) (I : isa) (n : nans F32), math_isa c I -> exists x : F F32, isfin x = true /\ isfin (vec_sin_float c I n x) = false.
Proof.
  intros c I n HI. pose proof (isa_x86 _ _ HI) as HX. exists (f_lit F32 1 66). split; [vm_compute; reflexivity|]. rewrite sin_huge by exact HX. reflexivity.
Qed.

Lemma C78_sin_vec_simd_nan_lemma : 
  forall (c : cfg) (B : backend) (n : nans F32) (m : mem (F F32)) (out inp len : Z), math_backend c B -> unary_fit B m out inp len ->
    computes (fun x y => isfin x = false -> isnan y = true) m (sin_vec_simd c B n m out inp len) out inp len.
Proof.
  intros c B n m out inp len HB FT. pose proof (backend_isa _ _ HB) as HI. pose proof (isa_x86 _ _ HI) as HX.
  apply (computes_unary n B _ (fun _ => True)); [|exact FT|exact (fun _ _ _ _ => Logic.I)]. intros x _. intros Nx. exact (C78_sin_not_finite_lemma c (isa_of B) n x HI Nx).
Qed.

Lemma C78_cos_vec_simd_nan_lemma : 
  forall (c : cfg) (B : backend) (n : nans F32) (m : mem (F F32)) (out inp len : Z), math_backend c B -> unary_fit B m out inp len ->
    computes (fun x y => isfin x = false -> isnan y = true) m (cos_vec_simd c B n m out inp len) out inp len.
Proof.
  intros c B n m out inp len HB FT. pose proof (backend_isa _ _ HB) as HI. pose proof (isa_x86 _ _ HI) as HX.
  apply (computes_unary n B _ (fun _ => True)); [|exact FT|exact (fun _ _ _ _ => Logic.I)]. intros x _. intros Nx. exact (C78_cos_not_finite_lemma c (isa_of B) n x HI Nx).
Qed.

Lemma C78_tan_vec_simd_nan_lemma : 
  forall (c : cfg) (B : backend) (n : nans F32) (m : mem (F F32)) (out inp len : Z), math_backend c B -> unary_fit B m out inp len ->
    computes (fun x y => isnan x = true -> isnan y = true) m (tan_vec_simd c B n m out inp len) out inp len.
Proof.
  intros c B n m out inp len HB FT. pose proof (backend_isa _ _ HB) as HI. pose proof (isa_x86 _ _ HI) as HX.
  apply (computes_unary n B _ (fun _ => True)); [|exact FT|exact (fun _ _ _ _ => Logic.I)]. intros x _. intros Nx. apply tan_nan; assumption.
Qed.

Lemma C78_atan_vec_simd_nan_lemma : 
  forall (c : cfg) (B : backend) (n : nans F32) (m : mem (F F32)) (out inp len : Z), math_backend c B -> unary_fit B m out inp len ->
    computes (fun x y => isnan x = true -> isnan y = true) m (atan_vec_simd c B n m out inp len) out inp len.
Proof.
  intros c B n m out inp len HB FT. pose proof (backend_isa _ _ HB) as HI. pose proof (isa_x86 _ _ HI) as HX.
  apply (computes_unary n B _ (fun _ => True)); [|exact FT|exact (fun _ _ _ _ => Logic.I)]. intros x _. intros Nx. apply atan_nan; assumption.
Qed.

Lemma C78_asin_vec_simd_nan_sse_lemma : 
  forall (c : cfg) (n : nans F32) (m : mem (F F32)) (out inp len : Z), has_sse2 c = true -> unary_fit SSE32 m out inp len ->
    computes (fun x y => isnan x = true -> isnan y = true) m (asin_vec_simd c SSE32 n m out inp len) out inp len.
Proof.
  intros c n m out inp len _ FT.
  apply (computes_unary n SSE32 _ (fun _ => True)); [|exact FT|exact (fun _ _ _ _ => Logic.I)]. intros x _ Nx. apply asin_nan_sse. exact Nx.
Qed.

Lemma C78_acos_vec_simd_nan_sse_lemma : 
  forall (c : cfg) (n : nans F32) (m : mem (F F32)) (out inp len : Z), has_sse2 c = true -> unary_fit SSE32 m out inp len ->
    computes (fun x y => isnan x = true -> isnan y = true) m (acos_vec_simd c SSE32 n m out inp len) out inp len.
Proof.
  intros c n m out inp len _ FT.
  apply (computes_unary n SSE32 _ (fun _ => True)); [|exact FT|exact (fun _ _ _ _ => Logic.I)]. intros x _ Nx. apply acos_nan_sse. exact Nx.
Qed.

Lemma C78_log_vec_simd_finite_lemma : 
  forall (c : cfg) (B : backend) (n : nans F32) (m : mem (F F32)) (out inp len : Z), math_backend c B -> unary_fit B m out inp len ->
    computes (fun _ y => isfin y = true) m (log_vec_simd c B n m out inp len) out inp len.
Proof.
  intros c B n m out inp len HB FT. pose proof (backend_isa _ _ HB) as HI. pose proof (isa_x86 _ _ HI) as HX.
  apply (computes_unary n B _ (fun _ => True)); [|exact FT|exact (fun _ _ _ _ => Logic.I)]. intros x _. apply log_finite; exact HX.
Qed.

Lemma C78_log2_finite_lemma : 
  forall (c : cfg) (I : isa) (n : nans F32) (k : nans F64) (x : F F32), math_isa c I -> isfin (vec_log2 c I n k x) = true.
Proof.
  intros c I n k x HI. pose proof (isa_x86 _ _ HI) as HX. apply log2_any. exact HX.
Qed.

Lemma C78_log2_vec_simd_finite_lemma : 
  forall (c : cfg) (B : backend) (n : nans F32) (k : nans F64) (m : mem (F F32)) (out inp len : Z), math_backend c B -> unary_fit B m out inp len ->
    computes (fun _ y => isfin y = true) m (log2_vec_simd c B n k m out inp len) out inp len.
Proof.
  intros c B n k m out inp len HB FT. pose proof (backend_isa _ _ HB) as HI. pose proof (isa_x86 _ _ HI) as HX.
  apply (computes_unary n B _ (fun _ => True)); [|exact FT|exact (fun _ _ _ _ => Logic.I)]. intros x _. apply log2_any; exact HX.
Qed.

Lemma C78_log10_finite_lemma : 
  forall (c : cfg) (I : isa) (n : nans F32) (k : nans F64) (x : F F32), math_isa c I -> isfin (vec_log10 c I n k x) = true.
Proof.
  intros c I n k x HI. pose proof (isa_x86 _ _ HI) as HX. apply log10_any. exact HX.
Qed.

Lemma C78_log10_vec_simd_finite_lemma : 
  forall (c : cfg) (B : backend) (n : nans F32) (k : nans F64) (m : mem (F F32)) (out inp len : Z), math_backend c B -> unary_fit B m out inp len ->
    computes (fun _ y => isfin y = true) m (log10_vec_simd c B n k m out inp len) out inp len.
Proof.
  intros c B n k m out inp len HB FT. pose proof (backend_isa _ _ HB) as HI. pose proof (isa_x86 _ _ HI) as HX.
  apply (computes_unary n B _ (fun _ => True)); [|exact FT|exact (fun _ _ _ _ => Logic.I)]. intros x _. apply log10_any; exact HX.
Qed.

Lemma C78_ratio2midi_finite_lemma : 
  forall (c : cfg) (I : isa) (n : nans F32) (k : nans F64) (x : F F32), math_isa c I -> isfin (ratio2midi c I n k x) = true.
Proof.
  intros c I n k x HI. pose proof (isa_x86 _ _ HI) as HX. apply ratio2midi_any. exact HX.
Qed.

Lemma C78_ratio2midi_vec_simd_finite_lemma : 
  forall (c : cfg) (B : backend) (n : nans F32) (k : nans F64) (m : mem (F F32)) (out inp len : Z), math_backend c B -> unary_fit B m out inp len ->
    computes (fun _ y => isfin y = true) m (ratio2midi_vec_simd c B n k m out inp len) out inp len.
Proof.
  intros c B n k m out inp len HB FT. pose proof (backend_isa _ _ HB) as HI. pose proof (isa_x86 _ _ HI) as HX.
  apply (computes_unary n B _ (fun _ => True)); [|exact FT|exact (fun _ _ _ _ => Logic.I)]. intros x _. apply ratio2midi_any; exact HX.
Qed.

Lemma C78_amp2db_finite_lemma : 
  forall (c : cfg) (I : isa) (n : nans F32) (k : nans F64) (x : F F32), math_isa c I -> isfin (amp2db c I n k x) = true.
Proof.
  intros c I n k x HI. pose proof (isa_x86 _ _ HI) as HX. apply amp2db_any. exact HX.
Qed.

Lemma C78_amp2db_vec_simd_finite_lemma : 
  forall (c : cfg) (B : backend) (n : nans F32) (k : nans F64) (m : mem (F F32)) (out inp len : Z), math_backend c B -> unary_fit B m out inp len ->
    computes (fun _ y => isfin y = true) m (amp2db_vec_simd c B n k m out inp len) out inp len.
Proof.
  intros c B n k m out inp len HB FT. pose proof (backend_isa _ _ HB) as HI. pose proof (isa_x86 _ _ HI) as HX.
  apply (computes_unary n B _ (fun _ => True)); [|exact FT|exact (fun _ _ _ _ => Logic.I)]. intros x _. apply amp2db_any; exact HX.
Qed.

Lemma C78_freq2midi_finite_lemma : 
  forall (c : cfg) (I : isa) (n : nans F32) (k : nans F64) (x : F F32), math_isa c I -> isfin (freq2midi c I n k x) = true.
Proof.
  intros c I n k x HI. pose proof (isa_x86 _ _ HI) as HX. apply freq2midi_any. exact HX.
Qed.

Lemma C78_freq2midi_vec_simd_finite_lemma : 
  forall (c : cfg) (B : backend) (n : nans F32) (k : nans F64) (m : mem (F F32)) (out inp len : Z), math_backend c B -> unary_fit B m out inp len ->
    computes (fun _ y => isfin y = true) m (freq2midi_vec_simd c B n k m out inp len) out inp len.
Proof.
  intros c B n k m out inp len HB FT. pose proof (backend_isa _ _ HB) as HI. pose proof (isa_x86 _ _ HI) as HX.
  apply (computes_unary n B _ (fun _ => True)); [|exact FT|exact (fun _ _ _ _ => Logic.I)]. intros x _. apply freq2midi_any; exact HX.
Qed.

Lemma C78_freq2oct_finite_lemma : 
  forall (c : cfg) (I : isa) (n : nans F32) (k : nans F64) (x : F F32), math_isa c I -> isfin (freq2oct c I n k x) = true.
Proof.
  intros c I n k x HI. pose proof (isa_x86 _ _ HI) as HX. apply freq2oct_any. exact HX.
Qed.

Lemma C78_freq2oct_vec_simd_finite_lemma : 
  forall (c : cfg) (B : backend) (n : nans F32) (k : nans F64) (m : mem (F F32)) (out inp len : Z), math_backend c B -> unary_fit B m out inp len ->
    computes (fun _ y => isfin y = true) m (freq2oct_vec_simd c B n k m out inp len) out inp len.
Proof.
  intros c B n k m out inp len HB FT. pose proof (backend_isa _ _ HB) as HI. pose proof (isa_x86 _ _ HI) as HX.
  apply (computes_unary n B _ (fun _ => True)); [|exact FT|exact (fun _ _ _ _ => Logic.I)]. intros x _. apply freq2oct_any; exact HX.
Qed.

Lemma C78_pow_nan_exponent_sse_lemma : 
  forall (c : cfg) (n : nans F32) (x y : F F32), has_sse2 c = true -> feq x (f_ofZ F32 0) = false -> isnan y = true -> isnan (vec_pow c SSE n x y) = true.
Proof.
  intros c n x y _ E Ny. apply pow_nan_sse; assumption.
Qed.

Lemma C78_pow_nan_exponent_avx_lemma : 
  forall (c : cfg) (n : nans F32) (x y : F F32), feq x (f_ofZ F32 0) = false -> isnan y = true -> bits (vec_pow c AVX n x y) = bits (f_max F32).
Proof.
  intros c n x y E Ny. f_equal. apply pow_nan_avx; assumption.
Qed.

Lemma C78_pow_nan_base_refuted_lemma : 
  forall (c : cfg) (I : isa) (n : nans F32), math_isa c I -> exists x y : F F32, isnan x = true /\ isfin y = true /\ isfin (vec_pow c I n x y) = true.
Proof.
  intros c I n HI. pose proof (isa_x86 _ _ HI) as HX. exists (qnan F32), (f_ofZ F32 1). split; [reflexivity|]. split; [vm_compute; reflexivity|]. rewrite pow_nan_base by exact HX. vm_compute. reflexivity.
Qed.

Lemma C78_midi2freq_nan_sse_lemma : 
  forall (c : cfg) (n : nans F32) (x : F F32), has_sse2 c = true -> isnan x = true -> isnan (midi2freq c SSE n x) = true.
Proof.
  intros c n x _ Nx. apply midi2freq_nan_sse. exact Nx.
Qed.

Lemma C78_midi2freq_nan_avx_lemma : 
  forall (c : cfg) (n : nans F32) (x : F F32), isnan x = true -> bits (midi2freq c AVX n x) = bits (B754_infinity 24 128 false : F F32).
Proof.
  intros c n x Nx. f_equal. apply midi2freq_nan_avx. exact Nx.
Qed.

Lemma C78_midi2freq_vec_simd_nan_lemma : 
  forall (c : cfg) (B : backend) (n : nans F32) (m : mem (F F32)) (out inp len : Z), math_backend c B -> unary_fit B m out inp len ->
    computes (fun x y => isnan x = true -> match B with AVX32 => bits y = bits (B754_infinity 24 128 false : F F32) | _ => isnan y = true end) m (midi2freq_vec_simd c B n m out inp len) out inp len.
Proof.
  intros c B n m out inp len HB FT. apply (computes_unary n B _ (fun _ => True)); [|exact FT|exact (fun _ _ _ _ => Logic.I)]. intros x _ Nx.
  destruct HB as [-> | [-> S2]]; [exact (C78_midi2freq_nan_avx_lemma c n x Nx)|exact (C78_midi2freq_nan_sse_lemma c n x S2 Nx)].
Qed.

Lemma C78_oct2freq_nan_sse_lemma : 
  forall (c : cfg) (n : nans F32) (x : F F32), has_sse2 c = true -> isnan x = true -> isnan (oct2freq c SSE n x) = true.
Proof.
  intros c n x _ Nx. apply oct2freq_nan_sse. exact Nx.
Qed.

Lemma C78_oct2freq_nan_avx_lemma : 
  forall (c : cfg) (n : nans F32) (x : F F32), isnan x = true -> bits (oct2freq c AVX n x) = bits (B754_infinity 24 128 false : F F32).
Proof.
  intros c n x Nx. f_equal. apply oct2freq_nan_avx. exact Nx.
Qed.

Lemma C78_oct2freq_vec_simd_nan_lemma : 
  forall (c : cfg) (B : backend) (n : nans F32) (m : mem (F F32)) (out inp len : Z), math_backend c B -> unary_fit B m out inp len ->
    computes (fun x y => isnan x = true -> match B with AVX32 => bits y = bits (B754_infinity 24 128 false : F F32) | _ => isnan y = true end) m (oct2freq_vec_simd c B n m out inp len) out inp len.
Proof.
  intros c B n m out inp len HB FT. apply (computes_unary n B _ (fun _ => True)); [|exact FT|exact (fun _ _ _ _ => Logic.I)]. intros x _ Nx.
  destruct HB as [-> | [-> S2]]; [exact (C78_oct2freq_nan_avx_lemma c n x Nx)|exact (C78_oct2freq_nan_sse_lemma c n x S2 Nx)].
Qed.

Lemma C78_midi2ratio_nan_sse_lemma : 
  forall (c : cfg) (n : nans F32) (x : F F32), has_sse2 c = true -> isnan x = true -> isnan (midi2ratio c SSE n x) = true.
Proof.
  intros c n x _ Nx. apply midi2ratio_nan_sse. exact Nx.
Qed.

Lemma C78_midi2ratio_nan_avx_lemma : 
  forall (c : cfg) (n : nans F32) (x : F F32), isnan x = true -> bits (midi2ratio c AVX n x) = bits (f_max F32 : F F32).
Proof.
  intros c n x Nx. f_equal. apply midi2ratio_nan_avx. exact Nx.
Qed.

Lemma C78_midi2ratio_vec_simd_nan_lemma : 
  forall (c : cfg) (B : backend) (n : nans F32) (m : mem (F F32)) (out inp len : Z), math_backend c B -> unary_fit B m out inp len ->
    computes (fun x y => isnan x = true -> match B with AVX32 => bits y = bits (f_max F32 : F F32) | _ => isnan y = true end) m (midi2ratio_vec_simd c B n m out inp len) out inp len.
Proof.
  intros c B n m out inp len HB FT. apply (computes_unary n B _ (fun _ => True)); [|exact FT|exact (fun _ _ _ _ => Logic.I)]. intros x _ Nx.
  destruct HB as [-> | [-> S2]]; [exact (C78_midi2ratio_nan_avx_lemma c n x Nx)|exact (C78_midi2ratio_nan_sse_lemma c n x S2 Nx)].
Qed.

Lemma C78_db2amp_nan_sse_lemma : 
  forall (c : cfg) (n : nans F32) (x : F F32), has_sse2 c = true -> isnan x = true -> isnan (db2amp c SSE n x) = true.
Proof.
  intros c n x _ Nx. apply db2amp_nan_sse. exact Nx.
Qed.

Lemma C78_db2amp_nan_avx_lemma : 
  forall (c : cfg) (n : nans F32) (x : F F32), isnan x = true -> bits (db2amp c AVX n x) = bits (f_max F32 : F F32).
Proof.
  intros c n x Nx. f_equal. apply db2amp_nan_avx. exact Nx.
Qed.

Lemma C78_db2amp_vec_simd_nan_lemma : 
  forall (c : cfg) (B : backend) (n : nans F32) (m : mem (F F32)) (out inp len : Z), math_backend c B -> unary_fit B m out inp len ->
    computes (fun x y => isnan x = true -> match B with AVX32 => bits y = bits (f_max F32 : F F32) | _ => isnan y = true end) m (db2amp_vec_simd c B n m out inp len) out inp len.
Proof.
  intros c B n m out inp len HB FT. apply (computes_unary n B _ (fun _ => True)); [|exact FT|exact (fun _ _ _ _ => Logic.I)]. intros x _ Nx.
  destruct HB as [-> | [-> S2]]; [exact (C78_db2amp_nan_avx_lemma c n x Nx)|exact (C78_db2amp_nan_sse_lemma c n x S2 Nx)].
Qed.
