(** The same bits on SSE and AVX (C87). *)
From Coq Require Import ZArith Reals List Lia Bool Lra.
From Flocq Require Import Core IEEE754.Binary IEEE754.Bits.
From Verif Require Import
  Base Mem Backend Args Drivers Functors Lanes Float LaneOps FloatOps ScalarMath VecMath FloatFuns IntVec TransMath TransFuns Spec SpecLane SpecMath
  FloatFacts MathMore ExData ExFloat ExMath SameClaims.
Import ListNotations.
Local Open Scope Z_scope.

(** * C87: the same bits on SSE and AVX, with and without extensions *)

(** Lane by lane, for every bit pattern, NaNs included: the functions that compare
    nothing with >; *)
Theorem C87_sin : 
  forall (c c' : cfg) (I I' : isa) (n : nans F32) (x : F F32), math_isa c I -> math_isa c' I' -> 
    bits (vec_sin_float c I n x) = bits (vec_sin_float c' I' n x).
Proof. exact C87_sin_lemma. Qed.

Example C87_sin_ex :
  math_isa all_ext SSE /\ math_isa no_ext AVX.
Proof. split; [right; split; reflexivity|left; reflexivity]. Qed.

Theorem C87_cos : 
  forall (c c' : cfg) (I I' : isa) (n : nans F32) (x : F F32), math_isa c I -> math_isa c' I' -> 
    bits (vec_cos_float c I n x) = bits (vec_cos_float c' I' n x).
Proof. exact C87_cos_lemma. Qed.

Example C87_cos_ex :
  math_isa all_ext SSE /\ math_isa no_ext AVX.
Proof. split; [right; split; reflexivity|left; reflexivity]. Qed.

Theorem C87_tan : 
  forall (c c' : cfg) (I I' : isa) (n : nans F32) (x : F F32), math_isa c I -> math_isa c' I' -> 
    bits (vec_tan_float c I n x) = bits (vec_tan_float c' I' n x).
Proof. exact C87_tan_lemma. Qed.

Example C87_tan_ex :
  math_isa all_ext SSE /\ math_isa no_ext AVX.
Proof. split; [right; split; reflexivity|left; reflexivity]. Qed.

Theorem C87_log : 
  forall (c c' : cfg) (I I' : isa) (n : nans F32) (x : F F32), math_isa c I -> math_isa c' I' -> 
    bits (vec_log_float c I n x) = bits (vec_log_float c' I' n x).
Proof. exact C87_log_lemma. Qed.

Example C87_log_ex :
  math_isa all_ext SSE /\ math_isa no_ext AVX.
Proof. split; [right; split; reflexivity|left; reflexivity]. Qed.

Theorem C87_log2 : 
  forall (c c' : cfg) (I I' : isa) (n : nans F32) (k : nans F64) (x : F F32), math_isa c I -> math_isa c' I' -> 
    bits (vec_log2 c I n k x) = bits (vec_log2 c' I' n k x).
Proof. exact C87_log2_lemma. Qed.

Example C87_log2_ex :
  math_isa all_ext SSE /\ math_isa no_ext AVX.
Proof. split; [right; split; reflexivity|left; reflexivity]. Qed.

Theorem C87_log10 : 
  forall (c c' : cfg) (I I' : isa) (n : nans F32) (k : nans F64) (x : F F32), math_isa c I -> math_isa c' I' -> 
    bits (vec_log10 c I n k x) = bits (vec_log10 c' I' n k x).
Proof. exact C87_log10_lemma. Qed.

Example C87_log10_ex :
  math_isa all_ext SSE /\ math_isa no_ext AVX.
Proof. split; [right; split; reflexivity|left; reflexivity]. Qed.

Theorem C87_freq2midi : 
  forall (c c' : cfg) (I I' : isa) (n : nans F32) (k : nans F64) (x : F F32), math_isa c I -> math_isa c' I' -> 
    bits (freq2midi c I n k x) = bits (freq2midi c' I' n k x).
Proof. exact C87_freq2midi_lemma. Qed.

Example C87_freq2midi_ex :
  math_isa all_ext SSE /\ math_isa no_ext AVX.
Proof. split; [right; split; reflexivity|left; reflexivity]. Qed.

Theorem C87_freq2oct : 
  forall (c c' : cfg) (I I' : isa) (n : nans F32) (k : nans F64) (x : F F32), math_isa c I -> math_isa c' I' -> 
    bits (freq2oct c I n k x) = bits (freq2oct c' I' n k x).
Proof. exact C87_freq2oct_lemma. Qed.

Example C87_freq2oct_ex :
  math_isa all_ext SSE /\ math_isa no_ext AVX.
Proof. split; [right; split; reflexivity|left; reflexivity]. Qed.

Theorem C87_ratio2midi : 
  forall (c c' : cfg) (I I' : isa) (n : nans F32) (k : nans F64) (x : F F32), math_isa c I -> math_isa c' I' -> 
    bits (ratio2midi c I n k x) = bits (ratio2midi c' I' n k x).
Proof. exact C87_ratio2midi_lemma. Qed.

Example C87_ratio2midi_ex :
  math_isa all_ext SSE /\ math_isa no_ext AVX.
Proof. split; [right; split; reflexivity|left; reflexivity]. Qed.

Theorem C87_amp2db : 
  forall (c c' : cfg) (I I' : isa) (n : nans F32) (k : nans F64) (x : F F32), math_isa c I -> math_isa c' I' -> 
    bits (amp2db c I n k x) = bits (amp2db c' I' n k x).
Proof. exact C87_amp2db_lemma. Qed.

Example C87_amp2db_ex :
  math_isa all_ext SSE /\ math_isa no_ext AVX.
Proof. split; [right; split; reflexivity|left; reflexivity]. Qed.

(** and, for every number, finite or infinite, those that do. *)
Theorem C87_asin : 
  forall (c c' : cfg) (I I' : isa) (n : nans F32) (x : F F32), math_isa c I -> math_isa c' I' -> number x -> 
    bits (vec_asin_float c I n x) = bits (vec_asin_float c' I' n x).
Proof. exact C87_asin_lemma. Qed.

Example C87_asin_ex :
  math_isa all_ext SSE /\ math_isa no_ext AVX /\ number (t := F32) (B754_infinity (prec F32) (emax F32) true).
Proof. split; [right; split; reflexivity|split; [left; reflexivity|reflexivity]]. Qed.

Theorem C87_acos : 
  forall (c c' : cfg) (I I' : isa) (n : nans F32) (x : F F32), math_isa c I -> math_isa c' I' -> number x -> 
    bits (vec_acos_float c I n x) = bits (vec_acos_float c' I' n x).
Proof. exact C87_acos_lemma. Qed.

Example C87_acos_ex :
  math_isa all_ext SSE /\ math_isa no_ext AVX /\ number (t := F32) (B754_infinity (prec F32) (emax F32) true).
Proof. split; [right; split; reflexivity|split; [left; reflexivity|reflexivity]]. Qed.

Theorem C87_atan : 
  forall (c c' : cfg) (I I' : isa) (n : nans F32) (x : F F32), math_isa c I -> math_isa c' I' -> number x -> 
    bits (vec_atan_float c I n x) = bits (vec_atan_float c' I' n x).
Proof. exact C87_atan_lemma. Qed.

Example C87_atan_ex :
  math_isa all_ext SSE /\ math_isa no_ext AVX /\ number (t := F32) (B754_infinity (prec F32) (emax F32) true).
Proof. split; [right; split; reflexivity|split; [left; reflexivity|reflexivity]]. Qed.

Theorem C87_exp : 
  forall (c c' : cfg) (I I' : isa) (n : nans F32) (x : F F32), math_isa c I -> math_isa c' I' -> number x -> 
    bits (vec_exp_float c I n x) = bits (vec_exp_float c' I' n x).
Proof. exact C87_exp_lemma. Qed.

Example C87_exp_ex :
  math_isa all_ext SSE /\ math_isa no_ext AVX /\ number (t := F32) (B754_infinity (prec F32) (emax F32) true).
Proof. split; [right; split; reflexivity|split; [left; reflexivity|reflexivity]]. Qed.

Theorem C87_tanh : 
  forall (c c' : cfg) (I I' : isa) (n : nans F32) (x : F F32), math_isa c I -> math_isa c' I' -> number x -> 
    bits (vec_tanh_float c I n x) = bits (vec_tanh_float c' I' n x).
Proof. exact C87_tanh_lemma. Qed.

Example C87_tanh_ex :
  math_isa all_ext SSE /\ math_isa no_ext AVX /\ number (t := F32) (B754_infinity (prec F32) (emax F32) true).
Proof. split; [right; split; reflexivity|split; [left; reflexivity|reflexivity]]. Qed.

Theorem C87_midi2freq : 
  forall (c c' : cfg) (I I' : isa) (n : nans F32) (x : F F32), math_isa c I -> math_isa c' I' -> number x -> 
    bits (midi2freq c I n x) = bits (midi2freq c' I' n x).
Proof. exact C87_midi2freq_lemma. Qed.

Example C87_midi2freq_ex :
  math_isa all_ext SSE /\ math_isa no_ext AVX /\ number (t := F32) (B754_infinity (prec F32) (emax F32) true).
Proof. split; [right; split; reflexivity|split; [left; reflexivity|reflexivity]]. Qed.

Theorem C87_midi2ratio : 
  forall (c c' : cfg) (I I' : isa) (n : nans F32) (x : F F32), math_isa c I -> math_isa c' I' -> number x -> 
    bits (midi2ratio c I n x) = bits (midi2ratio c' I' n x).
Proof. exact C87_midi2ratio_lemma. Qed.

Example C87_midi2ratio_ex :
  math_isa all_ext SSE /\ math_isa no_ext AVX /\ number (t := F32) (B754_infinity (prec F32) (emax F32) true).
Proof. split; [right; split; reflexivity|split; [left; reflexivity|reflexivity]]. Qed.

Theorem C87_oct2freq : 
  forall (c c' : cfg) (I I' : isa) (n : nans F32) (x : F F32), math_isa c I -> math_isa c' I' -> number x -> 
    bits (oct2freq c I n x) = bits (oct2freq c' I' n x).
Proof. exact C87_oct2freq_lemma. Qed.

Example C87_oct2freq_ex :
  math_isa all_ext SSE /\ math_isa no_ext AVX /\ number (t := F32) (B754_infinity (prec F32) (emax F32) true).
Proof. split; [right; split; reflexivity|split; [left; reflexivity|reflexivity]]. Qed.

Theorem C87_db2amp : 
  forall (c c' : cfg) (I I' : isa) (n : nans F32) (x : F F32), math_isa c I -> math_isa c' I' -> number x -> 
    bits (db2amp c I n x) = bits (db2amp c' I' n x).
Proof. exact C87_db2amp_lemma. Qed.

Example C87_db2amp_ex :
  math_isa all_ext SSE /\ math_isa no_ext AVX /\ number (t := F32) (B754_infinity (prec F32) (emax F32) true).
Proof. split; [right; split; reflexivity|split; [left; reflexivity|reflexivity]]. Qed.

(** pow and signed_pow, with any base and a finite exponent. *)
Theorem C87_pow : 
  forall (c c' : cfg) (I I' : isa) (n : nans F32) (x y : F F32), math_isa c I -> math_isa c' I' -> isfin y = true ->
    bits (vec_pow c I n x y) = bits (vec_pow c' I' n x y) /\ bits (vec_signed_pow c I n x y) = bits (vec_signed_pow c' I' n x y).
Proof. exact C87_pow_lemma. Qed.

Example C87_pow_ex :
  math_isa all_ext SSE /\ math_isa no_ext AVX /\ isfin (f_ofZ F32 (-3)) = true.
Proof. split; [right; split; reflexivity|split; [left; reflexivity|reflexivity]]. Qed.

(** Buffers: calls on SSE and on AVX, with whatever extensions, leave the same memory. *)
Theorem C87_sin_vec_simd : 
  forall (c c' : cfg) (B B' : backend) (n : nans F32) (m : mem (F F32)) (out inp len : Z), math_backend c B -> math_backend c' B' ->
    unary_fit B m out inp len -> unary_fit B' m out inp len -> 
    same_effect (sin_vec_simd c B n m out inp len) (sin_vec_simd c' B' n m out inp len).
Proof. exact C87_sin_vec_simd_lemma. Qed.

Example C87_sin_vec_simd_ex :
  let m := block 0 128 (fun a => f_lit F32 (a - 60) (-3)) in
  math_backend all_ext SSE32 /\ math_backend no_ext AVX32 /\ unary_fit SSE32 m 0 64 32 /\ unary_fit AVX32 m 0 64 32.
Proof.
  intros m. split; [right; split; reflexivity|]. split; [left; reflexivity|]. split; [repeat split; fitm|]. repeat split; fitm.
Qed.

Theorem C87_cos_vec_simd : 
  forall (c c' : cfg) (B B' : backend) (n : nans F32) (m : mem (F F32)) (out inp len : Z), math_backend c B -> math_backend c' B' ->
    unary_fit B m out inp len -> unary_fit B' m out inp len -> 
    same_effect (cos_vec_simd c B n m out inp len) (cos_vec_simd c' B' n m out inp len).
Proof. exact C87_cos_vec_simd_lemma. Qed.

Example C87_cos_vec_simd_ex :
  let m := block 0 128 (fun a => f_lit F32 (a - 60) (-3)) in
  math_backend all_ext SSE32 /\ math_backend no_ext AVX32 /\ unary_fit SSE32 m 0 64 32 /\ unary_fit AVX32 m 0 64 32.
Proof.
  intros m. split; [right; split; reflexivity|]. split; [left; reflexivity|]. split; [repeat split; fitm|]. repeat split; fitm.
Qed.

Theorem C87_tan_vec_simd : 
  forall (c c' : cfg) (B B' : backend) (n : nans F32) (m : mem (F F32)) (out inp len : Z), math_backend c B -> math_backend c' B' ->
    unary_fit B m out inp len -> unary_fit B' m out inp len -> 
    same_effect (tan_vec_simd c B n m out inp len) (tan_vec_simd c' B' n m out inp len).
Proof. exact C87_tan_vec_simd_lemma. Qed.

Example C87_tan_vec_simd_ex :
  let m := block 0 128 (fun a => f_lit F32 (a - 60) (-3)) in
  math_backend all_ext SSE32 /\ math_backend no_ext AVX32 /\ unary_fit SSE32 m 0 64 32 /\ unary_fit AVX32 m 0 64 32.
Proof.
  intros m. split; [right; split; reflexivity|]. split; [left; reflexivity|]. split; [repeat split; fitm|]. repeat split; fitm.
Qed.

Theorem C87_log_vec_simd : 
  forall (c c' : cfg) (B B' : backend) (n : nans F32) (m : mem (F F32)) (out inp len : Z), math_backend c B -> math_backend c' B' ->
    unary_fit B m out inp len -> unary_fit B' m out inp len -> 
    same_effect (log_vec_simd c B n m out inp len) (log_vec_simd c' B' n m out inp len).
Proof. exact C87_log_vec_simd_lemma. Qed.

Example C87_log_vec_simd_ex :
  let m := block 0 128 (fun a => f_lit F32 (a - 60) (-3)) in
  math_backend all_ext SSE32 /\ math_backend no_ext AVX32 /\ unary_fit SSE32 m 0 64 32 /\ unary_fit AVX32 m 0 64 32.
Proof.
  intros m. split; [right; split; reflexivity|]. split; [left; reflexivity|]. split; [repeat split; fitm|]. repeat split; fitm.
Qed.

Theorem C87_log2_vec_simd : 
  forall (c c' : cfg) (B B' : backend) (n : nans F32) (k : nans F64) (m : mem (F F32)) (out inp len : Z), math_backend c B -> math_backend c' B' ->
    unary_fit B m out inp len -> unary_fit B' m out inp len -> 
    same_effect (log2_vec_simd c B n k m out inp len) (log2_vec_simd c' B' n k m out inp len).
Proof. exact C87_log2_vec_simd_lemma. Qed.

Example C87_log2_vec_simd_ex :
  let m := block 0 128 (fun a => f_lit F32 (a - 60) (-3)) in
  math_backend all_ext SSE32 /\ math_backend no_ext AVX32 /\ unary_fit SSE32 m 0 64 32 /\ unary_fit AVX32 m 0 64 32.
Proof.
  intros m. split; [right; split; reflexivity|]. split; [left; reflexivity|]. split; [repeat split; fitm|]. repeat split; fitm.
Qed.

Theorem C87_log10_vec_simd : 
  forall (c c' : cfg) (B B' : backend) (n : nans F32) (k : nans F64) (m : mem (F F32)) (out inp len : Z), math_backend c B -> math_backend c' B' ->
    unary_fit B m out inp len -> unary_fit B' m out inp len -> 
    same_effect (log10_vec_simd c B n k m out inp len) (log10_vec_simd c' B' n k m out inp len).
Proof. exact C87_log10_vec_simd_lemma. Qed.

Example C87_log10_vec_simd_ex :
  let m := block 0 128 (fun a => f_lit F32 (a - 60) (-3)) in
  math_backend all_ext SSE32 /\ math_backend no_ext AVX32 /\ unary_fit SSE32 m 0 64 32 /\ unary_fit AVX32 m 0 64 32.
Proof.
  intros m. split; [right; split; reflexivity|]. split; [left; reflexivity|]. split; [repeat split; fitm|]. repeat split; fitm.
Qed.

Theorem C87_freq2midi_vec_simd : 
  forall (c c' : cfg) (B B' : backend) (n : nans F32) (k : nans F64) (m : mem (F F32)) (out inp len : Z), math_backend c B -> math_backend c' B' ->
    unary_fit B m out inp len -> unary_fit B' m out inp len -> 
    same_effect (freq2midi_vec_simd c B n k m out inp len) (freq2midi_vec_simd c' B' n k m out inp len).
Proof. exact C87_freq2midi_vec_simd_lemma. Qed.

Example C87_freq2midi_vec_simd_ex :
  let m := block 0 128 (fun a => f_lit F32 (a - 60) (-3)) in
  math_backend all_ext SSE32 /\ math_backend no_ext AVX32 /\ unary_fit SSE32 m 0 64 32 /\ unary_fit AVX32 m 0 64 32.
Proof.
  intros m. split; [right; split; reflexivity|]. split; [left; reflexivity|]. split; [repeat split; fitm|]. repeat split; fitm.
Qed.

Theorem C87_freq2oct_vec_simd : 
  forall (c c' : cfg) (B B' : backend) (n : nans F32) (k : nans F64) (m : mem (F F32)) (out inp len : Z), math_backend c B -> math_backend c' B' ->
    unary_fit B m out inp len -> unary_fit B' m out inp len -> 
    same_effect (freq2oct_vec_simd c B n k m out inp len) (freq2oct_vec_simd c' B' n k m out inp len).
Proof. exact C87_freq2oct_vec_simd_lemma. Qed.

Example C87_freq2oct_vec_simd_ex :
  let m := block 0 128 (fun a => f_lit F32 (a - 60) (-3)) in
  math_backend all_ext SSE32 /\ math_backend no_ext AVX32 /\ unary_fit SSE32 m 0 64 32 /\ unary_fit AVX32 m 0 64 32.
Proof.
  intros m. split; [right; split; reflexivity|]. split; [left; reflexivity|]. split; [repeat split; fitm|]. repeat split; fitm.
Qed.

Theorem C87_ratio2midi_vec_simd : 
  forall (c c' : cfg) (B B' : backend) (n : nans F32) (k : nans F64) (m : mem (F F32)) (out inp len : Z), math_backend c B -> math_backend c' B' ->
    unary_fit B m out inp len -> unary_fit B' m out inp len -> 
    same_effect (ratio2midi_vec_simd c B n k m out inp len) (ratio2midi_vec_simd c' B' n k m out inp len).
Proof. exact C87_ratio2midi_vec_simd_lemma. Qed.

Example C87_ratio2midi_vec_simd_ex :
  let m := block 0 128 (fun a => f_lit F32 (a - 60) (-3)) in
  math_backend all_ext SSE32 /\ math_backend no_ext AVX32 /\ unary_fit SSE32 m 0 64 32 /\ unary_fit AVX32 m 0 64 32.
Proof.
  intros m. split; [right; split; reflexivity|]. split; [left; reflexivity|]. split; [repeat split; fitm|]. repeat split; fitm.
Qed.

Theorem C87_amp2db_vec_simd : 
  forall (c c' : cfg) (B B' : backend) (n : nans F32) (k : nans F64) (m : mem (F F32)) (out inp len : Z), math_backend c B -> math_backend c' B' ->
    unary_fit B m out inp len -> unary_fit B' m out inp len -> 
    same_effect (amp2db_vec_simd c B n k m out inp len) (amp2db_vec_simd c' B' n k m out inp len).
Proof. exact C87_amp2db_vec_simd_lemma. Qed.

Example C87_amp2db_vec_simd_ex :
  let m := block 0 128 (fun a => f_lit F32 (a - 60) (-3)) in
  math_backend all_ext SSE32 /\ math_backend no_ext AVX32 /\ unary_fit SSE32 m 0 64 32 /\ unary_fit AVX32 m 0 64 32.
Proof.
  intros m. split; [right; split; reflexivity|]. split; [left; reflexivity|]. split; [repeat split; fitm|]. repeat split; fitm.
Qed.

Theorem C87_asin_vec_simd : 
  forall (c c' : cfg) (B B' : backend) (n : nans F32) (m : mem (F F32)) (out inp len : Z), math_backend c B -> math_backend c' B' ->
    unary_fit B m out inp len -> unary_fit B' m out inp len -> each number m inp len ->
    same_effect (asin_vec_simd c B n m out inp len) (asin_vec_simd c' B' n m out inp len).
Proof. exact C87_asin_vec_simd_lemma. Qed.

Example C87_asin_vec_simd_ex :
  let m := block 0 128 (fun a => f_lit F32 (a - 60) (-3)) in
  math_backend all_ext SSE32 /\ math_backend no_ext AVX32 /\ unary_fit SSE32 m 0 64 32 /\ unary_fit AVX32 m 0 64 32 /\ each number m 64 32.
Proof.
  intros m. split; [right; split; reflexivity|]. split; [left; reflexivity|]. split; [repeat split; fitm|]. split; [repeat split; fitm|].
  intros i x Hi E. unfold m in E. rewrite (block_in 0 128 (fun a => f_lit F32 (a - 60) (-3)) (64 + i)) in E by lia. assert (x = f_lit F32 (64 + i - 60) (-3)) as -> by congruence.
  destruct (lit32 (64 + i - 60) (-3)) as [A _]; [lia|lia|]. unfold number. destruct (f_lit F32 (64 + i - 60) (-3)); try discriminate A; reflexivity.
Qed.

Theorem C87_acos_vec_simd : 
  forall (c c' : cfg) (B B' : backend) (n : nans F32) (m : mem (F F32)) (out inp len : Z), math_backend c B -> math_backend c' B' ->
    unary_fit B m out inp len -> unary_fit B' m out inp len -> each number m inp len ->
    same_effect (acos_vec_simd c B n m out inp len) (acos_vec_simd c' B' n m out inp len).
Proof. exact C87_acos_vec_simd_lemma. Qed.

Example C87_acos_vec_simd_ex :
  let m := block 0 128 (fun a => f_lit F32 (a - 60) (-3)) in
  math_backend all_ext SSE32 /\ math_backend no_ext AVX32 /\ unary_fit SSE32 m 0 64 32 /\ unary_fit AVX32 m 0 64 32 /\ each number m 64 32.
Proof.
  intros m. split; [right; split; reflexivity|]. split; [left; reflexivity|]. split; [repeat split; fitm|]. split; [repeat split; fitm|].
  intros i x Hi E. unfold m in E. rewrite (block_in 0 128 (fun a => f_lit F32 (a - 60) (-3)) (64 + i)) in E by lia. assert (x = f_lit F32 (64 + i - 60) (-3)) as -> by congruence.
  destruct (lit32 (64 + i - 60) (-3)) as [A _]; [lia|lia|]. unfold number. destruct (f_lit F32 (64 + i - 60) (-3)); try discriminate A; reflexivity.
Qed.

Theorem C87_atan_vec_simd : 
  forall (c c' : cfg) (B B' : backend) (n : nans F32) (m : mem (F F32)) (out inp len : Z), math_backend c B -> math_backend c' B' ->
    unary_fit B m out inp len -> unary_fit B' m out inp len -> each number m inp len ->
    same_effect (atan_vec_simd c B n m out inp len) (atan_vec_simd c' B' n m out inp len).
Proof. exact C87_atan_vec_simd_lemma. Qed.

Example C87_atan_vec_simd_ex :
  let m := block 0 128 (fun a => f_lit F32 (a - 60) (-3)) in
  math_backend all_ext SSE32 /\ math_backend no_ext AVX32 /\ unary_fit SSE32 m 0 64 32 /\ unary_fit AVX32 m 0 64 32 /\ each number m 64 32.
Proof.
  intros m. split; [right; split; reflexivity|]. split; [left; reflexivity|]. split; [repeat split; fitm|]. split; [repeat split; fitm|].
  intros i x Hi E. unfold m in E. rewrite (block_in 0 128 (fun a => f_lit F32 (a - 60) (-3)) (64 + i)) in E by lia. assert (x = f_lit F32 (64 + i - 60) (-3)) as -> by congruence.
  destruct (lit32 (64 + i - 60) (-3)) as [A _]; [lia|lia|]. unfold number. destruct (f_lit F32 (64 + i - 60) (-3)); try discriminate A; reflexivity.
Qed.

Theorem C87_exp_vec_simd : 
  forall (c c' : cfg) (B B' : backend) (n : nans F32) (m : mem (F F32)) (out inp len : Z), math_backend c B -> math_backend c' B' ->
    unary_fit B m out inp len -> unary_fit B' m out inp len -> each number m inp len ->
    same_effect (exp_vec_simd c B n m out inp len) (exp_vec_simd c' B' n m out inp len).
Proof. exact C87_exp_vec_simd_lemma. Qed.

Example C87_exp_vec_simd_ex :
  let m := block 0 128 (fun a => f_lit F32 (a - 60) (-3)) in
  math_backend all_ext SSE32 /\ math_backend no_ext AVX32 /\ unary_fit SSE32 m 0 64 32 /\ unary_fit AVX32 m 0 64 32 /\ each number m 64 32.
Proof.
  intros m. split; [right; split; reflexivity|]. split; [left; reflexivity|]. split; [repeat split; fitm|]. split; [repeat split; fitm|].
  intros i x Hi E. unfold m in E. rewrite (block_in 0 128 (fun a => f_lit F32 (a - 60) (-3)) (64 + i)) in E by lia. assert (x = f_lit F32 (64 + i - 60) (-3)) as -> by congruence.
  destruct (lit32 (64 + i - 60) (-3)) as [A _]; [lia|lia|]. unfold number. destruct (f_lit F32 (64 + i - 60) (-3)); try discriminate A; reflexivity.
Qed.

Theorem C87_tanh_vec_simd : 
  forall (c c' : cfg) (B B' : backend) (n : nans F32) (m : mem (F F32)) (out inp len : Z), math_backend c B -> math_backend c' B' ->
    unary_fit B m out inp len -> unary_fit B' m out inp len -> each number m inp len ->
    same_effect (tanh_vec_simd c B n m out inp len) (tanh_vec_simd c' B' n m out inp len).
Proof. exact C87_tanh_vec_simd_lemma. Qed.

Example C87_tanh_vec_simd_ex :
  let m := block 0 128 (fun a => f_lit F32 (a - 60) (-3)) in
  math_backend all_ext SSE32 /\ math_backend no_ext AVX32 /\ unary_fit SSE32 m 0 64 32 /\ unary_fit AVX32 m 0 64 32 /\ each number m 64 32.
Proof.
  intros m. split; [right; split; reflexivity|]. split; [left; reflexivity|]. split; [repeat split; fitm|]. split; [repeat split; fitm|].
  intros i x Hi E. unfold m in E. rewrite (block_in 0 128 (fun a => f_lit F32 (a - 60) (-3)) (64 + i)) in E by lia. assert (x = f_lit F32 (64 + i - 60) (-3)) as -> by congruence.
  destruct (lit32 (64 + i - 60) (-3)) as [A _]; [lia|lia|]. unfold number. destruct (f_lit F32 (64 + i - 60) (-3)); try discriminate A; reflexivity.
Qed.

Theorem C87_midi2freq_vec_simd : 
  forall (c c' : cfg) (B B' : backend) (n : nans F32) (m : mem (F F32)) (out inp len : Z), math_backend c B -> math_backend c' B' ->
    unary_fit B m out inp len -> unary_fit B' m out inp len -> each number m inp len ->
    same_effect (midi2freq_vec_simd c B n m out inp len) (midi2freq_vec_simd c' B' n m out inp len).
Proof. exact C87_midi2freq_vec_simd_lemma. Qed.

Example C87_midi2freq_vec_simd_ex :
  let m := block 0 128 (fun a => f_lit F32 (a - 60) (-3)) in
  math_backend all_ext SSE32 /\ math_backend no_ext AVX32 /\ unary_fit SSE32 m 0 64 32 /\ unary_fit AVX32 m 0 64 32 /\ each number m 64 32.
Proof.
  intros m. split; [right; split; reflexivity|]. split; [left; reflexivity|]. split; [repeat split; fitm|]. split; [repeat split; fitm|].
  intros i x Hi E. unfold m in E. rewrite (block_in 0 128 (fun a => f_lit F32 (a - 60) (-3)) (64 + i)) in E by lia. assert (x = f_lit F32 (64 + i - 60) (-3)) as -> by congruence.
  destruct (lit32 (64 + i - 60) (-3)) as [A _]; [lia|lia|]. unfold number. destruct (f_lit F32 (64 + i - 60) (-3)); try discriminate A; reflexivity.
Qed.

Theorem C87_midi2ratio_vec_simd : 
  forall (c c' : cfg) (B B' : backend) (n : nans F32) (m : mem (F F32)) (out inp len : Z), math_backend c B -> math_backend c' B' ->
    unary_fit B m out inp len -> unary_fit B' m out inp len -> each number m inp len ->
    same_effect (midi2ratio_vec_simd c B n m out inp len) (midi2ratio_vec_simd c' B' n m out inp len).
Proof. exact C87_midi2ratio_vec_simd_lemma. Qed.

Example C87_midi2ratio_vec_simd_ex :
  let m := block 0 128 (fun a => f_lit F32 (a - 60) (-3)) in
  math_backend all_ext SSE32 /\ math_backend no_ext AVX32 /\ unary_fit SSE32 m 0 64 32 /\ unary_fit AVX32 m 0 64 32 /\ each number m 64 32.
Proof.
  intros m. split; [right; split; reflexivity|]. split; [left; reflexivity|]. split; [repeat split; fitm|]. split; [repeat split; fitm|].
  intros i x Hi E. unfold m in E. rewrite (block_in 0 128 (fun a => f_lit F32 (a - 60) (-3)) (64 + i)) in E by lia. assert (x = f_lit F32 (64 + i - 60) (-3)) as -> by congruence.
  destruct (lit32 (64 + i - 60) (-3)) as [A _]; [lia|lia|]. unfold number. destruct (f_lit F32 (64 + i - 60) (-3)); try discriminate A; reflexivity.
Qed.

Theorem C87_oct2freq_vec_simd : 
  forall (c c' : cfg) (B B' : backend) (n : nans F32) (m : mem (F F32)) (out inp len : Z), math_backend c B -> math_backend c' B' ->
    unary_fit B m out inp len -> unary_fit B' m out inp len -> each number m inp len ->
    same_effect (oct2freq_vec_simd c B n m out inp len) (oct2freq_vec_simd c' B' n m out inp len).
Proof. exact C87_oct2freq_vec_simd_lemma. Qed.

Example C87_oct2freq_vec_simd_ex :
  let m := block 0 128 (fun a => f_lit F32 (a - 60) (-3)) in
  math_backend all_ext SSE32 /\ math_backend no_ext AVX32 /\ unary_fit SSE32 m 0 64 32 /\ unary_fit AVX32 m 0 64 32 /\ each number m 64 32.
Proof.
  intros m. split; [right; split; reflexivity|]. split; [left; reflexivity|]. split; [repeat split; fitm|]. split; [repeat split; fitm|].
  intros i x Hi E. unfold m in E. rewrite (block_in 0 128 (fun a => f_lit F32 (a - 60) (-3)) (64 + i)) in E by lia. assert (x = f_lit F32 (64 + i - 60) (-3)) as -> by congruence.
  destruct (lit32 (64 + i - 60) (-3)) as [A _]; [lia|lia|]. unfold number. destruct (f_lit F32 (64 + i - 60) (-3)); try discriminate A; reflexivity.
Qed.

Theorem C87_db2amp_vec_simd : 
  forall (c c' : cfg) (B B' : backend) (n : nans F32) (m : mem (F F32)) (out inp len : Z), math_backend c B -> math_backend c' B' ->
    unary_fit B m out inp len -> unary_fit B' m out inp len -> each number m inp len ->
    same_effect (db2amp_vec_simd c B n m out inp len) (db2amp_vec_simd c' B' n m out inp len).
Proof. exact C87_db2amp_vec_simd_lemma. Qed.

Example C87_db2amp_vec_simd_ex :
  let m := block 0 128 (fun a => f_lit F32 (a - 60) (-3)) in
  math_backend all_ext SSE32 /\ math_backend no_ext AVX32 /\ unary_fit SSE32 m 0 64 32 /\ unary_fit AVX32 m 0 64 32 /\ each number m 64 32.
Proof.
  intros m. split; [right; split; reflexivity|]. split; [left; reflexivity|]. split; [repeat split; fitm|]. split; [repeat split; fitm|].
  intros i x Hi E. unfold m in E. rewrite (block_in 0 128 (fun a => f_lit F32 (a - 60) (-3)) (64 + i)) in E by lia. assert (x = f_lit F32 (64 + i - 60) (-3)) as -> by congruence.
  destruct (lit32 (64 + i - 60) (-3)) as [A _]; [lia|lia|]. unfold number. destruct (f_lit F32 (64 + i - 60) (-3)); try discriminate A; reflexivity.
Qed.

Theorem C87_pow_vec_simd : 
  forall (c c' : cfg) (B B' : backend) (n : nans F32) (m : mem (F F32)) (out : Z) (a1 a2 : arg (F F32)) (len : Z), math_backend c B -> math_backend c' B' ->
    legal_simd_length B len -> aligned B out -> accessible m out len -> simd_fit B m out len a1 -> simd_fit B m out len a2 ->
    legal_simd_length B' len -> aligned B' out -> simd_fit B' m out len a1 -> simd_fit B' m out len a2 ->
    plain a1 -> plain a2 -> each_arg (fun y => isfin y = true) m a2 len ->
    same_effect (pow_vec_simd c B n m out a1 a2 len) (pow_vec_simd c' B' n m out a1 a2 len).
Proof. exact C87_pow_vec_simd_lemma. Qed.

Example C87_pow_vec_simd_ex :
  let m := block 0 128 (fun a => f_lit F32 (a - 60) (-3)) in let y := f_ofZ F32 (-3) in
  math_backend all_ext SSE32 /\ math_backend no_ext AVX32 /\ (legal_simd_length SSE32 32 /\ aligned SSE32 0 /\ accessible m 0 32 /\ simd_fit SSE32 m 0 32 (APtr 64) /\ simd_fit SSE32 m 0 32 (AScal y)) /\
  (legal_simd_length AVX32 32 /\ aligned AVX32 0 /\ simd_fit AVX32 m 0 32 (APtr 64) /\ simd_fit AVX32 m 0 32 (AScal y)) /\ plain (APtr (A := F F32) 64) /\ plain (AScal y) /\ each_arg (fun y => isfin y = true) m (AScal y) 32.
Proof.
  intros m y. split; [right; split; reflexivity|]. split; [left; reflexivity|]. split; [repeat split; fitm|]. split; [repeat split; fitm|]. split; [exact Logic.I|]. split; [exact Logic.I|reflexivity].
Qed.

Theorem C87_spow_vec_simd : 
  forall (c c' : cfg) (B B' : backend) (n : nans F32) (m : mem (F F32)) (out : Z) (a1 a2 : arg (F F32)) (len : Z), math_backend c B -> math_backend c' B' ->
    legal_simd_length B len -> aligned B out -> accessible m out len -> simd_fit B m out len a1 -> simd_fit B m out len a2 ->
    legal_simd_length B' len -> aligned B' out -> simd_fit B' m out len a1 -> simd_fit B' m out len a2 ->
    plain a1 -> plain a2 -> each_arg (fun y => isfin y = true) m a2 len ->
    same_effect (spow_vec_simd c B n m out a1 a2 len) (spow_vec_simd c' B' n m out a1 a2 len).
Proof. exact C87_spow_vec_simd_lemma. Qed.

Example C87_spow_vec_simd_ex :
  let m := block 0 128 (fun a => f_lit F32 (a - 60) (-3)) in let y := f_ofZ F32 (-3) in
  math_backend all_ext SSE32 /\ math_backend no_ext AVX32 /\ (legal_simd_length SSE32 32 /\ aligned SSE32 0 /\ accessible m 0 32 /\ simd_fit SSE32 m 0 32 (APtr 64) /\ simd_fit SSE32 m 0 32 (AScal y)) /\
  (legal_simd_length AVX32 32 /\ aligned AVX32 0 /\ simd_fit AVX32 m 0 32 (APtr 64) /\ simd_fit AVX32 m 0 32 (AScal y)) /\ plain (APtr (A := F F32) 64) /\ plain (AScal y) /\ each_arg (fun y => isfin y = true) m (AScal y) 32.
Proof.
  intros m y. split; [right; split; reflexivity|]. split; [left; reflexivity|]. split; [repeat split; fitm|]. split; [repeat split; fitm|]. split; [exact Logic.I|]. split; [exact Logic.I|reflexivity].
Qed.

(** A NaN does tell SSE from AVX, in every one of these. *)
Theorem C87_nan_refuted : 
  forall (c c' : cfg) (n : nans F32) (x : F F32), has_sse2 c = true -> isnan x = true ->
    bits (vec_asin_float c SSE n x) <> bits (vec_asin_float c' AVX n x) /\
    bits (vec_acos_float c SSE n x) <> bits (vec_acos_float c' AVX n x) /\
    bits (vec_exp_float c SSE n x) <> bits (vec_exp_float c' AVX n x).
Proof. exact C87_nan_refuted_lemma. Qed.

Example C87_nan_refuted_ex :
  has_sse2 all_ext = true /\ isnan (qnan F32) = true.
Proof. split; reflexivity. Qed.

(** All theorems of this file together, for one run of Print Assumptions. *)
Definition all_Same := (
  C87_sin,
  C87_cos,
  C87_tan,
  C87_log,
  C87_log2,
  C87_log10,
  C87_freq2midi,
  C87_freq2oct,
  C87_ratio2midi,
  C87_amp2db,
  C87_asin,
  C87_acos,
  C87_atan,
  C87_exp,
  C87_tanh,
  C87_midi2freq,
  C87_midi2ratio,
  C87_oct2freq,
  C87_db2amp,
  C87_pow,
  C87_sin_vec_simd,
  C87_cos_vec_simd,
  C87_tan_vec_simd,
  C87_log_vec_simd,
  C87_log2_vec_simd,
  C87_log10_vec_simd,
  C87_freq2midi_vec_simd,
  C87_freq2oct_vec_simd,
  C87_ratio2midi_vec_simd,
  C87_amp2db_vec_simd,
  C87_asin_vec_simd,
  C87_acos_vec_simd,
  C87_atan_vec_simd,
  C87_exp_vec_simd,
  C87_tanh_vec_simd,
  C87_midi2freq_vec_simd,
  C87_midi2ratio_vec_simd,
  C87_oct2freq_vec_simd,
  C87_db2amp_vec_simd,
  C87_pow_vec_simd,
  C87_spow_vec_simd,
  C87_nan_refuted).
Print Assumptions all_Same.
