(** Proofs of the statements of Prop_Same.v. *)
From Coq Require Import ZArith Reals List Lia Bool Lra.
From Flocq Require Import Core IEEE754.Binary IEEE754.Bits.
From Verif Require Import
  Base Mem Backend Args Drivers Functors Lanes Float LaneOps FloatOps ScalarMath VecMath FloatFuns IntVec TransMath TransFuns Spec SpecLane SpecMath
  FloatFacts TransFacts MathMore MathClaims NanClaims SameFacts.
Import ListNotations.
Local Open Scope Z_scope.

Lemma C87_sin_lemma : 
  forall (c c' : cfg) (I I' : isa) (n : nans F32) (x : F F32), math_isa c I -> math_isa c' I' -> 
    bits (vec_sin_float c I n x) = bits (vec_sin_float c' I' n x).
Proof.
  intros c c' I I' n x H H'. rewrite (sin_same c c' I n (isa_x86 _ _ H) x), (sin_same c' c' I' n (isa_x86 _ _ H') x). reflexivity.
Qed.

Lemma C87_cos_lemma : 
  forall (c c' : cfg) (I I' : isa) (n : nans F32) (x : F F32), math_isa c I -> math_isa c' I' -> 
    bits (vec_cos_float c I n x) = bits (vec_cos_float c' I' n x).
Proof.
  intros c c' I I' n x H H'. rewrite (cos_same c c' I n (isa_x86 _ _ H) x), (cos_same c' c' I' n (isa_x86 _ _ H') x). reflexivity.
Qed.

Lemma C87_tan_lemma : 
  forall (c c' : cfg) (I I' : isa) (n : nans F32) (x : F F32), math_isa c I -> math_isa c' I' -> 
    bits (vec_tan_float c I n x) = bits (vec_tan_float c' I' n x).
Proof.
  intros c c' I I' n x H H'. rewrite (tan_same c c' I n (isa_x86 _ _ H) x), (tan_same c' c' I' n (isa_x86 _ _ H') x). reflexivity.
Qed.

Lemma C87_log_lemma : 
  forall (c c' : cfg) (I I' : isa) (n : nans F32) (x : F F32), math_isa c I -> math_isa c' I' -> 
    bits (vec_log_float c I n x) = bits (vec_log_float c' I' n x).
Proof.
  intros c c' I I' n x H H'. rewrite (log_same c c' I n (isa_x86 _ _ H) x), (log_same c' c' I' n (isa_x86 _ _ H') x). reflexivity.
Qed.

Lemma C87_log2_lemma : 
  forall (c c' : cfg) (I I' : isa) (n : nans F32) (k : nans F64) (x : F F32), math_isa c I -> math_isa c' I' -> 
    bits (vec_log2 c I n k x) = bits (vec_log2 c' I' n k x).
Proof.
  intros c c' I I' n k x H H'. rewrite (log2_same c c' I n k (isa_x86 _ _ H) x), (log2_same c' c' I' n k (isa_x86 _ _ H') x). reflexivity.
Qed.

Lemma C87_log10_lemma : 
  forall (c c' : cfg) (I I' : isa) (n : nans F32) (k : nans F64) (x : F F32), math_isa c I -> math_isa c' I' -> 
    bits (vec_log10 c I n k x) = bits (vec_log10 c' I' n k x).
Proof.
  intros c c' I I' n k x H H'. rewrite (log10_same c c' I n k (isa_x86 _ _ H) x), (log10_same c' c' I' n k (isa_x86 _ _ H') x). reflexivity.
Qed.

Lemma C87_freq2midi_lemma : 
  forall (c c' : cfg) (I I' : isa) (n : nans F32) (k : nans F64) (x : F F32), math_isa c I -> math_isa c' I' -> 
    bits (freq2midi c I n k x) = bits (freq2midi c' I' n k x).
Proof.
  intros c c' I I' n k x H H'. rewrite (freq2midi_same c c' I n k (isa_x86 _ _ H) x), (freq2midi_same c' c' I' n k (isa_x86 _ _ H') x). reflexivity.
Qed.

Lemma C87_freq2oct_lemma : 
  forall (c c' : cfg) (I I' : isa) (n : nans F32) (k : nans F64) (x : F F32), math_isa c I -> math_isa c' I' -> 
    bits (freq2oct c I n k x) = bits (freq2oct c' I' n k x).
Proof.
  intros c c' I I' n k x H H'. rewrite (freq2oct_same c c' I n k (isa_x86 _ _ H) x), (freq2oct_same c' c' I' n k (isa_x86 _ _ H') x). reflexivity.
Qed.

Lemma C87_ratio2midi_lemma : 
  forall (c c' : cfg) (I I' : isa) (n : nans F32) (k : nans F64) (x : F F32), math_isa c I -> math_isa c' I' -> 
    bits (ratio2midi c I n k x) = bits (ratio2midi c' I' n k x).
Proof.
  intros c c' I I' n k x H H'. rewrite (ratio2midi_same c c' I n k (isa_x86 _ _ H) x), (ratio2midi_same c' c' I' n k (isa_x86 _ _ H') x). reflexivity.
Qed.

Lemma C87_amp2db_lemma : 
  forall (c c' : cfg) (I I' : isa) (n : nans F32) (k : nans F64) (x : F F32), math_isa c I -> math_isa c' I' -> 
    bits (amp2db c I n k x) = bits (amp2db c' I' n k x).
Proof.
  intros c c' I I' n k x H H'. rewrite (amp2db_same c c' I n k (isa_x86 _ _ H) x), (amp2db_same c' c' I' n k (isa_x86 _ _ H') x). reflexivity.
Qed.

Lemma C87_asin_lemma : 
  forall (c c' : cfg) (I I' : isa) (n : nans F32) (x : F F32), math_isa c I -> math_isa c' I' -> number x -> 
    bits (vec_asin_float c I n x) = bits (vec_asin_float c' I' n x).
Proof.
  intros c c' I I' n x H H' Nx. rewrite (asin_same c c' I n (isa_x86 _ _ H) x Nx), (asin_same c' c' I' n (isa_x86 _ _ H') x Nx). reflexivity.
Qed.

Lemma C87_acos_lemma : 
  forall (c c' : cfg) (I I' : isa) (n : nans F32) (x : F F32), math_isa c I -> math_isa c' I' -> number x -> 
    bits (vec_acos_float c I n x) = bits (vec_acos_float c' I' n x).
Proof.
  intros c c' I I' n x H H' Nx. rewrite (acos_same c c' I n (isa_x86 _ _ H) x Nx), (acos_same c' c' I' n (isa_x86 _ _ H') x Nx). reflexivity.
Qed.

Lemma C87_atan_lemma : 
  forall (c c' : cfg) (I I' : isa) (n : nans F32) (x : F F32), math_isa c I -> math_isa c' I' -> number x -> 
    bits (vec_atan_float c I n x) = bits (vec_atan_float c' I' n x).
Proof.
  intros c c' I I' n x H H' Nx. rewrite (atan_same c c' I n (isa_x86 _ _ H) x Nx), (atan_same c' c' I' n (isa_x86 _ _ H') x Nx). reflexivity.
Qed.

Lemma C87_exp_lemma : 
  forall (c c' : cfg) (I I' : isa) (n : nans F32) (x : F F32), math_isa c I -> math_isa c' I' -> number x -> 
    bits (vec_exp_float c I n x) = bits (vec_exp_float c' I' n x).
Proof.
  intros c c' I I' n x H H' Nx. rewrite (exp_same c c' I n (isa_x86 _ _ H) x Nx), (exp_same c' c' I' n (isa_x86 _ _ H') x Nx). reflexivity.
Qed.

Lemma C87_tanh_lemma : 
  forall (c c' : cfg) (I I' : isa) (n : nans F32) (x : F F32), math_isa c I -> math_isa c' I' -> number x -> 
    bits (vec_tanh_float c I n x) = bits (vec_tanh_float c' I' n x).
Proof.
  intros c c' I I' n x H H' Nx. rewrite (tanh_same c c' I n (isa_x86 _ _ H) x Nx), (tanh_same c' c' I' n (isa_x86 _ _ H') x Nx). reflexivity.
Qed.

Lemma C87_midi2freq_lemma : 
  forall (c c' : cfg) (I I' : isa) (n : nans F32) (x : F F32), math_isa c I -> math_isa c' I' -> number x -> 
    bits (midi2freq c I n x) = bits (midi2freq c' I' n x).
Proof.
  intros c c' I I' n x H H' Nx. rewrite (midi2freq_same c c' I n (isa_x86 _ _ H) x Nx), (midi2freq_same c' c' I' n (isa_x86 _ _ H') x Nx). reflexivity.
Qed.

Lemma C87_midi2ratio_lemma : 
  forall (c c' : cfg) (I I' : isa) (n : nans F32) (x : F F32), math_isa c I -> math_isa c' I' -> number x -> 
    bits (midi2ratio c I n x) = bits (midi2ratio c' I' n x).
Proof.
  intros c c' I I' n x H H' Nx. rewrite (midi2ratio_same c c' I n (isa_x86 _ _ H) x Nx), (midi2ratio_same c' c' I' n (isa_x86 _ _ H') x Nx). reflexivity.
Qed.

Lemma C87_oct2freq_lemma : 
  forall (c c' : cfg) (I I' : isa) (n : nans F32) (x : F F32), math_isa c I -> math_isa c' I' -> number x -> 
    bits (oct2freq c I n x) = bits (oct2freq c' I' n x).
Proof.
  intros c c' I I' n x H H' Nx. rewrite (oct2freq_same c c' I n (isa_x86 _ _ H) x Nx), (oct2freq_same c' c' I' n (isa_x86 _ _ H') x Nx). reflexivity.
Qed.

Lemma C87_db2amp_lemma : 
  forall (c c' : cfg) (I I' : isa) (n : nans F32) (x : F F32), math_isa c I -> math_isa c' I' -> number x -> 
    bits (db2amp c I n x) = bits (db2amp c' I' n x).
Proof.
  intros c c' I I' n x H H' Nx. rewrite (db2amp_same c c' I n (isa_x86 _ _ H) x Nx), (db2amp_same c' c' I' n (isa_x86 _ _ H') x Nx). reflexivity.
Qed.

Lemma C87_pow_lemma : 
  forall (c c' : cfg) (I I' : isa) (n : nans F32) (x y : F F32), math_isa c I -> math_isa c' I' -> isfin y = true ->
    bits (vec_pow c I n x y) = bits (vec_pow c' I' n x y) /\ bits (vec_signed_pow c I n x y) = bits (vec_signed_pow c' I' n x y).
Proof.
  intros c c' I I' n x y H H' Fy. rewrite (pow_same_fin c c' I n (isa_x86 _ _ H) x y Fy), (pow_same_fin c' c' I' n (isa_x86 _ _ H') x y Fy),
    (spow_same c c' I n (isa_x86 _ _ H) x y Fy), (spow_same c' c' I' n (isa_x86 _ _ H') x y Fy). split; reflexivity.
Qed.

Lemma C87_sin_vec_simd_lemma : 
  forall (c c' : cfg) (B B' : backend) (n : nans F32) (m : mem (F F32)) (out inp len : Z), math_backend c B -> math_backend c' B' ->
    unary_fit B m out inp len -> unary_fit B' m out inp len -> 
    same_effect (sin_vec_simd c B n m out inp len) (sin_vec_simd c' B' n m out inp len).
Proof.
  intros c c' B B' n m out inp len H H' F1 F2. pose proof (isa_x86 _ _ (backend_isa c B H)) as X. pose proof (isa_x86 _ _ (backend_isa c' B' H')) as X'.
  apply (simd_same n B B' (vec_sin_float c (isa_of B) n) (vec_sin_float c' (isa_of B') n) (fun _ => True)); [|exact F1|exact F2|intros ? ? ? ?; exact Logic.I].
  intros x Nx. rewrite (sin_same c c' (isa_of B) n X x), (sin_same c' c' (isa_of B') n X' x). reflexivity.
Qed.

Lemma C87_cos_vec_simd_lemma : 
  forall (c c' : cfg) (B B' : backend) (n : nans F32) (m : mem (F F32)) (out inp len : Z), math_backend c B -> math_backend c' B' ->
    unary_fit B m out inp len -> unary_fit B' m out inp len -> 
    same_effect (cos_vec_simd c B n m out inp len) (cos_vec_simd c' B' n m out inp len).
Proof.
  intros c c' B B' n m out inp len H H' F1 F2. pose proof (isa_x86 _ _ (backend_isa c B H)) as X. pose proof (isa_x86 _ _ (backend_isa c' B' H')) as X'.
  apply (simd_same n B B' (vec_cos_float c (isa_of B) n) (vec_cos_float c' (isa_of B') n) (fun _ => True)); [|exact F1|exact F2|intros ? ? ? ?; exact Logic.I].
  intros x Nx. rewrite (cos_same c c' (isa_of B) n X x), (cos_same c' c' (isa_of B') n X' x). reflexivity.
Qed.

Lemma C87_tan_vec_simd_lemma : 
  forall (c c' : cfg) (B B' : backend) (n : nans F32) (m : mem (F F32)) (out inp len : Z), math_backend c B -> math_backend c' B' ->
    unary_fit B m out inp len -> unary_fit B' m out inp len -> 
    same_effect (tan_vec_simd c B n m out inp len) (tan_vec_simd c' B' n m out inp len).
Proof.
  intros c c' B B' n m out inp len H H' F1 F2. pose proof (isa_x86 _ _ (backend_isa c B H)) as X. pose proof (isa_x86 _ _ (backend_isa c' B' H')) as X'.
  apply (simd_same n B B' (vec_tan_float c (isa_of B) n) (vec_tan_float c' (isa_of B') n) (fun _ => True)); [|exact F1|exact F2|intros ? ? ? ?; exact Logic.I].
  intros x Nx. rewrite (tan_same c c' (isa_of B) n X x), (tan_same c' c' (isa_of B') n X' x). reflexivity.
Qed.

Lemma C87_log_vec_simd_lemma : 
  forall (c c' : cfg) (B B' : backend) (n : nans F32) (m : mem (F F32)) (out inp len : Z), math_backend c B -> math_backend c' B' ->
    unary_fit B m out inp len -> unary_fit B' m out inp len -> 
    same_effect (log_vec_simd c B n m out inp len) (log_vec_simd c' B' n m out inp len).
Proof.
  intros c c' B B' n m out inp len H H' F1 F2. pose proof (isa_x86 _ _ (backend_isa c B H)) as X. pose proof (isa_x86 _ _ (backend_isa c' B' H')) as X'.
  apply (simd_same n B B' (vec_log_float c (isa_of B) n) (vec_log_float c' (isa_of B') n) (fun _ => True)); [|exact F1|exact F2|intros ? ? ? ?; exact Logic.I].
  intros x Nx. rewrite (log_same c c' (isa_of B) n X x), (log_same c' c' (isa_of B') n X' x). reflexivity.
Qed.

Lemma C87_log2_vec_simd_lemma : 
  forall (c c' : cfg) (B B' : backend) (n : nans F32) (k : nans F64) (m : mem (F F32)) (out inp len : Z), math_backend c B -> math_backend c' B' ->
    unary_fit B m out inp len -> unary_fit B' m out inp len -> 
    same_effect (log2_vec_simd c B n k m out inp len) (log2_vec_simd c' B' n k m out inp len).
Proof.
  intros c c' B B' n k m out inp len H H' F1 F2. pose proof (isa_x86 _ _ (backend_isa c B H)) as X. pose proof (isa_x86 _ _ (backend_isa c' B' H')) as X'.
  apply (simd_same n B B' (vec_log2 c (isa_of B) n k) (vec_log2 c' (isa_of B') n k) (fun _ => True)); [|exact F1|exact F2|intros ? ? ? ?; exact Logic.I].
  intros x Nx. rewrite (log2_same c c' (isa_of B) n k X x), (log2_same c' c' (isa_of B') n k X' x). reflexivity.
Qed.

Lemma C87_log10_vec_simd_lemma : 
  forall (c c' : cfg) (B B' : backend) (n : nans F32) (k : nans F64) (m : mem (F F32)) (out inp len : Z), math_backend c B -> math_backend c' B' ->
    unary_fit B m out inp len -> unary_fit B' m out inp len -> 
    same_effect (log10_vec_simd c B n k m out inp len) (log10_vec_simd c' B' n k m out inp len).
Proof.
  intros c c' B B' n k m out inp len H H' F1 F2. pose proof (isa_x86 _ _ (backend_isa c B H)) as X. pose proof (isa_x86 _ _ (backend_isa c' B' H')) as X'.
  apply (simd_same n B B' (vec_log10 c (isa_of B) n k) (vec_log10 c' (isa_of B') n k) (fun _ => True)); [|exact F1|exact F2|intros ? ? ? ?; exact Logic.I].
  intros x Nx. rewrite (log10_same c c' (isa_of B) n k X x), (log10_same c' c' (isa_of B') n k X' x). reflexivity.
Qed.

Lemma C87_freq2midi_vec_simd_lemma : 
  forall (c c' : cfg) (B B' : backend) (n : nans F32) (k : nans F64) (m : mem (F F32)) (out inp len : Z), math_backend c B -> math_backend c' B' ->
    unary_fit B m out inp len -> unary_fit B' m out inp len -> 
    same_effect (freq2midi_vec_simd c B n k m out inp len) (freq2midi_vec_simd c' B' n k m out inp len).
Proof.
  intros c c' B B' n k m out inp len H H' F1 F2. pose proof (isa_x86 _ _ (backend_isa c B H)) as X. pose proof (isa_x86 _ _ (backend_isa c' B' H')) as X'.
  apply (simd_same n B B' (freq2midi c (isa_of B) n k) (freq2midi c' (isa_of B') n k) (fun _ => True)); [|exact F1|exact F2|intros ? ? ? ?; exact Logic.I].
  intros x Nx. rewrite (freq2midi_same c c' (isa_of B) n k X x), (freq2midi_same c' c' (isa_of B') n k X' x). reflexivity.
Qed.

Lemma C87_freq2oct_vec_simd_lemma : 
  forall (c c' : cfg) (B B' : backend) (n : nans F32) (k : nans F64) (m : mem (F F32)) (out inp len : Z), math_backend c B -> math_backend c' B' ->
    unary_fit B m out inp len -> unary_fit B' m out inp len -> 
    same_effect (freq2oct_vec_simd c B n k m out inp len) (freq2oct_vec_simd c' B' n k m out inp len).
Proof.
  intros c c' B B' n k m out inp len H H' F1 F2. pose proof (isa_x86 _ _ (backend_isa c B H)) as X. pose proof (isa_x86 _ _ (backend_isa c' B' H')) as X'.
  apply (simd_same n B B' (freq2oct c (isa_of B) n k) (freq2oct c' (isa_of B') n k) (fun _ => True)); [|exact F1|exact F2|intros ? ? ? ?; exact Logic.I].
  intros x Nx. rewrite (freq2oct_same c c' (isa_of B) n k X x), (freq2oct_same c' c' (isa_of B') n k X' x). reflexivity.
Qed.

Lemma C87_ratio2midi_vec_simd_lemma : 
  forall (c c' : cfg) (B B' : backend) (n : nans F32) (k : nans F64) (m : mem (F F32)) (out inp len : Z), math_backend c B -> math_backend c' B' ->
    unary_fit B m out inp len -> unary_fit B' m out inp len -> 
    same_effect (ratio2midi_vec_simd c B n k m out inp len) (ratio2midi_vec_simd c' B' n k m out inp len).
Proof.
  intros c c' B B' n k m out inp len H H' F1 F2. pose proof (isa_x86 _ _ (backend_isa c B H)) as X. pose proof (isa_x86 _ _ (backend_isa c' B' H')) as X'.
  apply (simd_same n B B' (ratio2midi c (isa_of B) n k) (ratio2midi c' (isa_of B') n k) (fun _ => True)); [|exact F1|exact F2|intros ? ? ? ?; exact Logic.I].
  intros x Nx. rewrite (ratio2midi_same c c' (isa_of B) n k X x), (ratio2midi_same c' c' (isa_of B') n k X' x). reflexivity.
Qed.

Lemma C87_amp2db_vec_simd_lemma : 
  forall (c c' : cfg) (B B' : backend) (n : nans F32) (k : nans F64) (m : mem (F F32)) (out inp len : Z), math_backend c B -> math_backend c' B' ->
    unary_fit B m out inp len -> unary_fit B' m out inp len -> 
    same_effect (amp2db_vec_simd c B n k m out inp len) (amp2db_vec_simd c' B' n k m out inp len).
Proof.
  intros c c' B B' n k m out inp len H H' F1 F2. pose proof (isa_x86 _ _ (backend_isa c B H)) as X. pose proof (isa_x86 _ _ (backend_isa c' B' H')) as X'.
  apply (simd_same n B B' (amp2db c (isa_of B) n k) (amp2db c' (isa_of B') n k) (fun _ => True)); [|exact F1|exact F2|intros ? ? ? ?; exact Logic.I].
  intros x Nx. rewrite (amp2db_same c c' (isa_of B) n k X x), (amp2db_same c' c' (isa_of B') n k X' x). reflexivity.
Qed.

Lemma C87_asin_vec_simd_lemma : 
  forall (c c' : cfg) (B B' : backend) (n : nans F32) (m : mem (F F32)) (out inp len : Z), math_backend c B -> math_backend c' B' ->
    unary_fit B m out inp len -> unary_fit B' m out inp len -> each number m inp len ->
    same_effect (asin_vec_simd c B n m out inp len) (asin_vec_simd c' B' n m out inp len).
Proof.
  intros c c' B B' n m out inp len H H' F1 F2 HQ. pose proof (isa_x86 _ _ (backend_isa c B H)) as X. pose proof (isa_x86 _ _ (backend_isa c' B' H')) as X'.
  apply (simd_same n B B' (vec_asin_float c (isa_of B) n) (vec_asin_float c' (isa_of B') n) number); [|exact F1|exact F2|exact HQ].
  intros x Nx. rewrite (asin_same c c' (isa_of B) n X x Nx), (asin_same c' c' (isa_of B') n X' x Nx). reflexivity.
Qed.

Lemma C87_acos_vec_simd_lemma : 
  forall (c c' : cfg) (B B' : backend) (n : nans F32) (m : mem (F F32)) (out inp len : Z), math_backend c B -> math_backend c' B' ->
    unary_fit B m out inp len -> unary_fit B' m out inp len -> each number m inp len ->
    same_effect (acos_vec_simd c B n m out inp len) (acos_vec_simd c' B' n m out inp len).
Proof.
  intros c c' B B' n m out inp len H H' F1 F2 HQ. pose proof (isa_x86 _ _ (backend_isa c B H)) as X. pose proof (isa_x86 _ _ (backend_isa c' B' H')) as X'.
  apply (simd_same n B B' (vec_acos_float c (isa_of B) n) (vec_acos_float c' (isa_of B') n) number); [|exact F1|exact F2|exact HQ].
  intros x Nx. rewrite (acos_same c c' (isa_of B) n X x Nx), (acos_same c' c' (isa_of B') n X' x Nx). reflexivity.
Qed.

Lemma C87_atan_vec_simd_lemma : 
  forall (c c' : cfg) (B B' : backend) (n : nans F32) (m : mem (F F32)) (out inp len : Z), math_backend c B -> math_backend c' B' ->
    unary_fit B m out inp len -> unary_fit B' m out inp len -> each number m inp len ->
    same_effect (atan_vec_simd c B n m out inp len) (atan_vec_simd c' B' n m out inp len).
Proof.
  intros c c' B B' n m out inp len H H' F1 F2 HQ. pose proof (isa_x86 _ _ (backend_isa c B H)) as X. pose proof (isa_x86 _ _ (backend_isa c' B' H')) as X'.
  apply (simd_same n B B' (vec_atan_float c (isa_of B) n) (vec_atan_float c' (isa_of B') n) number); [|exact F1|exact F2|exact HQ].
  intros x Nx. rewrite (atan_same c c' (isa_of B) n X x Nx), (atan_same c' c' (isa_of B') n X' x Nx). reflexivity.
Qed.

Lemma C87_exp_vec_simd_lemma : 
  forall (c c' : cfg) (B B' : backend) (n : nans F32) (m : mem (F F32)) (out inp len : Z), math_backend c B -> math_backend c' B' ->
    unary_fit B m out inp len -> unary_fit B' m out inp len -> each number m inp len ->
    same_effect (exp_vec_simd c B n m out inp len) (exp_vec_simd c' B' n m out inp len).
Proof.
  intros c c' B B' n m out inp len H H' F1 F2 HQ. pose proof (isa_x86 _ _ (backend_isa c B H)) as X. pose proof (isa_x86 _ _ (backend_isa c' B' H')) as X'.
  apply (simd_same n B B' (vec_exp_float c (isa_of B) n) (vec_exp_float c' (isa_of B') n) number); [|exact F1|exact F2|exact HQ].
  intros x Nx. rewrite (exp_same c c' (isa_of B) n X x Nx), (exp_same c' c' (isa_of B') n X' x Nx). reflexivity.
Qed.

Lemma C87_tanh_vec_simd_lemma : 
  forall (c c' : cfg) (B B' : backend) (n : nans F32) (m : mem (F F32)) (out inp len : Z), math_backend c B -> math_backend c' B' ->
    unary_fit B m out inp len -> unary_fit B' m out inp len -> each number m inp len ->
    same_effect (tanh_vec_simd c B n m out inp len) (tanh_vec_simd c' B' n m out inp len).
Proof.
  intros c c' B B' n m out inp len H H' F1 F2 HQ. pose proof (isa_x86 _ _ (backend_isa c B H)) as X. pose proof (isa_x86 _ _ (backend_isa c' B' H')) as X'.
  apply (simd_same n B B' (vec_tanh_float c (isa_of B) n) (vec_tanh_float c' (isa_of B') n) number); [|exact F1|exact F2|exact HQ].
  intros x Nx. rewrite (tanh_same c c' (isa_of B) n X x Nx), (tanh_same c' c' (isa_of B') n X' x Nx). reflexivity.
Qed.

Lemma C87_midi2freq_vec_simd_lemma : 
  forall (c c' : cfg) (B B' : backend) (n : nans F32) (m : mem (F F32)) (out inp len : Z), math_backend c B -> math_backend c' B' ->
    unary_fit B m out inp len -> unary_fit B' m out inp len -> each number m inp len ->
    same_effect (midi2freq_vec_simd c B n m out inp len) (midi2freq_vec_simd c' B' n m out inp len).
Proof.
  intros c c' B B' n m out inp len H H' F1 F2 HQ. pose proof (isa_x86 _ _ (backend_isa c B H)) as X. pose proof (isa_x86 _ _ (backend_isa c' B' H')) as X'.
  apply (simd_same n B B' (midi2freq c (isa_of B) n) (midi2freq c' (isa_of B') n) number); [|exact F1|exact F2|exact HQ].
  intros x Nx. rewrite (midi2freq_same c c' (isa_of B) n X x Nx), (midi2freq_same c' c' (isa_of B') n X' x Nx). reflexivity.
Qed.

Lemma C87_midi2ratio_vec_simd_lemma : 
  forall (c c' : cfg) (B B' : backend) (n : nans F32) (m : mem (F F32)) (out inp len : Z), math_backend c B -> math_backend c' B' ->
    unary_fit B m out inp len -> unary_fit B' m out inp len -> each number m inp len ->
    same_effect (midi2ratio_vec_simd c B n m out inp len) (midi2ratio_vec_simd c' B' n m out inp len).
Proof.
  intros c c' B B' n m out inp len H H' F1 F2 HQ. pose proof (isa_x86 _ _ (backend_isa c B H)) as X. pose proof (isa_x86 _ _ (backend_isa c' B' H')) as X'.
  apply (simd_same n B B' (midi2ratio c (isa_of B) n) (midi2ratio c' (isa_of B') n) number); [|exact F1|exact F2|exact HQ].
  intros x Nx. rewrite (midi2ratio_same c c' (isa_of B) n X x Nx), (midi2ratio_same c' c' (isa_of B') n X' x Nx). reflexivity.
Qed.

Lemma C87_oct2freq_vec_simd_lemma : 
  forall (c c' : cfg) (B B' : backend) (n : nans F32) (m : mem (F F32)) (out inp len : Z), math_backend c B -> math_backend c' B' ->
    unary_fit B m out inp len -> unary_fit B' m out inp len -> each number m inp len ->
    same_effect (oct2freq_vec_simd c B n m out inp len) (oct2freq_vec_simd c' B' n m out inp len).
Proof.
  intros c c' B B' n m out inp len H H' F1 F2 HQ. pose proof (isa_x86 _ _ (backend_isa c B H)) as X. pose proof (isa_x86 _ _ (backend_isa c' B' H')) as X'.
  apply (simd_same n B B' (oct2freq c (isa_of B) n) (oct2freq c' (isa_of B') n) number); [|exact F1|exact F2|exact HQ].
  intros x Nx. rewrite (oct2freq_same c c' (isa_of B) n X x Nx), (oct2freq_same c' c' (isa_of B') n X' x Nx). reflexivity.
Qed.

Lemma C87_db2amp_vec_simd_lemma : 
  forall (c c' : cfg) (B B' : backend) (n : nans F32) (m : mem (F F32)) (out inp len : Z), math_backend c B -> math_backend c' B' ->
    unary_fit B m out inp len -> unary_fit B' m out inp len -> each number m inp len ->
    same_effect (db2amp_vec_simd c B n m out inp len) (db2amp_vec_simd c' B' n m out inp len).
Proof.
  intros c c' B B' n m out inp len H H' F1 F2 HQ. pose proof (isa_x86 _ _ (backend_isa c B H)) as X. pose proof (isa_x86 _ _ (backend_isa c' B' H')) as X'.
  apply (simd_same n B B' (db2amp c (isa_of B) n) (db2amp c' (isa_of B') n) number); [|exact F1|exact F2|exact HQ].
  intros x Nx. rewrite (db2amp_same c c' (isa_of B) n X x Nx), (db2amp_same c' c' (isa_of B') n X' x Nx). reflexivity.
Qed.

Lemma C87_pow_vec_simd_lemma : 
  forall (c c' : cfg) (B B' : backend) (n : nans F32) (m : mem (F F32)) (out : Z) (a1 a2 : arg (F F32)) (len : Z), math_backend c B -> math_backend c' B' ->
    legal_simd_length B len -> aligned B out -> accessible m out len -> simd_fit B m out len a1 -> simd_fit B m out len a2 ->
    legal_simd_length B' len -> aligned B' out -> simd_fit B' m out len a1 -> simd_fit B' m out len a2 ->
    plain a1 -> plain a2 -> each_arg (fun y => isfin y = true) m a2 len ->
    same_effect (pow_vec_simd c B n m out a1 a2 len) (pow_vec_simd c' B' n m out a1 a2 len).
Proof.
  intros c c' B B' n m out a1 a2 len H H' H1 H2 H3 H4 H5 G1 G2 G4 G5 P1 P2 HQ. pose proof (isa_x86 _ _ (backend_isa c B H)) as X. pose proof (isa_x86 _ _ (backend_isa c' B' H')) as X'.
  apply (simd2_same n B B' (vec_pow c (isa_of B) n) (vec_pow c' (isa_of B') n) (fun y => isfin y = true)); try assumption.
  intros x y Fy. rewrite (pow_same_fin c c' (isa_of B) n X x y Fy), (pow_same_fin c' c' (isa_of B') n X' x y Fy). reflexivity.
Qed.

Lemma C87_spow_vec_simd_lemma : 
  forall (c c' : cfg) (B B' : backend) (n : nans F32) (m : mem (F F32)) (out : Z) (a1 a2 : arg (F F32)) (len : Z), math_backend c B -> math_backend c' B' ->
    legal_simd_length B len -> aligned B out -> accessible m out len -> simd_fit B m out len a1 -> simd_fit B m out len a2 ->
    legal_simd_length B' len -> aligned B' out -> simd_fit B' m out len a1 -> simd_fit B' m out len a2 ->
    plain a1 -> plain a2 -> each_arg (fun y => isfin y = true) m a2 len ->
    same_effect (spow_vec_simd c B n m out a1 a2 len) (spow_vec_simd c' B' n m out a1 a2 len).
Proof.
  intros c c' B B' n m out a1 a2 len H H' H1 H2 H3 H4 H5 G1 G2 G4 G5 P1 P2 HQ. pose proof (isa_x86 _ _ (backend_isa c B H)) as X. pose proof (isa_x86 _ _ (backend_isa c' B' H')) as X'.
  apply (simd2_same n B B' (vec_signed_pow c (isa_of B) n) (vec_signed_pow c' (isa_of B') n) (fun y => isfin y = true)); try assumption.
  intros x y Fy. rewrite (spow_same c c' (isa_of B) n X x y Fy), (spow_same c' c' (isa_of B') n X' x y Fy). reflexivity.
Qed.

Lemma C87_nan_refuted_lemma : 
  forall (c c' : cfg) (n : nans F32) (x : F F32), has_sse2 c = true -> isnan x = true ->
    bits (vec_asin_float c SSE n x) <> bits (vec_asin_float c' AVX n x) /\
    bits (vec_acos_float c SSE n x) <> bits (vec_acos_float c' AVX n x) /\
    bits (vec_exp_float c SSE n x) <> bits (vec_exp_float c' AVX n x).
Proof.
  intros c c' n x S Nx. rewrite (C47_asin_nan_avx_lemma c' n x Nx), (C47_acos_nan_avx_lemma c' n x Nx), (C48_exp_nan_avx_lemma c' n x Nx).
  pose proof (C78_asin_nan_sse_lemma c n x S Nx) as N1. pose proof (C78_acos_nan_sse_lemma c n x S Nx) as N2. pose proof (C48_exp_nan_sse_lemma c n x S Nx) as N3.
  split; [|split]; intros E.
  - change 0%Z with (bits (f_ofZ F32 0)) in E. apply bits_inj in E. rewrite E in N1. discriminate N1.
  - change 0%Z with (bits (f_ofZ F32 0)) in E. apply bits_inj in E. rewrite E in N2. discriminate N2.
  - apply bits_inj in E. rewrite E in N3. discriminate N3.
Qed.
