(** Order of the logarithms, tanh and exp (C77). *)
From Coq Require Import ZArith Reals List Lia Bool Lra.
From Flocq Require Import Core IEEE754.Binary IEEE754.Bits.
From Verif Require Import
  Base Mem Backend Args Drivers Functors Lanes Float LaneOps FloatOps ScalarMath VecMath FloatFuns IntVec TransMath TransFuns Spec SpecLane SpecMath SpecOrder
  FloatFacts FloatRound RoundMore RealTrig MathMore ExData ExFloat ExMath Order2Claims.
Import ListNotations.
Local Open Scope Z_scope.

(** * C77: logarithms, tanh and the conversions built on logarithms keep order, exp does not *)

(** The natural logarithm never goes down on the positive normal numbers. *)
Theorem C77_log_rises : 
  forall (c : cfg) (I : isa) (n : nans F32), math_isa c I -> rising (fun r => (bpow radix2 (-126) <= r)%R) (vec_log_float c I n).
Proof. exact C77_log_rises_lemma. Qed.

Example C77_log_rises_ex :
  let x := f_lit F32 (3) (-4) in let y := f_lit F32 (12345) (-4) in
  math_isa all_ext SSE /\ isfin x = true /\ isfin y = true /\ (fun r => (bpow radix2 (-126) <= r)%R) (val x) /\ (fun r => (bpow radix2 (-126) <= r)%R) (val y) /\ (val x <= val y)%R.
Proof.
  intros x y. destruct (lit32 (3) (-4)) as [A V]; [lia|lia|]. destruct (lit32 (12345) (-4)) as [A' W]; [lia|lia|]. fold x in A, V. fold y in A', W.
  split; [fitm|]. split; [exact A|]. split; [exact A'|]. split; [|split]; first [exact Logic.I|idtac]; assert (T117 : (bpow radix2 (-117) <= / 1024)%R) by (change (/ 1024)%R with (bpow radix2 (-10)); apply bpow_le; lia); assert (T126 : (bpow radix2 (-126) <= / 1024)%R) by (change (/ 1024)%R with (bpow radix2 (-10)); apply bpow_le; lia); unfold half_wave, half_turn, from_to; try change (2 * 0 + 1)%Z with 1%Z; try change (2 * 0)%Z with 0%Z; rewrite ?V, ?W; pose proof pi_range; change (bpow radix2 (-4)) with (/ 16)%R;
  repeat match goal with |- _ /\ _ => split end; try (apply Rabs_le; split); try lra.
Qed.

(** The buffer function. *)
Theorem C77_log_vec_simd_rises : 
  forall (c : cfg) (B : backend) (n : nans F32) (m : mem (F F32)) (out inp len : Z), math_backend c B -> unary_fit B m out inp len -> all_in (fun r => (bpow radix2 (-126) <= r)%R) m inp len ->
    same_order m (log_vec_simd c B n m out inp len) out inp len.
Proof. exact C77_log_vec_simd_rises_lemma. Qed.

Example C77_log_vec_simd_rises_ex :
  let m := block 0 80 (fun a => f_lit F32 (1 * a + -30) (-4)) in
  math_backend all_ext AVX32 /\ unary_fit AVX32 m 32 40 32 /\ all_in (fun r => (bpow radix2 (-126) <= r)%R) m 40 32.
Proof.
  split; [left; reflexivity|]. split; [fitm|]. intros i x Hi E. rewrite block_in in E by lia. apply some_inj in E. subst x.
  destruct (lit32 (1 * (40 + i) + -30) (-4)) as [A V]; [lia|lia|]. split; [exact A|].
  assert (Q1 : (IZR (10) <= IZR (1 * (40 + i) + -30))%R) by (apply IZR_le; lia).
  assert (Q2 : (IZR (1 * (40 + i) + -30) <= IZR (41))%R) by (apply IZR_le; lia).
  first [exact Logic.I|idtac]; assert (T117 : (bpow radix2 (-117) <= / 1024)%R) by (change (/ 1024)%R with (bpow radix2 (-10)); apply bpow_le; lia); assert (T126 : (bpow radix2 (-126) <= / 1024)%R) by (change (/ 1024)%R with (bpow radix2 (-10)); apply bpow_le; lia); unfold half_wave, half_turn, from_to; try change (2 * 0 + 1)%Z with 1%Z; try change (2 * 0)%Z with 0%Z; rewrite ?V; pose proof pi_range; change (bpow radix2 (-4)) with (/ 16)%R;
  repeat match goal with |- _ /\ _ => split end; try (apply Rabs_le; split); try lra.
Qed.

(** Nor does the logarithm to base 2. *)
Theorem C77_log2_rises : 
  forall (c : cfg) (I : isa) (n : nans F32) (k : nans F64), math_isa c I -> rising (fun r => (bpow radix2 (-126) <= r)%R) (vec_log2 c I n k).
Proof. exact C77_log2_rises_lemma. Qed.

Example C77_log2_rises_ex :
  let x := f_lit F32 (3) (-4) in let y := f_lit F32 (12345) (-4) in
  math_isa all_ext SSE /\ isfin x = true /\ isfin y = true /\ (fun r => (bpow radix2 (-126) <= r)%R) (val x) /\ (fun r => (bpow radix2 (-126) <= r)%R) (val y) /\ (val x <= val y)%R.
Proof.
  intros x y. destruct (lit32 (3) (-4)) as [A V]; [lia|lia|]. destruct (lit32 (12345) (-4)) as [A' W]; [lia|lia|]. fold x in A, V. fold y in A', W.
  split; [fitm|]. split; [exact A|]. split; [exact A'|]. split; [|split]; first [exact Logic.I|idtac]; assert (T117 : (bpow radix2 (-117) <= / 1024)%R) by (change (/ 1024)%R with (bpow radix2 (-10)); apply bpow_le; lia); assert (T126 : (bpow radix2 (-126) <= / 1024)%R) by (change (/ 1024)%R with (bpow radix2 (-10)); apply bpow_le; lia); unfold half_wave, half_turn, from_to; try change (2 * 0 + 1)%Z with 1%Z; try change (2 * 0)%Z with 0%Z; rewrite ?V, ?W; pose proof pi_range; change (bpow radix2 (-4)) with (/ 16)%R;
  repeat match goal with |- _ /\ _ => split end; try (apply Rabs_le; split); try lra.
Qed.

(** The buffer function. *)
Theorem C77_log2_vec_simd_rises : 
  forall (c : cfg) (B : backend) (n : nans F32) (k : nans F64) (m : mem (F F32)) (out inp len : Z), math_backend c B -> unary_fit B m out inp len -> all_in (fun r => (bpow radix2 (-126) <= r)%R) m inp len ->
    same_order m (log2_vec_simd c B n k m out inp len) out inp len.
Proof. exact C77_log2_vec_simd_rises_lemma. Qed.

Example C77_log2_vec_simd_rises_ex :
  let m := block 0 80 (fun a => f_lit F32 (1 * a + -30) (-4)) in
  math_backend all_ext AVX32 /\ unary_fit AVX32 m 32 40 32 /\ all_in (fun r => (bpow radix2 (-126) <= r)%R) m 40 32.
Proof.
  split; [left; reflexivity|]. split; [fitm|]. intros i x Hi E. rewrite block_in in E by lia. apply some_inj in E. subst x.
  destruct (lit32 (1 * (40 + i) + -30) (-4)) as [A V]; [lia|lia|]. split; [exact A|].
  assert (Q1 : (IZR (10) <= IZR (1 * (40 + i) + -30))%R) by (apply IZR_le; lia).
  assert (Q2 : (IZR (1 * (40 + i) + -30) <= IZR (41))%R) by (apply IZR_le; lia).
  first [exact Logic.I|idtac]; assert (T117 : (bpow radix2 (-117) <= / 1024)%R) by (change (/ 1024)%R with (bpow radix2 (-10)); apply bpow_le; lia); assert (T126 : (bpow radix2 (-126) <= / 1024)%R) by (change (/ 1024)%R with (bpow radix2 (-10)); apply bpow_le; lia); unfold half_wave, half_turn, from_to; try change (2 * 0 + 1)%Z with 1%Z; try change (2 * 0)%Z with 0%Z; rewrite ?V; pose proof pi_range; change (bpow radix2 (-4)) with (/ 16)%R;
  repeat match goal with |- _ /\ _ => split end; try (apply Rabs_le; split); try lra.
Qed.

(** Nor does the logarithm to base 10. *)
Theorem C77_log10_rises : 
  forall (c : cfg) (I : isa) (n : nans F32) (k : nans F64), math_isa c I -> rising (fun r => (bpow radix2 (-126) <= r)%R) (vec_log10 c I n k).
Proof. exact C77_log10_rises_lemma. Qed.

Example C77_log10_rises_ex :
  let x := f_lit F32 (3) (-4) in let y := f_lit F32 (12345) (-4) in
  math_isa all_ext SSE /\ isfin x = true /\ isfin y = true /\ (fun r => (bpow radix2 (-126) <= r)%R) (val x) /\ (fun r => (bpow radix2 (-126) <= r)%R) (val y) /\ (val x <= val y)%R.
Proof.
  intros x y. destruct (lit32 (3) (-4)) as [A V]; [lia|lia|]. destruct (lit32 (12345) (-4)) as [A' W]; [lia|lia|]. fold x in A, V. fold y in A', W.
  split; [fitm|]. split; [exact A|]. split; [exact A'|]. split; [|split]; first [exact Logic.I|idtac]; assert (T117 : (bpow radix2 (-117) <= / 1024)%R) by (change (/ 1024)%R with (bpow radix2 (-10)); apply bpow_le; lia); assert (T126 : (bpow radix2 (-126) <= / 1024)%R) by (change (/ 1024)%R with (bpow radix2 (-10)); apply bpow_le; lia); unfold half_wave, half_turn, from_to; try change (2 * 0 + 1)%Z with 1%Z; try change (2 * 0)%Z with 0%Z; rewrite ?V, ?W; pose proof pi_range; change (bpow radix2 (-4)) with (/ 16)%R;
  repeat match goal with |- _ /\ _ => split end; try (apply Rabs_le; split); try lra.
Qed.

(** The buffer function. *)
Theorem C77_log10_vec_simd_rises : 
  forall (c : cfg) (B : backend) (n : nans F32) (k : nans F64) (m : mem (F F32)) (out inp len : Z), math_backend c B -> unary_fit B m out inp len -> all_in (fun r => (bpow radix2 (-126) <= r)%R) m inp len ->
    same_order m (log10_vec_simd c B n k m out inp len) out inp len.
Proof. exact C77_log10_vec_simd_rises_lemma. Qed.

Example C77_log10_vec_simd_rises_ex :
  let m := block 0 80 (fun a => f_lit F32 (1 * a + -30) (-4)) in
  math_backend all_ext AVX32 /\ unary_fit AVX32 m 32 40 32 /\ all_in (fun r => (bpow radix2 (-126) <= r)%R) m 40 32.
Proof.
  split; [left; reflexivity|]. split; [fitm|]. intros i x Hi E. rewrite block_in in E by lia. apply some_inj in E. subst x.
  destruct (lit32 (1 * (40 + i) + -30) (-4)) as [A V]; [lia|lia|]. split; [exact A|].
  assert (Q1 : (IZR (10) <= IZR (1 * (40 + i) + -30))%R) by (apply IZR_le; lia).
  assert (Q2 : (IZR (1 * (40 + i) + -30) <= IZR (41))%R) by (apply IZR_le; lia).
  first [exact Logic.I|idtac]; assert (T117 : (bpow radix2 (-117) <= / 1024)%R) by (change (/ 1024)%R with (bpow radix2 (-10)); apply bpow_le; lia); assert (T126 : (bpow radix2 (-126) <= / 1024)%R) by (change (/ 1024)%R with (bpow radix2 (-10)); apply bpow_le; lia); unfold half_wave, half_turn, from_to; try change (2 * 0 + 1)%Z with 1%Z; try change (2 * 0)%Z with 0%Z; rewrite ?V; pose proof pi_range; change (bpow radix2 (-4)) with (/ 16)%R;
  repeat match goal with |- _ /\ _ => split end; try (apply Rabs_le; split); try lra.
Qed.

(** tanh never goes down, for any finite argument. *)
Theorem C77_tanh_rises : 
  forall (c : cfg) (I : isa) (n : nans F32), math_isa c I -> rising (fun _ => True) (vec_tanh_float c I n).
Proof. exact C77_tanh_rises_lemma. Qed.

Example C77_tanh_rises_ex :
  let x := f_lit F32 (-12345) (-4) in let y := f_lit F32 (3) (-4) in
  math_isa all_ext SSE /\ isfin x = true /\ isfin y = true /\ (fun _ => True) (val x) /\ (fun _ => True) (val y) /\ (val x <= val y)%R.
Proof.
  intros x y. destruct (lit32 (-12345) (-4)) as [A V]; [lia|lia|]. destruct (lit32 (3) (-4)) as [A' W]; [lia|lia|]. fold x in A, V. fold y in A', W.
  split; [fitm|]. split; [exact A|]. split; [exact A'|]. split; [|split]; first [exact Logic.I|idtac]; assert (T117 : (bpow radix2 (-117) <= / 1024)%R) by (change (/ 1024)%R with (bpow radix2 (-10)); apply bpow_le; lia); assert (T126 : (bpow radix2 (-126) <= / 1024)%R) by (change (/ 1024)%R with (bpow radix2 (-10)); apply bpow_le; lia); unfold half_wave, half_turn, from_to; try change (2 * 0 + 1)%Z with 1%Z; try change (2 * 0)%Z with 0%Z; rewrite ?V, ?W; pose proof pi_range; change (bpow radix2 (-4)) with (/ 16)%R;
  repeat match goal with |- _ /\ _ => split end; try (apply Rabs_le; split); try lra.
Qed.

(** The buffer function. *)
Theorem C77_tanh_vec_simd_rises : 
  forall (c : cfg) (B : backend) (n : nans F32) (m : mem (F F32)) (out inp len : Z), math_backend c B -> unary_fit B m out inp len -> all_in (fun _ => True) m inp len ->
    same_order m (tanh_vec_simd c B n m out inp len) out inp len.
Proof. exact C77_tanh_vec_simd_rises_lemma. Qed.

Example C77_tanh_vec_simd_rises_ex :
  let m := block 0 80 (fun a => f_lit F32 (8 * a + -461) (-4)) in
  math_backend all_ext AVX32 /\ unary_fit AVX32 m 32 40 32 /\ all_in (fun _ => True) m 40 32.
Proof.
  split; [left; reflexivity|]. split; [fitm|]. intros i x Hi E. rewrite block_in in E by lia. apply some_inj in E. subst x.
  destruct (lit32 (8 * (40 + i) + -461) (-4)) as [A V]; [lia|lia|]. split; [exact A|].
  assert (Q1 : (IZR (-141) <= IZR (8 * (40 + i) + -461))%R) by (apply IZR_le; lia).
  assert (Q2 : (IZR (8 * (40 + i) + -461) <= IZR (107))%R) by (apply IZR_le; lia).
  first [exact Logic.I|idtac]; assert (T117 : (bpow radix2 (-117) <= / 1024)%R) by (change (/ 1024)%R with (bpow radix2 (-10)); apply bpow_le; lia); assert (T126 : (bpow radix2 (-126) <= / 1024)%R) by (change (/ 1024)%R with (bpow radix2 (-10)); apply bpow_le; lia); unfold half_wave, half_turn, from_to; try change (2 * 0 + 1)%Z with 1%Z; try change (2 * 0)%Z with 0%Z; rewrite ?V; pose proof pi_range; change (bpow radix2 (-4)) with (/ 16)%R;
  repeat match goal with |- _ /\ _ => split end; try (apply Rabs_le; split); try lra.
Qed.

(** exp never goes down from 1 to 88. *)
Theorem C77_exp_rises : 
  forall (c : cfg) (I : isa) (n : nans F32), math_isa c I -> rising (from_to 1 88) (vec_exp_float c I n).
Proof. exact C77_exp_rises_lemma. Qed.

Example C77_exp_rises_ex :
  let x := f_lit F32 (17) (-4) in let y := f_lit F32 (1400) (-4) in
  math_isa all_ext SSE /\ isfin x = true /\ isfin y = true /\ (from_to 1 88) (val x) /\ (from_to 1 88) (val y) /\ (val x <= val y)%R.
Proof.
  intros x y. destruct (lit32 (17) (-4)) as [A V]; [lia|lia|]. destruct (lit32 (1400) (-4)) as [A' W]; [lia|lia|]. fold x in A, V. fold y in A', W.
  split; [fitm|]. split; [exact A|]. split; [exact A'|]. split; [|split]; first [exact Logic.I|idtac]; assert (T117 : (bpow radix2 (-117) <= / 1024)%R) by (change (/ 1024)%R with (bpow radix2 (-10)); apply bpow_le; lia); assert (T126 : (bpow radix2 (-126) <= / 1024)%R) by (change (/ 1024)%R with (bpow radix2 (-10)); apply bpow_le; lia); unfold half_wave, half_turn, from_to; try change (2 * 0 + 1)%Z with 1%Z; try change (2 * 0)%Z with 0%Z; rewrite ?V, ?W; pose proof pi_range; change (bpow radix2 (-4)) with (/ 16)%R;
  repeat match goal with |- _ /\ _ => split end; try (apply Rabs_le; split); try lra.
Qed.

(** The buffer function. *)
Theorem C77_exp_vec_simd_rises : 
  forall (c : cfg) (B : backend) (n : nans F32) (m : mem (F F32)) (out inp len : Z), math_backend c B -> unary_fit B m out inp len -> all_in (from_to 1 88) m inp len ->
    same_order m (exp_vec_simd c B n m out inp len) out inp len.
Proof. exact C77_exp_vec_simd_rises_lemma. Qed.

Example C77_exp_vec_simd_rises_ex :
  let m := block 0 80 (fun a => f_lit F32 (16 * a + -600) (-4)) in
  math_backend all_ext AVX32 /\ unary_fit AVX32 m 32 40 32 /\ all_in (from_to 1 88) m 40 32.
Proof.
  split; [left; reflexivity|]. split; [fitm|]. intros i x Hi E. rewrite block_in in E by lia. apply some_inj in E. subst x.
  destruct (lit32 (16 * (40 + i) + -600) (-4)) as [A V]; [lia|lia|]. split; [exact A|].
  assert (Q1 : (IZR (40) <= IZR (16 * (40 + i) + -600))%R) by (apply IZR_le; lia).
  assert (Q2 : (IZR (16 * (40 + i) + -600) <= IZR (536))%R) by (apply IZR_le; lia).
  first [exact Logic.I|idtac]; assert (T117 : (bpow radix2 (-117) <= / 1024)%R) by (change (/ 1024)%R with (bpow radix2 (-10)); apply bpow_le; lia); assert (T126 : (bpow radix2 (-126) <= / 1024)%R) by (change (/ 1024)%R with (bpow radix2 (-10)); apply bpow_le; lia); unfold half_wave, half_turn, from_to; try change (2 * 0 + 1)%Z with 1%Z; try change (2 * 0)%Z with 0%Z; rewrite ?V; pose proof pi_range; change (bpow radix2 (-4)) with (/ 16)%R;
  repeat match goal with |- _ /\ _ => split end; try (apply Rabs_le; split); try lra.
Qed.

(** But exp is not increasing below 0: at some float the result is less than at
    the float before it. *)
Theorem C77_exp_order_refuted : 
  forall (c : cfg) (I : isa) (n : nans F32), math_isa c I -> exists x y : F F32, isfin x = true /\ isfin y = true /\ (-1 < val x < val y)%R /\ (val y < 0)%R /\
    (val (vec_exp_float c I n y) < val (vec_exp_float c I n x))%R.
Proof. exact C77_exp_order_refuted_lemma. Qed.

Example C77_exp_order_refuted_ex :
  math_isa all_ext SSE.
Proof. fitm. Qed.

(** A greater frequency ratio never gives fewer semitones. *)
Theorem C77_ratio2midi_rises : 
  forall (c : cfg) (I : isa) (n : nans F32) (k : nans F64), math_isa c I -> rising (fun r => (bpow radix2 (-126) <= r)%R) (ratio2midi c I n k).
Proof. exact C77_ratio2midi_rises_lemma. Qed.

Example C77_ratio2midi_rises_ex :
  let x := f_lit F32 (3) (-4) in let y := f_lit F32 (12345) (-4) in
  math_isa all_ext SSE /\ isfin x = true /\ isfin y = true /\ (fun r => (bpow radix2 (-126) <= r)%R) (val x) /\ (fun r => (bpow radix2 (-126) <= r)%R) (val y) /\ (val x <= val y)%R.
Proof.
  intros x y. destruct (lit32 (3) (-4)) as [A V]; [lia|lia|]. destruct (lit32 (12345) (-4)) as [A' W]; [lia|lia|]. fold x in A, V. fold y in A', W.
  split; [fitm|]. split; [exact A|]. split; [exact A'|]. split; [|split]; first [exact Logic.I|idtac]; assert (T117 : (bpow radix2 (-117) <= / 1024)%R) by (change (/ 1024)%R with (bpow radix2 (-10)); apply bpow_le; lia); assert (T126 : (bpow radix2 (-126) <= / 1024)%R) by (change (/ 1024)%R with (bpow radix2 (-10)); apply bpow_le; lia); unfold half_wave, half_turn, from_to; try change (2 * 0 + 1)%Z with 1%Z; try change (2 * 0)%Z with 0%Z; rewrite ?V, ?W; pose proof pi_range; change (bpow radix2 (-4)) with (/ 16)%R;
  repeat match goal with |- _ /\ _ => split end; try (apply Rabs_le; split); try lra.
Qed.

(** The buffer function. *)
Theorem C77_ratio2midi_vec_simd_rises : 
  forall (c : cfg) (B : backend) (n : nans F32) (k : nans F64) (m : mem (F F32)) (out inp len : Z), math_backend c B -> unary_fit B m out inp len -> all_in (fun r => (bpow radix2 (-126) <= r)%R) m inp len ->
    same_order m (ratio2midi_vec_simd c B n k m out inp len) out inp len.
Proof. exact C77_ratio2midi_vec_simd_rises_lemma. Qed.

Example C77_ratio2midi_vec_simd_rises_ex :
  let m := block 0 80 (fun a => f_lit F32 (1 * a + -30) (-4)) in
  math_backend all_ext AVX32 /\ unary_fit AVX32 m 32 40 32 /\ all_in (fun r => (bpow radix2 (-126) <= r)%R) m 40 32.
Proof.
  split; [left; reflexivity|]. split; [fitm|]. intros i x Hi E. rewrite block_in in E by lia. apply some_inj in E. subst x.
  destruct (lit32 (1 * (40 + i) + -30) (-4)) as [A V]; [lia|lia|]. split; [exact A|].
  assert (Q1 : (IZR (10) <= IZR (1 * (40 + i) + -30))%R) by (apply IZR_le; lia).
  assert (Q2 : (IZR (1 * (40 + i) + -30) <= IZR (41))%R) by (apply IZR_le; lia).
  first [exact Logic.I|idtac]; assert (T117 : (bpow radix2 (-117) <= / 1024)%R) by (change (/ 1024)%R with (bpow radix2 (-10)); apply bpow_le; lia); assert (T126 : (bpow radix2 (-126) <= / 1024)%R) by (change (/ 1024)%R with (bpow radix2 (-10)); apply bpow_le; lia); unfold half_wave, half_turn, from_to; try change (2 * 0 + 1)%Z with 1%Z; try change (2 * 0)%Z with 0%Z; rewrite ?V; pose proof pi_range; change (bpow radix2 (-4)) with (/ 16)%R;
  repeat match goal with |- _ /\ _ => split end; try (apply Rabs_le; split); try lra.
Qed.

(** A greater amplitude never gives fewer decibels. *)
Theorem C77_amp2db_rises : 
  forall (c : cfg) (I : isa) (n : nans F32) (k : nans F64), math_isa c I -> rising (fun r => (bpow radix2 (-126) <= r)%R) (amp2db c I n k).
Proof. exact C77_amp2db_rises_lemma. Qed.

Example C77_amp2db_rises_ex :
  let x := f_lit F32 (3) (-4) in let y := f_lit F32 (12345) (-4) in
  math_isa all_ext SSE /\ isfin x = true /\ isfin y = true /\ (fun r => (bpow radix2 (-126) <= r)%R) (val x) /\ (fun r => (bpow radix2 (-126) <= r)%R) (val y) /\ (val x <= val y)%R.
Proof.
  intros x y. destruct (lit32 (3) (-4)) as [A V]; [lia|lia|]. destruct (lit32 (12345) (-4)) as [A' W]; [lia|lia|]. fold x in A, V. fold y in A', W.
  split; [fitm|]. split; [exact A|]. split; [exact A'|]. split; [|split]; first [exact Logic.I|idtac]; assert (T117 : (bpow radix2 (-117) <= / 1024)%R) by (change (/ 1024)%R with (bpow radix2 (-10)); apply bpow_le; lia); assert (T126 : (bpow radix2 (-126) <= / 1024)%R) by (change (/ 1024)%R with (bpow radix2 (-10)); apply bpow_le; lia); unfold half_wave, half_turn, from_to; try change (2 * 0 + 1)%Z with 1%Z; try change (2 * 0)%Z with 0%Z; rewrite ?V, ?W; pose proof pi_range; change (bpow radix2 (-4)) with (/ 16)%R;
  repeat match goal with |- _ /\ _ => split end; try (apply Rabs_le; split); try lra.
Qed.

(** The buffer function. *)
Theorem C77_amp2db_vec_simd_rises : 
  forall (c : cfg) (B : backend) (n : nans F32) (k : nans F64) (m : mem (F F32)) (out inp len : Z), math_backend c B -> unary_fit B m out inp len -> all_in (fun r => (bpow radix2 (-126) <= r)%R) m inp len ->
    same_order m (amp2db_vec_simd c B n k m out inp len) out inp len.
Proof. exact C77_amp2db_vec_simd_rises_lemma. Qed.

Example C77_amp2db_vec_simd_rises_ex :
  let m := block 0 80 (fun a => f_lit F32 (1 * a + -30) (-4)) in
  math_backend all_ext AVX32 /\ unary_fit AVX32 m 32 40 32 /\ all_in (fun r => (bpow radix2 (-126) <= r)%R) m 40 32.
Proof.
  split; [left; reflexivity|]. split; [fitm|]. intros i x Hi E. rewrite block_in in E by lia. apply some_inj in E. subst x.
  destruct (lit32 (1 * (40 + i) + -30) (-4)) as [A V]; [lia|lia|]. split; [exact A|].
  assert (Q1 : (IZR (10) <= IZR (1 * (40 + i) + -30))%R) by (apply IZR_le; lia).
  assert (Q2 : (IZR (1 * (40 + i) + -30) <= IZR (41))%R) by (apply IZR_le; lia).
  first [exact Logic.I|idtac]; assert (T117 : (bpow radix2 (-117) <= / 1024)%R) by (change (/ 1024)%R with (bpow radix2 (-10)); apply bpow_le; lia); assert (T126 : (bpow radix2 (-126) <= / 1024)%R) by (change (/ 1024)%R with (bpow radix2 (-10)); apply bpow_le; lia); unfold half_wave, half_turn, from_to; try change (2 * 0 + 1)%Z with 1%Z; try change (2 * 0)%Z with 0%Z; rewrite ?V; pose proof pi_range; change (bpow radix2 (-4)) with (/ 16)%R;
  repeat match goal with |- _ /\ _ => split end; try (apply Rabs_le; split); try lra.
Qed.

(** A greater frequency never gives a lower MIDI note number. *)
Theorem C77_freq2midi_rises : 
  forall (c : cfg) (I : isa) (n : nans F32) (k : nans F64), math_isa c I -> rising (fun r => (bpow radix2 (-117) <= r)%R) (freq2midi c I n k).
Proof. exact C77_freq2midi_rises_lemma. Qed.

Example C77_freq2midi_rises_ex :
  let x := f_lit F32 (300) (-4) in let y := f_lit F32 (12345) (-4) in
  math_isa all_ext SSE /\ isfin x = true /\ isfin y = true /\ (fun r => (bpow radix2 (-117) <= r)%R) (val x) /\ (fun r => (bpow radix2 (-117) <= r)%R) (val y) /\ (val x <= val y)%R.
Proof.
  intros x y. destruct (lit32 (300) (-4)) as [A V]; [lia|lia|]. destruct (lit32 (12345) (-4)) as [A' W]; [lia|lia|]. fold x in A, V. fold y in A', W.
  split; [fitm|]. split; [exact A|]. split; [exact A'|]. split; [|split]; first [exact Logic.I|idtac]; assert (T117 : (bpow radix2 (-117) <= / 1024)%R) by (change (/ 1024)%R with (bpow radix2 (-10)); apply bpow_le; lia); assert (T126 : (bpow radix2 (-126) <= / 1024)%R) by (change (/ 1024)%R with (bpow radix2 (-10)); apply bpow_le; lia); unfold half_wave, half_turn, from_to; try change (2 * 0 + 1)%Z with 1%Z; try change (2 * 0)%Z with 0%Z; rewrite ?V, ?W; pose proof pi_range; change (bpow radix2 (-4)) with (/ 16)%R;
  repeat match goal with |- _ /\ _ => split end; try (apply Rabs_le; split); try lra.
Qed.

(** The buffer function. *)
Theorem C77_freq2midi_vec_simd_rises : 
  forall (c : cfg) (B : backend) (n : nans F32) (k : nans F64) (m : mem (F F32)) (out inp len : Z), math_backend c B -> unary_fit B m out inp len -> all_in (fun r => (bpow radix2 (-117) <= r)%R) m inp len ->
    same_order m (freq2midi_vec_simd c B n k m out inp len) out inp len.
Proof. exact C77_freq2midi_vec_simd_rises_lemma. Qed.

Example C77_freq2midi_vec_simd_rises_ex :
  let m := block 0 80 (fun a => f_lit F32 (64 * a + -30) (-4)) in
  math_backend all_ext AVX32 /\ unary_fit AVX32 m 32 40 32 /\ all_in (fun r => (bpow radix2 (-117) <= r)%R) m 40 32.
Proof.
  split; [left; reflexivity|]. split; [fitm|]. intros i x Hi E. rewrite block_in in E by lia. apply some_inj in E. subst x.
  destruct (lit32 (64 * (40 + i) + -30) (-4)) as [A V]; [lia|lia|]. split; [exact A|].
  assert (Q1 : (IZR (2530) <= IZR (64 * (40 + i) + -30))%R) by (apply IZR_le; lia).
  assert (Q2 : (IZR (64 * (40 + i) + -30) <= IZR (4514))%R) by (apply IZR_le; lia).
  first [exact Logic.I|idtac]; assert (T117 : (bpow radix2 (-117) <= / 1024)%R) by (change (/ 1024)%R with (bpow radix2 (-10)); apply bpow_le; lia); assert (T126 : (bpow radix2 (-126) <= / 1024)%R) by (change (/ 1024)%R with (bpow radix2 (-10)); apply bpow_le; lia); unfold half_wave, half_turn, from_to; try change (2 * 0 + 1)%Z with 1%Z; try change (2 * 0)%Z with 0%Z; rewrite ?V; pose proof pi_range; change (bpow radix2 (-4)) with (/ 16)%R;
  repeat match goal with |- _ /\ _ => split end; try (apply Rabs_le; split); try lra.
Qed.

(** Nor a lower octave. *)
Theorem C77_freq2oct_rises : 
  forall (c : cfg) (I : isa) (n : nans F32) (k : nans F64), math_isa c I -> rising (fun r => (bpow radix2 (-117) <= r)%R) (freq2oct c I n k).
Proof. exact C77_freq2oct_rises_lemma. Qed.

Example C77_freq2oct_rises_ex :
  let x := f_lit F32 (300) (-4) in let y := f_lit F32 (12345) (-4) in
  math_isa all_ext SSE /\ isfin x = true /\ isfin y = true /\ (fun r => (bpow radix2 (-117) <= r)%R) (val x) /\ (fun r => (bpow radix2 (-117) <= r)%R) (val y) /\ (val x <= val y)%R.
Proof.
  intros x y. destruct (lit32 (300) (-4)) as [A V]; [lia|lia|]. destruct (lit32 (12345) (-4)) as [A' W]; [lia|lia|]. fold x in A, V. fold y in A', W.
  split; [fitm|]. split; [exact A|]. split; [exact A'|]. split; [|split]; first [exact Logic.I|idtac]; assert (T117 : (bpow radix2 (-117) <= / 1024)%R) by (change (/ 1024)%R with (bpow radix2 (-10)); apply bpow_le; lia); assert (T126 : (bpow radix2 (-126) <= / 1024)%R) by (change (/ 1024)%R with (bpow radix2 (-10)); apply bpow_le; lia); unfold half_wave, half_turn, from_to; try change (2 * 0 + 1)%Z with 1%Z; try change (2 * 0)%Z with 0%Z; rewrite ?V, ?W; pose proof pi_range; change (bpow radix2 (-4)) with (/ 16)%R;
  repeat match goal with |- _ /\ _ => split end; try (apply Rabs_le; split); try lra.
Qed.

(** The buffer function. *)
Theorem C77_freq2oct_vec_simd_rises : 
  forall (c : cfg) (B : backend) (n : nans F32) (k : nans F64) (m : mem (F F32)) (out inp len : Z), math_backend c B -> unary_fit B m out inp len -> all_in (fun r => (bpow radix2 (-117) <= r)%R) m inp len ->
    same_order m (freq2oct_vec_simd c B n k m out inp len) out inp len.
Proof. exact C77_freq2oct_vec_simd_rises_lemma. Qed.

Example C77_freq2oct_vec_simd_rises_ex :
  let m := block 0 80 (fun a => f_lit F32 (64 * a + -30) (-4)) in
  math_backend all_ext AVX32 /\ unary_fit AVX32 m 32 40 32 /\ all_in (fun r => (bpow radix2 (-117) <= r)%R) m 40 32.
Proof.
  split; [left; reflexivity|]. split; [fitm|]. intros i x Hi E. rewrite block_in in E by lia. apply some_inj in E. subst x.
  destruct (lit32 (64 * (40 + i) + -30) (-4)) as [A V]; [lia|lia|]. split; [exact A|].
  assert (Q1 : (IZR (2530) <= IZR (64 * (40 + i) + -30))%R) by (apply IZR_le; lia).
  assert (Q2 : (IZR (64 * (40 + i) + -30) <= IZR (4514))%R) by (apply IZR_le; lia).
  first [exact Logic.I|idtac]; assert (T117 : (bpow radix2 (-117) <= / 1024)%R) by (change (/ 1024)%R with (bpow radix2 (-10)); apply bpow_le; lia); assert (T126 : (bpow radix2 (-126) <= / 1024)%R) by (change (/ 1024)%R with (bpow radix2 (-10)); apply bpow_le; lia); unfold half_wave, half_turn, from_to; try change (2 * 0 + 1)%Z with 1%Z; try change (2 * 0)%Z with 0%Z; rewrite ?V; pose proof pi_range; change (bpow radix2 (-4)) with (/ 16)%R;
  repeat match goal with |- _ /\ _ => split end; try (apply Rabs_le; split); try lra.
Qed.

(** All theorems of this file together, for one run of Print Assumptions. *)
Definition all_Order2 := (
  C77_log_rises,
  C77_log_vec_simd_rises,
  C77_log2_rises,
  C77_log2_vec_simd_rises,
  C77_log10_rises,
  C77_log10_vec_simd_rises,
  C77_tanh_rises,
  C77_tanh_vec_simd_rises,
  C77_exp_rises,
  C77_exp_vec_simd_rises,
  C77_exp_order_refuted,
  C77_ratio2midi_rises,
  C77_ratio2midi_vec_simd_rises,
  C77_amp2db_rises,
  C77_amp2db_vec_simd_rises,
  C77_freq2midi_rises,
  C77_freq2midi_vec_simd_rises,
  C77_freq2oct_rises,
  C77_freq2oct_vec_simd_rises).
Print Assumptions all_Order2.
