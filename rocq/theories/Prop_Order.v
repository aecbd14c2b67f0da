(** Order and range of the trigonometric functions (C75, C76). *)
From Coq Require Import ZArith Reals Ratan List Lia Bool Lra.
From Flocq Require Import Core IEEE754.Binary IEEE754.Bits.
From Verif Require Import
  Base Mem Backend Args Drivers Functors Lanes Float LaneOps FloatOps ScalarMath VecMath FloatFuns IntVec TransMath TransFuns Spec SpecLane SpecMath SpecOrder
  FloatFacts FloatRound RoundMore RealTrig MathMore ExData ExFloat ExMath OrderClaims.
Import ListNotations.
Local Open Scope Z_scope.

(** * C75: sin, cos and tan keep their order and their range *)

(** sin stays from -1 to 1, with no tolerance, for every float up to 8192 in magnitude. *)
Theorem C75_sin_range : 
  forall (c : cfg) (I : isa) (n : nans F32), math_isa c I -> ranges (fun r => (Rabs r <= 8192)%R) (-1) 1 (vec_sin_float c I n).
Proof. exact C75_sin_range_lemma. Qed.

Example C75_sin_range_ex :
  let x := f_lit F32 (12345) (-2) in
  math_isa all_ext SSE /\ isfin x = true /\ (fun r => (Rabs r <= 8192)%R) (val x).
Proof.
  intros x. destruct (lit32 (12345) (-2)) as [A V]; [lia|lia|]. fold x in A, V. assert (W : val x = val x) by reflexivity. split; [fitm|]. split; [exact A|]. first [exact Logic.I|idtac]; unfold half_wave, half_turn, from_to; try change (2 * 0 + 1)%Z with 1%Z; try change (2 * 0)%Z with 0%Z; rewrite ?V; pose proof pi_range; change (bpow radix2 (-2)) with (/ 4)%R;
  repeat match goal with |- _ /\ _ => split end; try (apply Rabs_le; split); try lra.
Qed.

(** The buffer function. *)
Theorem C75_sin_vec_simd_range : 
  forall (c : cfg) (B : backend) (n : nans F32) (m : mem (F F32)) (out inp len : Z), math_backend c B -> unary_fit B m out inp len -> all_in (fun r => (Rabs r <= 8192)%R) m inp len ->
    all_between (-1) 1 m (sin_vec_simd c B n m out inp len) out len.
Proof. exact C75_sin_vec_simd_range_lemma. Qed.

Example C75_sin_vec_simd_range_ex :
  let m := block 0 80 (fun a => f_lit F32 (16 * a + -900) (-4)) in
  math_backend all_ext AVX32 /\ unary_fit AVX32 m 32 40 32 /\ all_in (fun r => (Rabs r <= 8192)%R) m 40 32.
Proof.
  split; [left; reflexivity|]. split; [fitm|]. intros i x Hi E. rewrite block_in in E by lia. apply some_inj in E. subst x.
  destruct (lit32 (16 * (40 + i) + -900) (-4)) as [A V]; [lia|lia|]. split; [exact A|].
  assert (Q1 : (IZR (-260) <= IZR (16 * (40 + i) + -900))%R) by (apply IZR_le; lia).
  assert (Q2 : (IZR (16 * (40 + i) + -900) <= IZR (236))%R) by (apply IZR_le; lia).
  first [exact Logic.I|idtac]; unfold half_wave, half_turn, from_to; try change (2 * 0 + 1)%Z with 1%Z; try change (2 * 0)%Z with 0%Z; rewrite ?V; pose proof pi_range; change (bpow radix2 (-4)) with (/ 16)%R;
  repeat match goal with |- _ /\ _ => split end; try (apply Rabs_le; split); try lra.
Qed.

(** cos likewise. *)
Theorem C75_cos_range : 
  forall (c : cfg) (I : isa) (n : nans F32), math_isa c I -> ranges (fun r => (Rabs r <= 8192)%R) (-1) 1 (vec_cos_float c I n).
Proof. exact C75_cos_range_lemma. Qed.

Example C75_cos_range_ex :
  let x := f_lit F32 (12345) (-2) in
  math_isa all_ext SSE /\ isfin x = true /\ (fun r => (Rabs r <= 8192)%R) (val x).
Proof.
  intros x. destruct (lit32 (12345) (-2)) as [A V]; [lia|lia|]. fold x in A, V. assert (W : val x = val x) by reflexivity. split; [fitm|]. split; [exact A|]. first [exact Logic.I|idtac]; unfold half_wave, half_turn, from_to; try change (2 * 0 + 1)%Z with 1%Z; try change (2 * 0)%Z with 0%Z; rewrite ?V; pose proof pi_range; change (bpow radix2 (-2)) with (/ 4)%R;
  repeat match goal with |- _ /\ _ => split end; try (apply Rabs_le; split); try lra.
Qed.

(** The buffer function. *)
Theorem C75_cos_vec_simd_range : 
  forall (c : cfg) (B : backend) (n : nans F32) (m : mem (F F32)) (out inp len : Z), math_backend c B -> unary_fit B m out inp len -> all_in (fun r => (Rabs r <= 8192)%R) m inp len ->
    all_between (-1) 1 m (cos_vec_simd c B n m out inp len) out len.
Proof. exact C75_cos_vec_simd_range_lemma. Qed.

Example C75_cos_vec_simd_range_ex :
  let m := block 0 80 (fun a => f_lit F32 (16 * a + -900) (-4)) in
  math_backend all_ext AVX32 /\ unary_fit AVX32 m 32 40 32 /\ all_in (fun r => (Rabs r <= 8192)%R) m 40 32.
Proof.
  split; [left; reflexivity|]. split; [fitm|]. intros i x Hi E. rewrite block_in in E by lia. apply some_inj in E. subst x.
  destruct (lit32 (16 * (40 + i) + -900) (-4)) as [A V]; [lia|lia|]. split; [exact A|].
  assert (Q1 : (IZR (-260) <= IZR (16 * (40 + i) + -900))%R) by (apply IZR_le; lia).
  assert (Q2 : (IZR (16 * (40 + i) + -900) <= IZR (236))%R) by (apply IZR_le; lia).
  first [exact Logic.I|idtac]; unfold half_wave, half_turn, from_to; try change (2 * 0 + 1)%Z with 1%Z; try change (2 * 0)%Z with 0%Z; rewrite ?V; pose proof pi_range; change (bpow radix2 (-4)) with (/ 16)%R;
  repeat match goal with |- _ /\ _ => split end; try (apply Rabs_le; split); try lra.
Qed.

(** On each of the half waves around an even multiple of pi sin never goes down. *)
Theorem C75_sin_rises : 
  forall (c : cfg) (I : isa) (n : nans F32) (k : Z), math_isa c I -> rising (half_wave (2 * k)) (vec_sin_float c I n).
Proof. exact C75_sin_rises_lemma. Qed.

Example C75_sin_rises_ex :
  let x := f_lit F32 (-24) (-4) in let y := f_lit F32 (25) (-4) in
  math_isa all_ext SSE /\ isfin x = true /\ isfin y = true /\ (half_wave (2 * 0)) (val x) /\ (half_wave (2 * 0)) (val y) /\ (val x <= val y)%R.
Proof.
  intros x y. destruct (lit32 (-24) (-4)) as [A V]; [lia|lia|]. destruct (lit32 (25) (-4)) as [A' W]; [lia|lia|]. fold x in A, V. fold y in A', W.
  split; [fitm|]. split; [exact A|]. split; [exact A'|]. split; [|split]; first [exact Logic.I|idtac]; unfold half_wave, half_turn, from_to; try change (2 * 0 + 1)%Z with 1%Z; try change (2 * 0)%Z with 0%Z; rewrite ?V, ?W; pose proof pi_range; change (bpow radix2 (-4)) with (/ 16)%R;
  repeat match goal with |- _ /\ _ => split end; try (apply Rabs_le; split); try lra.
Qed.

(** The buffer function. *)
Theorem C75_sin_vec_simd_rises : 
  forall (c : cfg) (B : backend) (n : nans F32) (m : mem (F F32)) (out inp len : Z) (k : Z), math_backend c B -> unary_fit B m out inp len -> all_in (half_wave (2 * k)) m inp len ->
    same_order m (sin_vec_simd c B n m out inp len) out inp len.
Proof. exact C75_sin_vec_simd_rises_lemma. Qed.

Example C75_sin_vec_simd_rises_ex :
  let m := block 0 80 (fun a => f_lit F32 (1 * a + -56) (-4)) in
  math_backend all_ext AVX32 /\ unary_fit AVX32 m 32 40 32 /\ all_in (half_wave (2 * 0)) m 40 32.
Proof.
  split; [left; reflexivity|]. split; [fitm|]. intros i x Hi E. rewrite block_in in E by lia. apply some_inj in E. subst x.
  destruct (lit32 (1 * (40 + i) + -56) (-4)) as [A V]; [lia|lia|]. split; [exact A|].
  assert (Q1 : (IZR (-16) <= IZR (1 * (40 + i) + -56))%R) by (apply IZR_le; lia).
  assert (Q2 : (IZR (1 * (40 + i) + -56) <= IZR (15))%R) by (apply IZR_le; lia).
  first [exact Logic.I|idtac]; unfold half_wave, half_turn, from_to; try change (2 * 0 + 1)%Z with 1%Z; try change (2 * 0)%Z with 0%Z; rewrite ?V; pose proof pi_range; change (bpow radix2 (-4)) with (/ 16)%R;
  repeat match goal with |- _ /\ _ => split end; try (apply Rabs_le; split); try lra.
Qed.

(** On each of the half waves around an odd multiple of pi sin never goes up. *)
Theorem C75_sin_falls : 
  forall (c : cfg) (I : isa) (n : nans F32) (k : Z), math_isa c I -> falling (half_wave (2 * k + 1)) (vec_sin_float c I n).
Proof. exact C75_sin_falls_lemma. Qed.

Example C75_sin_falls_ex :
  let x := f_lit F32 (26) (-4) in let y := f_lit F32 (75) (-4) in
  math_isa all_ext SSE /\ isfin x = true /\ isfin y = true /\ (half_wave (2 * 0 + 1)) (val x) /\ (half_wave (2 * 0 + 1)) (val y) /\ (val x <= val y)%R.
Proof.
  intros x y. destruct (lit32 (26) (-4)) as [A V]; [lia|lia|]. destruct (lit32 (75) (-4)) as [A' W]; [lia|lia|]. fold x in A, V. fold y in A', W.
  split; [fitm|]. split; [exact A|]. split; [exact A'|]. split; [|split]; first [exact Logic.I|idtac]; unfold half_wave, half_turn, from_to; try change (2 * 0 + 1)%Z with 1%Z; try change (2 * 0)%Z with 0%Z; rewrite ?V, ?W; pose proof pi_range; change (bpow radix2 (-4)) with (/ 16)%R;
  repeat match goal with |- _ /\ _ => split end; try (apply Rabs_le; split); try lra.
Qed.

(** The buffer function. *)
Theorem C75_sin_vec_simd_falls : 
  forall (c : cfg) (B : backend) (n : nans F32) (m : mem (F F32)) (out inp len : Z) (k : Z), math_backend c B -> unary_fit B m out inp len -> all_in (half_wave (2 * k + 1)) m inp len ->
    reverse_order m (sin_vec_simd c B n m out inp len) out inp len.
Proof. exact C75_sin_vec_simd_falls_lemma. Qed.

Example C75_sin_vec_simd_falls_ex :
  let m := block 0 80 (fun a => f_lit F32 (1 * a + -10) (-4)) in
  math_backend all_ext AVX32 /\ unary_fit AVX32 m 32 40 32 /\ all_in (half_wave (2 * 0 + 1)) m 40 32.
Proof.
  split; [left; reflexivity|]. split; [fitm|]. intros i x Hi E. rewrite block_in in E by lia. apply some_inj in E. subst x.
  destruct (lit32 (1 * (40 + i) + -10) (-4)) as [A V]; [lia|lia|]. split; [exact A|].
  assert (Q1 : (IZR (30) <= IZR (1 * (40 + i) + -10))%R) by (apply IZR_le; lia).
  assert (Q2 : (IZR (1 * (40 + i) + -10) <= IZR (61))%R) by (apply IZR_le; lia).
  first [exact Logic.I|idtac]; unfold half_wave, half_turn, from_to; try change (2 * 0 + 1)%Z with 1%Z; try change (2 * 0)%Z with 0%Z; rewrite ?V; pose proof pi_range; change (bpow radix2 (-4)) with (/ 16)%R;
  repeat match goal with |- _ /\ _ => split end; try (apply Rabs_le; split); try lra.
Qed.

(** From an even multiple of pi to the next multiple cos never goes up. *)
Theorem C75_cos_falls : 
  forall (c : cfg) (I : isa) (n : nans F32) (k : Z), math_isa c I -> falling (half_turn (2 * k)) (vec_cos_float c I n).
Proof. exact C75_cos_falls_lemma. Qed.

Example C75_cos_falls_ex :
  let x := f_lit F32 (1) (-4) in let y := f_lit F32 (50) (-4) in
  math_isa all_ext SSE /\ isfin x = true /\ isfin y = true /\ (half_turn (2 * 0)) (val x) /\ (half_turn (2 * 0)) (val y) /\ (val x <= val y)%R.
Proof.
  intros x y. destruct (lit32 (1) (-4)) as [A V]; [lia|lia|]. destruct (lit32 (50) (-4)) as [A' W]; [lia|lia|]. fold x in A, V. fold y in A', W.
  split; [fitm|]. split; [exact A|]. split; [exact A'|]. split; [|split]; first [exact Logic.I|idtac]; unfold half_wave, half_turn, from_to; try change (2 * 0 + 1)%Z with 1%Z; try change (2 * 0)%Z with 0%Z; rewrite ?V, ?W; pose proof pi_range; change (bpow radix2 (-4)) with (/ 16)%R;
  repeat match goal with |- _ /\ _ => split end; try (apply Rabs_le; split); try lra.
Qed.

(** The buffer function. *)
Theorem C75_cos_vec_simd_falls : 
  forall (c : cfg) (B : backend) (n : nans F32) (m : mem (F F32)) (out inp len : Z) (k : Z), math_backend c B -> unary_fit B m out inp len -> all_in (half_turn (2 * k)) m inp len ->
    reverse_order m (cos_vec_simd c B n m out inp len) out inp len.
Proof. exact C75_cos_vec_simd_falls_lemma. Qed.

Example C75_cos_vec_simd_falls_ex :
  let m := block 0 80 (fun a => f_lit F32 (1 * a + -30) (-4)) in
  math_backend all_ext AVX32 /\ unary_fit AVX32 m 32 40 32 /\ all_in (half_turn (2 * 0)) m 40 32.
Proof.
  split; [left; reflexivity|]. split; [fitm|]. intros i x Hi E. rewrite block_in in E by lia. apply some_inj in E. subst x.
  destruct (lit32 (1 * (40 + i) + -30) (-4)) as [A V]; [lia|lia|]. split; [exact A|].
  assert (Q1 : (IZR (10) <= IZR (1 * (40 + i) + -30))%R) by (apply IZR_le; lia).
  assert (Q2 : (IZR (1 * (40 + i) + -30) <= IZR (41))%R) by (apply IZR_le; lia).
  first [exact Logic.I|idtac]; unfold half_wave, half_turn, from_to; try change (2 * 0 + 1)%Z with 1%Z; try change (2 * 0)%Z with 0%Z; rewrite ?V; pose proof pi_range; change (bpow radix2 (-4)) with (/ 16)%R;
  repeat match goal with |- _ /\ _ => split end; try (apply Rabs_le; split); try lra.
Qed.

(** From an odd multiple of pi to the next multiple cos never goes down. *)
Theorem C75_cos_rises : 
  forall (c : cfg) (I : isa) (n : nans F32) (k : Z), math_isa c I -> rising (half_turn (2 * k + 1)) (vec_cos_float c I n).
Proof. exact C75_cos_rises_lemma. Qed.

Example C75_cos_rises_ex :
  let x := f_lit F32 (51) (-4) in let y := f_lit F32 (100) (-4) in
  math_isa all_ext SSE /\ isfin x = true /\ isfin y = true /\ (half_turn (2 * 0 + 1)) (val x) /\ (half_turn (2 * 0 + 1)) (val y) /\ (val x <= val y)%R.
Proof.
  intros x y. destruct (lit32 (51) (-4)) as [A V]; [lia|lia|]. destruct (lit32 (100) (-4)) as [A' W]; [lia|lia|]. fold x in A, V. fold y in A', W.
  split; [fitm|]. split; [exact A|]. split; [exact A'|]. split; [|split]; first [exact Logic.I|idtac]; unfold half_wave, half_turn, from_to; try change (2 * 0 + 1)%Z with 1%Z; try change (2 * 0)%Z with 0%Z; rewrite ?V, ?W; pose proof pi_range; change (bpow radix2 (-4)) with (/ 16)%R;
  repeat match goal with |- _ /\ _ => split end; try (apply Rabs_le; split); try lra.
Qed.

(** The buffer function. *)
Theorem C75_cos_vec_simd_rises : 
  forall (c : cfg) (B : backend) (n : nans F32) (m : mem (F F32)) (out inp len : Z) (k : Z), math_backend c B -> unary_fit B m out inp len -> all_in (half_turn (2 * k + 1)) m inp len ->
    same_order m (cos_vec_simd c B n m out inp len) out inp len.
Proof. exact C75_cos_vec_simd_rises_lemma. Qed.

Example C75_cos_vec_simd_rises_ex :
  let m := block 0 80 (fun a => f_lit F32 (1 * a + 20) (-4)) in
  math_backend all_ext AVX32 /\ unary_fit AVX32 m 32 40 32 /\ all_in (half_turn (2 * 0 + 1)) m 40 32.
Proof.
  split; [left; reflexivity|]. split; [fitm|]. intros i x Hi E. rewrite block_in in E by lia. apply some_inj in E. subst x.
  destruct (lit32 (1 * (40 + i) + 20) (-4)) as [A V]; [lia|lia|]. split; [exact A|].
  assert (Q1 : (IZR (60) <= IZR (1 * (40 + i) + 20))%R) by (apply IZR_le; lia).
  assert (Q2 : (IZR (1 * (40 + i) + 20) <= IZR (91))%R) by (apply IZR_le; lia).
  first [exact Logic.I|idtac]; unfold half_wave, half_turn, from_to; try change (2 * 0 + 1)%Z with 1%Z; try change (2 * 0)%Z with 0%Z; rewrite ?V; pose proof pi_range; change (bpow radix2 (-4)) with (/ 16)%R;
  repeat match goal with |- _ /\ _ => split end; try (apply Rabs_le; split); try lra.
Qed.

(** Between two neighbouring poles tan never goes down. *)
Theorem C75_tan_rises : 
  forall (c : cfg) (I : isa) (n : nans F32) (k : Z), math_isa c I -> rising (half_wave k) (vec_tan_float c I n).
Proof. exact C75_tan_rises_lemma. Qed.

Example C75_tan_rises_ex :
  let x := f_lit F32 (26) (-4) in let y := f_lit F32 (75) (-4) in
  math_isa all_ext SSE /\ isfin x = true /\ isfin y = true /\ (half_wave 1) (val x) /\ (half_wave 1) (val y) /\ (val x <= val y)%R.
Proof.
  intros x y. destruct (lit32 (26) (-4)) as [A V]; [lia|lia|]. destruct (lit32 (75) (-4)) as [A' W]; [lia|lia|]. fold x in A, V. fold y in A', W.
  split; [fitm|]. split; [exact A|]. split; [exact A'|]. split; [|split]; first [exact Logic.I|idtac]; unfold half_wave, half_turn, from_to; try change (2 * 0 + 1)%Z with 1%Z; try change (2 * 0)%Z with 0%Z; rewrite ?V, ?W; pose proof pi_range; change (bpow radix2 (-4)) with (/ 16)%R;
  repeat match goal with |- _ /\ _ => split end; try (apply Rabs_le; split); try lra.
Qed.

(** The buffer function. *)
Theorem C75_tan_vec_simd_rises : 
  forall (c : cfg) (B : backend) (n : nans F32) (m : mem (F F32)) (out inp len : Z) (k : Z), math_backend c B -> unary_fit B m out inp len -> all_in (half_wave k) m inp len ->
    same_order m (tan_vec_simd c B n m out inp len) out inp len.
Proof. exact C75_tan_vec_simd_rises_lemma. Qed.

Example C75_tan_vec_simd_rises_ex :
  let m := block 0 80 (fun a => f_lit F32 (1 * a + -10) (-4)) in
  math_backend all_ext AVX32 /\ unary_fit AVX32 m 32 40 32 /\ all_in (half_wave 1) m 40 32.
Proof.
  split; [left; reflexivity|]. split; [fitm|]. intros i x Hi E. rewrite block_in in E by lia. apply some_inj in E. subst x.
  destruct (lit32 (1 * (40 + i) + -10) (-4)) as [A V]; [lia|lia|]. split; [exact A|].
  assert (Q1 : (IZR (30) <= IZR (1 * (40 + i) + -10))%R) by (apply IZR_le; lia).
  assert (Q2 : (IZR (1 * (40 + i) + -10) <= IZR (61))%R) by (apply IZR_le; lia).
  first [exact Logic.I|idtac]; unfold half_wave, half_turn, from_to; try change (2 * 0 + 1)%Z with 1%Z; try change (2 * 0)%Z with 0%Z; rewrite ?V; pose proof pi_range; change (bpow radix2 (-4)) with (/ 16)%R;
  repeat match goal with |- _ /\ _ => split end; try (apply Rabs_le; split); try lra.
Qed.

(** * C76: asin, acos and atan keep their range, asin and acos their order *)

(** asin never goes down on [-1, 1]. *)
Theorem C76_asin_rises : 
  forall (c : cfg) (I : isa) (n : nans F32), math_isa c I -> rising (from_to (-1) 1) (vec_asin_float c I n).
Proof. exact C76_asin_rises_lemma. Qed.

Example C76_asin_rises_ex :
  let x := f_lit F32 (-3) (-4) in let y := f_lit F32 (16) (-4) in
  math_isa all_ext SSE /\ isfin x = true /\ isfin y = true /\ (from_to (-1) 1) (val x) /\ (from_to (-1) 1) (val y) /\ (val x <= val y)%R.
Proof.
  intros x y. destruct (lit32 (-3) (-4)) as [A V]; [lia|lia|]. destruct (lit32 (16) (-4)) as [A' W]; [lia|lia|]. fold x in A, V. fold y in A', W.
  split; [fitm|]. split; [exact A|]. split; [exact A'|]. split; [|split]; first [exact Logic.I|idtac]; unfold half_wave, half_turn, from_to; try change (2 * 0 + 1)%Z with 1%Z; try change (2 * 0)%Z with 0%Z; rewrite ?V, ?W; pose proof pi_range; change (bpow radix2 (-4)) with (/ 16)%R;
  repeat match goal with |- _ /\ _ => split end; try (apply Rabs_le; split); try lra.
Qed.

(** The buffer function. *)
Theorem C76_asin_vec_simd_rises : 
  forall (c : cfg) (B : backend) (n : nans F32) (m : mem (F F32)) (out inp len : Z), math_backend c B -> unary_fit B m out inp len -> all_in (from_to (-1) 1) m inp len ->
    same_order m (asin_vec_simd c B n m out inp len) out inp len.
Proof. exact C76_asin_vec_simd_rises_lemma. Qed.

Example C76_asin_vec_simd_rises_ex :
  let m := block 0 80 (fun a => f_lit F32 (1 * a + -56) (-4)) in
  math_backend all_ext AVX32 /\ unary_fit AVX32 m 32 40 32 /\ all_in (from_to (-1) 1) m 40 32.
Proof.
  split; [left; reflexivity|]. split; [fitm|]. intros i x Hi E. rewrite block_in in E by lia. apply some_inj in E. subst x.
  destruct (lit32 (1 * (40 + i) + -56) (-4)) as [A V]; [lia|lia|]. split; [exact A|].
  assert (Q1 : (IZR (-16) <= IZR (1 * (40 + i) + -56))%R) by (apply IZR_le; lia).
  assert (Q2 : (IZR (1 * (40 + i) + -56) <= IZR (15))%R) by (apply IZR_le; lia).
  first [exact Logic.I|idtac]; unfold half_wave, half_turn, from_to; try change (2 * 0 + 1)%Z with 1%Z; try change (2 * 0)%Z with 0%Z; rewrite ?V; pose proof pi_range; change (bpow radix2 (-4)) with (/ 16)%R;
  repeat match goal with |- _ /\ _ => split end; try (apply Rabs_le; split); try lra.
Qed.

(** asin stays between the float next to -pi/2 and the float next to pi/2. *)
Theorem C76_asin_range : 
  forall (c : cfg) (I : isa) (n : nans F32), math_isa c I -> ranges (from_to (-1) 1) (- (13176795 / 8388608))%R (13176795 / 8388608)%R (vec_asin_float c I n).
Proof. exact C76_asin_range_lemma. Qed.

Example C76_asin_range_ex :
  let x := f_lit F32 (-3) (-4) in
  math_isa all_ext SSE /\ isfin x = true /\ (from_to (-1) 1) (val x).
Proof.
  intros x. destruct (lit32 (-3) (-4)) as [A V]; [lia|lia|]. fold x in A, V. assert (W : val x = val x) by reflexivity. split; [fitm|]. split; [exact A|]. first [exact Logic.I|idtac]; unfold half_wave, half_turn, from_to; try change (2 * 0 + 1)%Z with 1%Z; try change (2 * 0)%Z with 0%Z; rewrite ?V; pose proof pi_range; change (bpow radix2 (-4)) with (/ 16)%R;
  repeat match goal with |- _ /\ _ => split end; try (apply Rabs_le; split); try lra.
Qed.

(** The buffer function. *)
Theorem C76_asin_vec_simd_range : 
  forall (c : cfg) (B : backend) (n : nans F32) (m : mem (F F32)) (out inp len : Z), math_backend c B -> unary_fit B m out inp len -> all_in (from_to (-1) 1) m inp len ->
    all_between (- (13176795 / 8388608))%R (13176795 / 8388608)%R m (asin_vec_simd c B n m out inp len) out len.
Proof. exact C76_asin_vec_simd_range_lemma. Qed.

Example C76_asin_vec_simd_range_ex :
  let m := block 0 80 (fun a => f_lit F32 (1 * a + -56) (-4)) in
  math_backend all_ext AVX32 /\ unary_fit AVX32 m 32 40 32 /\ all_in (from_to (-1) 1) m 40 32.
Proof.
  split; [left; reflexivity|]. split; [fitm|]. intros i x Hi E. rewrite block_in in E by lia. apply some_inj in E. subst x.
  destruct (lit32 (1 * (40 + i) + -56) (-4)) as [A V]; [lia|lia|]. split; [exact A|].
  assert (Q1 : (IZR (-16) <= IZR (1 * (40 + i) + -56))%R) by (apply IZR_le; lia).
  assert (Q2 : (IZR (1 * (40 + i) + -56) <= IZR (15))%R) by (apply IZR_le; lia).
  first [exact Logic.I|idtac]; unfold half_wave, half_turn, from_to; try change (2 * 0 + 1)%Z with 1%Z; try change (2 * 0)%Z with 0%Z; rewrite ?V; pose proof pi_range; change (bpow radix2 (-4)) with (/ 16)%R;
  repeat match goal with |- _ /\ _ => split end; try (apply Rabs_le; split); try lra.
Qed.

(** acos never goes up on [-1, 1], apart from the argument -1/2. *)
Theorem C76_acos_falls : 
  forall (c : cfg) (I : isa) (n : nans F32), math_isa c I -> falling (fun r => (-1 <= r <= 1 /\ r <> - 0.5)%R) (vec_acos_float c I n).
Proof. exact C76_acos_falls_lemma. Qed.

Example C76_acos_falls_ex :
  let x := f_lit F32 (-16) (-4) in let y := f_lit F32 (15) (-4) in
  math_isa all_ext SSE /\ isfin x = true /\ isfin y = true /\ (fun r => (-1 <= r <= 1 /\ r <> - 0.5)%R) (val x) /\ (fun r => (-1 <= r <= 1 /\ r <> - 0.5)%R) (val y) /\ (val x <= val y)%R.
Proof.
  intros x y. destruct (lit32 (-16) (-4)) as [A V]; [lia|lia|]. destruct (lit32 (15) (-4)) as [A' W]; [lia|lia|]. fold x in A, V. fold y in A', W.
  split; [fitm|]. split; [exact A|]. split; [exact A'|]. split; [|split]; first [exact Logic.I|idtac]; unfold half_wave, half_turn, from_to; try change (2 * 0 + 1)%Z with 1%Z; try change (2 * 0)%Z with 0%Z; rewrite ?V, ?W; pose proof pi_range; change (bpow radix2 (-4)) with (/ 16)%R;
  repeat match goal with |- _ /\ _ => split end; try (apply Rabs_le; split); try lra.
Qed.

(** The buffer function. *)
Theorem C76_acos_vec_simd_falls : 
  forall (c : cfg) (B : backend) (n : nans F32) (m : mem (F F32)) (out inp len : Z), math_backend c B -> unary_fit B m out inp len -> all_in (fun r => (-1 <= r <= 1 /\ r <> - 0.5)%R) m inp len ->
    reverse_order m (acos_vec_simd c B n m out inp len) out inp len.
Proof. exact C76_acos_vec_simd_falls_lemma. Qed.

Example C76_acos_vec_simd_falls_ex :
  let m := block 0 80 (fun a => f_lit F32 (2 * a + -111) (-6)) in
  math_backend all_ext AVX32 /\ unary_fit AVX32 m 32 40 32 /\ all_in (fun r => (-1 <= r <= 1 /\ r <> - 0.5)%R) m 40 32.
Proof.
  split; [left; reflexivity|]. split; [fitm|]. intros i x Hi E. rewrite block_in in E by lia. apply some_inj in E. subst x.
  destruct (lit32 (2 * (40 + i) + -111) (-6)) as [A V]; [lia|lia|]. split; [exact A|].
  assert (Q1 : (IZR (-31) <= IZR (2 * (40 + i) + -111))%R) by (apply IZR_le; lia).
  assert (Q2 : (IZR (2 * (40 + i) + -111) <= IZR (31))%R) by (apply IZR_le; lia).
  first [exact Logic.I|idtac]; unfold half_wave, half_turn, from_to; try change (2 * 0 + 1)%Z with 1%Z; try change (2 * 0)%Z with 0%Z; rewrite ?V; pose proof pi_range; change (bpow radix2 (-6)) with (/ 64)%R;
  repeat match goal with |- _ /\ _ => split end; try (apply Rabs_le; split); try lra.
Qed.

(** acos stays from 0 to the float next to pi, apart from the argument -1/2. *)
Theorem C76_acos_range : 
  forall (c : cfg) (I : isa) (n : nans F32), math_isa c I -> ranges (fun r => (-1 <= r <= 1 /\ r <> - 0.5)%R) 0%R (13176795 / 4194304)%R (vec_acos_float c I n).
Proof. exact C76_acos_range_lemma. Qed.

Example C76_acos_range_ex :
  let x := f_lit F32 (-3) (-4) in
  math_isa all_ext SSE /\ isfin x = true /\ (fun r => (-1 <= r <= 1 /\ r <> - 0.5)%R) (val x).
Proof.
  intros x. destruct (lit32 (-3) (-4)) as [A V]; [lia|lia|]. fold x in A, V. assert (W : val x = val x) by reflexivity. split; [fitm|]. split; [exact A|]. first [exact Logic.I|idtac]; unfold half_wave, half_turn, from_to; try change (2 * 0 + 1)%Z with 1%Z; try change (2 * 0)%Z with 0%Z; rewrite ?V; pose proof pi_range; change (bpow radix2 (-4)) with (/ 16)%R;
  repeat match goal with |- _ /\ _ => split end; try (apply Rabs_le; split); try lra.
Qed.

(** The buffer function. *)
Theorem C76_acos_vec_simd_range : 
  forall (c : cfg) (B : backend) (n : nans F32) (m : mem (F F32)) (out inp len : Z), math_backend c B -> unary_fit B m out inp len -> all_in (fun r => (-1 <= r <= 1 /\ r <> - 0.5)%R) m inp len ->
    all_between 0%R (13176795 / 4194304)%R m (acos_vec_simd c B n m out inp len) out len.
Proof. exact C76_acos_vec_simd_range_lemma. Qed.

Example C76_acos_vec_simd_range_ex :
  let m := block 0 80 (fun a => f_lit F32 (2 * a + -111) (-6)) in
  math_backend all_ext AVX32 /\ unary_fit AVX32 m 32 40 32 /\ all_in (fun r => (-1 <= r <= 1 /\ r <> - 0.5)%R) m 40 32.
Proof.
  split; [left; reflexivity|]. split; [fitm|]. intros i x Hi E. rewrite block_in in E by lia. apply some_inj in E. subst x.
  destruct (lit32 (2 * (40 + i) + -111) (-6)) as [A V]; [lia|lia|]. split; [exact A|].
  assert (Q1 : (IZR (-31) <= IZR (2 * (40 + i) + -111))%R) by (apply IZR_le; lia).
  assert (Q2 : (IZR (2 * (40 + i) + -111) <= IZR (31))%R) by (apply IZR_le; lia).
  first [exact Logic.I|idtac]; unfold half_wave, half_turn, from_to; try change (2 * 0 + 1)%Z with 1%Z; try change (2 * 0)%Z with 0%Z; rewrite ?V; pose proof pi_range; change (bpow radix2 (-6)) with (/ 64)%R;
  repeat match goal with |- _ /\ _ => split end; try (apply Rabs_le; split); try lra.
Qed.

(** With -1/2 included, acos is not decreasing on [-1, 1]. *)
Theorem C76_acos_minus_half_refuted : 
  forall (c : cfg) (I : isa) (n : nans F32), math_isa c I -> exists x y : F F32, isfin x = true /\ isfin y = true /\ (-1 <= val x < val y)%R /\ (val y <= 1)%R /\
    (val (vec_acos_float c I n x) < val (vec_acos_float c I n y))%R.
Proof. exact C76_acos_minus_half_refuted_lemma. Qed.

Example C76_acos_minus_half_refuted_ex :
  math_isa all_ext SSE.
Proof. fitm. Qed.

(** atan stays between the float next to -pi/2 and the float next to pi/2, for every
    finite float. *)
Theorem C76_atan_range : 
  forall (c : cfg) (I : isa) (n : nans F32), math_isa c I -> ranges (fun _ => True) (- (13176795 / 8388608))%R (13176795 / 8388608)%R (vec_atan_float c I n).
Proof. exact C76_atan_range_lemma. Qed.

Example C76_atan_range_ex :
  let x := f_lit F32 (-3) (-4) in
  math_isa all_ext SSE /\ isfin x = true /\ (fun _ => True) (val x).
Proof.
  intros x. destruct (lit32 (-3) (-4)) as [A V]; [lia|lia|]. fold x in A, V. assert (W : val x = val x) by reflexivity. split; [fitm|]. split; [exact A|]. first [exact Logic.I|idtac]; unfold half_wave, half_turn, from_to; try change (2 * 0 + 1)%Z with 1%Z; try change (2 * 0)%Z with 0%Z; rewrite ?V; pose proof pi_range; change (bpow radix2 (-4)) with (/ 16)%R;
  repeat match goal with |- _ /\ _ => split end; try (apply Rabs_le; split); try lra.
Qed.

(** The buffer function. *)
Theorem C76_atan_vec_simd_range : 
  forall (c : cfg) (B : backend) (n : nans F32) (m : mem (F F32)) (out inp len : Z), math_backend c B -> unary_fit B m out inp len -> all_in (fun _ => True) m inp len ->
    all_between (- (13176795 / 8388608))%R (13176795 / 8388608)%R m (atan_vec_simd c B n m out inp len) out len.
Proof. exact C76_atan_vec_simd_range_lemma. Qed.

Example C76_atan_vec_simd_range_ex :
  let m := block 0 80 (fun a => f_lit F32 (4 * a + -161) (-3)) in
  math_backend all_ext AVX32 /\ unary_fit AVX32 m 32 40 32 /\ all_in (fun _ => True) m 40 32.
Proof.
  split; [left; reflexivity|]. split; [fitm|]. intros i x Hi E. rewrite block_in in E by lia. apply some_inj in E. subst x.
  destruct (lit32 (4 * (40 + i) + -161) (-3)) as [A V]; [lia|lia|]. split; [exact A|].
  assert (Q1 : (IZR (-1) <= IZR (4 * (40 + i) + -161))%R) by (apply IZR_le; lia).
  assert (Q2 : (IZR (4 * (40 + i) + -161) <= IZR (123))%R) by (apply IZR_le; lia).
  first [exact Logic.I|idtac]; unfold half_wave, half_turn, from_to; try change (2 * 0 + 1)%Z with 1%Z; try change (2 * 0)%Z with 0%Z; rewrite ?V; pose proof pi_range; change (bpow radix2 (-3)) with (/ 8)%R;
  repeat match goal with |- _ /\ _ => split end; try (apply Rabs_le; split); try lra.
Qed.

(** But atan is not increasing: at some float the result is less than at the float
    before it. *)
Theorem C76_atan_order_refuted : 
  forall (c : cfg) (I : isa) (n : nans F32), math_isa c I -> exists x y : F F32, isfin x = true /\ isfin y = true /\ (0 < val x < val y)%R /\
    (val (vec_atan_float c I n y) < val (vec_atan_float c I n x))%R.
Proof. exact C76_atan_order_refuted_lemma. Qed.

Example C76_atan_order_refuted_ex :
  math_isa all_ext SSE.
Proof. fitm. Qed.

(** All theorems of this file together, for one run of Print Assumptions. *)
Definition all_Order := (
  C75_sin_range,
  C75_sin_vec_simd_range,
  C75_cos_range,
  C75_cos_vec_simd_range,
  C75_sin_rises,
  C75_sin_vec_simd_rises,
  C75_sin_falls,
  C75_sin_vec_simd_falls,
  C75_cos_falls,
  C75_cos_vec_simd_falls,
  C75_cos_rises,
  C75_cos_vec_simd_rises,
  C75_tan_rises,
  C75_tan_vec_simd_rises,
  C76_asin_rises,
  C76_asin_vec_simd_rises,
  C76_asin_range,
  C76_asin_vec_simd_range,
  C76_acos_falls,
  C76_acos_vec_simd_falls,
  C76_acos_range,
  C76_acos_vec_simd_range,
  C76_acos_minus_half_refuted,
  C76_atan_range,
  C76_atan_vec_simd_range,
  C76_atan_order_refuted).
Print Assumptions all_Order.
