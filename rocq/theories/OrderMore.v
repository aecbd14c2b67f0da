(** Order and range: from one sample to buffers. *)
From Coq Require Import ZArith Reals List Lia Lra Bool.
From Flocq Require Import Core IEEE754.Binary IEEE754.Bits.
From Verif Require Import Base Mem Backend Args Drivers Functors Lanes Float LaneOps TransMath TransFuns Spec SpecLane SpecMath SpecOrder
  FloatFacts VecFacts MathMore NearFacts TransFacts RealTrig SinFacts TanFacts SinOrder TanOrder.
Local Open Scope Z_scope.

Section S.
Context (n : nans F32) (B : backend) (f : F F32 -> F F32).
Lemma all_each S m inp len : all_in S m inp len -> each (fun x => isfin x = true /\ S (val x)) m inp len.
Proof. intros H i x Hi E. exact (H i x Hi E). Qed.
Lemma order_unary S m out inp len : rising S f -> unary_fit B m out inp len -> all_in S m inp len -> same_order m (simd_of32 B n f m out inp len) out inp len.
Proof.
  intros H FT A. destruct (computes_unary n B f _ (fun x y => isfin x = true /\ S (val x) /\ y = f x) m out inp len (fun x Q => conj (proj1 Q) (conj (proj2 Q) eq_refl)) FT (all_each S m inp len A)) as (m' & E & W & K).
  exists m'. split; [exact E|]. split; [exact K|]. intros i j x y Hi Hj Ex Ey L.
  destruct (W i x Hi Ex) as (u & Eu & Fx & Sx & ->). destruct (W j y Hj Ey) as (v & Ev & Fy & Sy & ->). exists (f x), (f y). 
  destruct (H x y Fx Fy Sx Sy L) as (G1 & G2 & G3). auto.
Qed.
Lemma reverse_unary S m out inp len : falling S f -> unary_fit B m out inp len -> all_in S m inp len -> reverse_order m (simd_of32 B n f m out inp len) out inp len.
Proof.
  intros H FT A. destruct (computes_unary n B f _ (fun x y => isfin x = true /\ S (val x) /\ y = f x) m out inp len (fun x Q => conj (proj1 Q) (conj (proj2 Q) eq_refl)) FT (all_each S m inp len A)) as (m' & E & W & K).
  exists m'. split; [exact E|]. split; [exact K|]. intros i j x y Hi Hj Ex Ey L.
  destruct (W i x Hi Ex) as (u & Eu & Fx & Sx & ->). destruct (W j y Hj Ey) as (v & Ev & Fy & Sy & ->). exists (f x), (f y). 
  destruct (H x y Fx Fy Sx Sy L) as (G1 & G2 & G3). auto.
Qed.
Lemma between_unary S lo hi m out inp len : ranges S lo hi f -> unary_fit B m out inp len -> all_in S m inp len -> all_between lo hi m (simd_of32 B n f m out inp len) out len.
Proof.
  intros H FT A. destruct (computes_unary n B f _ (fun x y => isfin x = true /\ S (val x) /\ y = f x) m out inp len (fun x Q => conj (proj1 Q) (conj (proj2 Q) eq_refl)) FT (all_each S m inp len A)) as (m' & E & W & K).
  exists m'. split; [exact E|]. split; [exact K|]. intros i Hi. destruct FT as (_ & _ & _ & RD & _). destruct (RD i Hi) as [x Ex].
  destruct (W i x Hi Ex) as (u & Eu & Fx & Sx & ->). exists (f x). split; [exact Eu|]. exact (H x Fx Sx).
Qed.
End S.

Section T.
Context (c : cfg) (I : isa) (n : nans F32) (HI : x86 I).
Local Open Scope R_scope.
Lemma sin_half_fin x : isfin x = true -> Rabs (val x) <= 8192 -> isfin (vec_sin_float c I n x) = true.
Proof. intros Fx B. apply (sin_within c I n HI x Fx B). Qed.
Lemma sin_rising m : rising (half_wave (2 * m)) (vec_sin_float c I n).
Proof.
  intros x y Fx Fy [B1 W1] [B2 W2] L. split; [apply sin_half_fin; assumption|]. split; [apply sin_half_fin; assumption|].
  pose proof (sin_half c I n HI (2 * m) x y Fx Fy L B1 B2 W1 W2) as H. unfold sg in H. rewrite Z.odd_mul in H. exact H.
Qed.
Lemma sin_falling m : falling (half_wave (2 * m + 1)) (vec_sin_float c I n).
Proof.
  intros x y Fx Fy [B1 W1] [B2 W2] L. split; [apply sin_half_fin; assumption|]. split; [apply sin_half_fin; assumption|].
  pose proof (sin_half c I n HI (2 * m + 1) x y Fx Fy L B1 B2 W1 W2) as H. unfold sg in H. rewrite Z.odd_add, Z.odd_mul in H. cbn [Z.odd xorb andb] in H. lra.
Qed.
Lemma cos_half_fin x : isfin x = true -> Rabs (val x) <= 8192 -> isfin (vec_cos_float c I n x) = true.
Proof. intros Fx B. apply (cos_within c I n HI x Fx B). Qed.
Lemma cos_falling m : falling (half_turn (2 * m)) (vec_cos_float c I n).
Proof.
  intros x y Fx Fy [B1 W1] [B2 W2] L. split; [apply cos_half_fin; assumption|]. split; [apply cos_half_fin; assumption|].
  pose proof (cos_half c I n HI (2 * m) x y Fx Fy L B1 B2 (proj1 W1) (proj2 W2)) as H. unfold sg in H. rewrite Z.odd_mul in H. exact H.
Qed.
Lemma cos_rising m : rising (half_turn (2 * m + 1)) (vec_cos_float c I n).
Proof.
  intros x y Fx Fy [B1 W1] [B2 W2] L. split; [apply cos_half_fin; assumption|]. split; [apply cos_half_fin; assumption|].
  pose proof (cos_half c I n HI (2 * m + 1) x y Fx Fy L B1 B2 (proj1 W1) (proj2 W2)) as H. unfold sg in H. rewrite Z.odd_add, Z.odd_mul in H. cbn [Z.odd xorb andb] in H. lra.
Qed.
Lemma tan_rising m : rising (half_wave m) (vec_tan_float c I n).
Proof.
  intros x y Fx Fy [B1 W1] [B2 W2] L. split; [apply (tan_accurate c I n HI x Fx B1)|]. split; [apply (tan_accurate c I n HI y Fy B2)|].
  exact (tan_half c I n HI m x y Fx Fy L B1 B2 W1 W2).
Qed.
Lemma sin_ranges : ranges (fun r => Rabs r <= 8192) (-1) 1 (vec_sin_float c I n).
Proof. intros x Fx B. destruct (sin_within c I n HI x Fx B) as [A H]. split; [exact A|]. lra. Qed.
Lemma cos_ranges : ranges (fun r => Rabs r <= 8192) (-1) 1 (vec_cos_float c I n).
Proof. intros x Fx B. destruct (cos_within c I n HI x Fx B) as [A H]. split; [exact A|]. lra. Qed.
End T.
