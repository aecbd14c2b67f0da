(** Facts about the integer vectors. *)

From Coq Require Import ZArith Reals List Lia Lra Bool.
From Flocq Require Import Core IEEE754.Binary IEEE754.Bits.
From Verif Require Import Base Backend Lanes Float LaneOps IntVec SpecLane SpecRound SpecInt FloatFacts FloatRound LaneFacts VecFacts VecMore2 RoundFacts RoundMore RoundMore2.
Import ListNotations.
Local Open Scope Z_scope.

Ltac p32 := change (2 ^ 32) with 4294967296 in *; change (2 ^ 31) with 2147483648 in *.

Lemma u32_pattern z : pattern (u32 z).
Proof. unfold pattern, u32. p32. apply Z.mod_pos_bound. lia. Qed.
Lemma u32_same z : same_mod32 (u32 z) z.
Proof. exists (- (z / 4294967296)). unfold u32. p32. pose proof (Z.div_mod z 4294967296). lia. Qed.
Lemma u32_id z : pattern z -> u32 z = z.
Proof. intros H. unfold u32. p32. apply Z.mod_small. exact H. Qed.
Lemma same_small a b : same_mod32 a b -> Z.abs (a - b) < 4294967296 -> a = b.
Proof. intros [q ->] H. nia. Qed.
Lemma s32_reads z : pattern z -> reads z (s32 z).
Proof.
  intros H. unfold pattern in H. split; [exact H|]. unfold s32. p32. destruct (Z.ltb_spec z 2147483648).
  - split; [lia|]. exists 0. lia.
  - split; [lia|]. exists 1. lia.
Qed.
Lemma reads_s32 z k : reads z k -> s32 z = k.
Proof.
  intros H. destruct (s32_reads z (proj1 H)) as (_ & A & [q Q]). destruct H as (_ & B & [q' Q']).
  apply same_small; [exists (q' - q); lia|lia].
Qed.
Lemma reads_u32 k : -2147483648 <= k < 2147483648 -> reads (u32 k) k.
Proof. intros H. split; [apply u32_pattern|]. split; [exact H|apply u32_same]. Qed.
Lemma imask_truth (b : bool) (P : Prop) : (b = true <-> P) -> truth P (imask b).
Proof.
  intros H. split; intros HP; unfold imask; destruct b; try reflexivity.
  - apply H in HP. discriminate.
  - elim HP. apply H. reflexivity.
Qed.

(** * From lanes to vectors *)
Lemma nth_map2 {A B C} (f : A -> B -> C) : forall l r i a b, nth_error l i = Some a -> nth_error r i = Some b ->
  nth_error (map2 f l r) i = Some (f a b).
Proof.
  induction l as [|x l IH]; intros r i a b Ha Hb; [destruct i; discriminate|].
  destruct r as [|y r]; [destruct i; discriminate|]. destruct i; cbn in *.
  - inversion Ha; inversion Hb. reflexivity.
  - apply IH; assumption.
Qed.
Lemma length_map2 {A B C} (f : A -> B -> C) : forall l r, length l = length r -> length (map2 f l r) = length l.
Proof. induction l; destruct r; cbn; intros; try discriminate; auto. Qed.
Lemma map2_app {A B C} (f : A -> B -> C) : forall l1 r1 l2 r2, length l1 = length r1 ->
  map2 f (l1 ++ l2) (r1 ++ r2) = map2 f l1 r1 ++ map2 f l2 r2.
Proof. induction l1; destruct r1; cbn; intros; try discriminate; [reflexivity|]. f_equal. auto. Qed.
Lemma apply_sse_map2 f l r : length l = length r -> apply_sse (map2 f) l r = map2 f l r.
Proof.
  intros H. unfold apply_sse. rewrite <- map2_app by (rewrite !firstn_length; lia). rewrite !firstn_skipn. reflexivity.
Qed.
Lemma int_binary_map2 I f l r : length l = length r -> int_binary I f l r = map2 f l r.
Proof. intros H. destruct I; try reflexivity. apply apply_sse_map2. exact H. Qed.
Lemma int_shift_map I f v k : int_shift I f v k = map (fun x => f x k) v.
Proof. destruct I; try reflexivity. unfold int_shift. rewrite <- map_app, firstn_skipn. reflexivity. Qed.
Lemma lanes2_map2 (P : Z -> Z -> Z -> Prop) f n l r : vector n l -> vector n r ->
  (forall a b, pattern a -> pattern b -> P a b (f a b)) -> lanes2 P l r (map2 f l r).
Proof.
  intros [L1 F1] [L2 F2] H. split; [apply length_map2; congruence|].
  intros i a b Ha Hb. exists (f a b). split; [apply nth_map2; assumption|].
  rewrite Forall_forall in F1, F2. apply H; [apply F1|apply F2]; eapply nth_error_In; eassumption.
Qed.
Lemma int_binary_lanes (P : Z -> Z -> Z -> Prop) I f l r : vector (ilanes I) l -> vector (ilanes I) r ->
  (forall a b, pattern a -> pattern b -> P a b (f a b)) -> lanes2 P l r (int_binary I f l r).
Proof.
  intros H1 H2 H. rewrite int_binary_map2 by (destruct H1, H2; congruence). eapply lanes2_map2; eassumption.
Qed.
Lemma lanes1_map {A B} (P : A -> B -> Prop) f l : (forall a, In a l -> P a (f a)) -> lanes1 P l (map f l).
Proof.
  intros H. split; [apply map_length|]. intros i a Ha. exists (f a). split; [apply map_nth_error; exact Ha|].
  apply H. eapply nth_error_In; eassumption.
Qed.
Lemma int_shift_lanes (P : Z -> Z -> Prop) I f v k : vector (ilanes I) v ->
  (forall a, pattern a -> P a (f a k)) -> lanes1 P v (int_shift I f v k).
Proof.
  intros [_ F] H. rewrite int_shift_map. apply lanes1_map. intros a Ha. apply H. rewrite Forall_forall in F. apply F. exact Ha.
Qed.

(** * Single lanes *)
Lemma iadd_lane a b : pattern (iadd a b) /\ same_mod32 (iadd a b) (a + b).
Proof. split; [apply u32_pattern|apply u32_same]. Qed.
Lemma isub_lane a b : pattern (isub a b) /\ same_mod32 (isub a b) (a - b).
Proof. split; [apply u32_pattern|apply u32_same]. Qed.
Lemma ilt_signed I a b ka kb : I <> NEON -> I <> ALTIVEC -> reads a ka -> reads b kb -> truth (ka < kb) (ilt I a b).
Proof.
  intros H1 H2 Ha Hb. apply imask_truth. destruct I; try congruence; rewrite (reads_s32 _ _ Ha), (reads_s32 _ _ Hb); apply Z.ltb_lt.
Qed.
Lemma ilt_unsigned I a b : I = NEON \/ I = ALTIVEC -> truth (a < b) (ilt I a b).
Proof. intros [-> | ->]; apply imask_truth, Z.ltb_lt. Qed.
Lemma igt_signed I a b ka kb : I <> NEON -> I <> ALTIVEC -> reads a ka -> reads b kb -> truth (ka > kb) (igt I a b).
Proof.
  intros H1 H2 Ha Hb. apply imask_truth. destruct I; try congruence; rewrite (reads_s32 _ _ Ha), (reads_s32 _ _ Hb); rewrite Z.gtb_lt; lia.
Qed.
Lemma igt_unsigned I a b : I = NEON \/ I = ALTIVEC -> truth (a > b) (igt I a b).
Proof. intros [-> | ->]; apply imask_truth; rewrite Z.gtb_lt; lia. Qed.
Lemma ieq_lane a b : truth (a = b) (ieq a b).
Proof. apply imask_truth, Z.eqb_eq. Qed.
Lemma ilt_differ a b : pattern a -> pattern b ->
  (ilt SSE a b = ilt NEON a b <-> (a < 2147483648 <-> b < 2147483648)).
Proof.
  intros Ha Hb. unfold pattern in *. unfold ilt, s32, imask. p32.
  destruct (Z.ltb_spec a 2147483648), (Z.ltb_spec b 2147483648), (Z.ltb_spec a b);
    try match goal with |- context [if ?x <? ?y then _ else _] => destruct (Z.ltb_spec x y) end; intuition lia.
Qed.
Lemma islli_lane I a k : pattern a -> 0 <= k <= 31 -> islli I a k = (a * 2 ^ k) mod 4294967296.
Proof.
  intros Ha Hk. unfold islli, slli. replace (match I with ALTIVEC => k mod 32 | _ => k end) with k by (destruct I; try reflexivity; symmetry; apply Z.mod_small; lia).
  replace (k <? 32) with true by (symmetry; apply Z.ltb_lt; lia). reflexivity.
Qed.
Lemma isrli_lane I a k : pattern a -> 0 <= k <= 31 -> isrli I a k = a / 2 ^ k.
Proof.
  intros Ha Hk. unfold isrli, srli. replace (match I with ALTIVEC => k mod 32 | _ => k end) with k by (destruct I; try reflexivity; symmetry; apply Z.mod_small; lia).
  replace (k <? 32) with true by (symmetry; apply Z.ltb_lt; lia). reflexivity.
Qed.
Lemma islli_far I a k : I <> ALTIVEC -> 32 <= k -> islli I a k = 0 /\ isrli I a k = 0.
Proof.
  intros HI Hk. unfold islli, slli, isrli, srli. replace (match I with ALTIVEC => k mod 32 | _ => k end) with k by (destruct I; congruence).
  replace (k <? 32) with false by (symmetry; apply Z.ltb_ge; lia). auto.
Qed.
Lemma not_testbit z j : pattern z -> 0 <= j < 32 -> Z.testbit (2 ^ 32 - 1 - z) j = negb (Z.testbit z j).
Proof.
  intros Hz Hj. replace (2 ^ 32 - 1 - z) with (Z.lnot z + 1 * 2 ^ 32) by (unfold Z.lnot; lia).
  rewrite <- (Z.mod_pow2_bits_low _ 32) by lia. rewrite Z.mod_add by lia. rewrite Z.mod_pow2_bits_low by lia.
  apply Z.lnot_spec. lia.
Qed.

(** * Conversions *)
Lemma iconvert_fin k : (Z.abs k <= 2 ^ 32) -> isfin (f_ofZ F32 k) = true /\ val (f_ofZ F32 k) = rnd F32 (IZR k).
Proof.
  intros Hk.
  pose proof (binary_normalize_correct (prec F32) (emax F32) (Hprec F32) (Hmax F32) BinarySingleNaN.mode_NE k 0 false) as H.
  assert (E : F2R (Float radix2 k 0) = IZR k) by (unfold F2R; cbn [Fnum Fexp bpow]; ring).
  cbv zeta in H. rewrite E in H. rewrite Rlt_bool_true in H.
  - destruct H as (H1 & H2 & _). split; [exact H2|exact H1].
  - apply Rle_lt_trans with (bpow radix2 32); [|apply bpow_lt; reflexivity].
    apply (rnd_abs_le (t := F32)); [apply (bpow_format (t := F32)); cbv; discriminate|].
    rewrite <- abs_IZR. change (bpow radix2 32) with (IZR (2 ^ 32)). apply IZR_le. exact Hk.
Qed.
Lemma itruncate_x86 I (x : F F32) : I <> NEON -> I <> ALTIVEC ->
  itruncate I x = if isfin x && (- 2 ^ 31 <=? Ztrunc (val x)) && (Ztrunc (val x) <? 2 ^ 31) then u32 (Ztrunc (val x)) else 2 ^ 31.
Proof. intros H1 H2. pose proof (Btrunc_val (t := F32) x) as T. cbn in T. unfold itruncate. rewrite T. destruct I; congruence. Qed.
Lemma itruncate_reads I (x : F F32) : I <> ALTIVEC -> isfin x = true -> - 2147483648 <= Ztrunc (val x) < 2147483648 ->
  reads (itruncate I x) (Ztrunc (val x)).
Proof.
  intros HI Hx Hr. assert (E : itruncate I x = u32 (Ztrunc (val x))).
  { destruct I; try congruence; try (rewrite itruncate_x86 by discriminate; rewrite Hx; p32;
      rewrite (proj2 (Z.leb_le _ _)), (proj2 (Z.ltb_lt _ _)) by lia; reflexivity).
    pose proof (Btrunc_val (t := F32) x) as T. cbn in T. unfold itruncate. rewrite T, Hx, (isfin_isnan x Hx). p32. f_equal. lia. }
  rewrite E. apply reads_u32. lia.
Qed.
Lemma itruncate_altivec (x : F F32) : isfin x = true -> 0 <= Ztrunc (val x) < 4294967296 ->
  itruncate ALTIVEC x = Ztrunc (val x).
Proof.
  intros Hx Hr. pose proof (Btrunc_val (t := F32) x) as T. cbn in T. unfold itruncate. rewrite T, Hx, (isfin_isnan x Hx). p32. lia.
Qed.
Lemma iconvert_truncate (n : nans F32) I (x : F F32) : I <> ALTIVEC -> isfin x = true -> - 2147483648 <= Ztrunc (val x) < 2147483648 ->
  is_int (iconvert I (itruncate I x)) (Ztrunc (val x)).
Proof.
  intros HI Hx Hr. pose proof (itruncate_reads I x HI Hx Hr) as H. unfold iconvert.
  replace (match I with ALTIVEC => itruncate I x | _ => s32 (itruncate I x) end) with (Ztrunc (val x)).
  - apply ofZ_fmt; apply (trunc_format n x Hx).
  - symmetry. destruct I; try congruence; exact (reads_s32 _ _ H).
Qed.
