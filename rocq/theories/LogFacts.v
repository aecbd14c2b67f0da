(** The natural logarithm: finiteness and accuracy. *)
From Coq Require Import ZArith Reals List Lia Lra Bool.
From Flocq Require Import Core IEEE754.Binary IEEE754.Bits.
From Verif Require Import Base Backend Lanes Float LaneOps ScalarMath VecMath IntVec TransMath SpecLane SpecRound SpecInt
  FloatFacts FloatRound LaneFacts VecFacts VecMore VecMore2 RoundFacts RoundMore IntFacts LdexpFacts TransConst TransFacts
  ErrFacts ErrTac RealMath RealTanh RealLog ExpFacts LastStep NearFacts TanhFacts.
Import ListNotations.
Local Open Scope R_scope.
#[local] Opaque litf litd fadd fmul fsub fdiv.

(** Proof auxiliary: the polynomial of vec_log_float (vec_math.hpp). *)
Definition log_h (n : nans F32) (x : F F32) : F F32 :=
  fadd n (fmul n (fsub n (fmul n (fadd n (fmul n (fsub n (fmul n (fadd n (fmul n (fsub n (fmul n (fadd n (fmul n (fsub n
    (fmul n (litd 70376836292 12) x) (litd 11514610310 11)) x) (litd 11676998740 11)) x) (litd 12420140846 11)) x)
    (litd 14249322787 11)) x) (litd 16668057665 11)) x) (litd 20000714765 11)) x) (litd 24999993993 11)) x) (litd 33333331174 11).
(** Proof auxiliary: the sum before the last step of log. *)
Definition log_z (n : nans F32) (x fe : F F32) : F F32 :=
  fadd n x (fsub n (fadd n (fmul n (fmul n (fmul n (log_h n x) x) x) x) (fmul n fe (fneg (litd 212194440 12))))
    (fmul n (fmul n (litd 5 1) x) x)).
(** Proof auxiliary: the last step of log. *)
Definition log_end (n : nans F32) (x fe : F F32) : F F32 := fadd n (log_z n x fe) (fmul n (litd 693359375 9) fe).
(** Proof auxiliary: the mantissa moved to [sqrt(1/2) - 1, sqrt(2) - 1). *)
Definition log_u (I : isa) (n : nans F32) (m : F F32) : F F32 :=
  fadd n m (fsub n (if vrel I LT m (litf 707106781186547524 18) then m else f_ofZ F32 0) (f_ofZ F32 1)).

Lemma ones32 : ones (width F32) = 4294967295%Z. Proof. reflexivity. Qed.
Lemma log_form c I n x : x86 I ->
  let m := fst (frexp_float I x) in
  vec_log_float c I n x = log_end n (log_u I n m)
    (f_ofZ F32 (efield x - 126 - if vrel I LT m (litf 707106781186547524 18) then 1 else 0)%Z).
Proof.
  intros HI m. unfold vec_log_float. destruct (frexp_fields I x HI) as (_ & _ & _ & R).
  destruct (frexp_float I x) as [m' k]. cbn [fst snd] in *. subst m. set (m := m') in *. cbv zeta.
  rewrite gen_one_1.
  assert (VM : vmask I LT m (litf 707106781186547524 18) = mask (vrel I LT m (litf 707106781186547524 18))) by (destruct HI as [-> | ->]; reflexivity).
  rewrite VM, band_mask_r, bits_mask, ones32. set (b := vrel I LT m (litf 707106781186547524 18)) in *.
  assert (K : iconvert I (iadd k (if b then 4294967295 else 0)) = f_ofZ F32 (efield x - 126 - if b then 1 else 0)%Z).
  { assert (E : iconvert I (iadd k (if b then 4294967295 else 0)) = f_ofZ F32 (s32 (iadd k (if b then 4294967295 else 0)%Z))) by (destruct HI as [-> | ->]; reflexivity).
    rewrite E. f_equal. apply reads_s32. 
    assert (EF : (0 <= efield x < 256)%Z).
    { unfold efield. pose proof (mag_range x) as G. change (2 ^ (mw F32 + ew F32))%Z with (2 ^ 31)%Z in G. split; [apply Z.div_pos; lia|apply Z.div_lt_upper_bound; lia]. }
    split; [apply u32_pattern|]. split; [destruct b; lia|]. destruct R as (_ & _ & [q Q]). unfold iadd. destruct (u32_same (k + (if b then 4294967295 else 0))) as [q' Q'].
    destruct b; [exists (q + q' + 1)%Z|exists (q + q')%Z]; lia. }
  rewrite K. unfold log_end, log_z, log_h, log_u. fold b. reflexivity.
Qed.

Lemma lit7071 : isfin (litf 707106781186547524 18) = true /\ val (litf 707106781186547524 18) = 11863283 / 16777216.
Proof. destruct litf_707106781186547524_18 as (A & _ & _). split; [exact A|apply val_litf_707106781186547524_18]. Qed.
Lemma m24 k : (Z.abs k <= 16777216)%Z -> fmtR F32 (IZR k * bpow radix2 (-24)) /\ Rabs (IZR k * bpow radix2 (-24)) < bpow radix2 (emax F32).
Proof. intros H. split; [apply dyadic_format; [exact H|discriminate]|apply dyadic_lt; [exact H|reflexivity]]. Qed.
Lemma mid_frac (m : F F32) : efield m = 126%Z -> isfin m = true /\ Rabs (val m) = IZR (8388608 + ffield m) * bpow radix2 (-24) /\ (0 <= ffield m < 8388608)%Z.
Proof.
  intros H. destruct (fields_normal m) as [A _]; [lia|]. split; [exact A|]. split; [|apply ffield_range].
  rewrite val_fields by lia. rewrite H. reflexivity.
Qed.

(** A variable that is exactly represented, with its range. *)
Ltac dyz := repeat match goal with |- context [dy ?z] => let v := eval vm_compute in z in change (dy z) with (IZR v / 1208925819614629174706176) end.
Lemma holds_var (x : F F32) r lo hi : isfin x = true -> val x = r -> dy lo <= r <= dy hi -> holds x r (lo, hi, 0%Z).
Proof. intros H E B. split; [exact H|]. split; [exact B|]. rewrite E, Rminus_diag_eq, Rabs_R0 by reflexivity. rewrite dy_lit. lra. Qed.

Section L.
Context (c : cfg) (I : isa) (n : nans F32) (HI : x86 I).
Lemma log_u_any (m : F F32) : efield m = 126%Z -> isfin (log_u I n m) = true /\ - 3.1 <= val (log_u I n m) <= 0.4143.
Proof.
  intros HE. destruct (mid_frac m HE) as (Fm & Vm & Hf). destruct lit7071 as (FS & VS). destruct one_ok as (F1 & V1 & _). destruct zero_ok as (F0 & V0 & _).
  change (bpow radix2 (-24)) with (/ 16777216) in Vm. 
  assert (MR : 0.5 <= Rabs (val m) <= 1). { rewrite Vm. split; [assert (8388608 <= IZR (8388608 + ffield m)) by (apply IZR_le; lia); lra|assert (IZR (8388608 + ffield m) <= 16777216) by (apply IZR_le; lia); lra]. }
  unfold log_u. destruct (vrel I LT m (litf 707106781186547524 18)) eqn:L.
  - apply (lt_dec_val I HI) in L; [|exact Fm|exact FS]. rewrite VS in L.
    assert (HM : holds m (val m) (- 2 ^ 80, 11863283 * 2 ^ 56, 0)%Z).
    { apply holds_var; [exact Fm|reflexivity|]. destruct MR as [_ MR]. apply Rabs_le_inv in MR. dyz. lra. }
    assert (HO : holds (f_ofZ F32 1) 1 (2 ^ 80, 2 ^ 80, 0)%Z).
    { apply holds_var; [exact F1|exact V1|]. dyz. lra. }
    err_bound n [m; f_ofZ F32 1] [val m; 1] [(- 2 ^ 80, 11863283 * 2 ^ 56, 0); (2 ^ 80, 2 ^ 80, 0)]%Z (fadd n m (fsub n m (f_ofZ F32 1))) H.
    destruct H as (F2 & R2 & E2). split; [exact F2|]. rewrite !dy_lit in *. apply Rabs_le_inv in E2. destruct MR as [_ MR]. apply Rabs_le_inv in MR. lra.
  - assert (L' : 11863283 / 16777216 <= val m).
    { destruct (Rle_dec (11863283 / 16777216) (val m)) as [Q|Q]; [exact Q|]. rewrite (proj2 (lt_dec_val I HI m _ Fm FS)) in L; [discriminate|lra]. }
    assert (HM : holds m (val m) (2 ^ 79, 2 ^ 80, 0)%Z).
    { apply holds_var; [exact Fm|reflexivity|]. destruct MR as [_ MR]. apply Rabs_le_inv in MR. dyz. lra. }
    assert (HO : holds (f_ofZ F32 1) 1 (2 ^ 80, 2 ^ 80, 0)%Z).
    { apply holds_var; [exact F1|exact V1|]. dyz. lra. }
    assert (HZ : holds (f_ofZ F32 0) 0 (0, 0, 0)%Z).
    { apply holds_var; [exact F0|exact V0|]. dyz. lra. }
    err_bound n [m; f_ofZ F32 1; f_ofZ F32 0] [val m; 1; 0] [(2 ^ 79, 2 ^ 80, 0); (2 ^ 80, 2 ^ 80, 0); (0, 0, 0)]%Z (fadd n m (fsub n (f_ofZ F32 0) (f_ofZ F32 1))) H.
    destruct H as (F2 & R2 & E2). split; [exact F2|]. rewrite !dy_lit in *. apply Rabs_le_inv in E2. destruct MR as [_ MR]. apply Rabs_le_inv in MR. lra.
Qed.
(** For positive numbers the reduced argument is exact. *)
Lemma log_u_pos (m : F F32) : efield m = 126%Z -> sgn m = false ->
  isfin (log_u I n m) = true /\ val (log_u I n m) = (if vrel I LT m (litf 707106781186547524 18) then 2 * val m - 1 else val m - 1) /\
  - 0.29293 <= val (log_u I n m) <= 0.41423 /\ exists k, val (log_u I n m) = IZR k * bpow radix2 (-24).
Proof.
  intros HE HS. destruct (mid_frac m HE) as (Fm & Vm & Hf). destruct lit7071 as (FS & VS). destruct one_ok as (F1 & V1 & _). destruct zero_ok as (F0 & V0 & _).
  pose proof (sgn_val_gen m Fm) as SV. rewrite HS in SV. rewrite <- SV in Vm. set (M := (8388608 + ffield m)%Z) in *.
  assert (MB : (8388608 <= M < 16777216)%Z) by lia. assert (T1 : 1 = IZR 16777216 * bpow radix2 (-24)) by (change (bpow radix2 (-24)) with (/ 16777216); lra).
  assert (SUB : forall a k, isfin a = true -> val a = IZR k * bpow radix2 (-24) -> (0 <= k <= 16777216)%Z ->
    isfin (fsub n a (f_ofZ F32 1)) = true /\ val (fsub n a (f_ofZ F32 1)) = IZR (k - 16777216) * bpow radix2 (-24)).
  { intros a k Fa Va Hk. assert (V : val a - val (f_ofZ F32 1) = IZR (k - 16777216) * bpow radix2 (-24)) by (rewrite Va, V1, T1, minus_IZR; ring).
    destruct (m24 (k - 16777216) ltac:(lia)) as [G1 G2]. destruct (fsub_fin n a _ Fa F1) as (A & B & _); [rewrite V, rnd_id by exact G1; exact G2|].
    split; [exact A|]. rewrite B, V. apply rnd_id. exact G1. }
  assert (ADD : forall b k, isfin b = true -> val b = IZR k * bpow radix2 (-24) -> (- 16777216 <= k <= 0)%Z ->
    isfin (fadd n m b) = true /\ val (fadd n m b) = IZR (M + k) * bpow radix2 (-24)).
  { intros a k Fa Va Hk. assert (V : val m + val a = IZR (M + k) * bpow radix2 (-24)) by (rewrite Va, Vm, plus_IZR; ring).
    destruct (m24 (M + k) ltac:(lia)) as [G1 G2]. destruct (fadd_fin n m _ Fm Fa) as (A & B & _); [rewrite V, rnd_id by exact G1; exact G2|].
    split; [exact A|]. rewrite B, V. apply rnd_id. exact G1. }
  assert (MR : IZR 8388608 <= IZR M < IZR 16777216) by (split; [apply IZR_le|apply IZR_lt]; lia).
  unfold log_u. destruct (vrel I LT m (litf 707106781186547524 18)) eqn:L.
  - apply (lt_dec_val I HI) in L; [|exact Fm|exact FS]. rewrite VS in L.
    destruct (SUB m M Fm Vm ltac:(lia)) as [A B]. destruct (ADD _ _ A B ltac:(lia)) as [C D]. split; [exact C|].
    assert (E : val (fadd n m (fsub n m (f_ofZ F32 1))) = 2 * val m - 1) by (rewrite D, Vm, plus_IZR, minus_IZR, T1; ring).
    split; [exact E|]. split; [|eexists; exact D]. rewrite E. change (bpow radix2 (-24)) with (/ 16777216) in Vm. lra.
  - assert (L' : 11863283 / 16777216 <= val m).
    { destruct (Rle_dec (11863283 / 16777216) (val m)) as [Q|Q]; [exact Q|]. rewrite (proj2 (lt_dec_val I HI m _ Fm FS)) in L; [discriminate|lra]. }
    destruct (SUB (f_ofZ F32 0) 0%Z F0 ltac:(rewrite V0; ring) ltac:(lia)) as [A B]. destruct (ADD _ _ A B ltac:(lia)) as [C D]. split; [exact C|].
    assert (E : val (fadd n m (fsub n (f_ofZ F32 0) (f_ofZ F32 1))) = val m - 1) by (rewrite D, Vm, T1; replace (M + (0 - 16777216))%Z with (M - 16777216)%Z by lia; rewrite minus_IZR; ring).
    split; [exact E|]. split; [|eexists; exact D]. rewrite E. change (bpow radix2 (-24)) with (/ 16777216) in Vm. lra.
Qed.

Lemma fe_val e : (Z.abs e <= 1000)%Z -> isfin (f_ofZ F32 e) = true /\ val (f_ofZ F32 e) = IZR e.
Proof. intros H. destruct (ofZ_exact (t := F32) e) as (A & B & _); [change (2 ^ prec F32)%Z with 16777216%Z; lia|]. auto. Qed.
Lemma log_finite x : isfin (vec_log_float c I n x) = true.
Proof.
  rewrite log_form by exact HI. cbv zeta. destruct (frexp_fields I x HI) as (_ & E & _ & _). set (m := fst (frexp_float I x)) in *.
  destruct (log_u_any m E) as [Fu Bu]. set (u := log_u I n m) in *.
  set (e := (efield x - 126 - if vrel I LT m (litf 707106781186547524 18) then 1 else 0)%Z).
  assert (EB : (-127 <= e <= 129)%Z).
  { assert (EF : (0 <= efield x < 256)%Z).
    { unfold efield. pose proof (mag_range x) as G. change (2 ^ (mw F32 + ew F32))%Z with (2 ^ 31)%Z in G. split; [apply Z.div_pos; lia|apply Z.div_lt_upper_bound; lia]. }
    unfold e. destruct (vrel I LT m (litf 707106781186547524 18)); lia. }
  destruct (fe_val e) as [Fe Ve]; [lia|]. set (fe := f_ofZ F32 e) in *. assert (ER : -127 <= IZR e <= 129) by (split; apply IZR_le; lia).
  assert (HU : holds u (val u) (- 4 * 2 ^ 80, 2 ^ 79, 0)%Z).
  { apply holds_var; [exact Fu|reflexivity|]. dyz. lra. }
  assert (HF : holds fe (IZR e) (- 127 * 2 ^ 80, 129 * 2 ^ 80, 0)%Z).
  { apply holds_var; [exact Fe|exact Ve|]. dyz. lra. }
  let t := eval unfold log_end, log_z, log_h in (log_end n u fe) in
  err_bound n [u; fe] [val u; IZR e] [(- 4 * 2 ^ 80, 2 ^ 79, 0); (- 127 * 2 ^ 80, 129 * 2 ^ 80, 0)]%Z t H.
  exact (proj1 H).
Qed.

(** The two cases of the accuracy proof. *)
Lemma log_far_z (u fe : F F32) e : isfin u = true -> - 0.29293 <= val u <= 0.41423 -> isfin fe = true -> val fe = IZR e -> (Z.abs e <= 130)%Z ->
  isfin (log_z n u fe) = true /\ Rabs (val (log_z n u fe) - (val u + (log_q (val u) * val u * val u * val u - 1 / 2 * val u * val u)
    + IZR e * - (14581891 / 68719476736))) <= 8e-8 /\ Rabs (val (log_z n u fe)) <= 1.
Proof.
  intros Fu Bu Fe Ve He. assert (ER : -130 <= IZR e <= 130) by (split; apply IZR_le; lia).
  assert (HU : holds u (val u) (- 29293 * 2 ^ 80 / 100000 - 1, 41423 * 2 ^ 80 / 100000 + 1, 0)%Z).
  { apply holds_var; [exact Fu|reflexivity|]. dyz. lra. }
  assert (HF : holds fe (IZR e) (- 130 * 2 ^ 80, 130 * 2 ^ 80, 0)%Z).
  { apply holds_var; [exact Fe|exact Ve|]. dyz. lra. }
  let t := eval unfold log_z, log_h in (log_z n u fe) in
  err_bound n [u; fe] [val u; IZR e] [(- 29293 * 2 ^ 80 / 100000 - 1, 41423 * 2 ^ 80 / 100000 + 1, 0); (- 130 * 2 ^ 80, 130 * 2 ^ 80, 0)]%Z t H.
  fold (log_h n u) in H. fold (log_z n u fe) in H. destruct H as (F1 & R1 & E1). split; [exact F1|]. rewrite !dy_lit in *. autorewrite with lits in *.
  fold (log_q (val u)) in *. apply Rabs_le_inv in E1. split; [apply Rabs_le; lra|]. apply Rabs_le; lra.
Qed.
Lemma log_L fe e : isfin fe = true -> val fe = IZR e -> (Z.abs e <= 130)%Z ->
  isfin (fmul n (litd 693359375 9) fe) = true /\ val (fmul n (litd 693359375 9) fe) = IZR e * (355 / 512).
Proof.
  intros Fe Ve He. destruct (litd_693359375_9) as (C1 & C2 & _).
  assert (V : val (litd 693359375 9) * val fe = IZR (e * 355) * bpow radix2 (-9)) by (rewrite Ve, C2, mult_IZR; ring).
  assert (FM : fmtR F32 (IZR (e * 355) * bpow radix2 (-9))).
  { apply dyadic_format; [change (2 ^ prec F32)%Z with 16777216%Z; lia|discriminate]. }
  destruct (fmul_fin n (litd 693359375 9) fe C1 Fe) as (A & B & _).
  { rewrite V, rnd_id by exact FM. apply dyadic_lt; [change (2 ^ prec F32)%Z with 16777216%Z; lia|reflexivity]. }
  split; [exact A|]. rewrite B, V, rnd_id by exact FM. rewrite mult_IZR. change (bpow radix2 (-9)) with (/ 512). field.
Qed.
Lemma log_far (u fe : F F32) e : isfin u = true -> - 0.29293 <= val u <= 0.41423 -> isfin fe = true -> val fe = IZR e ->
  (1 <= Z.abs e <= 130)%Z -> Rabs (val (log_end n u fe) - (ln (1 + val u) + IZR e * ln 2)) <= 4e-7 * Rabs (ln (1 + val u) + IZR e * ln 2).
Proof.
  intros Fu Bu Fe Ve He. destruct (log_far_z u fe e Fu Bu Fe Ve ltac:(lia)) as (FZ & EZ & BZ). destruct (log_L fe e Fe Ve ltac:(lia)) as (FL & VL).
  unfold log_end. set (z := log_z n u fe) in *. set (L := fmul n (litd 693359375 9) fe) in *.
  pose proof (log_poly (val u) Bu) as P. pose proof (ln_range (val u) Bu) as LR. pose proof ln2_range as L2. pose proof ln2_split as LS.
  set (U := ln (1 + val u)) in *. set (Q := val u + (log_q (val u) * val u * val u * val u - 1 / 2 * val u * val u)) in *.
  assert (KR : Rabs (IZR e) <= 130) by (rewrite <- abs_IZR; apply IZR_le; lia).
  assert (D : Rabs (IZR e * (355 / 512 - 14581891 / 68719476736 - ln 2)) <= 3e-10).
  { rewrite Rabs_mult. eapply Rle_trans; [apply Rmult_le_compat; [apply Rabs_pos|apply Rabs_pos|exact KR|exact LS]|lra]. }
  assert (UB : Rabs (val u) <= 0.41423) by (apply Rabs_le; lra).
  assert (ZL : Rabs (val z + val L - (U + IZR e * ln 2)) <= 89e-9).
  { rewrite VL. apply Rabs_le_inv in EZ. apply Rabs_le_inv in D. apply Rabs_le_inv in P. apply Rabs_le. lra. }
  assert (LB : 0.3464 <= Rabs (U + IZR e * ln 2) <= 100).
  { destruct (Z_lt_le_dec 0 e) as [G|G].
    - assert (1 <= IZR e <= 130) by (split; apply IZR_le; lia). rewrite Rabs_pos_eq by nra. split; nra.
    - assert (- 130 <= IZR e <= - 1) by (split; apply IZR_le; lia). rewrite Rabs_left by nra. split; nra. }
  assert (SB : Rabs (val z + val L) <= Rabs (U + IZR e * ln 2) + 89e-9).
  { replace (val z + val L) with ((U + IZR e * ln 2) + (val z + val L - (U + IZR e * ln 2))) by ring. eapply Rle_trans; [apply Rabs_triang|]. lra. }
  destruct (fadd_fin n z L FZ FL) as (A & B & _); [apply small_fin; lra|].
  pose proof (rnd_eta (val z + val L)) as RE. pose proof eta_small as ET. rewrite B.
  replace (rnd F32 (val z + val L) - (U + IZR e * ln 2)) with ((rnd F32 (val z + val L) - (val z + val L)) + (val z + val L - (U + IZR e * ln 2))) by ring.
  eapply Rle_trans; [apply Rabs_triang|]. lra.
Qed.
Lemma near_zero f s : isfin f = true -> val f = 0 -> 0 <= s <= 1 -> near f 0 0 0 0 s.
Proof. intros H V S. split; [exact H|rewrite Rabs_R0; lra|rewrite V, Rminus_0_r, Rabs_R0; lra|lra]. Qed.
(** Proof auxiliary: round the error constants of [N] up, to keep them short. *)
Ltac shorten N e' k' :=
  match type of N with near ?f ?r ?M _ _ ?s =>
    let N' := fresh in
    assert (N' : near f r M e' k' s) by (apply (near_weaken _ _ _ _ _ _ M e' k' N (n_abs _ _ _ _ _ _ N)); lra);
    clear N; rename N' into N
  end.
Lemma log_close (u fe : F F32) : isfin u = true -> - 0.29293 <= val u <= 0.41423 -> bpow radix2 (-24) <= Rabs (val u) -> isfin fe = true -> val fe = 0 ->
  Rabs (val (log_end n u fe) - ln (1 + val u)) <= 4e-7 * Rabs (ln (1 + val u)).
Proof.
  intros Fu Bu Lu Fe Ve. 
  assert (HU : holds u (val u) (- 29293 * 2 ^ 80 / 100000 - 1, 41423 * 2 ^ 80 / 100000 + 1, 0)%Z).
  { apply holds_var; [exact Fu|reflexivity|]. dyz. lra. }
  let t := eval unfold log_h in (log_h n u) in
  err_bound n [u] [val u] [(- 29293 * 2 ^ 80 / 100000 - 1, 41423 * 2 ^ 80 / 100000 + 1, 0)]%Z t H.
  fold (log_h n u) in H. autorewrite with lits in H. fold (log_q (val u)) in H.
  assert (H' : near (log_h n u) (log_q (val u)) 0.43 5e-8 0 1).
  { destruct H as (F1 & R1 & E1). pose proof (log_q_range _ Bu). split; [exact F1|rewrite Rmult_1_r; apply Rabs_le; lra| |lra].
    eapply Rle_trans; [exact E1|]. rewrite dy_lit. lra. }
  clear H HU. set (w := Rabs (val u)) in *. assert (W : 0 < w <= 0.41423).
  { split; [pose proof (bpow_gt_0 radix2 (-24)); lra|apply Rabs_le; lra]. }
  pose proof (near_exact u Fu ltac:(fold w; lra)) as NU. fold w in NU.
  assert (N1 := near_mul n _ _ _ _ _ _ _ _ _ _ _ H' NU ltac:(lra) ltac:(lra) ltac:(lra)). shorten N1 77e-9 1.01.
  assert (N2 := near_mul n _ _ _ _ _ _ _ _ _ _ _ N1 NU ltac:(lra) ltac:(lra) ltac:(lra)). shorten N2 103e-9 2.02.
  assert (N3 := near_mul n _ _ _ _ _ _ _ _ _ _ _ N2 NU ltac:(lra) ltac:(lra) ltac:(lra)). shorten N3 129e-9 3.03.
  assert (S3 : 1 * w * w * w <= 0.1717 * w) by nra.
  assert (N3' := near_scale _ _ _ _ _ _ w 0.1717 N3 ltac:(lra) ltac:(lra) S3). shorten N3' 22.2e-9 3.03.
  assert (Z1 : isfin (fmul n fe (fneg (litd 212194440 12))) = true /\ val (fmul n fe (fneg (litd 212194440 12))) = 0).
  { destruct litd_212194440_12 as (G1 & G2 & _). destruct (fmul_fin n fe (fneg (litd 212194440 12)) Fe) as (A & B & _).
    - rewrite isfin_fneg. exact G1.
    - rewrite Ve, Rmult_0_l, rnd_0, Rabs_R0. apply bpow_gt_0.
    - split; [exact A|]. rewrite B, Ve, Rmult_0_l. apply rnd_0. }
  destruct Z1 as [FZ1 VZ1]. assert (NZ1 := near_zero _ w FZ1 VZ1 ltac:(lra)).
  set (T := log_q (val u) * val u * val u * val u) in *.
  assert (QB := log_q_range _ Bu). assert (TB : Rabs T <= 0.074 * w).
  { unfold T. rewrite !Rabs_mult. fold w. rewrite (Rabs_pos_eq (log_q _)) by lra. nra. }
  assert (N4 := near_add n _ _ _ _ _ _ _ _ _ _ _ 0.074 N3' NZ1 ltac:(rewrite Rplus_0_r; exact TB) ltac:(lra) ltac:(lra) ltac:(lra)). shorten N4 27e-9 4.1.
  assert (NH : near (litd 5 1) (1 / 2) (1 / 2) 0 0 1).
  { destruct litd_5_1 as (G1 & _ & _). split; [exact G1|rewrite Rabs_pos_eq; lra|rewrite val_litd_5_1, Rminus_diag_eq, Rabs_R0 by reflexivity; lra|lra]. }
  assert (N5 := near_mul n _ _ _ _ _ _ _ _ _ _ _ NH NU ltac:(lra) ltac:(lra) ltac:(lra)). shorten N5 30e-9 1.01.
  assert (N6 := near_mul n _ _ _ _ _ _ _ _ _ _ _ N5 NU ltac:(lra) ltac:(lra) ltac:(lra)). shorten N6 60e-9 2.02.
  assert (S6 : 1 * w * w <= 0.4143 * w) by nra.
  assert (N6' := near_scale _ _ _ _ _ _ w 0.4143 N6 ltac:(lra) ltac:(lra) S6). shorten N6' 24.9e-9 2.02.
  assert (HB : Rabs (1 / 2 * val u * val u) <= 0.21 * w).
  { rewrite !Rabs_mult. fold w. rewrite (Rabs_pos_eq (1 / 2)) by lra. nra. }
  assert (N7 := near_sub n _ _ _ _ _ _ _ _ _ _ _ 0.29 N4 N6').
  assert (DB : Rabs (T + 0 - 1 / 2 * val u * val u) <= 0.29 * w).
  { rewrite Rplus_0_r. unfold Rminus. eapply Rle_trans; [apply Rabs_triang|]. rewrite Rabs_Ropp. lra. }
  specialize (N7 DB ltac:(lra) ltac:(lra) ltac:(lra)). shorten N7 70e-9 7.3.
  assert (SB : Rabs (val u + (T + 0 - 1 / 2 * val u * val u)) <= 1.29 * w).
  { eapply Rle_trans; [apply Rabs_triang|]. fold w. lra. }
  assert (N8 := near_add n _ _ _ _ _ _ _ _ _ _ _ 1.29 NU N7 SB ltac:(lra) ltac:(lra) ltac:(lra)). shorten N8 148e-9 8.5. fold (log_z n u fe) in N8.
  destruct (log_L fe 0 Fe Ve ltac:(lia)) as (FL & VL). rewrite Rmult_0_l in VL.
  assert (N9 := near_add n _ _ _ _ _ _ _ _ _ _ _ 1.29 N8 (near_zero _ w FL VL ltac:(lra)) ltac:(rewrite Rplus_0_r; exact SB) ltac:(lra) ltac:(lra) ltac:(lra)).
  fold (log_end n u fe) in N9. destruct N9 as [F9 _ E9 _]. rewrite !Rplus_0_r in E9.
  pose proof (log_poly (val u) Bu) as P. fold T w in P. pose proof (ln_ge (val u) Bu) as G. fold w in G.
  assert (ETA : eta <= w * / 1000000000000).
  { apply Rle_trans with (bpow radix2 (-24) * / 1000000000000); [|apply Rmult_le_compat_r; lra]. unfold eta.
    apply Rle_trans with (bpow radix2 (-24) * bpow radix2 (-40)); [rewrite <- bpow_plus; apply bpow_le; lia|].
    apply Rmult_le_compat_l; [apply bpow_ge_0|]. change (bpow radix2 (-40)) with (/ 1099511627776). lra. }
  set (r := val (log_end n u fe)) in *. set (V := val u + (T - 1 / 2 * val u * val u)) in *.
  replace (r - ln (1 + val u)) with ((r - V) + (V - ln (1 + val u))) by ring. eapply Rle_trans; [apply Rabs_triang|]. lra.
Qed.

Lemma log_one : bits (vec_log_float c I n (f_ofZ F32 1)) = bits (f_ofZ F32 0).
Proof. destruct HI as [-> | ->]; [destruct c as [[] ? [] ?]|]; vm_compute; reflexivity. Qed.
Lemma log_accurate x : isfin x = true -> ~ tiny x -> sgn x = false ->
  Rabs (val (vec_log_float c I n x) - ln (val x)) <= 4e-7 * Rabs (ln (val x)).
Proof.
  intros Fx Tx Sx. pose proof (normal_fields x Fx Tx) as EX.
  destruct (frexp_fields I x HI) as (SM & EM & _ & R). destruct (frexp_exact I x HI Fx Tx) as (E & RE & _ & _ & _ & VX).
  assert (EQ : E = (efield x - 126)%Z). { rewrite <- (reads_s32 _ _ RE). apply reads_s32. exact R. } subst E.
  rewrite log_form by exact HI. cbv zeta. set (m := fst (frexp_float I x)) in *.
  destruct (log_u_pos m EM ltac:(rewrite SM; exact Sx)) as (Fu & Vu & Bu & k & Ku). set (u := log_u I n m) in *.
  set (e := (efield x - 126 - if vrel I LT m (litf 707106781186547524 18) then 1 else 0)%Z) in *.
  assert (VX' : val x = (1 + val u) * bpow radix2 e).
  { rewrite VX, Vu. unfold e. destruct (vrel I LT m (litf 707106781186547524 18)).
    - replace (efield x - 126)%Z with (1 + (efield x - 126 - 1))%Z at 1 by lia. rewrite bpow_plus. change (bpow radix2 1) with 2. ring.
    - rewrite Z.sub_0_r. ring. }
  assert (EB : (Z.abs e <= 130)%Z) by (unfold e; destruct (vrel I LT m (litf 707106781186547524 18)); lia).
  destruct (fe_val e ltac:(lia)) as [Fe Ve].
  assert (LN : ln (val x) = ln (1 + val u) + IZR e * ln 2).
  { rewrite VX', ln_mult by (try apply bpow_gt_0; lra). f_equal. rewrite bpow_exp, ln_exp. change (IZR (radix_val radix2)) with 2. ring. }
  rewrite LN. destruct (Z.eq_dec e 0) as [E0|E0].
  - rewrite E0 in *. rewrite Rmult_0_l, Rplus_0_r. destruct (Z.eq_dec k 0) as [K0|K0].
    + assert (x = f_ofZ F32 1) as ->.
      { destruct one_ok as (F1 & V1 & S1). apply fin_eq; [exact Fx|exact F1| |rewrite Sx, S1; reflexivity].
        rewrite VX', V1, Ku, K0. change (bpow radix2 0) with 1. ring. }
      assert (L1 := log_one). apply bits_inj in L1. rewrite log_form in L1 by exact HI. cbv zeta in L1. fold m u e in L1. rewrite E0 in L1. rewrite L1.
      destruct zero_ok as (_ & V0 & _). rewrite V0, Ku, K0, Rmult_0_l, Rplus_0_r, ln_1, Rminus_0_r, Rabs_R0. lra.
    + apply log_close; [exact Fu|exact Bu| |exact Fe|exact Ve]. rewrite Ku, Rabs_mult, (Rabs_pos_eq (bpow _ _)) by apply bpow_ge_0.
      rewrite <- (Rmult_1_l (bpow radix2 (-24))) at 1. apply Rmult_le_compat_r; [apply bpow_ge_0|]. rewrite <- abs_IZR. apply IZR_le. lia.
  - apply log_far; auto. lia.
Qed.
End L.
