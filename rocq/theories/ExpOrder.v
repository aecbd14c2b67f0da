(** The exponential function is increasing from 1 on. *)
From Coq Require Import ZArith Reals List Lia Lra Bool.
From Flocq Require Import Core IEEE754.Binary IEEE754.Bits.
From Verif Require Import Base Mem Backend Lanes Float LaneOps ScalarMath VecMath IntVec TransMath SpecLane SpecRound SpecInt SpecOrder
  FloatFacts FloatRound LaneFacts VecFacts VecMore VecMore2 RoundFacts RoundMore RoundMore2 IntFacts LdexpFacts TransConst TransFacts
  ErrFacts ErrTac RealMath RealTanh RealLog ExpFacts LastStep NearFacts TanhFacts LogFacts MonoFacts RealOrder2 TrigOrder SinOrder.
Import ListNotations.
Local Open Scope R_scope.
#[local] Opaque litf litd fadd fmul fsub fdiv.

(** Proof auxiliary: the polynomial of exp, divided by its argument. *)
Definition exp_h n (x : F F32) : F F32 := fadd n (litf 100000035762786865234375 23)
  (fmul n x (fadd n (litf 4999996721744537353515625 25) (fmul n x (fadd n (litf 16665561497211456298828125 26)
  (fmul n x (fadd n (litf 4167006909847259521484375 26) (fmul n x (fadd n (litf 8420792408287525177001953125 30)
  (fmul n x (litf 1386119984090328216552734375 30)))))))))).
(** Proof auxiliary: the reduced argument of exp for a given multiple z. *)
Definition exp_r n (x z : F F32) : F F32 := fsub n (fsub n x (fmul n z (litf 693359375 9))) (fmul n z (fneg (litf 212194440 12))).

Section E.
Context (n : nans F32).
Lemma exp_p_h x : exp_p n x = fadd n (f_ofZ F32 1) (fmul n x (exp_h n x)). Proof. reflexivity. Qed.
Lemma exp_h_neg x : isfin x = true -> -0.34665 <= val x <= 0 -> isfin (exp_h n x) = true /\ 0.8 <= val (exp_h n x) <= 1.1.
Proof.
  intros Fx Bx. assert (HX : holds x (val x) (- 34665 * 2 ^ 80 / 100000 - 1, 0, 0)%Z).
  { apply holds_var; [exact Fx|reflexivity|]. dyz. lra. }
  let t := eval unfold exp_h in (exp_h n x) in err_bound n [x] [val x] [(- 34665 * 2 ^ 80 / 100000 - 1, 0, 0)]%Z t H.
  fold (exp_h n x) in H. destruct H as (F1 & R1 & E1). rewrite !dy_lit in *. apply Rabs_le_inv in E1. split; [exact F1|]. lra.
Qed.
Lemma exp_q_neg x : isfin x = true -> -0.34665 <= val x <= 0 ->
  isfin (fmul n x (exp_h n x)) = true /\ Rabs (val (fmul n x (exp_h n x)) - exp_Q (val x)) <= 3.05e-8 /\ -0.4 <= val (fmul n x (exp_h n x)) <= 0.
Proof.
  intros Fx Bx. destruct (exp_h_neg x Fx Bx) as (FH & BH).
  assert (A : isfin (fmul n x (exp_h n x)) = true /\ Rabs (val (fmul n x (exp_h n x)) - exp_Q (val x)) <= 3.05e-8 /\ -0.39 <= exp_Q (val x)).
  { destruct (Rle_dec (val x) (-0.2)) as [C|C].
    - assert (HX : holds x (val x) (- 34665 * 2 ^ 80 / 100000 - 1, - 1999 * 2 ^ 80 / 10000, 0)%Z).
      { apply holds_var; [exact Fx|reflexivity|]. dyz. lra. }
      let t := eval unfold exp_h in (fmul n x (exp_h n x)) in err_bound n [x] [val x] [(- 34665 * 2 ^ 80 / 100000 - 1, - 1999 * 2 ^ 80 / 10000, 0)]%Z t H.
      fold (exp_h n x) in H. destruct H as (F1 & R1 & E1). rewrite !dy_lit in *. autorewrite with lits in *. fold (exp_Q (val x)) in E1, R1. split; [exact F1|]. split; lra.
    - assert (HX : holds x (val x) (- 2 * 2 ^ 80 / 10 - 1, 0, 0)%Z).
      { apply holds_var; [exact Fx|reflexivity|]. dyz. lra. }
      let t := eval unfold exp_h in (fmul n x (exp_h n x)) in err_bound n [x] [val x] [(- 2 * 2 ^ 80 / 10 - 1, 0, 0)]%Z t H.
      fold (exp_h n x) in H. destruct H as (F1 & R1 & E1). rewrite !dy_lit in *. autorewrite with lits in *. fold (exp_Q (val x)) in E1, R1. split; [exact F1|]. split; lra. }
  destruct A as (A & B & QL). split; [exact A|]. split; [exact B|].
  destruct (fmul_fin n x (exp_h n x) Fx FH) as (_ & V & _); [apply small_fin; apply Rabs_le; nra|].
  pose proof (exp_Q_slope (val x) 0 ltac:(lra) ltac:(lra)) as S. 
  assert (Q0 : exp_Q 0 = 0) by (unfold exp_Q; ring).
  apply Rabs_le_inv in B. split; [lra|]. rewrite V, <- (rnd_0 (t := F32)). apply rnd_le. nra.
Qed.
(** One is the dividing line. *)
Lemma exp_p_neg x : isfin x = true -> -0.34665 <= val x <= 0 -> isfin (exp_p n x) = true /\ val (exp_p n x) = rnd F32 (1 + val (fmul n x (exp_h n x))) /\ 0.5 <= val (exp_p n x) <= 1.
Proof.
  intros Fx Bx. destruct (exp_q_neg x Fx Bx) as (FQ & _ & BQ). destruct one_ok as (F1 & V1 & _).
  rewrite exp_p_h. destruct (fadd_fin n _ _ F1 FQ) as (F2 & V2 & _); [apply small_fin; rewrite V1; apply Rabs_le; lra|]. rewrite V1 in V2.
  split; [exact F2|]. split; [exact V2|]. rewrite V2. split.
  - replace 0.5 with (bpow radix2 (-1)) by (change (bpow radix2 (-1)) with (/ 2); lra). apply rnd_ge_format; [apply bpow_format; discriminate|change (bpow radix2 (-1)) with (/ 2); lra].
  - change 1 with (bpow radix2 0) at 2. apply rnd_le_format; [apply bpow_format; discriminate|change (bpow radix2 0) with 1; lra].
Qed.
Lemma lit_const (k : F F32) m r : isfin k = true -> val k = r -> 0 <= r <= IZR m / 1024 -> upto_ k k m.
Proof. intros F <- H. apply upto_const; assumption. Qed.
Lemma exp_p_pos x y : isfin x = true -> isfin y = true -> 0 <= val x <= val y -> val y <= 0.34665 -> upto_ (exp_p n x) (exp_p n y) 1600 /\ 1 <= val (exp_p n x).
Proof.
  intros Fx Fy B C. assert (X : upto_ x y 355) by (repeat split; try assumption; lra).
  assert (Q : upto_ (fmul n x (exp_h n x)) (fmul n y (exp_h n y)) 500).
  { unfold exp_h.
    eapply upto_mul with (m := 355%Z) (m' := 1400%Z); [exact X| |lia..]. eapply upto_add with (m := 1025%Z) (m' := 300%Z); [eapply lit_const; [apply litf_100000035762786865234375_23|apply val_litf_100000035762786865234375_23|lra]| |lia..].
    eapply upto_mul with (m := 355%Z) (m' := 800%Z); [exact X| |lia..]. eapply upto_add with (m := 512%Z) (m' := 200%Z); [eapply lit_const; [apply litf_4999996721744537353515625_25|apply val_litf_4999996721744537353515625_25|lra]| |lia..].
    eapply upto_mul with (m := 355%Z) (m' := 400%Z); [exact X| |lia..]. eapply upto_add with (m := 200%Z) (m' := 100%Z); [eapply lit_const; [apply litf_16665561497211456298828125_26|apply val_litf_16665561497211456298828125_26|lra]| |lia..].
    eapply upto_mul with (m := 355%Z) (m' := 200%Z); [exact X| |lia..]. eapply upto_add with (m := 50%Z) (m' := 100%Z); [eapply lit_const; [apply litf_4167006909847259521484375_26|apply val_litf_4167006909847259521484375_26|lra]| |lia..].
    eapply upto_mul with (m := 355%Z) (m' := 200%Z); [exact X| |lia..]. eapply upto_add with (m := 50%Z) (m' := 100%Z); [eapply lit_const; [apply litf_8420792408287525177001953125_30|apply val_litf_8420792408287525177001953125_30|lra]| |lia..].
    eapply upto_mul with (m := 355%Z) (m' := 50%Z); [exact X| |lia..]. eapply lit_const; [apply litf_1386119984090328216552734375_30|apply val_litf_1386119984090328216552734375_30|lra]. }
  destruct one_ok as (F1 & V1 & _). rewrite !exp_p_h. split.
  - eapply upto_add with (m := 1024%Z) (m' := 500%Z); [eapply lit_const; [exact F1|exact V1|lra]|exact Q|lia..].
  - destruct Q as (Q1 & Q2 & Q3 & Q4 & Q5). destruct (fadd_fin n _ _ F1 Q1) as (_ & V & _); [apply small_fin; rewrite V1; apply Rabs_le; lra|]. rewrite V, V1.
    change 1 with (bpow radix2 0). apply rnd_ge_format; [apply bpow_format; discriminate|change (bpow radix2 0) with 1; lra].
Qed.
(** Reduced arguments that are not too close. *)
Lemma exp_p_up x y : isfin x = true -> isfin y = true -> -0.34665 <= val x -> val y <= 0.34665 -> 8.93e-8 <= val y - val x -> val (exp_p n x) <= val (exp_p n y).
Proof.
  intros Fx Fy Bx By G. destruct (Rle_dec 0 (val x)) as [P|P]; [apply (exp_p_pos x y Fx Fy ltac:(lra) By)|].
  destruct (exp_p_neg x Fx ltac:(lra)) as (_ & VX & UX). destruct (Rle_dec 0 (val y)) as [Q|Q].
  - destruct (exp_p_pos y y Fy Fy ltac:(lra) By) as (_ & L). lra.
  - destruct (exp_p_neg y Fy ltac:(lra)) as (_ & VY & _). rewrite VX, VY. apply rnd_le. apply Rplus_le_compat_l.
    destruct (exp_q_neg x Fx ltac:(lra)) as (_ & EX & _). destruct (exp_q_neg y Fy ltac:(lra)) as (_ & EY & _). apply Rabs_le_inv in EX. apply Rabs_le_inv in EY.
    pose proof (exp_Q_slope (val x) (val y) ltac:(lra) ltac:(lra)). lra.
Qed.
Lemma grid_above (x : F F32) e : (-126 <= e)%Z -> isfin x = true -> bpow radix2 e <= val x -> exists k, val x = IZR k * bpow radix2 (e - 23).
Proof.
  intros He Fx L. pose proof (bpow_gt_0 radix2 e) as P. pose proof (val_format x) as G. unfold generic_format, F2R in G. cbn [Fnum Fexp] in G.
  set (ce := cexp radix2 (fexp F32) (val x)) in *.
  assert (C : (e - 23 <= ce)%Z).
  { unfold ce, cexp. rewrite fexp_FLT. unfold FLT_exp. change (prec F32) with 24%Z. change (emin F32) with (-149)%Z.
    assert (M : (e + 1 <= Raux.mag radix2 (val x))%Z); [|lia]. apply mag_ge_bpow. rewrite Rabs_pos_eq by lra. replace (e + 1 - 1)%Z with e by lia. lra. }
  set (m := Ztrunc (scaled_mantissa radix2 (fexp F32) (val x))) in *.
  exists (m * 2 ^ (ce - (e - 23)))%Z. rewrite G, mult_IZR. replace ce with ((ce - (e - 23)) + (e - 23))%Z at 1 by lia. rewrite bpow_plus, <- Rmult_assoc. f_equal. f_equal.
  change 2%Z with (radix_val radix2). rewrite IZR_Zpower by lia. reflexivity.
Qed.
End E.

(** Proof auxiliary: the multiple of ln 2 that exp takes off. *)
Definition exp_K (x : R) : Z := ZnearestE (rnd F32 (12102203 / 8388608 * x)).
Lemma exp_K_le x y : x <= y -> (exp_K x <= exp_K y)%Z.
Proof. intros H. unfold exp_K. apply (@Zrnd_le ZnearestE _). apply rnd_le. lra. Qed.
Section X.
Context (c : cfg) (I : isa) (n : nans F32) (HI : x86 I).
Lemma exp_z_K x : isfin x = true -> Rabs (val x) <= 89 -> isfin (exp_z c I n x) = true /\ val (exp_z c I n x) = IZR (exp_K (val x)) /\
  reads (itruncate I (exp_z c I n x)) (exp_K (val x)) /\ Rabs (val x * (12102203 / 8388608) - IZR (exp_K (val x))) <= 0.50001.
Proof.
  intros Fx Bx. destruct (exp_z_val c I n x HI Fx Bx) as (K & KB & FZ & VZ & RZ & D). apply Rabs_le_inv in Bx.
  assert (E : K = exp_K (val x)); [|rewrite <- E; auto]. apply eq_IZR. rewrite <- VZ. unfold exp_z.
  destruct litf_144269504088896341_17 as (FL & _ & _). pose proof val_litf_144269504088896341_17 as VL.
  destruct (fmul_fin n _ x FL Fx) as (F1 & V1 & _); [apply small_fin; rewrite VL; apply Rabs_le; lra|].
  assert (W : within_2_23 (fmul n (litf 144269504088896341 17) x)).
  { split; [exact F1|]. change (bpow radix2 23) with 8388608. rewrite V1, VL. pose proof (rnd_eta (12102203 / 8388608 * val x)) as R. pose proof eta_small.
    assert (A : Rabs (12102203 / 8388608 * val x) <= 129) by (apply Rabs_le; lra). pose proof (Rabs_le_inv _ _ A). apply Rabs_le_inv in R. apply Rabs_le. lra. }
  rewrite (vround_x86 c I n _ HI W). destruct (fround_even_fin n _ F1) as (_ & B & _). rewrite B, V1, VL. reflexivity.
Qed.
(** The reduced argument is rounded once. *)
Lemma exp_r_val w z K : isfin w = true -> isfin z = true -> val z = IZR K -> (1 <= K <= 127)%Z -> 1 <= val w ->
  Rabs (val w * (12102203 / 8388608) - IZR K) <= 0.50001 ->
  isfin (exp_r n w z) = true /\ -0.34665 <= val (exp_r n w z) <= 0.34665 /\
  Rabs (val (exp_r n w z) - (val w - IZR K * (355 / 512) - val (fmul n z (fneg (litf 212194440 12))))) <= / 67108864.
Proof.
  intros Fw Fz Vz HK Lw Dw. apply Rabs_le_inv in Dw. assert (KR : 1 <= IZR K <= 127) by (split; apply IZR_le; lia).
  destruct litf_693359375_9 as (C1 & C2 & _).
  assert (M1 : isfin (fmul n z (litf 693359375 9)) = true /\ val (fmul n z (litf 693359375 9)) = IZR (K * 355 * 16384) * bpow radix2 (-23)).
  { assert (V : val z * val (litf 693359375 9) = IZR (K * 355) * bpow radix2 (-9)) by (rewrite Vz, C2, mult_IZR; ring).
    assert (FM : fmtR F32 (IZR (K * 355) * bpow radix2 (-9))).
    { apply dyadic_format; [change (2 ^ prec F32)%Z with 16777216%Z; lia|discriminate]. }
    destruct (fmul_fin n z (litf 693359375 9) Fz C1) as (A & B & _).
    { rewrite V, rnd_id by exact FM. apply dyadic_lt; [change (2 ^ prec F32)%Z with 16777216%Z; lia|reflexivity]. }
    split; [exact A|]. rewrite B, V, rnd_id by exact FM. rewrite !mult_IZR. change (bpow radix2 (-9)) with (/ 512). change (bpow radix2 (-23)) with (/ 8388608). field. }
  destruct M1 as [FM VM]. 
  destruct litf_212194440_12 as (C3 & _ & _). pose proof val_litf_212194440_12 as V3.
  assert (C3' : isfin (fneg (litf 212194440 12)) = true) by (rewrite isfin_fneg; exact C3).
  destruct (fmul_fin n z _ Fz C3') as (F4 & V4 & _); [apply small_fin; rewrite Vz, val_fneg, V3; apply Rabs_le; lra|]. rewrite Vz, val_fneg, V3 in V4.
  pose proof (rnd_err (-5) (IZR K * - (14581891 / 68719476736)) ltac:(lia)) as R4. change (bpow radix2 (-5 - 25)) with (/ 1073741824) in R4. change (bpow radix2 (-5)) with (/ 32) in R4.
  specialize (R4 ltac:(apply Rabs_le; lra)). rewrite <- V4 in R4. apply Rabs_le_inv in R4. unfold exp_r.
  set (m1 := fmul n z (litf 693359375 9)) in *. set (m2 := fmul n z (fneg (litf 212194440 12))) in *.
  destruct (grid_above w 0 ltac:(lia) Fw) as (k & Ek); [change (bpow radix2 0) with 1; exact Lw|]. change (0 - 23)%Z with (-23)%Z in Ek.
  assert (D : val w - val m1 = IZR (k - K * 355 * 16384) * bpow radix2 (-23)) by (rewrite Ek, VM, minus_IZR; ring).
  assert (VM' : val m1 = IZR K * (355 / 512)) by (rewrite VM, !mult_IZR; change (bpow radix2 (-23)) with (/ 8388608); field).
  assert (B : (Z.abs (k - K * 355 * 16384) <= 2 ^ 24)%Z).
  { assert (A : -0.4 <= val w - val m1 <= 0.4) by (rewrite VM'; lra). rewrite D in A. change (bpow radix2 (-23)) with (/ 8388608) in A.
    assert (A1 : IZR (k - K * 355 * 16384) <= IZR (2 ^ 24)) by (change (2 ^ 24)%Z with 16777216%Z; lra). assert (A2 : IZR (- 2 ^ 24) <= IZR (k - K * 355 * 16384)) by (change (- 2 ^ 24)%Z with (-16777216)%Z; lra).
    apply le_IZR in A1. apply le_IZR in A2. lia. }
  assert (FX : fmtR F32 (val w - val m1)) by (rewrite D; apply dyadic_format; [exact B|discriminate]).
  destruct (fsub_fin n w m1 Fw FM) as (F5 & V5 & _); [rewrite rnd_id by exact FX; rewrite VM'; apply Rle_lt_trans with (bpow radix2 0); [change (bpow radix2 0) with 1; apply Rabs_le; lra|apply bpow_lt; reflexivity]|].
  rewrite rnd_id in V5 by exact FX. destruct (fsub_fin n _ m2 F5 F4) as (F6 & V6 & _); [apply small_fin; rewrite V5, VM'; apply Rabs_le; lra|].
  rewrite V5, VM' in V6. split; [exact F6|].
  pose proof (rnd_err (-1) (val w - IZR K * (355 / 512) - val m2) ltac:(lia)) as RX. change (bpow radix2 (-1 - 25)) with (/ 67108864) in RX. change (bpow radix2 (-1)) with (/ 2) in RX.
  specialize (RX ltac:(apply Rabs_le; lra)). rewrite <- V6 in RX. split; [|exact RX]. apply Rabs_le_inv in RX. lra.
Qed.
(** Two arguments with the same multiple of ln 2. *)
Lemma exp_r_same x y z K : isfin x = true -> isfin y = true -> isfin z = true -> val z = IZR K -> (1 <= K <= 127)%Z -> 1 <= val x < val y ->
  Rabs (val x * (12102203 / 8388608) - IZR K) <= 0.50001 -> Rabs (val y * (12102203 / 8388608) - IZR K) <= 0.50001 ->
  isfin (exp_r n x z) = true /\ isfin (exp_r n y z) = true /\ -0.34665 <= val (exp_r n x z) /\ val (exp_r n y z) <= 0.34665 /\ 8.93e-8 <= val (exp_r n y z) - val (exp_r n x z).
Proof.
  intros Fx Fy Fz Vz HK L DX DY. destruct (exp_r_val x z K Fx Fz Vz HK ltac:(lra) DX) as (FX & BX & RX). destruct (exp_r_val y z K Fy Fz Vz HK ltac:(lra) DY) as (FY & BY & RY).
  apply Rabs_le_inv in RX. apply Rabs_le_inv in RY. split; [exact FX|]. split; [exact FY|].
  pose proof (gap_above x y 0 ltac:(lia) Fx Fy) as GP. change (bpow radix2 (0 - 23)) with (/ 8388608) in GP. change (bpow radix2 0) with 1 in GP. specialize (GP L).
  split; [lra|]. split; lra.
Qed.
End X.

(** Proof auxiliary: for each multiple of ln 2 from 1 to 126 the greatest
    argument m 2^e that exp reduces by it. *)
Definition exp_tops : list (Z * Z) :=
 [(8721809, -23); (14536350, -23); (10175444, -22); (13082715, -22); (15989984, -22); (9448627, -21); (10902262, -21);
  (12355898, -21); (13809531, -21); (15263168, -21); (16716801, -21); (9085219, -20); (9812036, -20); (10538854, -20);
  (11265671, -20); (11992489, -20); (12719305, -20); (13446124, -20); (14172940, -20); (14899759, -20); (15626575, -20);
  (16353394, -20); (8540105, -19); (8903514, -19); (9266922, -19); (9630332, -19); (9993740, -19); (10357149, -19);
  (10720557, -19); (11083967, -19); (11447375, -19); (11810785, -19); (12174192, -19); (12537602, -19); (12901010, -19);
  (13264420, -19); (13627827, -19); (13991237, -19); (14354645, -19); (14718055, -19); (15081462, -19); (15444872, -19);
  (15808280, -19); (16171690, -19); (16535097, -19); (8449253, -18); (8630957, -18); (8812662, -18); (8994366, -18);
  (9176071, -18); (9357775, -18); (9539480, -18); (9721183, -18); (9902888, -18); (10084592, -18); (10266297, -18);
  (10448001, -18); (10629706, -18); (10811410, -18); (10993115, -18); (11174818, -18); (11356523, -18); (11538227, -18);
  (11719933, -18); (11901635, -18); (12083341, -18); (12265044, -18); (12446750, -18); (12628453, -18); (12810159, -18);
  (12991862, -18); (13173568, -18); (13355271, -18); (13536976, -18); (13718679, -18); (13900385, -18); (14082088, -18);
  (14263794, -18); (14445497, -18); (14627203, -18); (14808906, -18); (14990611, -18); (15172314, -18); (15354020, -18);
  (15535723, -18); (15717429, -18); (15899132, -18); (16080838, -18); (16262541, -18); (16444246, -18); (16625949, -18);
  (8403827, -17); (8494679, -17); (8585532, -17); (8676383, -17); (8767236, -17); (8858088, -17); (8948940, -17);
  (9039792, -17); (9130645, -17); (9221496, -17); (9312349, -17); (9403201, -17); (9494054, -17); (9584905, -17);
  (9675758, -17); (9766609, -17); (9857462, -17); (9948314, -17); (10039167, -17); (10130018, -17); (10220871, -17);
  (10311723, -17); (10402575, -17); (10493427, -17); (10584280, -17); (10675131, -17); (10765984, -17); (10856836, -17);
  (10947689, -17); (11038540, -17); (11129393, -17); (11220244, -17); (11311097, -17); (11401949, -17); (11492802, -17)]%Z.
(** Proof auxiliary: the two sides of a change of multiple. *)
Definition exp_joint (n : nans F32) (K : Z) (p : Z * Z) : bool :=
  let t := f_lit F32 (fst p) (snd p) in let b := f_lit F32 (fst p + 1) (snd p) in
  let pb := exp_p n (exp_r n b (f_ofZ F32 (K + 1))) in
  (8388608 <=? fst p)%Z && (fst p <? 16777216)%Z && (-23 <=? snd p)%Z && (snd p <=? -17)%Z && fle b (f_ofZ F32 88) &&
  feq (fround_even n (fmul n (litf 144269504088896341 17) t)) (f_ofZ F32 K) &&
  feq (fround_even n (fmul n (litf 144269504088896341 17) b)) (f_ofZ F32 (K + 1)) &&
  fle (exp_p n (exp_r n t (f_ofZ F32 K))) (fadd n pb pb).
#[local] Transparent litf litd fadd fmul fsub fdiv.
Lemma exp_joints n : forallb (fun k => exp_joint n (Z.of_nat k + 1) (nth k exp_tops (0, 0)%Z)) (seq 0 126) = true.
Proof. vm_compute. reflexivity. Qed.
#[local] Opaque litf litd fadd fmul fsub fdiv.
Section Y.
Context (n : nans F32).
Lemma exp_K_near x : 0 <= x <= 89 -> Rabs (x * (12102203 / 8388608) - IZR (exp_K x)) <= 0.50001.
Proof.
  intros H. unfold exp_K. assert (N := Znearest_half (fun x => negb (Z.even x)) (rnd F32 (12102203 / 8388608 * x))). change (Znearest (fun x => negb (Z.even x))) with ZnearestE in N.
  pose proof (rnd_err 8 (12102203 / 8388608 * x) ltac:(lia)) as R. change (bpow radix2 (8 - 25)) with (/ 131072) in R. change (bpow radix2 8) with 256 in R.
  specialize (R ltac:(apply Rabs_le; lra)). apply Rabs_le_inv in R. apply Rabs_le_inv in N. apply Rabs_le. lra.
Qed.
Lemma exp_K_range x : 1 <= x <= 88 -> (1 <= exp_K x <= 127)%Z.
Proof.
  intros H. pose proof (exp_K_near x ltac:(lra)) as N. apply Rabs_le_inv in N. split.
  - assert (0 < IZR (exp_K x)) by lra. apply lt_IZR in H0. lia.
  - assert (IZR (exp_K x) < 128) by lra. apply lt_IZR in H0. lia.
Qed.
(** Proof auxiliary: the value of exp at x. *)
Definition exp_E (x : F F32) : R := val (exp_p n (exp_r n x (f_ofZ F32 (exp_K (val x))))) * bpow radix2 (exp_K (val x)).
Lemma exp_same x y : isfin x = true -> isfin y = true -> 1 <= val x <= val y -> val y <= 88 -> exp_K (val x) = exp_K (val y) -> exp_E x <= exp_E y.
Proof.
  intros Fx Fy L B E. destruct (Req_dec (val x) (val y)) as [Q|Q].
  { rewrite (same_float x y Fx Fy Q ltac:(lra)). lra. }
  pose proof (exp_K_range (val x) ltac:(lra)) as KR. destruct (fe_val (exp_K (val x)) ltac:(lia)) as [FZ VZ].
  destruct (exp_r_same n x y (f_ofZ F32 (exp_K (val x))) (exp_K (val x)) Fx Fy FZ VZ KR ltac:(lra)) as (F1 & F2 & B1 & B2 & G).
  { apply exp_K_near. lra. } { rewrite E. apply exp_K_near. lra. }
  unfold exp_E. rewrite <- E. apply Rmult_le_compat_r; [apply bpow_ge_0|]. apply exp_p_up; assumption.
Qed.
Lemma feq_true (x y : F F32) : isfin x = true -> isfin y = true -> feq x y = true -> val x = val y.
Proof. intros A B H. apply (srel_real EQ x y A B) in H. exact H. Qed.
Lemma exp_p_one x K : isfin x = true -> (1 <= K <= 127)%Z -> 1 <= val x -> Rabs (val x * (12102203 / 8388608) - IZR K) <= 0.50001 ->
  isfin (exp_p n (exp_r n x (f_ofZ F32 K))) = true /\ 0.5 <= val (exp_p n (exp_r n x (f_ofZ F32 K))) <= 1.6.
Proof.
  intros Fx HK L D. destruct (fe_val K ltac:(lia)) as [FZ VZ]. destruct (exp_r_val n x _ K Fx FZ VZ HK L D) as (F1 & B1 & _).
  destruct (Rle_dec 0 (val (exp_r n x (f_ofZ F32 K)))) as [P|P].
  - destruct (exp_p_pos n _ _ F1 F1 ltac:(lra) ltac:(lra)) as ((A & _ & _ & _ & M) & B). split; [exact A|]. lra.
  - destruct (exp_p_neg n _ F1 ltac:(lra)) as (A & _ & B). split; [exact A|]. lra.
Qed.
Lemma near_int (t : F F32) K : isfin t = true -> 0 <= val t <= 89 -> (Z.abs K <= 1000)%Z -> feq (fround_even n (fmul n (litf 144269504088896341 17) t)) (f_ofZ F32 K) = true -> exp_K (val t) = K.
Proof.
  intros Ft Bt HK H. destruct (fe_val K HK) as [FK VK]. destruct litf_144269504088896341_17 as (FL & _ & _). pose proof val_litf_144269504088896341_17 as VL.
  destruct (fmul_fin n _ t FL Ft) as (F1 & V1 & _); [apply small_fin; rewrite VL; apply Rabs_le; lra|]. rewrite VL in V1. destruct (fround_even_fin n _ F1) as (F2 & V2 & _).
  apply feq_true in H; [|exact F2|exact FK]. rewrite V2, VK, V1 in H. apply eq_IZR in H. exact H.
Qed.
(** Where the multiple changes from K to K + 1. *)
Lemma exp_step K : (1 <= K <= 126)%Z -> exists t b : F F32, isfin t = true /\ isfin b = true /\ 1 <= val t < val b /\ val b <= 88 /\
  exp_K (val t) = K /\ exp_K (val b) = (K + 1)%Z /\ (forall x : F F32, isfin x = true -> val x <= val t \/ val b <= val x) /\ exp_E t <= exp_E b.
Proof.
  intros HK. pose proof (exp_joints n) as J. rewrite forallb_forall in J. specialize (J (Z.to_nat (K - 1)) ltac:(apply in_seq; lia)).
  assert (EK : (Z.of_nat (Z.to_nat (K - 1)) + 1 = K)%Z) by lia. rewrite EK in J. destruct (nth (Z.to_nat (K - 1)) exp_tops (0, 0)%Z) as [m e].
  unfold exp_joint in J. cbn [fst snd] in J. rewrite !andb_true_iff, !Z.leb_le, Z.ltb_lt in J. destruct J as [[[[[[[M1 M2] E1] E2] B88] QT] QB] LE].
  destruct (lit_range m e ltac:(lia) ltac:(lia)) as [FT VT]. destruct (lit_range (m + 1) e ltac:(lia) ltac:(lia)) as [FB VB].
  set (t := f_lit F32 m e) in *. set (b := f_lit F32 (m + 1) e) in *. pose proof (bpow_gt_0 radix2 e) as P.
  destruct (fe_val 88 ltac:(lia)) as [F88 V88]. apply fle_val in B88; [|exact FB|exact F88]. rewrite V88 in B88.
  assert (T1 : 1 <= val t).
  { rewrite VT. apply Rle_trans with (8388608 * bpow radix2 (-23)); [change (bpow radix2 (-23)) with (/ 8388608); lra|]. apply Rmult_le_compat; [lra|apply bpow_ge_0|apply IZR_le; exact M1|apply bpow_le; exact E1]. }
  assert (TB : val b = val t + bpow radix2 e) by (rewrite VB, VT, plus_IZR; ring).
  apply near_int in QT; [|exact FT|lra|lia]. apply near_int in QB; [|exact FB|lra|lia].
  exists t, b. split; [exact FT|]. split; [exact FB|]. split; [lra|]. split; [exact B88|]. split; [exact QT|]. split; [exact QB|]. split.
  - intros x Fx. destruct (Rle_dec (val x) (val t)) as [C|C]; [left; exact C|right].
    destruct (grid_above x (e + 23) ltac:(lia) Fx) as (k & Ek).
    { apply Rle_trans with (val t); [|lra]. rewrite VT, bpow_plus, Rmult_comm. apply Rmult_le_compat_r; [lra|]. change (bpow radix2 23) with 8388608. apply IZR_le. exact M1. }
    replace (e + 23 - 23)%Z with e in Ek by lia. rewrite VB, Ek. apply Rmult_le_compat_r; [lra|]. apply IZR_le.
    assert (Q : val t < val x) by lra. rewrite VT, Ek in Q. apply Rmult_lt_reg_r in Q; [|exact P]. apply lt_IZR in Q. lia.
  - unfold exp_E. rewrite QT, QB.
    destruct (exp_p_one t K FT ltac:(lia) T1) as (F1 & B1). { rewrite <- QT. apply exp_K_near. lra. }
    destruct (exp_p_one b (K + 1) FB ltac:(lia) ltac:(lra)) as (F2 & B2). { rewrite <- QB. apply exp_K_near. lra. }
    destruct (double_exact n _ F2) as (F3 & V3); [apply Rabs_le; lra|]. apply fle_val in LE; [|exact F1|exact F3]. rewrite V3 in LE.
    rewrite bpow_plus. change (bpow radix2 1) with 2. pose proof (bpow_gt_0 radix2 K). nra.
Qed.
Lemma exp_later (d : nat) : forall x y, isfin x = true -> isfin y = true -> 1 <= val x <= val y -> val y <= 88 -> exp_K (val y) = (exp_K (val x) + Z.of_nat d)%Z -> exp_E x <= exp_E y.
Proof.
  induction d as [|d IH]; intros x y Fx Fy L B E; [apply exp_same; try assumption; lia|].
  pose proof (exp_K_range (val x) ltac:(lra)) as KX. pose proof (exp_K_range (val y) ltac:(lra)) as KY.
  destruct (exp_step (exp_K (val y) - 1) ltac:(lia)) as (t & b & FT & FB & TB & B88 & KT & KB & AD & LE).
  assert (XT : val x <= val t).
  { destruct (AD x Fx) as [H|H]; [exact H|]. apply exp_K_le in H. lia. }
  assert (BY : val b <= val y).
  { destruct (AD y Fy) as [H|H]; [|exact H]. apply exp_K_le in H. lia. }
  apply Rle_trans with (exp_E t); [apply IH; try assumption; try lra; lia|]. eapply Rle_trans; [exact LE|]. apply exp_same; try assumption; try lra. lia.
Qed.
Lemma exp_E_le x y : isfin x = true -> isfin y = true -> 1 <= val x <= val y -> val y <= 88 -> exp_E x <= exp_E y.
Proof.
  intros Fx Fy L B. pose proof (exp_K_le (val x) (val y) ltac:(lra)) as K. apply (exp_later (Z.to_nat (exp_K (val y) - exp_K (val x)))); try assumption. lia.
Qed.
End Y.
Section V.
Context (c : cfg) (I : isa) (n : nans F32) (HI : x86 I).
Lemma exp_E_val x : isfin x = true -> 1 <= val x <= 88 -> isfin (vec_exp_tanh_float c I n x) = true /\ val (vec_exp_tanh_float c I n x) = exp_E n x.
Proof.
  intros Fx Bx. destruct (exp_z_K c I n HI x Fx) as (FZ & VZ & RZ & D); [apply Rabs_le; lra|]. pose proof (exp_K_range (val x) Bx) as KR.
  destruct (fe_val (exp_K (val x)) ltac:(lia)) as [FK VK].
  assert (EZ : exp_z c I n x = f_ofZ F32 (exp_K (val x))).
  { apply same_float; try assumption; [congruence|]. rewrite VZ. assert (1 <= IZR (exp_K (val x))) by (apply IZR_le; lia). lra. }
  rewrite exp_tanh_form. unfold exp_E. change (exp_x2 c I n x) with (exp_r n x (exp_z c I n x)). rewrite EZ in RZ |- *.
  destruct (exp_p_one n x (exp_K (val x)) Fx KR ltac:(lra) D) as (FP & BP). set (p := exp_p n _) in *.
  assert (NT : ~ tiny p).
  { intros [_ T]. rewrite Rabs_pos_eq in T by lra. assert (bpow radix2 (-126) <= bpow radix2 (-2)) by (apply bpow_le; lia).
    change (bpow radix2 (-2)) with (/ 4) in H. lra. }
  destruct (ldexp_exact I p _ _ HI FP NT RZ) as (A & B & _); [|split; assumption].
  rewrite Rabs_pos_eq by lra. pose proof (bpow_gt_0 radix2 (exp_K (val x))). assert (L1 : bpow radix2 1 <= bpow radix2 (exp_K (val x))) by (apply bpow_le; lia). change (bpow radix2 1) with 2 in L1.
  assert (L2 : bpow radix2 (exp_K (val x)) <= bpow radix2 127) by (apply bpow_le; lia). assert (L3 : bpow radix2 128 = 2 * bpow radix2 127) by (change 128%Z with (1 + 127)%Z; rewrite bpow_plus; reflexivity).
  assert (L4 : bpow radix2 (-126) <= bpow radix2 0) by (apply bpow_le; lia). change (bpow radix2 0) with 1 in L4. rewrite L3. split; nra.
Qed.
Lemma exp_tanh_rises x y : isfin x = true -> isfin y = true -> 1 <= val x <= val y -> val y <= 88 -> val (vec_exp_tanh_float c I n x) <= val (vec_exp_tanh_float c I n y).
Proof.
  intros Fx Fy L B. destruct (exp_E_val x Fx ltac:(lra)) as (_ & VX). destruct (exp_E_val y Fy ltac:(lra)) as (_ & VY). rewrite VX, VY. apply exp_E_le; assumption.
Qed.
Lemma exp_mid w : isfin w = true -> 1 <= val w <= 88 -> vec_exp_float c I n w = vec_exp_tanh_float c I n w.
Proof.
  intros Fw Bw. rewrite exp_form by exact HI. destruct litf_880_1 as (F1 & _ & _). pose proof val_litf_880_1 as V1. destruct litf_8872283905206835_14 as (F2 & _ & _). pose proof val_litf_8872283905206835_14 as V2.
  destruct (vrel I LT w (fneg (litf 880 1))) eqn:Q1.
  { apply (lt_dec_val I HI) in Q1; [|exact Fw|rewrite isfin_fneg; exact F1]. rewrite val_fneg, V1 in Q1. lra. }
  destruct (vrel I GT w (litf 8872283905206835 14)) eqn:Q2; [|reflexivity].
  apply (gt_dec_val I HI) in Q2; [|exact Fw|exact F2]. rewrite V2 in Q2. lra.
Qed.
Lemma exp_rises x y : isfin x = true -> isfin y = true -> 1 <= val x <= val y -> val y <= 88 ->
  isfin (vec_exp_float c I n x) = true /\ isfin (vec_exp_float c I n y) = true /\ val (vec_exp_float c I n x) <= val (vec_exp_float c I n y).
Proof.
  intros Fx Fy L B. rewrite (exp_mid x), (exp_mid y) by (assumption || lra). split; [apply exp_E_val; [exact Fx|lra]|]. split; [apply exp_E_val; [exact Fy|lra]|]. apply exp_tanh_rises; assumption.
Qed.
End V.
