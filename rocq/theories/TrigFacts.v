(** The range reduction of sine, cosine and tangent. *)
From Coq Require Import ZArith Reals List Lia Lra Bool.
From Flocq Require Import Core IEEE754.Binary IEEE754.Bits.
From Flocq Require Import Sterbenz.
From Verif Require Import Base Backend Lanes Float LaneOps ScalarMath VecMath IntVec TransMath SpecLane SpecInt
  FloatFacts FloatRound LaneFacts VecFacts VecMore RoundFacts RoundMore RoundMore2 IntFacts LdexpFacts TransConst ErrFacts ErrTac LastStep NearFacts TransFacts RealTanh RealTrig LogFacts ExpFacts.
Import ListNotations.
Local Open Scope R_scope.
#[local] Opaque litf litd.

Lemma eta_tiny' : eta <= 1e-44.
Proof. unfold eta. change (bpow radix2 (-149)) with (/ 713623846352979940529142984724747568191373312). lra. Qed.
(** Proof auxiliary: the argument in octants. *)
Definition red_y (n : nans F32) (a : F F32) : F F32 := fmul n a four_over_pi.
(** Proof auxiliary: the even octant number. *)
Definition red_j I n a : Z := iand (iadd (itruncate I (red_y n a)) (u32 1)) (u32 (-2)).
(** Proof auxiliary: the three-step reduction. *)
Definition red_base (n : nans F32) (a y : F F32) : F F32 := fsub n (fsub n (fsub n a (fmul n y DP1)) (fmul n y DP2)) (fmul n y DP3).

Lemma fop_ok : isfin four_over_pi = true /\ val four_over_pi = 10680707 / 8388608.
Proof. unfold four_over_pi. split; [apply litd_127323954473516268615107010698011489627567716592367_50|apply val_litd_127323954473516268615107010698011489627567716592367_50]. Qed.
Lemma dp1_ok : isfin DP1 = true /\ val DP1 = 201 / 256. Proof. unfold DP1. split; [apply litd_78515625_8|apply val_litd_78515625_8]. Qed.
Lemma dp2_ok : isfin DP2 = true /\ val DP2 = 2029 / 8388608. Proof. unfold DP2. split; [apply litd_24187564849853515625_23|apply val_litd_24187564849853515625_23]. Qed.
Lemma dp3_ok : isfin DP3 = true /\ val DP3 = 10625385 / 281474976710656. Proof. unfold DP3. split; [apply litd_377489497744594108_25|apply val_litd_377489497744594108_25]. Qed.

Lemma fe_val_gen e : (Z.abs e <= 16777216)%Z -> isfin (f_ofZ F32 e) = true /\ val (f_ofZ F32 e) = IZR e.
Proof. intros H. destruct (ofZ_exact (t := F32) e) as (A & B & _); [change (2 ^ prec F32)%Z with 16777216%Z; lia|]. auto. Qed.
(** The integer part, made even. *)
Lemma even_up T : (0 <= T < 1000000)%Z -> iand (iadd T (u32 1)) (u32 (-2)) = (2 * ((T + 1) / 2))%Z.
Proof.
  intros H. unfold iadd, u32. rewrite (Z.mod_small 1) by lia. rewrite (Z.mod_small (T + 1)) by (change (2 ^ 32)%Z with 4294967296%Z; lia).
  change (-2 mod 2 ^ 32)%Z with (Z.ones 32 - 1)%Z. unfold iand. set (z := (T + 1)%Z).
  assert (HZ : (0 <= z < 1000001)%Z) by (unfold z; lia). clearbody z. clear H T.
  apply Z.bits_inj'. intros i Hi. rewrite Z.land_spec. change (Z.ones 32 - 1)%Z with (2 * Z.ones 31)%Z.
  destruct (Z.eq_dec i 0) as [->|N0].
  - rewrite !Z.testbit_even_0. apply andb_false_r.
  - replace i with (Z.succ (i - 1)) by lia. rewrite !Z.testbit_even_succ by lia.
    destruct (Z_lt_dec (i - 1) 31) as [L|L].
    + rewrite Z.ones_spec_low by lia. rewrite andb_true_r. rewrite Z.div2_bits by lia. reflexivity.
    + rewrite Z.ones_spec_high by lia. rewrite andb_false_r. symmetry. apply Z.bits_above_log2; [apply Z.div_pos; lia|].
      assert (z / 2 < 2 ^ 31)%Z by (apply Z.div_lt_upper_bound; [lia|change (2 * 2 ^ 31)%Z with 4294967296%Z; lia]).
      destruct (Z.eq_dec (z / 2) 0) as [->|NZ]; [cbn; lia|]. apply Z.log2_lt_pow2; [assert (0 <= z / 2)%Z by (apply Z.div_pos; lia); lia|].
      eapply Z.lt_le_trans; [eassumption|]. apply Z.pow_le_mono_r; lia.
Qed.

Section R.
Context (I : isa) (n : nans F32) (HI : x86 I).
Lemma x86_alt : I <> ALTIVEC. Proof. destruct HI as [-> | ->]; discriminate. Qed.
Lemma red_int a : isfin a = true -> 0 <= val a <= 8192 ->
  exists k, (0 <= k <= 5215)%Z /\ red_j I n a = (2 * k)%Z /\ iconvert I (2 * k) = f_ofZ F32 (2 * k) /\
    isfin (f_ofZ F32 (2 * k)) = true /\ val (f_ofZ F32 (2 * k)) = IZR (2 * k) /\
    Rabs (val a * (10680707 / 8388608) - IZR (2 * k)) <= 1 + 8e-8 * val a + eta.
Proof.
  intros Fa Ba. destruct fop_ok as [FF VF]. pose proof eta_small as ET.
  assert (E := rnd_eta (val a * (10680707 / 8388608))).
  assert (FB : Rabs (rnd F32 (val a * (10680707 / 8388608))) <= 16384).
  { apply (rnd_le_bpow 14); [lia|]. change (bpow radix2 14) with 16384. rewrite Rabs_pos_eq; nra. }
  destruct (fmul_fin n a four_over_pi Fa FF) as (FY & VY & _); [rewrite VF; eapply Rle_lt_trans; [exact FB|]; change 16384 with (bpow radix2 14); apply bpow_lt; reflexivity|].
  rewrite VF in VY. fold (red_y n a) in FY, VY. rewrite <- VY in E.
  assert (Y0 : 0 <= val (red_y n a)).
  { rewrite VY. rewrite <- (rnd_0 (t := F32)). apply rnd_le. nra. }
  rewrite (Rabs_pos_eq (val a * _)) in E by nra. set (y := val (red_y n a)) in *.
  assert (TF : Ztrunc y = Zfloor y) by (apply Ztrunc_floor; exact Y0).
  pose proof (Zfloor_lb y) as L1. pose proof (Zfloor_ub y) as L2. rewrite <- TF in L1, L2. set (T := Ztrunc y) in *.
  apply Rabs_le_inv in E.
  assert (YU : y < 10431) by nra.
  assert (T0 : (0 <= T)%Z) by (rewrite TF; apply Zfloor_lub; exact Y0).
  assert (TU : (T < 10431)%Z) by (apply lt_IZR; lra).
  assert (TR : itruncate I (red_y n a) = T).
  { pose proof (itruncate_reads I (red_y n a) x86_alt FY) as Q. fold y T in Q. specialize (Q ltac:(lia)).
    destruct Q as (P1 & P2 & P3). apply same_small in P3; [exact P3|]. unfold pattern in P1. lia. }
  exists ((T + 1) / 2)%Z. assert (KK : (2 * ((T + 1) / 2) <= T + 1 < 2 * ((T + 1) / 2) + 2)%Z).
  { pose proof (Z.div_mod (T + 1) 2 ltac:(lia)). pose proof (Z.mod_pos_bound (T + 1) 2 ltac:(lia)). lia. }
  set (k := ((T + 1) / 2)%Z) in *. split; [lia|]. split; [unfold red_j; rewrite TR; apply even_up; lia|].
  split. { unfold iconvert. replace (match I with ALTIVEC => (2 * k)%Z | _ => s32 (2 * k) end) with (2 * k)%Z; [reflexivity|].
    assert (s32 (2 * k) = 2 * k)%Z by (unfold s32; destruct (Z.ltb_spec (2 * k) (2 ^ 31)); [reflexivity|change (2 ^ 31)%Z with 2147483648%Z in *; lia]). destruct I; congruence. }
  destruct (fe_val_gen (2 * k)) as [A B]; [lia|]. split; [exact A|]. split; [exact B|].
  assert (K1 : IZR (2 * k) <= IZR T + 1) by (rewrite <- plus_IZR; apply IZR_le; lia).
  assert (K2 : IZR T <= IZR (2 * k)) by (apply IZR_le; lia).
  apply Rabs_le. split; nra.
Qed.
Lemma fmt_minus x y : fmtR F32 x -> fmtR F32 y -> y / 2 <= x <= 2 * y -> fmtR F32 (x - y).
Proof. intros A B H. apply (sterbenz radix2 (fexp F32)); [exact A|exact B|exact H]. Qed.
Lemma mul_exact (x y : F F32) : isfin x = true -> isfin y = true -> fmtR F32 (val x * val y) -> Rabs (val x * val y) <= 100000 ->
  isfin (fmul n x y) = true /\ val (fmul n x y) = val x * val y.
Proof.
  intros Fx Fy G B. destruct (fmul_fin n x y Fx Fy) as (A & V & _).
  - rewrite rnd_id by exact G. eapply Rle_lt_trans; [exact B|]. apply Rlt_trans with (bpow radix2 17); [change (bpow radix2 17) with 131072; lra|apply bpow_lt; reflexivity].
  - split; [exact A|]. rewrite V. apply rnd_id. exact G.
Qed.
Lemma sub_exact (x y : F F32) : isfin x = true -> isfin y = true -> fmtR F32 (val x - val y) -> Rabs (val x - val y) <= 100000 ->
  isfin (fsub n x y) = true /\ val (fsub n x y) = val x - val y.
Proof.
  intros Fx Fy G B. destruct (fsub_fin n x y Fx Fy) as (A & V & _).
  - rewrite rnd_id by exact G. eapply Rle_lt_trans; [exact B|]. apply Rlt_trans with (bpow radix2 17); [change (bpow radix2 17) with 131072; lra|apply bpow_lt; reflexivity].
  - split; [exact A|]. rewrite V. apply rnd_id. exact G.
Qed.
(** a - j (DP1 + DP2) has no rounding error *)
Lemma red_exact a k : isfin a = true -> 0 <= val a <= 8192 -> (0 <= k <= 5215)%Z ->
  Rabs (val a * (10680707 / 8388608) - IZR (2 * k)) <= 1 + 8e-8 * val a + eta ->
  isfin (f_ofZ F32 (2 * k)) = true -> val (f_ofZ F32 (2 * k)) = IZR (2 * k) ->
  let v := fsub n (fsub n a (fmul n (f_ofZ F32 (2 * k)) DP1)) (fmul n (f_ofZ F32 (2 * k)) DP2) in
  isfin v = true /\ val v = val a - IZR (2 * k) * (201 / 256 + 2029 / 8388608) /\ ((1 <= k)%Z -> IZR (2 * k) <= 2.55 * val a).
Proof.
  intros Fa Ba Bk HJ FY VY v. destruct dp1_ok as [F1 V1]. destruct dp2_ok as [F2 V2]. pose proof eta_small as ET.
  assert (KB : 0 <= IZR (2 * k) <= 10430) by (split; apply IZR_le; lia). set (Y := f_ofZ F32 (2 * k)) in *.
  assert (P1 : IZR (2 * k) * (201 / 256) = IZR (k * 201) * bpow radix2 (-7)).
  { rewrite !mult_IZR. change (bpow radix2 (-7)) with (/ 128). lra. }
  assert (P2 : IZR (2 * k) * (2029 / 8388608) = IZR (k * 2029) * bpow radix2 (-22)).
  { rewrite !mult_IZR. change (bpow radix2 (-22)) with (/ 4194304). lra. }
  assert (G1 : fmtR F32 (IZR (2 * k) * (201 / 256))) by (rewrite P1; apply dyadic_format; [change (2 ^ prec F32)%Z with 16777216%Z; lia|discriminate]).
  assert (G2 : fmtR F32 (IZR (2 * k) * (2029 / 8388608))) by (rewrite P2; apply dyadic_format; [change (2 ^ prec F32)%Z with 16777216%Z; lia|discriminate]).
  destruct (mul_exact Y DP1 FY F1) as [FM1 VM1]; [rewrite VY, V1; exact G1|rewrite VY, V1, Rabs_pos_eq; lra|].
  destruct (mul_exact Y DP2 FY F2) as [FM2 VM2]; [rewrite VY, V2; exact G2|rewrite VY, V2, Rabs_pos_eq; lra|].
  rewrite VY, V1 in VM1. rewrite VY, V2 in VM2. set (m1 := fmul n Y DP1) in *. set (m2 := fmul n Y DP2) in *.
  apply Rabs_le_inv in HJ. set (J := IZR (2 * k)) in *.
  destruct (Z.eq_dec k 0) as [K0|K0].
  - assert (J0 : J = 0) by (unfold J; rewrite K0; reflexivity). rewrite J0, ?Rmult_0_l in *.
    destruct (sub_exact a m1 Fa FM1) as [FS1 VS1]; [rewrite VM1, Rminus_0_r; apply val_format|rewrite VM1, Rminus_0_r, Rabs_pos_eq; lra|].
    rewrite VM1, Rminus_0_r in VS1.
    destruct (sub_exact (fsub n a m1) m2 FS1 FM2) as [FS2 VS2]; [rewrite VM2, VS1, Rminus_0_r; apply val_format|rewrite VM2, VS1, Rminus_0_r, Rabs_pos_eq; lra|].
    rewrite VM2, VS1, Rminus_0_r in VS2. split; [exact FS2|]. split; [unfold v; rewrite VS2; ring|lia].
  - assert (J2 : 2 <= J) by (apply IZR_le; lia).
    assert (A1 : J / 2 * (201 / 256) <= val a <= 2 * (J * (201 / 256))) by (split; nra).
    destruct (sub_exact a m1 Fa FM1) as [FS1 VS1].
    { rewrite VM1. apply fmt_minus; [apply val_format|exact G1|lra]. }
    { rewrite VM1. apply Rabs_le. lra. }
    rewrite VM1 in VS1.
    assert (HV : val a - J * (201 / 256) - J * (2029 / 8388608) = val a - J * (201 / 256 + 2029 / 8388608)) by ring.
    assert (VB : Rabs (val a - J * (201 / 256 + 2029 / 8388608)) <= 0.9) by (apply Rabs_le; split; nra).
    destruct (sub_exact (fsub n a m1) m2 FS1 FM2) as [FS2 VS2].
    { rewrite VM2, VS1, HV. destruct (val_dyadic a Fa) as (m & e & Em & Hm & He & Hq).
      assert (E24 : (-24 <= e)%Z) by (apply Hq; rewrite Rabs_pos_eq; lra).
      assert (Q : val a - J * (201 / 256 + 2029 / 8388608) = IZR (m * 2 ^ (e + 24) - k * 201 * 2 ^ 17 - k * 2029 * 2 ^ 2) * bpow radix2 (-24)).
      { rewrite <- HV, P1, P2, Em. rewrite !minus_IZR, !(mult_IZR _ (2 ^ _)). rewrite (IZR_Zpower radix2) by lia.
        change (IZR (2 ^ 17)) with (bpow radix2 17). change (IZR (2 ^ 2)) with (bpow radix2 2). rewrite !Rmult_minus_distr_r, !Rmult_assoc, <- !bpow_plus.
        replace (e + 24 + -24)%Z with e by lia. reflexivity. }
      rewrite Q. apply dyadic_format; [|discriminate]. rewrite Q in VB. change (2 ^ prec F32)%Z with 16777216%Z. apply le_IZR. rewrite abs_IZR.
      rewrite Rabs_mult, (Rabs_pos_eq (bpow radix2 (-24))) in VB by apply bpow_ge_0. change (bpow radix2 (-24)) with (/ 16777216) in VB. lra. }
    { rewrite VM2, VS1, HV. lra. }
    rewrite VM2, VS1, HV in VS2. split; [exact FS2|]. split; [exact VS2|]. intros _. nra.
Qed.
(** The reduced argument: the error is a relative one of half an ulp and one of
    1e-14 relative to the original argument. *)
Lemma red_ok a : isfin a = true -> 0 <= val a <= 8192 ->
  exists k, (0 <= k <= 5215)%Z /\ red_j I n a = (2 * k)%Z /\
    let b := red_base n a (iconvert I (red_j I n a)) in let t := val a - IZR k * (PI / 2) in
    isfin b = true /\ Rabs t <= 0.7866 /\ Rabs (val b) <= 0.7867 /\ Rabs (val b - t) <= / 16777216 * Rabs t + 1e-14 * val a /\ (k = 0%Z -> val b = val a).
Proof.
  intros Fa Ba. destruct (red_int a Fa Ba) as (k & Bk & EJ & EC & FY & VY & HJ). exists k. split; [exact Bk|]. split; [exact EJ|].
  rewrite EJ, EC. cbv zeta. destruct (red_exact a k Fa Ba Bk HJ FY VY) as (FV & VV & HA). destruct dp3_ok as [F3 V3]. pose proof eta_small as ET. pose proof eta_tiny' as ET'.
  pose proof pi4_split as PS. pose proof pi_range as PR. apply Rabs_le_inv in PS.
  assert (KB : 0 <= IZR (2 * k) <= 10430) by (split; apply IZR_le; lia).
  assert (JK : IZR k * (PI / 2) = IZR (2 * k) * (PI / 4)) by (rewrite mult_IZR; lra). rewrite JK.
  set (Y := f_ofZ F32 (2 * k)) in *. set (v := fsub n (fsub n a (fmul n Y DP1)) (fmul n Y DP2)) in *.
  unfold red_base. fold v. set (J := IZR (2 * k)) in *.
  assert (E3 := rnd_eta (J * (10625385 / 281474976710656))). rewrite (Rabs_pos_eq (J * _)) in E3 by lra.
  destruct (fmul_fin n Y DP3 FY F3) as (FW & VW & _).
  { rewrite VY, V3. eapply Rle_lt_trans; [apply (rnd_le_bpow 0); [lia|change (bpow radix2 0) with 1; rewrite Rabs_pos_eq; lra]|apply bpow_lt; reflexivity]. }
  rewrite VY, V3 in VW. set (w := fmul n Y DP3) in *. rewrite <- VW in E3. apply Rabs_le_inv in E3.
  assert (TB : Rabs (val a - J * (PI / 4)) <= 0.7866).
  { apply Rabs_le_inv in HJ. apply Rabs_le. split; nra. }
  set (t := val a - J * (PI / 4)) in *. 
  assert (X : Rabs (val v - val w - t) <= J * 3.26e-15 + eta).
  { rewrite VV. unfold t. apply Rabs_le. split; nra. }
  destruct (Z.eq_dec k 0) as [K0|K0].
  - assert (J0 : J = 0) by (unfold J; rewrite K0; reflexivity). assert (W0 : val w = 0) by (rewrite VW, J0, Rmult_0_l; apply rnd_0).
    assert (VA : val v = val a) by (rewrite VV, J0; ring). assert (TA : t = val a) by (unfold t; rewrite J0; ring).
    destruct (sub_exact v w FV FW) as [FB VB]; [rewrite W0, VA, Rminus_0_r; apply val_format|rewrite W0, VA, Rminus_0_r, Rabs_pos_eq; lra|].
    rewrite W0, VA, Rminus_0_r in VB. split; [exact FB|]. split; [exact TB|]. rewrite VB. rewrite TA in *. split; [lra|]. split; [|reflexivity].
    rewrite Rminus_diag_eq, Rabs_R0 by reflexivity. pose proof (Rabs_pos (val a)). lra.
  - specialize (HA ltac:(lia)). assert (J2 : 2 <= J) by (apply IZR_le; lia).
    assert (XB : Rabs (val v - val w) <= Rabs t + (J * 3.26e-15 + eta)).
    { replace (val v - val w) with (t + (val v - val w - t)) by ring. eapply Rle_trans; [apply Rabs_triang|]. lra. }
    destruct (fsub_fin n v w FV FW) as (FB & VB & _).
    { eapply Rle_lt_trans; [apply (rnd_le_bpow 0); [lia|change (bpow radix2 0) with 1; lra]|apply bpow_lt; reflexivity]. }
    pose proof (rnd_eta (val v - val w)) as ER. rewrite <- VB in ER. set (b := fsub n v w) in *.
    assert (EB : Rabs (val b - t) <= / 16777216 * Rabs t + 1e-14 * val a).
    { replace (val b - t) with ((val b - (val v - val w)) + (val v - val w - t)) by ring. eapply Rle_trans; [apply Rabs_triang|]. lra. }
    split; [exact FB|]. split; [exact TB|]. split; [|split; [exact EB|lia]].
    replace (val b) with (t + (val b - t)) by ring. eapply Rle_trans; [apply Rabs_triang|]. lra.
Qed.
End R.
