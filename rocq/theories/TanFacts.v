(** Accuracy of tangent. *)
From Coq Require Import ZArith Reals List Lia Lra Bool.
From Flocq Require Import Core IEEE754.Binary IEEE754.Bits.
From Verif Require Import Base Backend Lanes Float LaneOps ScalarMath VecMath IntVec TransMath SpecLane SpecInt
  FloatFacts FloatRound LaneFacts VecFacts VecMore VecMore2 RoundFacts RoundMore RoundMore2 IntFacts LdexpFacts TransConst ErrFacts ErrTac LastStep NearFacts TransFacts RealTanh RealTrig LogFacts ExpFacts TrigFacts SinFacts OddFacts.
Import ListNotations.
Local Open Scope R_scope.
#[local] Opaque litf litd.

(** Proof auxiliary: the polynomial of vec_tan_float (vec_math.hpp). *)
Definition tan_P (n : nans F32) (x : F F32) : F F32 := 
  fadd n (litd 3333315551280975341796875 25) (fmul n (fmul n x x) (fadd n (litd 1333882510662078857421875 25) (fmul n (fmul n x x)
  (fadd n (litd 53409568965435028076171875 27) (fmul n (fmul n x x) (fadd n (litd 2443529665470123291015625 26) (fmul n (fmul n x x)
  (fadd n (litd 31127030961215496063232421875 31) (fmul n (fmul n x x) (litd 93892104923725128173828125 28)))))))))).
(** Proof auxiliary: the series of tan. *)
Definition trig_tan (n : nans F32) (x : F F32) : F F32 := fadd n x (fmul n (cube_of n x) (tan_P n x)).

(** A float at least 2^E is a multiple of 2^(E-23). *)
Lemma grid (a : F F32) E : (-100 <= E)%Z -> bpow radix2 E <= Rabs (val a) -> exists m, val a = IZR m * bpow radix2 (E - 23).
Proof.
  intros HE B. pose proof (val_format a) as G. unfold fmtR, generic_format in G.
  set (e := cexp radix2 (fexp F32) (val a)) in *. set (m := Ztrunc (scaled_mantissa radix2 (fexp F32) (val a))) in *.
  assert (He : (E - 23 <= e)%Z).
  { unfold e, cexp. rewrite fexp_FLT. unfold FLT_exp. assert (M : (E < Raux.mag radix2 (val a))%Z); [|change (prec F32) with 24%Z; lia].
    apply mag_gt_bpow. exact B. }
  exists (m * 2 ^ (e - (E - 23)))%Z. rewrite G. unfold F2R. cbn [Fnum Fexp]. rewrite mult_IZR, (IZR_Zpower radix2) by lia.
  rewrite Rmult_assoc, <- bpow_plus. f_equal. f_equal. lia.
Qed.
(** No multiple of pi/2 up to 8192 is near a float: checked for each of them. *)
Definition pi4z : Z := 221069929750889.
(** Proof auxiliary: the reduced argument near pole [k] stays away from it. *)
Definition far (k : Z) : bool :=
  let N := (2 * k * pi4z)%Z in let low := (N - 221521155000000)%Z in
  let G := (2 ^ (Z.log2 low - 23))%Z in let r := (N mod G)%Z in
  (0 <? low)%Z && (23 <=? Z.log2 low)%Z && (1168000 <=? r)%Z && (r <=? G - 1168000)%Z.
Lemma far_all : upto (Z.to_nat 5215) (fun k => far (k + 1)) = true. Proof. vm_compute. reflexivity. Qed.

Section S.
Context (c : cfg) (I : isa) (n : nans F32) (HI : x86 I).
Lemma far_from (a : F F32) k : isfin a = true -> (1 <= k <= 5215)%Z -> Rabs (val a - IZR k * (PI / 2)) <= 0.7866 -> 4.1e-9 <= Rabs (val a - IZR k * (PI / 2)).
Proof.
  intros Fa Bk Ht. pose proof (upto_all (Z.to_nat 5215) (fun k => far (k + 1)) (k - 1) far_all ltac:(lia)) as H. cbv beta in H.
  replace (k - 1 + 1)%Z with k in H by ring. unfold far in H. cbv zeta in H. set (N := (2 * k * pi4z)%Z) in *. set (low := (N - 221521155000000)%Z) in *.
  rewrite !andb_true_iff, Z.ltb_lt, !Z.leb_le in H. destruct H as (((L0 & L1) & R1) & R2). set (l := Z.log2 low) in *.
  pose proof pi4_split as PS. apply Rabs_le_inv in PS.
  assert (KB : 1 <= IZR k <= 5215) by (split; apply IZR_le; lia).
  assert (NV : Rabs (IZR N * bpow radix2 (-48) - IZR k * (PI / 2)) <= 1.1e-11).
  { change (bpow radix2 (-48)) with (/ 281474976710656). unfold N, pi4z. rewrite !mult_IZR. apply Rabs_le. split; nra. }
  assert (LV : IZR low * bpow radix2 (-48) <= val a).
  { unfold low. rewrite minus_IZR. change (bpow radix2 (-48)) with (/ 281474976710656) in *. apply Rabs_le_inv in NV. apply Rabs_le_inv in Ht. lra. }
  assert (LL : bpow radix2 (l - 48) <= Rabs (val a)).
  { unfold Z.sub. rewrite bpow_plus. rewrite <- (IZR_Zpower radix2) by lia. eapply Rle_trans; [|apply Rle_abs]. eapply Rle_trans; [|exact LV].
    apply Rmult_le_compat_r; [apply bpow_ge_0|]. apply IZR_le. apply Z.log2_spec. exact L0. }
  destruct (grid a (l - 48) ltac:(lia) LL) as [m Hm].
  assert (VA : val a = IZR (m * 2 ^ (l - 23)) * bpow radix2 (-48)).
  { rewrite Hm, mult_IZR, (IZR_Zpower radix2) by lia. rewrite Rmult_assoc, <- bpow_plus. f_equal. f_equal. lia. }
  set (G := (2 ^ (l - 23))%Z) in *. assert (G0 : (0 < G)%Z) by (apply Z.pow_pos_nonneg; lia).
  assert (D : (1168000 <= Z.abs (m * G - N))%Z).
  { pose proof (Z.div_mod N G ltac:(lia)) as DM. set (q := (N / G)%Z) in *. set (r := (N mod G)%Z) in *.
    replace (m * G - N)%Z with ((m - q) * G - r)%Z by (rewrite DM; ring).
    destruct (Z_le_dec (m - q) 0); [nia|]. assert (G <= (m - q) * G)%Z by nia. lia. }
  apply IZR_le in D. rewrite abs_IZR, minus_IZR in D.
  assert (DD : 1168000 * / 281474976710656 <= Rabs (val a - IZR N * bpow radix2 (-48))).
  { rewrite VA, <- Rmult_minus_distr_r, Rabs_mult, (Rabs_pos_eq (bpow radix2 (-48))) by apply bpow_ge_0.
    change (bpow radix2 (-48)) with (/ 281474976710656). lra. }
  set (u := IZR N * bpow radix2 (-48)) in *. set (v := IZR k * (PI / 2)) in *.
  replace (val a - u) with ((val a - v) - (u - v)) in DD by ring. pose proof (Rabs_triang (val a - v) (- (u - v))) as T. rewrite Rabs_Ropp in T.
  unfold Rminus in DD at 1. lra.
Qed.

Lemma tan_form a : sgn a = false -> forall k, (0 <= k <= 5215)%Z -> red_j I n a = (2 * k)%Z ->
  let b := red_base n a (iconvert I (red_j I n a)) in
  vec_tan_float c I n a = if Z.even k then trig_tan n b else fdiv n (fneg (litd 10 1)) (trig_tan n b).
Proof.
  intros Sa k Bk EJ. cbv zeta. destruct (quad I HI k Bk) as (Q1 & _ & _ & _).
  assert (EA : fabs a = a) by (destruct a as [[]|[]|[]|[]]; reflexivity || discriminate).
  unfold vec_tan_float. cbv zeta. rewrite !band_abs, EA. fold (red_y n a). fold (red_j I n a). rewrite EJ, Q1. clear Q1.
  rewrite select_mask by (destruct HI as [-> | ->]; discriminate).
  rewrite bxor_sign, Sa.
  unfold trig_tan, tan_P, cube_of. set (B := red_base n a (iconvert I (2 * k))). unfold red_base in B.
  destruct (Z.even k); subst B; reflexivity.
Qed.
Lemma tan_P_near b : isfin b = true -> Rabs (val b) <= 0.7867 -> near (tan_P n b) (tan_q (val b * val b)) 0.45 6e-8 0 1.
Proof.
  intros Fb Bb. assert (HB : holds b (val b) bb).
  { unfold bb. apply holds_var; [exact Fb|reflexivity|]. dyz. apply Rabs_le_inv in Bb. lra. }
  unfold bb in HB.
  let t := eval unfold tan_P in (tan_P n b) in err_bound n [b] [val b] [(- 7868 * 2 ^ 80 / 10000 - 1, 7868 * 2 ^ 80 / 10000 + 1, 0)]%Z t H.
  fold (tan_P n b) in H. autorewrite with lits in H. fold (tan_q (val b * val b)) in H.
  destruct H as (F1 & R1 & E1). rewrite !dy_lit in *. apply Rabs_le_inv in Bb.
  assert (Z : 0 <= val b * val b <= 0.619) by nra. set (z := val b * val b) in *.
  assert (Q : 0 <= tan_q z).
  { unfold tan_q. repeat (apply Rplus_le_le_0_compat; [lra|apply Rmult_le_pos; [lra|]]). lra. }
  split; [exact F1|rewrite Rabs_pos_eq by exact Q; lra|lra|lra].
Qed.

Lemma tan_part b t a : isfin b = true -> Rabs (val b) <= 0.7867 -> Rabs t <= 0.7866 -> 0 <= a -> Rabs (val b - t) <= / 16777216 * Rabs t + 1e-14 * a ->
  isfin (trig_tan n b) = true /\ Rabs (val (trig_tan n b) - tan t) <= 34e-8 * Rabs (tan t) + 2.01e-14 * a + 5 * eta.
Proof.
  intros Fb Bb Bt Pa E. pose proof (tan_P_near b Fb Bb) as NP.
  assert (W2 : Rabs (val b) * Rabs (val b) <= 0.619) by (pose proof (Rabs_pos (val b)); nra).
  pose proof (odd_tail n b _ _ _ _ 0.619 Fb ltac:(lra) W2 ltac:(lra) NP ltac:(lra) ltac:(lra)) as NT. fold (trig_tan n b) in NT.
  destruct NT as [FT _ ET _]. split; [exact FT|].
  pose proof (tan_poly (val b) ltac:(lra)) as EP. pose proof (lip_tan (val b) t ltac:(lra) ltac:(lra)) as EL. pose proof (tan_low t ltac:(lra)) as TL.
  set (S := trig_tan n b) in *. set (r := val b * (1 + val b * val b * tan_q (val b * val b))) in *.
  assert (BT : Rabs (val b) <= Rabs t + (/ 16777216 * Rabs t + 1e-14 * a)).
  { replace (val b) with (t + (val b - t)) by ring. eapply Rle_trans; [apply Rabs_triang|]. lra. }
  replace (val S - tan t) with ((val S - r) + ((r - tan (val b)) + (tan (val b) - tan t))) by ring.
  eapply Rle_trans; [apply Rabs_triang|]. pose proof (Rabs_triang (r - tan (val b)) (tan (val b) - tan t)) as T. 
  pose proof (Rabs_pos (val b)). pose proof (Rabs_pos t). set (B := Rabs (val b)) in *. set (U := Rabs t) in *. set (W := Rabs (tan t)) in *. lra.
Qed.
(** the reciprocal of an approximation *)
Lemma recip_real T u d : u <> 0 -> 0 <= d -> d <= 0.05 * Rabs u -> Rabs (T - u) <= 34e-8 * Rabs u + d ->
  T <> 0 /\ / Rabs T <= 1.053 * / Rabs u /\ Rabs (/ T - / u) <= 1.053 * (34e-8 * / Rabs u + d * (/ u * / u)).
Proof.
  intros U D0 D E. pose proof (Rabs_pos_lt u U) as PU.
  assert (TL : 0.9499 * Rabs u <= Rabs T).
  { pose proof (Rabs_triang_inv u (u - T)) as H. replace (u - (u - T)) with T in H by ring. rewrite (Rabs_minus_sym u T) in H. lra. }
  assert (T0 : T <> 0) by (intros ->; rewrite Rabs_R0 in TL; lra). pose proof (Rabs_pos_lt T T0) as PT.
  assert (IU : 0 < / Rabs u) by (apply Rinv_0_lt_compat; exact PU). assert (IT : 0 < / Rabs T) by (apply Rinv_0_lt_compat; exact PT).
  assert (IL : / Rabs T <= 1.053 * / Rabs u).
  { apply Rmult_le_reg_r with (Rabs T * Rabs u); [nra|]. replace (/ Rabs T * (Rabs T * Rabs u)) with (Rabs u) by (field; lra).
    replace (1.053 * / Rabs u * (Rabs T * Rabs u)) with (1.053 * Rabs T) by (field; lra). lra. }
  split; [exact T0|]. split; [exact IL|].
  replace (/ T - / u) with ((T - u) * - (/ T * / u)) by (field; split; assumption).
  rewrite Rabs_mult, Rabs_Ropp, Rabs_mult, !Rabs_inv.
  assert (UU : / u * / u = / Rabs u * / Rabs u) by (rewrite <- !Rabs_inv, <- Rabs_mult; symmetry; apply Rabs_pos_eq; nra). rewrite UU.
  apply Rle_trans with ((34e-8 * Rabs u + d) * (1.053 * / Rabs u * / Rabs u)).
  - apply Rmult_le_compat; [apply Rabs_pos|nra|exact E|]. apply Rmult_le_compat_r; lra.
  - right. field. lra.
Qed.
Lemma tan_pos a : isfin a = true -> sgn a = false -> 0 <= val a <= 8192 ->
  isfin (vec_tan_float c I n a) = true /\
  Rabs (val (vec_tan_float c I n a) - tan (val a)) <= 43e-8 * Rabs (tan (val a)) + 2.2e-14 * val a * (1 + tan (val a) * tan (val a)) + 5 * eta.
Proof.
  intros Fa Sa Ba. destruct (red_ok I n HI a Fa Ba) as (k & Bk & EJ & FB & TB & BB & EB & _). pose proof eta_small as ETS. pose proof eta_tiny' as ETT.
  rewrite (tan_form a Sa k Bk EJ). set (b := red_base n a (iconvert I (red_j I n a))) in *. clearbody b.
  assert (FR := far_from a k Fa). set (t := val a - IZR k * (PI / 2)) in *.
  assert (EA : val a = t + IZR k * (PI / 2)) by (unfold t; ring). 
  destruct (tan_part b t (val a) FB BB TB ltac:(lra) EB) as [FT ET]. pose proof (Rabs_pos (tan t)) as PT.
  destruct (Z.even k) eqn:KE.
  - assert (EQ : tan (val a) = tan t) by (rewrite EA, tan_quad by (try lia; try lra; right; exact KE); rewrite KE; reflexivity).
    rewrite EQ. split; [exact FT|]. assert (0 <= val a * (tan t * tan t)) by (apply Rmult_le_pos; nra). lra.
  - assert (K1 : (1 <= k)%Z) by (destruct (Z.eq_dec k 0) as [-> |]; [discriminate|lia]). specialize (FR ltac:(lia) TB).
    pose proof (tan_low t ltac:(lra)) as TL. assert (TN : 4.09e-9 <= Rabs (tan t)) by lra.
    assert (TZ : tan t <> 0) by (intros Z; rewrite Z, Rabs_R0 in TN; lra).
    assert (SZ : sin t <> 0). { intros Z. apply TZ. unfold tan. rewrite Z. unfold Rdiv. apply Rmult_0_l. }
    assert (EQ : tan (val a) = - / tan t) by (rewrite EA, tan_quad by (try lia; try lra; left; exact SZ); rewrite KE; reflexivity).
    assert (A0 : 0.78 <= val a).
    { pose proof pi_range as PR. pose proof (IZR_le 1 k K1). apply Rabs_le_inv in TB. unfold t in TB. nra. }
    destruct (recip_real (val (trig_tan n b)) (tan t) (2.02e-14 * val a) TZ ltac:(lra) ltac:(lra) ltac:(lra)) as (T0 & IT & ER).
    set (T := trig_tan n b) in *. set (u := tan t) in *. destruct litd_10_1 as (F1 & _ & _). pose proof val_litd_10_1 as V1.
    assert (F1' : isfin (fneg (litd 10 1)) = true) by (rewrite isfin_fneg; exact F1).
    assert (V1' : val (fneg (litd 10 1)) = -1) by (rewrite val_fneg, V1; lra).
    assert (IU : 0 < / Rabs u <= 2.5e8).
    { split; [apply Rinv_0_lt_compat; lra|]. apply Rmult_le_reg_r with (Rabs u); [lra|]. rewrite Rinv_l by lra. lra. }
    assert (QB : Rabs (-1 / val T) <= 3e8).
    { unfold Rdiv. rewrite Rabs_mult, Rabs_inv, (Rabs_left (-1)) by lra. lra. }
    destruct (fdiv_fin n (fneg (litd 10 1)) T F1' T0) as (FQ & VQ & _).
    { rewrite V1'. eapply Rle_lt_trans; [apply (rnd_le_bpow 30); [lia|change (bpow radix2 30) with 1073741824; lra]|apply bpow_lt; reflexivity]. }
    rewrite V1' in VQ. split; [exact FQ|]. pose proof (rnd_eta (-1 / val T)) as RE. rewrite <- VQ in RE. rewrite EQ. set (Q := val (fdiv n (fneg (litd 10 1)) T)) in *.
    assert (QA : Rabs (-1 / val T) = / Rabs (val T)) by (unfold Rdiv; rewrite Rabs_mult, Rabs_inv, (Rabs_left (-1)) by lra; lra). rewrite QA in RE.
    rewrite Rabs_Ropp, Rabs_inv.
    replace (- / u * - / u) with (/ u * / u) by ring.
    replace (Q - - / u) with ((Q - -1 / val T) + - (/ val T - / u)) by (field; split; assumption).
    eapply Rle_trans; [apply Rabs_triang|]. rewrite Rabs_Ropp. assert (0 <= / u * / u) by nra. set (y := / u * / u) in *. set (v := / Rabs u) in *. set (tv := / Rabs (val T)) in *.
    assert (0 <= val a * y) by nra. lra.
Qed.
Lemma tan_accurate x : isfin x = true -> Rabs (val x) <= 8192 ->
  isfin (vec_tan_float c I n x) = true /\
  Rabs (val (vec_tan_float c I n x) - tan (val x)) <= 43e-8 * Rabs (tan (val x)) + 2.2e-14 * Rabs (val x) * (1 + tan (val x) * tan (val x)) + 5 * eta.
Proof.
  intros Fx Bx. rewrite (tan_signed c I n x).
  destruct (tan_pos (fabs x)) as [F1 E1]; [rewrite isfin_fabs; exact Fx|apply sgn_fabs|rewrite val_fabs; pose proof (Rabs_pos (val x)); lra|].
  rewrite val_fabs in E1. pose proof (sgn_val_gen x Fx) as SV.
  assert (EA : tan (val x) = if sgn x then - tan (Rabs (val x)) else tan (Rabs (val x))).
  { destruct (sgn x); rewrite SV at 1; [apply tan_neg|reflexivity]. }
  assert (EB : tan (val x) * tan (val x) = tan (Rabs (val x)) * tan (Rabs (val x))) by (rewrite EA; destruct (sgn x); ring).
  rewrite EB, EA, abs_if. apply neg_err; assumption.
Qed.
End S.
