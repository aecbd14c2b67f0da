(** Sine, cosine and tangent keep order on every half wave. *)
From Coq Require Import ZArith Reals List Lia Lra Bool Psatz.
From Flocq Require Import Core Mult_error IEEE754.Binary IEEE754.Bits.
From Verif Require Import Base Backend Lanes Float LaneOps ScalarMath VecMath IntVec TransMath SpecLane SpecInt
  FloatFacts FloatRound LaneFacts VecFacts VecMore VecMore2 RoundFacts RoundMore RoundMore2 IntFacts LdexpFacts TransConst ErrFacts ErrTac LastStep NearFacts TransFacts RealTanh TanhFacts RealTrig LogFacts ExpFacts TrigFacts SinFacts OddFacts TanFacts TrigMore MonoFacts SpecOrder.
Import ListNotations.
Local Open Scope R_scope.
#[local] Opaque litf litd.

Lemma fmul_fin_l (n : nans F32) (x y : F F32) : isfin (fmul n x y) = true -> isfin x = true.
Proof. destruct x as [s|s|s p q|s m e q], y as [s'|s'|s' p' q'|s' m' e' q']; try reflexivity; intros H; discriminate H. Qed.
Section S.
Context (n : nans F32).
(** The factor C of the sine branch b + C b below a half and above. *)
Lemma sin_C_low b : isfin b = true -> 0 <= val b <= 0.5 ->
  isfin (trig_C n b) = true /\ Rabs (val (trig_C n b) - sin_q (val b * val b)) <= 5.1e-9 /\ Rabs (val (trig_C n b)) <= 0.042.
Proof.
  intros Fb Bb. assert (HB : holds b (val b) (0, 2 ^ 79, 0)%Z).
  { apply holds_var; [exact Fb|reflexivity|]. dyz. lra. }
  let t := eval unfold trig_C in (trig_C n b) in err_bound n [b] [val b] [(0, 2 ^ 79, 0)]%Z t H.
  fold (trig_C n b) in H. autorewrite with lits in H. 
  destruct H as (F1 & R1 & E1). 
  match type of E1 with Rabs (_ - ?X) <= _ => replace X with (sin_q (val b * val b)) in * by (unfold sin_q; ring) end.
  rewrite !dy_lit in *. split; [exact F1|]. split; [lra|].
  apply Rabs_le_inv in E1. apply Rabs_le. lra.
Qed.
Lemma sin_C_high b : isfin b = true -> 0.5 <= val b <= 0.7867 ->
  isfin (trig_C n b) = true /\ Rabs (val (trig_C n b) - sin_q (val b * val b)) <= 1.4e-8 /\ Rabs (val (trig_C n b)) <= 0.11.
Proof.
  intros Fb Bb. assert (HB : holds b (val b) (2 ^ 79, 7868 * 2 ^ 80 / 10000 + 1, 0)%Z).
  { apply holds_var; [exact Fb|reflexivity|]. dyz. lra. }
  let t := eval unfold trig_C in (trig_C n b) in err_bound n [b] [val b] [(2 ^ 79, 7868 * 2 ^ 80 / 10000 + 1, 0)]%Z t H.
  fold (trig_C n b) in H. autorewrite with lits in H. 
  destruct H as (F1 & R1 & E1). 
  match type of E1 with Rabs (_ - ?X) <= _ => replace X with (sin_q (val b * val b)) in * by (unfold sin_q; ring) end.
  rewrite !dy_lit in *. split; [exact F1|]. split; [lra|].
  apply Rabs_le_inv in E1. apply Rabs_le. lra.
Qed.
Lemma tiny_square b : isfin b = true -> 0 <= val b <= 1e-30 -> isfin (fmul n b b) = true /\ val (fmul n b b) = 0.
Proof.
  intros Fb Bb. destruct (fmul_fin n b b Fb Fb) as (F1 & V1 & _); [apply small_fin; apply Rabs_le; nra|]. split; [exact F1|].
  destruct (Req_dec (val (fmul n b b)) 0) as [E|E]; [exact E|exfalso]. pose proof (fmin_abs _ F1 E) as M.
  pose proof (rnd_eta (val b * val b)) as R. rewrite <- V1 in R. pose proof eta_tiny' as T. 
  fold eta in M.
  assert (EL : 1e-46 <= eta). { unfold eta. change (bpow radix2 (-149)) with (/ 713623846352979940529142984724747568191373312). lra. }
  rewrite (Rabs_pos_eq (val b * val b)) in R by nra. apply Rabs_le_inv in R. assert (Q : val b * val b <= 1e-30 * 1e-30) by (apply Rmult_le_compat; lra). assert (Q0 : 0 <= val b * val b) by nra. unfold Rabs in M. destruct (Rcase_abs _); lra.
Qed.
(** The product C b is close to the cubic part of the polynomial. *)
Lemma sin_r_low b : isfin b = true -> 0 <= val b <= 0.5 ->
  isfin (fmul n (trig_C n b) b) = true /\ Rabs (val (fmul n (trig_C n b) b) - val b * sin_q (val b * val b)) <= 1e-8 * val b.
Proof.
  intros Fb Bb. destruct (sin_C_low b Fb Bb) as (FC & EC & BC). apply Rabs_le_inv in BC. 
  destruct (fmul_fin n (trig_C n b) b FC Fb) as (FR & VR & _); [apply small_fin; apply Rabs_le; nra|]. split; [exact FR|].
  destruct (Rle_dec (val b) 1e-30) as [T|T].
  - destruct (tiny_square b Fb ltac:(lra)) as (FZ & VZ).
    assert (C0 : val (trig_C n b) = 0 \/ isfin (trig_C n b) = false).
    { unfold trig_C. set (z := fmul n b b) in *. set (q := fsub n _ _) in |- *.
      destruct (isfin q) eqn:FQ.
      - left. destruct (fmul_fin n q z FQ FZ) as (_ & V & _); [rewrite VZ, Rmult_0_r; apply small_fin; rewrite Rabs_R0; lra|].
        rewrite V, VZ, Rmult_0_r. apply rnd_0.
      - right. destruct (isfin (fmul n q z)) eqn:E; [|reflexivity]. exfalso. apply fmul_fin_l in E. congruence. }
    destruct C0 as [C0|C0]; [|congruence]. rewrite VR, C0, Rmult_0_l, rnd_0.
    assert (Z : 0 <= val b * val b <= 1e-60) by nra. set (z := val b * val b) in *.
    assert (Q : - 1e-59 <= sin_q z <= 0) by (unfold sin_q; nra). apply Rabs_le. nra.
  - pose proof (rnd_eta (val (trig_C n b) * val b)) as R. rewrite <- VR in R. pose proof eta_tiny' as ET.
    rewrite Rabs_mult, (Rabs_pos_eq (val b)) in R by lra.
    assert (AC : Rabs (val (trig_C n b)) <= 0.042) by (apply Rabs_le; lra). 
    set (C := val (trig_C n b)) in *. set (q := sin_q (val b * val b)) in *. set (r := val (fmul n (trig_C n b) b)) in *.
    apply Rabs_le_inv in R. apply Rabs_le_inv in EC.
    assert (X : Rabs C * val b <= 0.042 * val b) by nra. apply Rabs_le. split; nra.
Qed.
Lemma sin_r_high b : isfin b = true -> 0.5 <= val b <= 0.7867 ->
  isfin (fmul n (trig_C n b) b) = true /\ Rabs (val (fmul n (trig_C n b) b) - val b * sin_q (val b * val b)) <= 1.5e-8.
Proof.
  intros Fb Bb. destruct (sin_C_high b Fb Bb) as (FC & EC & BC). apply Rabs_le_inv in BC. 
  destruct (fmul_fin n (trig_C n b) b FC Fb) as (FR & VR & _); [apply small_fin; apply Rabs_le; nra|]. split; [exact FR|].
  assert (R : Rabs (val (fmul n (trig_C n b) b) - val (trig_C n b) * val b) <= bpow radix2 (-3 - 25)).
  { rewrite VR. apply rnd_err; [lia|]. change (bpow radix2 (-3)) with (/ 8). apply Rabs_le. nra. }
  change (bpow radix2 (-3 - 25)) with (/ 268435456) in R. apply Rabs_le_inv in R. apply Rabs_le_inv in EC.
  set (C := val (trig_C n b)) in *. set (q := sin_q (val b * val b)) in *. set (r := val (fmul n (trig_C n b) b)) in *.
  apply Rabs_le. split; nra.
Qed.
Lemma sin_g x y B L : 0 <= x <= y -> y <= B -> B <= 0.7867 -> B * B * (1 / 2) + 0.0004 <= L ->
  - (L * (y - x)) <= y * sin_q (y * y) - x * sin_q (x * x).
Proof.
  intros H HB BB HL. unfold sin_q.
  set (S2 := y * y + y * x + x * x). set (S4 := y * y * (y * y) + y * y * (y * x) + y * x * (y * x) + (x * x) * (y * x) + x * x * (x * x)).
  set (S6 := y * y * y * (y * y * y) + y * y * y * y * y * x + y * y * y * y * x * x + y * y * y * x * x * x + y * y * x * x * x * x + y * x * x * x * x * x + x * x * x * x * x * x).
  assert (E : y * (((- (13410809 / 68719476736) * (y * y) + 4473295 / 536870912) * (y * y) - 11184803 / 67108864) * (y * y)) -
    x * (((- (13410809 / 68719476736) * (x * x) + 4473295 / 536870912) * (x * x) - 11184803 / 67108864) * (x * x)) =
    (y - x) * (- (13410809 / 68719476736) * S6 + 4473295 / 536870912 * S4 - 11184803 / 67108864 * S2)) by (unfold S2, S4, S6; field).
  rewrite E.
  assert (Y2 : y * y <= B * B) by nra. assert (X2 : x * x <= y * y) by nra. assert (YX : x * y <= y * y) by nra. assert (P : 0 <= x * y) by nra. assert (PX : 0 <= x * x) by nra.
  assert (K2 : S2 <= 3 * (B * B)) by (unfold S2; nra).
  assert (K4 : 0 <= S4) by (unfold S4; nra).
  assert (K6 : S6 <= 7 * (y * y * (y * y) * (y * y))).
  { unfold S6. set (u := y * y) in *. replace (y * u * (y * y * y)) with (u * u * u) by (unfold u; ring).
    assert (A : forall p q, 0 <= p <= u * u -> 0 <= q <= u -> p * q <= u * u * u) by (intros p q Hp Hq; apply Rmult_le_compat; lra).
    assert (A2 : forall p q, 0 <= p <= u -> 0 <= q <= u -> 0 <= p * q <= u * u) by (intros p q Hp Hq; split; [apply Rmult_le_pos; lra|apply Rmult_le_compat; lra]).
    pose proof (A (u * u) (x * y) (A2 u u ltac:(lra) ltac:(lra)) ltac:(lra)) as A11.
    pose proof (A (u * u) (x * x) (A2 u u ltac:(lra) ltac:(lra)) ltac:(lra)) as A12.
    pose proof (A (u * (x * y)) (x * x) (A2 u (x * y) ltac:(lra) ltac:(lra)) ltac:(lra)) as A13.
    pose proof (A (u * (x * x)) (x * x) (A2 u (x * x) ltac:(lra) ltac:(lra)) ltac:(lra)) as A14.
    pose proof (A (x * y * (x * x)) (x * x) (A2 (x * y) (x * x) ltac:(lra) ltac:(lra)) ltac:(lra)) as A15.
    pose proof (A (x * x * (x * x)) (x * x) (A2 (x * x) (x * x) ltac:(lra) ltac:(lra)) ltac:(lra)) as A16.
    unfold u in *. lra. }
  assert (K7 : y * y * (y * y) * (y * y) <= 0.24).
  { assert (U : 0 <= y * y <= 0.619) by nra. set (u := y * y) in *. assert (0 <= u * u <= 0.3832) by nra. nra. }
  nra.
Qed.
Lemma trig_sin_eq b : isfin b = true -> Rabs (val b) <= 0.7867 ->
  isfin (trig_sin n b) = true /\ val (trig_sin n b) = rnd F32 (val (fmul n (trig_C n b) b) + val b) /\ isfin (fmul n (trig_C n b) b) = true.
Proof.
  intros Fb Bb. destruct (trig_C_val n b Fb Bb) as (FC & _ & BC). 
  assert (FR : isfin (fmul n (trig_C n b) b) = true).
  { destruct (fmul_fin n (trig_C n b) b FC Fb) as (FR & _); [|exact FR]. apply small_fin. rewrite Rabs_mult. pose proof (Rabs_pos (val b)). pose proof (Rabs_pos (val (trig_C n b))). nra. }
  destruct (fadd_fin n _ b FR Fb) as (F1 & V1 & _); [apply last_fin; try assumption; lra|]. auto.
Qed.
Lemma same_float (x y : F F32) : isfin x = true -> isfin y = true -> val x = val y -> val x <> 0 -> x = y.
Proof.
  intros Fx Fy E N. apply fin_eq; try assumption. pose proof (sgn_val_gen x Fx) as A. pose proof (sgn_val_gen y Fy) as B. 
  pose proof (Rabs_pos_lt _ N). rewrite <- E in B. destruct (sgn x), (sgn y); try reflexivity; lra.
Qed.
Lemma trig_sin_up x y : isfin x = true -> isfin y = true -> 0 <= val x <= val y -> val y <= 0.7867 -> val (trig_sin n x) <= val (trig_sin n y).
Proof.
  intros Fx Fy H B. destruct (trig_sin_eq x Fx) as (_ & VX & FRX); [rewrite Rabs_pos_eq; lra|]. destruct (trig_sin_eq y Fy) as (_ & VY & FRY); [rewrite Rabs_pos_eq; lra|].
  destruct (Req_dec (val x) (val y)) as [E|E].
  - destruct (Req_dec (val x) 0) as [Z|Z]; [|rewrite (same_float x y Fx Fy E Z); lra].
    destruct (sin_r_low x Fx ltac:(lra)) as (_ & RX). destruct (sin_r_low y Fy ltac:(lra)) as (_ & RY).
    rewrite <- E, Z, Rmult_0_l, Rmult_0_r in RY. rewrite Z, Rmult_0_l, Rmult_0_r in RX. apply Rabs_le_inv in RX. apply Rabs_le_inv in RY.
    rewrite VX, VY. apply rnd_le. lra.
  - rewrite VX, VY. apply rnd_le. assert (H' : 0 <= val x < val y) by lra. pose proof (gap x y Fx Fy H') as G.
    destruct (Rle_dec (val y) 0.5) as [C|C].
    + destruct (sin_r_low x Fx ltac:(lra)) as (_ & RX). destruct (sin_r_low y Fy ltac:(lra)) as (_ & RY). apply Rabs_le_inv in RX. apply Rabs_le_inv in RY.
      pose proof (sin_g (val x) (val y) 0.5 0.126 H C ltac:(lra) ltac:(lra)) as S.
      set (rx := val (fmul n (trig_C n x) x)) in *. set (ry := val (fmul n (trig_C n y) y)) in *.
      set (gx := val x * sin_q (val x * val x)) in *. set (gy := val y * sin_q (val y * val y)) in *. clearbody rx ry gx gy. nra.
    + destruct (sin_r_high y Fy ltac:(lra)) as (_ & RY). apply Rabs_le_inv in RY.
      assert (RX : - 1.5e-8 <= val (fmul n (trig_C n x) x) - val x * sin_q (val x * val x) <= 1.5e-8).
      { destruct (Rle_dec (val x) 0.5) as [D|D]; [destruct (sin_r_low x Fx ltac:(lra)) as (_ & RX)|destruct (sin_r_high x Fx ltac:(lra)) as (_ & RX)]; apply Rabs_le_inv in RX; lra. }
      pose proof (sin_g (val x) (val y) 0.7867 0.3099 H B ltac:(lra) ltac:(lra)) as S.
      assert (G2 : / 16777216 <= val y - val x).
      { destruct (Rle_dec 0.5 (val x)) as [D|D].
        - pose proof (gap_above x y (-1) ltac:(lia) Fx Fy) as GG. change (bpow radix2 (-1 - 23)) with (/ 16777216) in GG. change (bpow radix2 (-1)) with (/ 2) in GG. apply GG. lra.
        - destruct (lit_range 1 (-1) ltac:(lia) ltac:(lia)) as [FH VH]. change (1 * bpow radix2 (-1)) with (1 * / 2) in VH. pose proof (gap_above (f_lit F32 1 (-1)) y (-1) ltac:(lia) FH Fy) as GG. change (bpow radix2 (-1 - 23)) with (/ 16777216) in GG.
          rewrite VH in GG. change (bpow radix2 (-1)) with (/ 2) in GG. specialize (GG ltac:(lra)). lra. }
      set (rx := val (fmul n (trig_C n x) x)) in *. set (ry := val (fmul n (trig_C n y) y)) in *.
      set (gx := val x * sin_q (val x * val x)) in *. set (gy := val y * sin_q (val y * val y)) in *. clearbody rx ry gx gy. lra.
Qed.
(** The sine branch is odd in value. *)
Lemma square_neg b : isfin b = true -> Rabs (val b) <= 1 -> fmul n (fneg b) (fneg b) = fmul n b b.
Proof.
  intros Fb Bb. assert (Fb' : isfin (fneg b) = true) by (rewrite isfin_fneg; exact Fb). apply Rabs_le_inv in Bb.
  destruct (fmul_fin n b b Fb Fb) as (F1 & V1 & S1); [apply small_fin; apply Rabs_le; nra|].
  destruct (fmul_fin n (fneg b) (fneg b) Fb' Fb') as (F2 & V2 & S2); [rewrite !val_fneg; apply small_fin; apply Rabs_le; nra|].
  apply fin_eq; try assumption; [rewrite V1, V2, !val_fneg; f_equal; ring|rewrite S1, S2, !sgn_fneg; destruct (sgn b); reflexivity].
Qed.
Lemma trig_sin_neg b : isfin b = true -> Rabs (val b) <= 0.7867 -> val (trig_sin n (fneg b)) = - val (trig_sin n b).
Proof.
  intros Fb Bb. assert (Bb' : Rabs (val (fneg b)) <= 0.7867) by (rewrite val_fneg, Rabs_Ropp; exact Bb).
  assert (Fb' : isfin (fneg b) = true) by (rewrite isfin_fneg; exact Fb).
  destruct (trig_sin_eq b Fb Bb) as (_ & V1 & F1). destruct (trig_sin_eq (fneg b) Fb' Bb') as (_ & V2 & F2).
  destruct (trig_C_val n b Fb Bb) as (FC & _ & BC). 
  assert (EC : trig_C n (fneg b) = trig_C n b) by (unfold trig_C; rewrite !square_neg by (assumption || lra); reflexivity).
  rewrite V1, V2, EC, val_fneg, <- rnd_opp. f_equal. 
  assert (SM : Rabs (val (trig_C n b) * val b) <= 1024). { rewrite Rabs_mult. pose proof (Rabs_pos (val b)). pose proof (Rabs_pos (val (trig_C n b))). nra. }
  destruct (fmul_fin n (trig_C n b) b FC Fb) as (_ & W1 & _); [apply small_fin; exact SM|].
  destruct (fmul_fin n (trig_C n b) (fneg b) FC Fb') as (_ & W2 & _); [rewrite val_fneg, Ropp_mult_distr_r_reverse; apply small_fin; rewrite Rabs_Ropp; exact SM|].
  rewrite W1, W2, val_fneg, Ropp_mult_distr_r_reverse, rnd_opp. ring.
Qed.
Lemma trig_sin_nonneg b : isfin b = true -> 0 <= val b <= 0.7867 -> 0 <= val (trig_sin n b).
Proof.
  intros Fb Bb. assert (F0 : isfin (f_ofZ F32 0) = true) by reflexivity. assert (V0 : val (f_ofZ F32 0) = 0) by reflexivity. pose proof (trig_sin_up _ b F0 Fb ltac:(rewrite V0; lra) ltac:(lra)) as H.
  destruct (trig_sin_eq _ F0) as (_ & V & _); [rewrite V0, Rabs_R0; lra|]. destruct (sin_r_low _ F0 ltac:(rewrite V0; lra)) as (_ & R). rewrite V0, Rmult_0_l, Rmult_0_r in R. apply Rabs_le_inv in R.
  assert (0 <= val (trig_sin n (f_ofZ F32 0))); [|lra]. rewrite V, V0. apply rnd_nonneg. lra.
Qed.
Lemma trig_sin_rises x y : isfin x = true -> isfin y = true -> -0.7867 <= val x <= val y -> val y <= 0.7867 -> val (trig_sin n x) <= val (trig_sin n y).
Proof.
  intros Fx Fy H B. assert (Fx' : isfin (fneg x) = true) by (rewrite isfin_fneg; exact Fx). assert (Fy' : isfin (fneg y) = true) by (rewrite isfin_fneg; exact Fy).
  assert (AX : Rabs (val x) <= 0.7867) by (apply Rabs_le; lra). assert (AY : Rabs (val y) <= 0.7867) by (apply Rabs_le; lra).
  destruct (Rle_dec 0 (val x)) as [P|P]; [apply trig_sin_up; try assumption; lra|].
  pose proof (trig_sin_neg x Fx AX) as NX. pose proof (trig_sin_neg y Fy AY) as NY.
  destruct (Rle_dec 0 (val y)) as [Q|Q].
  - pose proof (trig_sin_nonneg y Fy ltac:(lra)). pose proof (trig_sin_nonneg _ Fx' ltac:(rewrite val_fneg; lra)). lra.
  - pose proof (trig_sin_up _ _ Fy' Fx' ltac:(rewrite !val_fneg; lra) ltac:(rewrite val_fneg; lra)). lra.
Qed.

(** Proof auxiliary: the polynomial of the cosine branch. *)
Definition cosz_P (z : F F32) : F F32 := fadd n (fmul n (fsub n (fmul n (litd 2443315711809948 20) z) (litd 1388731625493765 18)) z) (litd 4166664568298827 17).
(** Proof auxiliary: the cosine branch in terms of the square. *)
Definition cosz (z : F F32) : F F32 := fadd n (fsub n (fmul n (fmul n (cosz_P z) z) z) (fmul n (litf 5 1) z)) (f_ofZ F32 1).
Lemma trig_cos_z b : trig_cos n b = cosz (fmul n b b). Proof. unfold trig_cos, cosz, cosz_P; reflexivity. Qed.
(** Proof auxiliary: what [cosz_P] computes. *)
Definition cos_pp (z : R) : R := (6716135 / 274877906944 * z - 5964557 / 4294967296) * z + 11184805 / 268435456.
Lemma cosz_P_val z : isfin z = true -> 0 <= val z <= 0.619 ->
  isfin (cosz_P z) = true /\ Rabs (val (cosz_P z) - cos_pp (val z)) <= 2e-9 /\ 0.04 <= cos_pp (val z) <= 0.0417.
Proof.
  intros Fb Bb. assert (HB : holds z (val z) (0, 7868 * 2 ^ 80 / 10000 + 1, 0)%Z).
  { apply holds_var; [exact Fb|reflexivity|]. dyz. lra. }
  let t := eval unfold cosz_P in (cosz_P z) in err_bound n [z] [val z] [(0, 7868 * 2 ^ 80 / 10000 + 1, 0)]%Z t H.
  fold (cosz_P z) in H. autorewrite with lits in H. 
  destruct H as (F1 & R1 & E1).   rewrite !dy_lit in *. fold (cos_pp (val z)) in E1, R1. split; [exact F1|]. split; [lra|]. lra.
Qed.
Lemma near_one h : - / 268435456 <= h <= 0 -> rnd F32 (h + 1) = 1.
Proof.
  intros H. destruct one_ok as (F1 & V1 & _). assert (G1 : fmtR F32 1) by (rewrite <- V1; apply val_format).
  apply Rle_antisym; [apply rnd_le_format; [exact G1|lra]|].
  destruct (Rle_dec 1 (rnd F32 (h + 1))) as [L|L]; [exact L|exfalso].
  assert (B : rnd F32 (1 - / 16777216) = 1 - / 16777216).
  { apply rnd_id. replace (1 - / 16777216) with (IZR 16777215 * bpow radix2 (-24)) by (change (bpow radix2 (-24)) with (/ 16777216); lra). apply dyadic_format; [discriminate|discriminate]. }
  pose proof (rnd_err 0 (h + 1) ltac:(lia)) as E. change (bpow radix2 0) with 1 in E. change (bpow radix2 (0 - 25)) with (/ 33554432) in E. specialize (E ltac:(apply Rabs_le; lra)). apply Rabs_le_inv in E.
  pose proof (pred_ge_gt radix2 (fexp F32) (rnd F32 (h + 1)) 1 (rnd_format _) G1 ltac:(lra)) as P.
  assert (PO : Ulp.pred radix2 (fexp F32) 1 = 1 - / 16777216).
  { change 1 with (bpow radix2 0) at 1. rewrite pred_bpow. change (fexp F32 0) with (-24)%Z. change (bpow radix2 0) with 1. change (bpow radix2 (-24)) with (/ 16777216). reflexivity. }
  rewrite PO in P. lra.
Qed.
Lemma half_format x : fmtR F32 x -> / 1073741824 <= x -> fmtR F32 (/ 2 * x).
Proof.
  intros G H. destruct (Req_dec x 0) as [Z|Z]; [lra|].
  replace (/ 2 * x) with (x * bpow radix2 (-1)) by (change (bpow radix2 (-1)) with (/ 2); ring).
  unfold fmtR in *. rewrite fexp_FLT in *. apply mult_bpow_exact_FLT; [exact G|]. 
  assert (-29 <= Raux.mag radix2 x)%Z; [|change (emin F32) with (-149)%Z; change (prec F32) with 24%Z; lia].
  apply mag_ge_bpow. rewrite Rabs_pos_eq by lra. change (bpow radix2 (-29 - 1)) with (/ 1073741824). exact H.
Qed.
Lemma cosz_parts z : isfin z = true -> 0 <= val z <= 0.619 ->
  isfin (cosz z) = true /\ exists w s, val (cosz z) = rnd F32 (rnd F32 (w - s) + 1) /\ 0 <= w <= s /\ s <= 0.5 /\
    (val z <= / 134217728 -> s <= / 268435456) /\
    (/ 134217728 < val z -> s = / 2 * val z /\ Rabs (w - val z * val z * cos_pp (val z)) <= 7.5e-9 * (val z * val z)).
Proof.
  intros Fz Bz. destruct (cosz_P_val z Fz Bz) as (FP & EP & BP). apply Rabs_le_inv in EP. unfold cosz.
  destruct litf_5_1 as (F5 & _). pose proof val_litf_5_1 as V5. destruct one_ok as (F1 & V1 & _). 
  assert (PB : 0.039 <= val (cosz_P z) <= 0.0418) by lra. set (P := cosz_P z) in *. clearbody P.
  assert (PZ : 0 <= val P * val z <= 0.026) by nra.
  destruct (fmul_fin n P z FP Fz) as (FQ & VQ & _); [apply small_fin; apply Rabs_le; lra|].
  assert (QB : 0 <= val (fmul n P z) <= 27 / 1024) by (rewrite VQ; apply (rnd_grain _ 27); [lia|lra]). set (Q := fmul n P z) in *.
  assert (QZ : 0 <= val Q * val z <= 0.0166) by nra.
  destruct (fmul_fin n Q z FQ Fz) as (FW & VW & _); [apply small_fin; apply Rabs_le; lra|]. set (W := fmul n Q z) in *.
  assert (W0 : 0 <= val W) by (rewrite VW; apply rnd_nonneg; lra).
  destruct (fmul_fin n (litf 5 1) z F5 Fz) as (FS & VS & _); [apply small_fin; rewrite V5; apply Rabs_le; lra|]. rewrite V5 in VS. set (S := fmul n (litf 5 1) z) in *.
  assert (WS : val W <= val S) by (rewrite VW, VS; apply rnd_le; nra).
  assert (SB : val S <= 317 / 1024) by (rewrite VS; apply (rnd_grain _ 317); [lia|lra]).
  destruct (fsub_fin n W S FW FS) as (FH & VH & _); [apply small_fin; apply Rabs_le; lra|]. set (H := fsub n W S) in *.
  assert (HB : -1 <= val H <= 0).
  { rewrite VH. split; [|rewrite <- (rnd_0 (t := F32)); apply rnd_le; lra]. 
    replace (-1) with (- rnd F32 1) by (rewrite rnd_id; [reflexivity|rewrite <- V1; apply val_format]). rewrite <- rnd_opp. apply rnd_le. lra. }
  destruct (fadd_fin n H (f_ofZ F32 1) FH F1) as (FR & VR & _); [apply small_fin; rewrite V1; apply Rabs_le; lra|]. rewrite V1, VH in VR.
  split; [exact FR|]. exists (val W), (val S). split; [exact VR|]. split; [lra|]. split; [lra|]. split.
  - intros T. rewrite VS. apply rnd_le_format; [|lra]. change (/ 268435456) with (bpow radix2 (-28)). apply bpow_format. discriminate.
  - intros T. split.
    + rewrite VS. replace (1 / 2 * val z) with (/ 2 * val z) by lra. apply rnd_id. apply half_format; [apply val_format|lra].
    + pose proof (rnd_eta (val P * val z)) as E1. pose proof (rnd_eta (val Q * val z)) as E2. rewrite <- VQ in E1. rewrite <- VW in E2. pose proof eta_tiny' as ET. pose proof eta_small as ES.
      rewrite (Rabs_pos_eq (val P * _)) in E1 by lra. rewrite (Rabs_pos_eq (val Q * _)) in E2 by lra. apply Rabs_le_inv in E1. apply Rabs_le_inv in E2. 
      set (q := cos_pp (val z)) in *. set (Zz := val z) in *. set (p := val P) in *. set (u := val Q) in *. set (w := val W) in *. clearbody q Zz p u w. clear - Bz EP BP PB T E1 E2 ET ES QB W0.
      assert (e0 : eta <= 1e-20 * (Zz * Zz)) by nra.
      assert (e1 : - (2.6e-9 * Zz) <= u - p * Zz <= 2.6e-9 * Zz) by nra.
      assert (e2 : - (2e-9 * Zz) <= p * Zz - q * Zz <= 2e-9 * Zz) by nra.
      assert (e3 : - (4.6e-9 * (Zz * Zz)) <= u * Zz - Zz * Zz * q <= 4.6e-9 * (Zz * Zz)) by nra.
      assert (e4 : u * Zz <= 0.0418 * (Zz * Zz)) by nra.
      apply Rabs_le. lra.
Qed.
Lemma cosz_one z : isfin z = true -> 0 <= val z <= 0.619 -> val (cosz z) <= 1 /\ (val z <= / 134217728 -> val (cosz z) = 1).
Proof.
  intros Fz Bz. destruct (cosz_parts z Fz Bz) as (_ & w & s & V & WS & S5 & T & _). destruct one_ok as (F1 & V1 & _). assert (G1 : fmtR F32 1) by (rewrite <- V1; apply val_format).
  assert (H0 : rnd F32 (w - s) <= 0) by (rewrite <- (rnd_0 (t := F32)); apply rnd_le; lra). split.
  - rewrite V. apply rnd_le_format; [exact G1|lra].
  - intros B. specialize (T B). rewrite V. apply near_one. split; [|exact H0].
    assert (G : fmtR F32 (/ 268435456)) by (change (/ 268435456) with (bpow radix2 (-28)); apply bpow_format; discriminate).
    rewrite <- (rnd_id (t := F32) _ G), <- rnd_opp. apply rnd_le. lra.
Qed.
Lemma cosz_down z z' : isfin z = true -> isfin z' = true -> 0 <= val z <= val z' -> val z' <= 0.619 -> val (cosz z') <= val (cosz z).
Proof.
  intros Fz Fz' H B. destruct (Rle_dec (val z) (/ 134217728)) as [T|T].
  - destruct (cosz_one z Fz ltac:(lra)) as (_ & E). rewrite (E T). apply cosz_one; [exact Fz'|lra].
  - destruct (Req_dec (val z) (val z')) as [E|E]; [rewrite (same_float z z' Fz Fz' E ltac:(lra)); lra|].
    destruct (cosz_parts z Fz ltac:(lra)) as (_ & w & s & V & WS & S5 & _ & N). destruct (N ltac:(lra)) as [ES EW]. 
    destruct (cosz_parts z' Fz' ltac:(lra)) as (_ & w' & s' & V' & WS' & S5' & _ & N'). destruct (N' ltac:(lra)) as [ES' EW']. clear N N'.
    pose proof (gap z z' Fz Fz' ltac:(lra)) as G. rewrite V, V'. apply rnd_le. apply Rplus_le_compat_r. apply rnd_le. rewrite ES, ES'.
    apply Rabs_le_inv in EW. apply Rabs_le_inv in EW'. clear V V' ES ES' WS WS' S5 S5'. unfold cos_pp in *. set (x := val z) in *. set (y := val z') in *. clearbody x y.
    assert (K : y * y * ((6716135 / 274877906944 * y - 5964557 / 4294967296) * y + 11184805 / 268435456) - x * x * ((6716135 / 274877906944 * x - 5964557 / 4294967296) * x + 11184805 / 268435456) <= 0.053 * (y - x)).
    { replace (y * y * ((6716135 / 274877906944 * y - 5964557 / 4294967296) * y + 11184805 / 268435456) - x * x * ((6716135 / 274877906944 * x - 5964557 / 4294967296) * x + 11184805 / 268435456))
        with ((y - x) * (6716135 / 274877906944 * ((y + x) * (y * y + x * x)) - 5964557 / 4294967296 * (y * y + y * x + x * x) + 11184805 / 268435456 * (y + x))) by field.
      assert (0 <= y * y + y * x + x * x) by nra. assert (y * y <= 0.3832) by nra. assert (x * x <= 0.3832) by nra. assert (0 <= x * x) by nra. assert ((y + x) * (y * y + x * x) <= 1) by nra. nra. }
    assert (Y2 : y * y <= 0.619 * y) by nra. assert (X2 : x * x <= y * y) by nra. lra.
Qed.
Lemma trig_cos_falls x y : isfin x = true -> isfin y = true -> Rabs (val x) <= Rabs (val y) -> Rabs (val y) <= 0.7867 -> val (trig_cos n y) <= val (trig_cos n x).
Proof.
  intros Fx Fy H B. pose proof (Rabs_pos (val x)) as P.
  assert (Q : forall v, v * v = Rabs v * Rabs v) by (intros v; rewrite <- Rabs_mult; symmetry; apply Rabs_pos_eq; nra).
  assert (SX : 0 <= val x * val x <= val y * val y) by (rewrite (Q (val x)), (Q (val y)); nra). assert (SY : val y * val y <= 0.6189) by (rewrite (Q (val y)); nra).
  destruct (fmul_fin n x x Fx Fx) as (F1 & V1 & _); [apply small_fin; apply Rabs_le; lra|]. destruct (fmul_fin n y y Fy Fy) as (F2 & V2 & _); [apply small_fin; apply Rabs_le; lra|].
  rewrite !trig_cos_z. apply cosz_down; try assumption; rewrite V1, V2 || rewrite V2.
  - split; [apply rnd_nonneg; lra|apply rnd_le; lra].
  - pose proof (rnd_eta (val y * val y)) as E. pose proof eta_small. rewrite (Rabs_pos_eq (val y * val y)) in E by lra. apply Rabs_le_inv in E. lra.
Qed.
Lemma trig_cos_le1 x : isfin x = true -> Rabs (val x) <= 0.7867 -> val (trig_cos n x) <= 1.
Proof.
  intros Fx B. assert (F0 : isfin (f_ofZ F32 0) = true) by reflexivity. assert (V0 : val (f_ofZ F32 0) = 0) by reflexivity.
  pose proof (trig_cos_falls _ x F0 Fx ltac:(rewrite V0, Rabs_R0; apply Rabs_pos) B) as H. 
  destruct (fmul_fin n (f_ofZ F32 0) (f_ofZ F32 0) F0 F0) as (F1 & V1 & _); [apply small_fin; rewrite V0, Rmult_0_l, Rabs_R0; lra|]. rewrite V0, Rmult_0_l, rnd_0 in V1.
  rewrite trig_cos_z in H. destruct (cosz_one _ F1 ltac:(rewrite V1; lra)). rewrite trig_cos_z in *. lra.
Qed.
End S.
