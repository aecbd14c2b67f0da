(** The exponential function: reduction, range and accuracy. *)
From Coq Require Import ZArith Reals List Lia Lra Bool.
From Flocq Require Import Core IEEE754.Binary IEEE754.Bits.
From Verif Require Import Base Backend Lanes Float LaneOps ScalarMath VecMath IntVec TransMath SpecLane SpecRound SpecInt
  FloatFacts FloatRound LaneFacts VecFacts VecMore VecMore2 RoundFacts RoundMore RoundMore2 IntFacts LdexpFacts TransConst TransFacts
  ErrFacts ErrTac RealMath.
Import ListNotations.
Local Open Scope R_scope.
#[local] Opaque litf litd.

(** The reduced argument and the polynomial, shared by vec_exp_float and
    vec_exp_tanh_float. *)
Definition exp_z c I n (x : F F32) := vround c I n (fmul n (litf 144269504088896341 17) x).
(** Proof auxiliary: the argument of exp after the first reduction step
    (vec_exp_float). *)
Definition exp_x1 c I n (x : F F32) := fsub n x (fmul n (exp_z c I n x) (litf 693359375 9)).
(** Proof auxiliary: and after the second. *)
Definition exp_x2 c I n (x : F F32) := fsub n (exp_x1 c I n x) (fmul n (exp_z c I n x) (fneg (litf 212194440 12))).
(** Proof auxiliary: the polynomial of exp. *)
Definition exp_p n (x : F F32) := fadd n (f_ofZ F32 1) (fmul n x (fadd n (litf 100000035762786865234375 23)
  (fmul n x (fadd n (litf 4999996721744537353515625 25) (fmul n x (fadd n (litf 16665561497211456298828125 26)
  (fmul n x (fadd n (litf 4167006909847259521484375 26) (fmul n x (fadd n (litf 8420792408287525177001953125 30)
  (fmul n x (litf 1386119984090328216552734375 30)))))))))))).

Lemma exp_tanh_form c I n x :
  vec_exp_tanh_float c I n x = ldexp_float I (exp_p n (exp_x2 c I n x)) (itruncate I (exp_z c I n x)).
Proof. reflexivity. Qed.
Lemma exp_form c I n x : x86 I -> vec_exp_float c I n x =
  if vrel I LT x (fneg (litf 880 1)) then f_ofZ F32 0
  else if vrel I GT x (litf 8872283905206835 14) then f_max F32 else vec_exp_tanh_float c I n x.
Proof.
  intros HI. unfold vec_exp_float. cbv zeta. rewrite !select_vmask by (apply x86_neon; exact HI). rewrite gen_one_1.
  rewrite exp_tanh_form. reflexivity.
Qed.

Lemma vround_x86 c I n (x : F F32) : x86 I -> within_2_23 x -> vround c I n x = fround_even n x.
Proof.
  intros [-> | ->] H; unfold vround; [|reflexivity]. destruct (has_sse41 c); [reflexivity|]. apply vec_round_float_even. exact H.
Qed.

Lemma dy_lit z : dy z = IZR z / 1208925819614629174706176.
Proof. reflexivity. Qed.
Lemma exp_z_val c I n x : x86 I -> isfin x = true -> Rabs (val x) <= 89 ->
  exists K, (Z.abs K <= 129)%Z /\ isfin (exp_z c I n x) = true /\ val (exp_z c I n x) = IZR K /\
    reads (itruncate I (exp_z c I n x)) K /\
    Rabs (val x * (12102203 / 8388608) - IZR K) <= 0.50001.
Proof.
  intros HI Hx Hb. apply Rabs_le_inv in Hb.
  assert (H0 : holds x (val x) (- 89 * 2 ^ 80, 89 * 2 ^ 80, 0)%Z).
  { split; [exact Hx|]. rewrite !dy_lit. split; [|rewrite Rminus_diag_eq, Rabs_R0 by reflexivity; lra].
    rewrite !mult_IZR. lra. }
  err_bound n [x] [val x] [(- 89 * 2 ^ 80, 89 * 2 ^ 80, 0)%Z] (fmul n (litf 144269504088896341 17) x) H.
  destruct H as (F1 & R1 & E1). rewrite !dy_lit in *. autorewrite with lits in *.
  set (t := fmul n (litf 144269504088896341 17) x) in *. apply Rabs_le_inv in E1.
  assert (W : within_2_23 t). { split; [exact F1|]. change (bpow radix2 23) with 8388608. apply Rabs_le. lra. }
  unfold exp_z. fold t. rewrite (vround_x86 c I n t HI W).
  destruct (fround_even_fin n t F1) as (A & B & _). exists (ZnearestE (val t)).
  assert (N := Znearest_half (fun x => negb (Z.even x)) (val t)). 
  assert (KB : (-129 <= ZnearestE (val t) <= 129)%Z) by (apply ZnearestE_bounds; lra).
  split; [lia|]. split; [exact A|]. split; [exact B|]. split.
  - replace (ZnearestE (val t)) with (Ztrunc (val (fround_even n t))) by (rewrite B; apply Ztrunc_IZR).
    apply itruncate_reads; [destruct HI as [-> | ->]; discriminate|exact A|]. rewrite B, Ztrunc_IZR. lia.
  - apply Rabs_le. apply Rabs_le_inv in N. change (Znearest (fun x => negb (Z.even x)) (val t)) with (ZnearestE (val t)) in N. lra.
Qed.
(** Proof auxiliary: the reduced argument in exact arithmetic. *)
Definition gval (x : R) (K : Z) : R := x - IZR K * (355 / 512 - 14581891 / 68719476736).
Lemma exp_x2_val c I n x K : x86 I -> isfin x = true -> Rabs (val x) <= 89 ->
  (Z.abs K <= 129)%Z -> isfin (exp_z c I n x) = true -> val (exp_z c I n x) = IZR K ->
  Rabs (val x * (12102203 / 8388608) - IZR K) <= 0.50001 ->
  Rabs (gval (val x) K) <= 0.347 /\ isfin (exp_x2 c I n x) = true /\ Rabs (val (exp_x2 c I n x) - gval (val x) K) <= 32e-9.
Proof.
  intros HI Hx Hb HK Fz Vz HD. apply Rabs_le_inv in HD.
  assert (KR : -129 <= IZR K <= 129) by (split; apply IZR_le; lia).
  assert (G : Rabs (gval (val x) K) <= 0.347) by (apply Rabs_le; unfold gval; lra). split; [exact G|]. apply Rabs_le_inv in G.
  set (z := exp_z c I n x) in *.
  assert (M1 : isfin (fmul n z (litf 693359375 9)) = true /\ val (fmul n z (litf 693359375 9)) = IZR K * (355 / 512)).
  { destruct (litf_693359375_9) as (C1 & C2 & _).
    assert (V : val z * val (litf 693359375 9) = IZR (K * 355) * bpow radix2 (-9)) by (rewrite Vz, C2, mult_IZR; ring).
    assert (FM : fmtR F32 (IZR (K * 355) * bpow radix2 (-9))).
    { apply dyadic_format; [change (2 ^ prec F32)%Z with 16777216%Z; lia|discriminate]. }
    destruct (fmul_fin n z (litf 693359375 9) Fz C1) as (A & B & _).
    { rewrite V, rnd_id by exact FM. apply dyadic_lt; [change (2 ^ prec F32)%Z with 16777216%Z; lia|reflexivity]. }
    split; [exact A|]. rewrite B, V, rnd_id by exact FM. rewrite mult_IZR. change (bpow radix2 (-9)) with (/ 512). field. }
  destruct M1 as [FM VM]. set (m1 := fmul n z (litf 693359375 9)) in *.
  assert (B1 : Rabs (val x - val m1) <= bpow radix2 (-1)).
  { change (bpow radix2 (-1)) with (/ 2). rewrite VM. unfold gval in G. apply Rabs_le. lra. }
  assert (E1 := rnd_err (-1) _ ltac:(lia) B1). change (bpow radix2 (-1 - 25)) with (/ 67108864) in E1.
  destruct (fsub_fin n x m1 Hx FM) as (F1 & V1 & _).
  { eapply Rle_lt_trans; [apply rnd_le_bpow; [|exact B1]; lia|apply bpow_lt; reflexivity]. }
  fold (exp_x1 c I n x) in F1, V1. unfold exp_x2. fold z. set (x1 := exp_x1 c I n x) in *.
  assert (S1 : fsub n x m1 = x1) by reflexivity. rewrite S1 in *. rewrite <- V1 in E1. apply Rabs_le_inv in E1. rewrite VM in *.
  pose (be := [(- 3 * 2 ^ 77, 3 * 2 ^ 77, 2 ^ 54); (- 129 * 2 ^ 80, 129 * 2 ^ 80, 0)]%Z).
  assert (HV : holds x1 (val x - IZR K * (355 / 512)) (- 3 * 2 ^ 77, 3 * 2 ^ 77, 2 ^ 54)%Z).
  { split; [exact F1|]. rewrite !dy_lit. unfold gval in G. split; [rewrite !mult_IZR; lra|]. apply Rabs_le. lra. }
  assert (HZ : holds z (IZR K) (- 129 * 2 ^ 80, 129 * 2 ^ 80, 0)%Z).
  { split; [exact Fz|]. rewrite !dy_lit. split; [rewrite !mult_IZR; lra|]. rewrite Vz, Rminus_diag_eq, Rabs_R0 by reflexivity. lra. }
  err_bound n [x1; z] [val x - IZR K * (355 / 512); IZR K] [(- 3 * 2 ^ 77, 3 * 2 ^ 77, 2 ^ 54); (- 129 * 2 ^ 80, 129 * 2 ^ 80, 0)]%Z
    (fsub n x1 (fmul n z (fneg (litf 212194440 12)))) H.
  destruct H as (F2 & R2 & E2). split; [exact F2|]. rewrite !dy_lit in *. autorewrite with lits in *.
  apply Rabs_le_inv in E2. unfold gval. apply Rabs_le. lra.
Qed.
Lemma exp_p_val n (x2 : F F32) g : isfin x2 = true -> Rabs (val x2 - g) <= 32e-9 -> Rabs g <= 0.347 ->
  isfin (exp_p n x2) = true /\ Rabs (val (exp_p n x2) - exp g) <= 19e-8.
Proof.
  intros F2 E2 G. apply Rabs_le_inv in G.
  assert (H2 : holds x2 g (- 347 * 2 ^ 80 / 1000 - 1, 347 * 2 ^ 80 / 1000 + 1, 2 ^ 80 / 31249999)%Z).
  { split; [exact F2|]. rewrite !dy_lit. split; [|apply Rabs_le_inv in E2; apply Rabs_le];
    match goal with |- context [IZR ?z] => idtac | _ => idtac end;
    let v1 := eval vm_compute in (- 347 * 2 ^ 80 / 1000 - 1)%Z in let v2 := eval vm_compute in (347 * 2 ^ 80 / 1000 + 1)%Z in
    let v3 := eval vm_compute in (2 ^ 80 / 31249999)%Z in
    change (- 347 * 2 ^ 80 / 1000 - 1)%Z with v1; change (347 * 2 ^ 80 / 1000 + 1)%Z with v2; change (2 ^ 80 / 31249999)%Z with v3; lra. }
  let t := eval unfold exp_p in (exp_p n x2) in
  err_bound n [x2] [g] [(- 347 * 2 ^ 80 / 1000 - 1, 347 * 2 ^ 80 / 1000 + 1, 2 ^ 80 / 31249999)%Z] t H.
  fold (exp_p n x2) in H. destruct H as (F3 & R3 & E3). split; [exact F3|]. rewrite !dy_lit in *. autorewrite with lits in *.
  destruct one_ok as (_ & V1 & _). rewrite V1 in *.
  pose proof (exp_poly g ltac:(lra)) as EP. apply Rabs_le_inv in EP. apply Rabs_le_inv in E3.
  apply Rabs_le. lra.
Qed.

Lemma exp_split_real x K : exp x = exp (gval x K) * bpow radix2 K * exp (IZR K * (355 / 512 - 14581891 / 68719476736 - ln 2)).
Proof.
  rewrite bpow_exp, <- !exp_plus. f_equal. unfold gval. change (IZR (radix_val radix2)) with 2. ring.
Qed.
(** What is left before the last step: p * 2^K is close to e^x. *)
Lemma exp_core c I n x : x86 I -> isfin x = true -> Rabs (val x) <= 89 ->
  exists p k K, vec_exp_tanh_float c I n x = ldexp_float I p k /\ reads k K /\ isfin p = true /\
    Rabs (val p - exp (gval (val x) K)) <= 19e-8 /\ Rabs (gval (val x) K) <= 0.347 /\
    (Z.abs K <= 129)%Z /\ Rabs (val x * (12102203 / 8388608) - IZR K) <= 0.50001.
Proof.
  intros HI Hx Hb. destruct (exp_z_val c I n x HI Hx Hb) as (K & KB & Fz & Vz & Rk & D).
  destruct (exp_x2_val c I n x K HI Hx Hb KB Fz Vz D) as (G & F2 & E2).
  destruct (exp_p_val n _ _ F2 E2 G) as (F3 & E3).
  exists (exp_p n (exp_x2 c I n x)), (itruncate I (exp_z c I n x)), K. rewrite exp_tanh_form. auto 10.
Qed.
Lemma exp_close x p K : Rabs (p - exp (gval x K)) <= 19e-8 -> Rabs (gval x K) <= 0.347 -> (Z.abs K <= 129)%Z ->
  Rabs (p * bpow radix2 K - exp x) <= 3e-7 * exp x.
Proof.
  intros Hp HG HK. rewrite (exp_split_real x K). set (g := gval x K) in *. apply Rabs_le_inv in HG.
  pose proof (exp_range_bounds g ltac:(lra)) as HE. pose proof ln2_split as L.
  set (d := IZR K * (355 / 512 - 14581891 / 68719476736 - ln 2)).
  assert (KR : Rabs (IZR K) <= 129) by (rewrite <- abs_IZR; apply IZR_le; lia).
  assert (D : Rabs d <= 3e-10).
  { unfold d. rewrite Rabs_mult. eapply Rle_trans; [apply Rmult_le_compat; [apply Rabs_pos|apply Rabs_pos|exact KR|exact L]|lra]. }
  pose proof (exp_small d D) as ED. apply Rabs_le_inv in ED. apply Rabs_le_inv in Hp.
  set (q := exp d) in *. set (eg := exp g) in *. pose proof (bpow_gt_0 radix2 K) as BK.
  replace (p * bpow radix2 K - eg * bpow radix2 K * q) with (bpow radix2 K * (p - eg * q)) by ring.
  rewrite Rabs_mult, (Rabs_pos_eq (bpow radix2 K)) by lra.
  replace (3e-7 * (eg * bpow radix2 K * q)) with (bpow radix2 K * (3e-7 * eg * q)) by ring.
  apply Rmult_le_compat_l; [lra|]. apply Rabs_le.
  assert (- (6e-10) <= eg * (q - 1) <= 6e-10) by nra. assert (0.69 <= eg * q) by nra. nra.
Qed.
Lemma exp_accurate_core c I n x : x86 I -> isfin x = true -> - 87.33 <= val x <= 11629079 / 131072 ->
  let y := vec_exp_tanh_float c I n x in
  isfin y = true /\ sgn y = false /\ Rabs (val y - exp (val x)) <= 3e-7 * exp (val x).
Proof.
  intros HI Hx HR y. destruct (exp_core c I n x HI Hx) as (p & k & K & E & Rk & Fp & Hp & HG & HK & _).
  { apply Rabs_le. lra. }
  pose proof (exp_close (val x) (val p) K Hp HG HK) as C. unfold y. rewrite E.
  assert (P : 0.69 <= val p).
  { apply Rabs_le_inv in HG. pose proof (exp_range_bounds (gval (val x) K) ltac:(lra)). apply Rabs_le_inv in Hp. lra. }
  assert (NT : ~ tiny p).
  { intros [_ T]. rewrite Rabs_pos_eq in T by lra. assert (bpow radix2 (-126) <= bpow radix2 (-1)) by (apply bpow_le; lia).
    change (bpow radix2 (-1)) with (/ 2) in H. lra. }
  assert (EL : exp (- 87.33) <= exp (val x)) by (destruct (proj1 HR) as [H|H]; [left; apply exp_increasing; exact H|rewrite H; right; reflexivity]).
  assert (EH : exp (val x) <= exp (11629079 / 131072)) by (destruct (proj2 HR) as [H|H]; [left; apply exp_increasing; exact H|rewrite H; right; reflexivity]).
  pose proof exp_low_edge as LE. pose proof exp_high_edge as HE. pose proof (exp_pos (val x)) as PX.
  apply Rabs_le_inv in C.
  destruct (ldexp_exact I p k K HI Fp NT Rk) as (A & B & S).
  { rewrite Rabs_pos_eq by lra. change (bpow radix2 (-126)) with (/ 85070591730234615865843651857942052864).
    change (bpow radix2 128) with 340282366920938463463374607431768211456. split; nra. }
  split; [exact A|]. split; [|rewrite B; apply Rabs_le; lra]. rewrite S.
  destruct (sgn p) eqn:SP; [|reflexivity]. rewrite (sgn_val_gen p Fp), SP in P. pose proof (Rabs_pos (val p)). lra.
Qed.
(** The remaining part of the range, where the result is subnormal. *)
Lemma exp_low c I n x : x86 I -> isfin x = true -> - 88 <= val x <= - 87.33 ->
  isfin (vec_exp_tanh_float c I n x) = true /\ sgn (vec_exp_tanh_float c I n x) = false.
Proof.
  intros HI Hx HR. destruct (exp_core c I n x HI Hx) as (p & k & K & E & Rk & Fp & Hp & HG & HK & HD).
  { apply Rabs_le. lra. }
  rewrite E. apply Rabs_le_inv in HD. apply Rabs_le_inv in Hp. apply Rabs_le_inv in HG.
  assert (K1 : (-128 < K)%Z) by (apply lt_IZR; lra). assert (K2 : (K < -125)%Z) by (apply lt_IZR; lra).
  pose proof (exp_range_bounds (gval (val x) K) ltac:(lra)) as ER.
  assert (SP : sgn p = false).
  { destruct (sgn p) eqn:SP; [|reflexivity]. pose proof (sgn_val_gen p Fp) as V. rewrite SP in V. pose proof (Rabs_pos (val p)). lra. }
  assert (NT : ~ tiny p).
  { intros [_ T]. rewrite Rabs_pos_eq in T by lra. assert (bpow radix2 (-126) <= bpow radix2 (-1)) by (apply bpow_le; lia).
    change (bpow radix2 (-1)) with (/ 2) in H. lra. }
  pose proof (normal_fields p Fp NT) as EF. pose proof (val_binade p EF) as VB. rewrite Rabs_pos_eq in VB by lra.
  assert (E1 : (efield p - 127 < 1)%Z).
  { apply (lt_bpow radix2). change (bpow radix2 1) with 2. lra. }
  assert (E2 : (-1 < efield p - 126)%Z).
  { apply (lt_bpow radix2). change (bpow radix2 (-1)) with (/ 2). lra. }
  assert (E3 : K = (-127)%Z -> (0 < efield p - 126)%Z).
  { intros ->. apply (lt_bpow radix2). change (bpow radix2 0) with 1. unfold gval in ER, Hp.
    pose proof (exp_027 (val x - -127 * (355 / 512 - 14581891 / 68719476736)) ltac:(lra)). lra. }
  destruct (ldexp_fields I p k K HI Rk) as [S M]; [lia|]. split; [|rewrite S; exact SP].
  rewrite isfin_mag, M. apply Z.ltb_lt. change (inf_bits (t := F32)) with (255 * 2 ^ 23)%Z. pose proof (ffield_range p). lia.
Qed.
Lemma exp_select c I n x : x86 I -> isfin x = true -> - 88 <= val x <= 1453635 / 16384 -> vec_exp_float c I n x = vec_exp_tanh_float c I n x.
Proof.
  intros HI Hx HR. rewrite exp_form by exact HI. destruct litf_880_1 as (F1 & V1 & _). destruct litf_8872283905206835_14 as (F2 & V2 & _).
  rewrite !vrel_num by (try exact HI; try rewrite isnan_fneg; apply fin_not_nan; assumption). cbn [srel].
  assert (A : flt x (fneg (litf 880 1)) = false).
  { destruct (flt x (fneg (litf 880 1))) eqn:Q; [|reflexivity]. apply (srel_real LT) in Q; [|exact Hx|rewrite isfin_fneg; exact F1].
    cbn in Q. rewrite val_fneg, V1 in Q. change (bpow radix2 3) with 8 in Q. lra. }
  assert (B : fgt x (litf 8872283905206835 14) = false).
  { destruct (fgt x (litf 8872283905206835 14)) eqn:Q; [|reflexivity]. apply (srel_real GT) in Q; [|exact Hx|exact F2].
    cbn in Q. rewrite V2 in Q. change (bpow radix2 (-14)) with (/ 16384) in Q. lra. }
  rewrite A, B. reflexivity.
Qed.
Lemma exp_above c I n x : x86 I -> isnan x = false -> flt (litf 8872283905206835 14) x = true -> vec_exp_float c I n x = f_max F32.
Proof.
  intros HI Hx H. destruct litf_880_1 as (F1 & V1 & _). destruct litf_8872283905206835_14 as (F2 & V2 & _).
  assert (N1 : isnan (fneg (litf 880 1)) = false) by (rewrite isnan_fneg; apply fin_not_nan; exact F1).
  pose proof (fin_not_nan _ F2) as N2.
  rewrite exp_form by exact HI. rewrite !vrel_num by assumption. cbn [srel]. rewrite fgt_swap, H.
  replace (flt x (fneg (litf 880 1))) with false; [reflexivity|].
  rewrite flt_ord in * by assumption. symmetry. apply Z.ltb_ge. apply Z.ltb_lt in H.
  assert (ord (fneg (litf 880 1)) <= ord (litf 8872283905206835 14))%Z; [|lia]. 
  apply ord_le_val; [rewrite isfin_fneg; exact F1|exact F2|]. rewrite val_fneg, V1, V2. change (bpow radix2 3) with 8. change (bpow radix2 (-14)) with (/ 16384). lra.
Qed.
Lemma exp_below c I n x : x86 I -> isnan x = false -> flt x (fneg (litf 880 1)) = true -> vec_exp_float c I n x = f_ofZ F32 0.
Proof.
  intros HI Hx H. destruct litf_880_1 as (F1 & V1 & _). destruct litf_8872283905206835_14 as (F2 & V2 & _).
  assert (N1 : isnan (fneg (litf 880 1)) = false) by (rewrite isnan_fneg; apply fin_not_nan; exact F1).
  pose proof (fin_not_nan _ F2) as N2.
  rewrite exp_form by exact HI. rewrite !vrel_num by assumption. cbn [srel]. rewrite H. reflexivity.
Qed.
