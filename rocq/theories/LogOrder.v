(** The natural logarithm is increasing. *)
From Coq Require Import ZArith Reals List Lia Lra Bool.
From Flocq Require Import Core IEEE754.Binary IEEE754.Bits.
From Verif Require Import Base Mem Backend Lanes Float LaneOps ScalarMath VecMath IntVec TransMath SpecLane SpecRound SpecInt SpecOrder
  FloatFacts FloatRound LaneFacts VecFacts VecMore VecMore2 RoundFacts RoundMore IntFacts LdexpFacts TransConst TransFacts
  ErrFacts ErrTac RealMath RealTanh RealLog ExpFacts LastStep NearFacts TanhFacts LogFacts MonoFacts RealOrder2 SinOrder.
Import ListNotations.
Local Open Scope R_scope.
#[local] Opaque litf litd fadd fmul fsub fdiv.

(** Proof auxiliary: the correction that log adds to the reduced argument. *)
Definition log_y (n : nans F32) (x fe : F F32) : F F32 :=
  fsub n (fadd n (fmul n (fmul n (fmul n (log_h n x) x) x) x) (fmul n fe (fneg (litd 212194440 12)))) (fmul n (fmul n (litd 5 1) x) x).

Section L.
Context (n : nans F32).
Lemma log_y_err (u fe : F F32) e : isfin u = true -> - 0.29293 <= val u <= 0.41423 -> isfin fe = true -> val fe = IZR e -> (Z.abs e <= 130)%Z ->
  isfin (log_y n u fe) = true /\ Rabs (val (log_y n u fe) - (log_p (val u) - val u + IZR e * - (14581891 / 68719476736))) <= 2.33e-8 /\ Rabs (val (log_y n u fe)) <= 0.2.
Proof.
  intros Fu Bu Fe Ve He. assert (ER : -130 <= IZR e <= 130) by (split; apply IZR_le; lia).
  assert (HU : holds u (val u) (- 29293 * 2 ^ 80 / 100000 - 1, 41423 * 2 ^ 80 / 100000 + 1, 0)%Z).
  { apply holds_var; [exact Fu|reflexivity|]. dyz. lra. }
  assert (HF : holds fe (IZR e) (- 130 * 2 ^ 80, 130 * 2 ^ 80, 0)%Z).
  { apply holds_var; [exact Fe|exact Ve|]. dyz. lra. }
  let t := eval unfold log_y, log_h in (log_y n u fe) in
  err_bound n [u; fe] [val u; IZR e] [(- 29293 * 2 ^ 80 / 100000 - 1, 41423 * 2 ^ 80 / 100000 + 1, 0); (- 130 * 2 ^ 80, 130 * 2 ^ 80, 0)]%Z t H.
  fold (log_h n u) in H. fold (log_y n u fe) in H. destruct H as (F1 & R1 & E1). rewrite !dy_lit in *. autorewrite with lits in *.
  fold (log_q (val u)) in *. apply Rabs_le_inv in E1. unfold log_p. split; [exact F1|]. split; apply Rabs_le; lra.
Qed.
Lemma log_z_y u fe : log_z n u fe = fadd n u (log_y n u fe). Proof. reflexivity. Qed.

(** Two reduced arguments of one exponent: the later sums round monotonically. *)
Lemma log_end_le (u v fe : F F32) e : isfin u = true -> isfin v = true -> - 0.29293 <= val u <= 0.41423 -> - 0.29293 <= val v <= 0.41423 ->
  isfin fe = true -> val fe = IZR e -> (Z.abs e <= 130)%Z -> val u + val (log_y n u fe) <= val v + val (log_y n v fe) -> val (log_end n u fe) <= val (log_end n v fe).
Proof.
  intros Fu Fv Bu Bv Fe Ve He L. assert (ER : -130 <= IZR e <= 130) by (split; apply IZR_le; lia).
  destruct (log_y_err u fe e Fu Bu Fe Ve He) as (FY & _ & BY). destruct (log_y_err v fe e Fv Bv Fe Ve He) as (FY' & _ & BY').
  apply Rabs_le_inv in BY. apply Rabs_le_inv in BY'. destruct (log_L n fe e Fe Ve He) as (FL & VL). unfold log_end. rewrite !log_z_y.
  destruct (fadd_fin n u _ Fu FY) as (F1 & V1 & _); [apply small_fin; apply Rabs_le; lra|]. destruct (fadd_fin n v _ Fv FY') as (F2 & V2 & _); [apply small_fin; apply Rabs_le; lra|].
  pose proof (rnd_eta (val u + val (log_y n u fe))) as R1. pose proof (rnd_eta (val v + val (log_y n v fe))) as R2. pose proof eta_small.
  assert (A1 : Rabs (val u + val (log_y n u fe)) <= 0.7) by (apply Rabs_le; lra). assert (A2 : Rabs (val v + val (log_y n v fe)) <= 0.7) by (apply Rabs_le; lra).
  rewrite <- V1 in R1. rewrite <- V2 in R2. apply Rabs_le_inv in R1. apply Rabs_le_inv in R2. pose proof (Rabs_le_inv _ _ A1). pose proof (Rabs_le_inv _ _ A2).
  assert (VL' : -100 <= val (fmul n (litd 693359375 9) fe) <= 100) by (rewrite VL; lra).
  destruct (fadd_fin n _ _ F1 FL) as (F3 & V3 & _); [apply small_fin; apply Rabs_le; lra|]. destruct (fadd_fin n _ _ F2 FL) as (F4 & V4 & _); [apply small_fin; apply Rabs_le; lra|].
  rewrite V3, V4. apply rnd_le. apply Rplus_le_compat_r. rewrite V1, V2. apply rnd_le. exact L.
Qed.
Lemma step (k l e : Z) : IZR k * bpow radix2 e < IZR l * bpow radix2 e -> bpow radix2 e <= IZR l * bpow radix2 e - IZR k * bpow radix2 e.
Proof.
  intros H. pose proof (bpow_gt_0 radix2 e) as P. apply Rmult_lt_reg_r in H; [|exact P]. apply lt_IZR in H. assert (IZR k + 1 <= IZR l) by (rewrite <- plus_IZR; apply IZR_le; lia). nra.
Qed.
Lemma log_end_pos (u v fe : F F32) e k l : isfin u = true -> isfin v = true -> 0 <= val u < val v -> val v <= 0.41423 -> val u = IZR k * bpow radix2 (-23) -> val v = IZR l * bpow radix2 (-23) ->
  isfin fe = true -> val fe = IZR e -> (Z.abs e <= 130)%Z -> val (log_end n u fe) <= val (log_end n v fe).
Proof.
  intros Fu Fv Bu Bv Ku Lv Fe Ve He. apply (log_end_le u v fe e); try assumption; try lra.
  destruct (log_y_err u fe e Fu ltac:(lra) Fe Ve He) as (_ & E1 & _). destruct (log_y_err v fe e Fv ltac:(lra) Fe Ve He) as (_ & E2 & _). apply Rabs_le_inv in E1. apply Rabs_le_inv in E2.
  pose proof (log_p_pos (val u) (val v) ltac:(lra) Bv) as P. pose proof (step k l (-23)) as G. rewrite <- Ku, <- Lv in G. change (bpow radix2 (-23)) with (/ 8388608) in G. lra.
Qed.
Lemma log_end_neg (u v fe : F F32) e k l : isfin u = true -> isfin v = true -> -0.29293 <= val u < val v -> val v <= 0 -> val u = IZR k * bpow radix2 (-24) -> val v = IZR l * bpow radix2 (-24) ->
  isfin fe = true -> val fe = IZR e -> (Z.abs e <= 130)%Z -> val (log_end n u fe) <= val (log_end n v fe).
Proof.
  intros Fu Fv Bu Bv Ku Lv Fe Ve He. apply (log_end_le u v fe e); try assumption; try lra.
  destruct (log_y_err u fe e Fu ltac:(lra) Fe Ve He) as (_ & E1 & _). destruct (log_y_err v fe e Fv ltac:(lra) Fe Ve He) as (_ & E2 & _). apply Rabs_le_inv in E1. apply Rabs_le_inv in E2.
  pose proof (log_p_neg (val u) (val v) ltac:(lra) Bv) as P. pose proof (step k l (-24)) as G. rewrite <- Ku, <- Lv in G. change (bpow radix2 (-24)) with (/ 16777216) in G. lra.
Qed.
(** Proof auxiliary: the values that the reduced argument can take. *)
Definition log_grid (u : F F32) : Prop := isfin u = true /\ -4913933 / 16777216 <= val u <= 6949348 / 16777216 /\
  ((val u < 0 /\ exists k, val u = IZR k * bpow radix2 (-24)) \/ (0 <= val u /\ exists k, val u = IZR k * bpow radix2 (-23))).
Lemma log_end_up (u v fe : F F32) e : log_grid u -> log_grid v -> val u < val v -> isfin fe = true -> val fe = IZR e -> (Z.abs e <= 130)%Z -> val (log_end n u fe) <= val (log_end n v fe).
Proof.
  intros (Fu & Bu & [[Nu [k Ku]]|[Pu [k Ku]]]) (Fv & Bv & [[Nv [l Kv]]|[Pv [l Kv]]]) L Fe Ve He; try lra.
  - apply (log_end_neg u v fe e k l); try assumption; lra.
  - destruct Pv as [Pv|Pv]; [|apply (log_end_neg u v fe e k 0); rewrite <- ?Pv; try assumption; lra].
    destruct zero_ok as (F0 & V0 & _). apply Rle_trans with (val (log_end n (f_ofZ F32 0) fe)).
    + apply (log_end_neg u _ fe e k 0); rewrite ?V0; try assumption; lra.
    + apply (log_end_pos _ v fe e 0 l); rewrite ?V0; try assumption; lra.
  - apply (log_end_pos u v fe e k l); try assumption; lra.
Qed.
End L.

(** Proof auxiliary: the end of log for a given argument, of which [q] is the
    cubic and higher part and [h] the square. *)
Definition log_tail (n : nans F32) (u q h : F F32) (e : Z) : F F32 :=
  fadd n (fadd n u (fsub n (fadd n q (fmul n (f_ofZ F32 e) (f_lit F32 (-14581891) (-36)))) h)) (fmul n (f_lit F32 11632640 (-24)) (f_ofZ F32 e)).
(** Proof auxiliary: from the greatest reduced argument of one exponent to the
    least of the next. *)
Definition log_joint (n : nans F32) (e : Z) : bool :=
  fle (log_tail n (f_lit F32 3474674 (-23)) (f_lit F32 9742301 (-29)) (f_lit F32 11514053 (-27)) e)
    (log_tail n (f_lit F32 (-4913933) (-24)) (f_lit F32 (-11582619) (-30)) (f_lit F32 11514062 (-28)) (e + 1)).
Section J.
Context (n : nans F32).
#[local] Transparent litf litd fadd fmul fsub fdiv.
Lemma log_joints : forallb (fun k => log_joint n (Z.of_nat k - 128)) (seq 0 257) = true.
Proof. vm_compute. reflexivity. Qed.
Lemma lit_lo : fneg (litd 212194440 12) = f_lit F32 (-14581891) (-36). Proof. apply bits_inj. vm_compute. reflexivity. Qed.
Lemma lit_hi : litd 693359375 9 = f_lit F32 11632640 (-24). Proof. apply bits_inj. vm_compute. reflexivity. Qed.
Lemma top_q : fmul n (fmul n (fmul n (log_h n (f_lit F32 3474674 (-23))) (f_lit F32 3474674 (-23))) (f_lit F32 3474674 (-23))) (f_lit F32 3474674 (-23)) = f_lit F32 9742301 (-29).
Proof. apply bits_inj. vm_compute. reflexivity. Qed.
Lemma top_h : fmul n (fmul n (litd 5 1) (f_lit F32 3474674 (-23))) (f_lit F32 3474674 (-23)) = f_lit F32 11514053 (-27).
Proof. apply bits_inj. vm_compute. reflexivity. Qed.
Lemma bot_q : fmul n (fmul n (fmul n (log_h n (f_lit F32 (-4913933) (-24))) (f_lit F32 (-4913933) (-24))) (f_lit F32 (-4913933) (-24))) (f_lit F32 (-4913933) (-24)) = f_lit F32 (-11582619) (-30).
Proof. apply bits_inj. vm_compute. reflexivity. Qed.
Lemma bot_h : fmul n (fmul n (litd 5 1) (f_lit F32 (-4913933) (-24))) (f_lit F32 (-4913933) (-24)) = f_lit F32 11514062 (-28).
Proof. apply bits_inj. vm_compute. reflexivity. Qed.
#[local] Opaque f_lit f_ofZ log_h litf litd fadd fmul fsub fdiv.
Lemma top_end e : log_end n (f_lit F32 3474674 (-23)) (f_ofZ F32 e) = log_tail n (f_lit F32 3474674 (-23)) (f_lit F32 9742301 (-29)) (f_lit F32 11514053 (-27)) e.
Proof. unfold log_end, log_z. rewrite top_q, top_h, lit_lo, lit_hi. unfold log_tail. reflexivity. Qed.
Lemma bot_end e : log_end n (f_lit F32 (-4913933) (-24)) (f_ofZ F32 e) = log_tail n (f_lit F32 (-4913933) (-24)) (f_lit F32 (-11582619) (-30)) (f_lit F32 11514062 (-28)) e.
Proof. unfold log_end, log_z. rewrite bot_q, bot_h, lit_lo, lit_hi. unfold log_tail. reflexivity. Qed.
#[local] Transparent f_lit f_ofZ log_h.
#[local] Opaque litf litd fadd fmul fsub fdiv.
Lemma log_end_fin u fe e : log_grid u -> isfin fe = true -> val fe = IZR e -> (Z.abs e <= 130)%Z -> isfin (log_end n u fe) = true.
Proof.
  intros (Fu & Bu & _) Fe Ve He. destruct (log_far_z n u fe e Fu ltac:(lra) Fe Ve He) as (FZ & _ & BZ). destruct (log_L n fe e Fe Ve He) as (FL & VL).
  assert (ER : -130 <= IZR e <= 130) by (split; apply IZR_le; lia). apply Rabs_le_inv in BZ. unfold log_end.
  destruct (fadd_fin n _ _ FZ FL) as (F1 & _ & _); [apply small_fin; rewrite VL; apply Rabs_le; lra|]. exact F1.
Qed.
Lemma grid_top : log_grid (f_lit F32 3474674 (-23)).
Proof.
  destruct (lit_range 3474674 (-23) ltac:(lia) ltac:(lia)) as [A V]. split; [exact A|]. split; [rewrite V; change (bpow radix2 (-23)) with (/ 8388608); lra|].
  right. split; [rewrite V; change (bpow radix2 (-23)) with (/ 8388608); lra|]. exists 3474674%Z. exact V.
Qed.
Lemma grid_bottom : log_grid (f_lit F32 (-4913933) (-24)).
Proof.
  destruct (lit_range (-4913933) (-24) ltac:(lia) ltac:(lia)) as [A V]. split; [exact A|]. split; [rewrite V; change (bpow radix2 (-24)) with (/ 16777216); lra|].
  left. split; [rewrite V; change (bpow radix2 (-24)) with (/ 16777216); lra|]. exists (-4913933)%Z. exact V.
Qed.
Lemma log_next e : (-128 <= e <= 128)%Z -> val (log_end n (f_lit F32 3474674 (-23)) (f_ofZ F32 e)) <= val (log_end n (f_lit F32 (-4913933) (-24)) (f_ofZ F32 (e + 1))).
Proof.
  intros He. pose proof log_joints as J. rewrite forallb_forall in J. specialize (J (Z.to_nat (e + 128)) ltac:(apply in_seq; lia)).
  rewrite Z2Nat.id in J by lia. replace (e + 128 - 128)%Z with e in J by lia. unfold log_joint in J. rewrite <- top_end, <- bot_end in J.
  destruct (fe_val e ltac:(lia)) as [F1 V1]. destruct (fe_val (e + 1) ltac:(lia)) as [F2 V2]. apply fle_val in J; [exact J| |].
  - apply (log_end_fin _ _ e grid_top F1 V1). lia.
  - apply (log_end_fin _ _ (e + 1) grid_bottom F2 V2). lia.
Qed.
Lemma above_bottom u e : log_grid u -> (-130 <= e <= 130)%Z -> val (log_end n (f_lit F32 (-4913933) (-24)) (f_ofZ F32 e)) <= val (log_end n u (f_ofZ F32 e)).
Proof.
  intros G He. destruct (fe_val e ltac:(lia)) as [F1 V1]. destruct (lit_range (-4913933) (-24) ltac:(lia) ltac:(lia)) as [A V]. change (bpow radix2 (-24)) with (/ 16777216) in V.
  assert (C : val (f_lit F32 (-4913933) (-24)) < val u \/ val u = val (f_lit F32 (-4913933) (-24))) by (destruct G as (_ & B & _); lra).
  destruct C as [C|C]; [apply (log_end_up n _ _ _ e grid_bottom G C F1 V1); lia|].
  assert (u = f_lit F32 (-4913933) (-24)) as ->; [|lra]. apply fin_eq; [apply G|exact A|exact C|].
  pose proof (sgn_val_gen u (proj1 G)) as S1. pose proof (sgn_val_gen _ A) as S2. pose proof (Rabs_pos (val u)). pose proof (Rabs_pos (val (f_lit F32 (-4913933) (-24)))).
  destruct (sgn u), (sgn (f_lit F32 (-4913933) (-24))); try reflexivity; lra.
Qed.
Lemma below_top u e : log_grid u -> (-130 <= e <= 130)%Z -> val (log_end n u (f_ofZ F32 e)) <= val (log_end n (f_lit F32 3474674 (-23)) (f_ofZ F32 e)).
Proof.
  intros G He. destruct (fe_val e ltac:(lia)) as [F1 V1]. destruct (lit_range 3474674 (-23) ltac:(lia) ltac:(lia)) as [A V]. change (bpow radix2 (-23)) with (/ 8388608) in V.
  assert (C : val u < val (f_lit F32 3474674 (-23)) \/ val u = val (f_lit F32 3474674 (-23))) by (destruct G as (_ & B & _); lra).
  destruct C as [C|C]; [apply (log_end_up n _ _ _ e G grid_top C F1 V1); lia|].
  assert (u = f_lit F32 3474674 (-23)) as ->; [|lra]. apply fin_eq; [apply G|exact A|exact C|].
  pose proof (sgn_val_gen u (proj1 G)) as S1. pose proof (sgn_val_gen _ A) as S2. pose proof (Rabs_pos (val u)). pose proof (Rabs_pos (val (f_lit F32 3474674 (-23)))).
  destruct (sgn u), (sgn (f_lit F32 3474674 (-23))); try reflexivity; lra.
Qed.
Lemma log_later (d : nat) : forall u v e, log_grid u -> log_grid v -> (-128 <= e)%Z -> (e + 1 + Z.of_nat d <= 129)%Z -> val (log_end n u (f_ofZ F32 e)) <= val (log_end n v (f_ofZ F32 (e + 1 + Z.of_nat d))).
Proof.
  induction d as [|d IH]; intros u v e GU GV L1 L2.
  - cbn [Z.of_nat] in *. rewrite Z.add_0_r in *. eapply Rle_trans; [apply below_top; [exact GU|lia]|]. eapply Rle_trans; [apply log_next; lia|]. apply above_bottom; [exact GV|lia].
  - eapply Rle_trans; [apply (IH u (f_lit F32 3474674 (-23)) e GU grid_top); lia|]. eapply Rle_trans; [apply log_next; lia|].
    replace (e + 1 + Z.of_nat d + 1)%Z with (e + 1 + Z.of_nat (S d))%Z by lia. apply above_bottom; [exact GV|lia].
Qed.
End J.
Section R.
Context (c : cfg) (I : isa) (n : nans F32) (HI : x86 I).
(** Every positive normal number is (1 + u) 2^e with a reduced argument u. *)
Lemma log_split x : isfin x = true -> ~ tiny x -> sgn x = false -> exists u e, log_grid u /\ (-127 <= e <= 128)%Z /\ val x = (1 + val u) * bpow radix2 e /\ vec_log_float c I n x = log_end n u (f_ofZ F32 e).
Proof.
  intros Fx Tx Sx. pose proof (normal_fields x Fx Tx) as EX.
  destruct (frexp_fields I x HI) as (SM & EM & _ & R). destruct (frexp_exact I x HI Fx Tx) as (E & RE & _ & _ & _ & VX).
  assert (EQ : E = (efield x - 126)%Z). { rewrite <- (reads_s32 _ _ RE). apply reads_s32. exact R. } subst E.
  rewrite log_form by exact HI. cbv zeta. set (m := fst (frexp_float I x)) in *.
  destruct (log_u_pos I n HI m EM ltac:(rewrite SM; exact Sx)) as (Fu & Vu & _ & k & Ku). set (u := log_u I n m) in *.
  set (e := (efield x - 126 - if vrel I LT m (litf 707106781186547524 18) then 1 else 0)%Z) in *.
  exists u, e. destruct (mid_frac m EM) as (Fm & Vm & Hf). pose proof (sgn_val_gen m Fm) as SV. rewrite SM, Sx in SV. rewrite <- SV in Vm. set (M := (8388608 + ffield m)%Z) in *.
  destruct lit7071 as (FS & VS). change (bpow radix2 (-24)) with (/ 16777216) in *.
  split; [|split; [unfold e; destruct (vrel I LT m _); lia|split; [|reflexivity]]].
  - split; [exact Fu|]. destruct (vrel I LT m (litf 707106781186547524 18)) eqn:L.
    + apply (lt_dec_val I HI) in L; [|exact Fm|exact FS]. rewrite VS, Vm in L. assert (ML : IZR M < 11863283) by lra. apply lt_IZR in ML.
      assert (MR : 8388608 <= IZR M <= 11863282) by (split; apply IZR_le; lia). split; [rewrite Vu, Vm; lra|]. right. split; [rewrite Vu, Vm; lra|].
      exists (M - 8388608)%Z. rewrite Vu, Vm, minus_IZR. change (bpow radix2 (-23)) with (/ 8388608). lra.
    + assert (L' : 11863283 / 16777216 <= val m).
      { destruct (Rle_dec (11863283 / 16777216) (val m)) as [Q|Q]; [exact Q|]. assert (NL : vrel I LT m (litf 707106781186547524 18) = true) by (apply (lt_dec_val I HI m _ Fm FS); rewrite VS; lra). rewrite L in NL. discriminate NL. }
      assert (MR : IZR M < 16777216) by (apply IZR_lt; lia). split; [rewrite Vu; lra|]. left. split; [rewrite Vu; lra|]. exists k. exact Ku.
  - rewrite VX, Vu. unfold e. destruct (vrel I LT m (litf 707106781186547524 18)).
    + replace (efield x - 126)%Z with (1 + (efield x - 126 - 1))%Z at 1 by lia. rewrite bpow_plus. change (bpow radix2 1) with 2. ring.
    + rewrite Z.sub_0_r. ring.
Qed.
Lemma log_rises x y : isfin x = true -> isfin y = true -> ~ tiny x -> ~ tiny y -> sgn x = false -> sgn y = false -> val x <= val y -> val (vec_log_float c I n x) <= val (vec_log_float c I n y).
Proof.
  intros Fx Fy Tx Ty Sx Sy L. destruct (log_split x Fx Tx Sx) as (u & e & GU & HE & VX & EX). destruct (log_split y Fy Ty Sy) as (v & e' & GV & HE' & VY & EY).
  destruct (Req_dec (val x) (val y)) as [Q|Q]; [rewrite (fin_eq x y Fx Fy Q ltac:(congruence)); lra|]. rewrite EX, EY.
  pose proof (bpow_gt_0 radix2 e) as P. pose proof (bpow_gt_0 radix2 e') as P'. pose proof GU as (_ & BU & _). pose proof GV as (_ & BV & _).
  destruct (Z_lt_le_dec e' e) as [C|C].
  { exfalso. assert (K : 2 * bpow radix2 e' <= bpow radix2 e). { change 2 with (bpow radix2 1). rewrite <- bpow_plus. apply bpow_le. lia. }
    rewrite VX, VY in L. assert ((1 + -4913933 / 16777216) * bpow radix2 e <= (1 + val u) * bpow radix2 e) by (apply Rmult_le_compat_r; lra).
    assert ((1 + val v) * bpow radix2 e' <= (1 + 6949348 / 16777216) * bpow radix2 e') by (apply Rmult_le_compat_r; lra). lra. }
  destruct (Z.eq_dec e e') as [<-|N].
  - destruct (fe_val e ltac:(lia)) as [F1 V1]. apply (log_end_up n u v _ e GU GV); [|exact F1|exact V1|lia].
    assert (LT : val x < val y) by lra. rewrite VX, VY in LT. apply Rmult_lt_reg_r in LT; [lra|exact P].
  - replace e' with (e + 1 + Z.of_nat (Z.to_nat (e' - e - 1)))%Z by lia. apply log_later; try assumption; lia.
Qed.
End R.
