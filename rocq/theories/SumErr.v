(** Rounding errors of float sums, whatever the order of the additions. *)
From Coq Require Import ZArith Reals Bool List Lia Lra Psatz.
From Flocq Require Import Core Relative Plus_error IEEE754.Binary IEEE754.Bits.
From Verif Require Import Base Mem Loop Backend Lanes Float LaneOps Reduce FloatOps Spec SpecReduce LoopFacts MemFacts
  FloatFacts LaneFacts ReduceFacts ReduceRun ReduceSim ReduceFloat ReduceMore FloatRound SpecDrift.
Import ListNotations.
Local Open Scope R_scope.

Section Unit.
Context (t : fmt).
Local Notation u := (unit_roundoff t).
Local Notation g := (growth t).

Lemma u_bpow : u = bpow radix2 (- prec t). Proof. destruct t; reflexivity. Qed.
Lemma ob_bpow : overflow_bound t = bpow radix2 (emax t). Proof. destruct t; reflexivity. Qed.
Lemma ht_bpow : half_tiny t = bpow radix2 (emin t - 1). Proof. destruct t; reflexivity. Qed.
Lemma u_pos : 0 < u. Proof. apply bpow_gt_0. Qed.
Lemma ht_pos : 0 < half_tiny t. Proof. apply bpow_gt_0. Qed.
Lemma g_0 : g 0 = 1. Proof. reflexivity. Qed.
Lemma g_S k : g (S k) = (1 + u) * g k. Proof. reflexivity. Qed.
Lemma g_pos k : 0 < g k. Proof. apply pow_lt. pose proof u_pos. lra. Qed.
Lemma g_1 k : 1 <= g k. Proof. apply pow_R1_Rle. pose proof u_pos. lra. Qed.
Lemma g_mono j k : (j <= k)%nat -> g j <= g k.
Proof. intros H. apply Rle_pow; [pose proof u_pos; lra|exact H]. Qed.
Lemma g_add j k : g (j + k) = g j * g k. Proof. apply pow_add. Qed.

(** One rounding. *)
Lemma rnd_plus x y : fmtR t x -> fmtR t y -> Rabs (rnd t (x + y) - (x + y)) <= u * Rabs (x + y).
Proof.
  intros Hx Hy. pose proof (prec_pos t) as Hp.
  destruct (FLT_plus_error_N_ex radix2 (emin t) (prec t) (fun z => negb (Z.even z)) x y) as (d & Hd & E).
  - exact Hx.
  - exact Hy.
  - unfold rnd. change (fexp t) with (FLT_exp (emin t) (prec t)). rewrite E.
    replace ((x + y) * (1 + d) - (x + y)) with (d * (x + y)) by ring. rewrite Rabs_mult.
    apply Rmult_le_compat_r; [apply Rabs_pos|]. eapply Rle_trans; [exact Hd|].
    assert (Hu : u_ro radix2 (prec t) = u).
    { unfold u_ro. rewrite u_bpow. rewrite bpow_plus. change (bpow radix2 1) with 2. field. }
    rewrite Hu. pose proof u_pos. apply Rle_trans with (u / 1); [|lra].
    apply Rmult_le_compat_l; [lra|]. apply Rinv_le; lra.
Qed.
Lemma rnd_any r : Rabs (rnd t r - r) <= u * Rabs r + half_tiny t.
Proof.
  pose proof (prec_pos t) as Hp.
  destruct (relative_error_N_FLT'_ex radix2 (emin t) (prec t) Hp (fun z => negb (Z.even z)) r) as (d & e & Hd & He & _ & E).
  unfold rnd. change (fexp t) with (FLT_exp (emin t) (prec t)). rewrite E.
  replace (r * (1 + d) + e - r) with (d * r + e) by ring.
  eapply Rle_trans; [apply Rabs_triang|]. apply Rplus_le_compat.
  - rewrite Rabs_mult. apply Rmult_le_compat_r; [apply Rabs_pos|]. eapply Rle_trans; [exact Hd|].
    assert (Hu : u_ro radix2 (prec t) = u).
    { unfold u_ro. rewrite u_bpow. rewrite bpow_plus. change (bpow radix2 1) with 2. field. }
    rewrite Hu. pose proof u_pos. apply Rle_trans with (u / 1); [|lra].
    apply Rmult_le_compat_l; [lra|]. apply Rinv_le; lra.
  - eapply Rle_trans; [exact He|]. rewrite ht_bpow. change (emin t - 1)%Z with (emin t + -1)%Z. rewrite (bpow_plus radix2 (emin t) (-1)). change (bpow radix2 (-1)) with (/ 2). lra.
Qed.
End Unit.

Section Sim.
Context {t : fmt}.
Local Notation u := (unit_roundoff t).
Local Notation g := (growth t).
Local Notation q := (bpow radix2 (emin t)).

(** Proof auxiliary: an exact partial sum and its magnitude, in units of the
    smallest positive number, with the number of its terms. *)
Definition part : Type := (Z * N * nat)%type.
(** Proof auxiliary: see [part]. *)
Definition pjoin (x y : part) : part :=
  match x, y with (v, a, k), (w, b, j) => ((v + w)%Z, (a + b)%N, (k + j)%nat) end.
(** Proof auxiliary: the magnitude of a partial sum. *)
Definition pmag (x : part) : R := match x with (_, a, _) => IZR (Z.of_N a) * q end.
(** Proof auxiliary: the value of a partial sum. *)
Definition pval (x : part) : R := match x with (v, _, _) => IZR v * q end.
(** Proof auxiliary: the number of terms, less one. *)
Definition pdep (x : part) : nat := match x with (_, _, k) => Nat.pred k end.
(** Proof auxiliary: no intermediate result can overflow. *)
Definition pfits (x : part) : Prop := g (pdep x) * pmag x < bpow radix2 (emax t).
(** Proof auxiliary: the float is a rounded evaluation of the partial sum. *)
Definition rounds (x : F t) (p : part) : Prop :=
  isfin x = true /\ Rabs (pval p) <= pmag p /\ Rabs (val x - pval p) <= (g (pdep p) - 1) * pmag p /\
  (snd p = 0%nat -> pmag p = 0).

Lemma pjoin_assoc x y z : pjoin x (pjoin y z) = pjoin (pjoin x y) z.
Proof. destruct x as [[v a] k], y as [[v1 a1] k1], z as [[v2 a2] k2]. cbn [pjoin]. f_equal; [f_equal|]; lia. Qed.
Lemma pjoin_comm x y : pjoin x y = pjoin y x.
Proof. destruct x as [[v a] k], y as [[v1 a1] k1]. cbn [pjoin]. f_equal; [f_equal|]; lia. Qed.
Lemma pjoin_zero x : pjoin (0%Z, 0%N, 0%nat) x = x.
Proof. destruct x as [[v a] k]. reflexivity. Qed.
Lemma pmag_join x y : pmag (pjoin x y) = pmag x + pmag y.
Proof. destruct x as [[v a] k], y as [[v1 a1] k1]. cbn. rewrite N2Z.inj_add, plus_IZR. ring. Qed.
Lemma pval_join x y : pval (pjoin x y) = pval x + pval y.
Proof. destruct x as [[v a] k], y as [[v1 a1] k1]. cbn. rewrite plus_IZR. ring. Qed.
Lemma pmag_pos x : 0 <= pmag x.
Proof. destruct x as [[v a] k]. cbn. apply Rmult_le_pos; [apply IZR_le; lia|apply bpow_ge_0]. Qed.
Lemma pdep_join_l x y : (pdep x <= pdep (pjoin x y))%nat.
Proof. destruct x as [[v a] k], y as [[v1 a1] k1]. cbn. lia. Qed.

Lemma pfits_l x y : pfits (pjoin x y) -> pfits x.
Proof.
  unfold pfits. rewrite pmag_join. intros H. eapply Rle_lt_trans; [|exact H].
  apply Rmult_le_compat; [apply Rlt_le, g_pos|apply pmag_pos|apply g_mono, pdep_join_l|pose proof (pmag_pos y); lra].
Qed.

Lemma rounds_add n a b x y : rounds a x -> rounds b y -> pfits (pjoin x y) -> rounds (fadd n a b) (pjoin x y).
Proof.
  intros (F1 & A1 & E1 & Z1) (F2 & A2 & E2 & Z2) Hf.
  set (s := val a + val b). set (M := pmag x + pmag y). set (D := pdep (pjoin x y)).
  pose proof (pmag_pos x) as Px. pose proof (pmag_pos y) as Py. pose proof (u_pos t) as Hu.
  unfold pfits in Hf. rewrite pmag_join in Hf. fold M D in Hf.
  assert (KEY : Rabs (rnd t s - (pval x + pval y)) <= (g D - 1) * M).
  { destruct (Nat.eq_dec (snd x) 0) as [Kx|Kx]; [|destruct (Nat.eq_dec (snd y) 0) as [Ky|Ky]].
    - rewrite (Z1 Kx) in E1, A1. assert (V1 : val a = 0).
      { rewrite Rmult_0_r in E1. pose proof (Rabs_pos (val a - pval x)).
        destruct (Req_dec (val a - pval x) 0) as [Q|Q]; [|pose proof (Rabs_pos_lt _ Q); lra].
        assert (pval x = 0). { destruct (Req_dec (pval x) 0) as [Q'|Q']; [exact Q'|pose proof (Rabs_pos_lt _ Q'); lra]. } lra. }
      assert (P0 : pval x = 0). { destruct (Req_dec (pval x) 0) as [Q'|Q']; [exact Q'|pose proof (Rabs_pos_lt _ Q'); lra]. }
      unfold s. rewrite V1, P0, !Rplus_0_l, rnd_id by apply val_format.
      eapply Rle_trans; [exact E2|]. unfold M. rewrite (Z1 Kx), Rplus_0_l. apply Rmult_le_compat_r; [exact Py|].
      assert (g (pdep y) <= g D); [|lra]. apply g_mono. unfold D. rewrite pjoin_comm. apply pdep_join_l.
    - rewrite (Z2 Ky) in E2, A2. assert (P0 : pval y = 0). { destruct (Req_dec (pval y) 0) as [Q'|Q']; [exact Q'|pose proof (Rabs_pos_lt _ Q'); lra]. }
      assert (V1 : val b = 0).
      { rewrite Rmult_0_r in E2. 
        destruct (Req_dec (val b - pval y) 0) as [Q|Q]; [lra|pose proof (Rabs_pos_lt _ Q); lra]. }
      unfold s. rewrite V1, P0, !Rplus_0_r, rnd_id by apply val_format.
      eapply Rle_trans; [exact E1|]. unfold M. rewrite (Z2 Ky), Rplus_0_r. apply Rmult_le_compat_r; [exact Px|].
      assert (g (pdep x) <= g D); [|lra]. apply g_mono. unfold D. apply pdep_join_l.
    - set (m := Nat.max (pdep x) (pdep y)).
      assert (Hm : (S m <= D)%nat).
      { unfold m, D. destruct x as [[v1 a1] k1], y as [[v2 a2] k2]. cbn in *. lia. }
      assert (G1 : g (pdep x) <= g m) by (apply g_mono; unfold m; lia).
      assert (G2 : g (pdep y) <= g m) by (apply g_mono; unfold m; lia).
      assert (E1' : Rabs (val a - pval x) <= (g m - 1) * pmag x) by (eapply Rle_trans; [exact E1|]; apply Rmult_le_compat_r; lra).
      assert (E2' : Rabs (val b - pval y) <= (g m - 1) * pmag y) by (eapply Rle_trans; [exact E2|]; apply Rmult_le_compat_r; lra).
      assert (Es : Rabs (s - (pval x + pval y)) <= (g m - 1) * M).
      { replace (s - (pval x + pval y)) with ((val a - pval x) + (val b - pval y)) by (unfold s; ring).
        eapply Rle_trans; [apply Rabs_triang|]. unfold M. lra. }
      assert (Hs : Rabs s <= g m * M).
      { replace s with ((s - (pval x + pval y)) + (pval x + pval y)) by ring. eapply Rle_trans; [apply Rabs_triang|].
        pose proof (Rabs_triang (pval x) (pval y)). unfold M in *. lra. }
      pose proof (rnd_plus t (val a) (val b) (val_format a) (val_format b)) as Hr. fold s in Hr.
      replace (rnd t s - (pval x + pval y)) with ((rnd t s - s) + (s - (pval x + pval y))) by ring.
      eapply Rle_trans; [apply Rabs_triang|].
      assert (u * Rabs s <= u * (g m * M)) by (apply Rmult_le_compat_l; lra).
      assert (HD : g (S m) <= g D) by (apply g_mono; exact Hm). rewrite g_S in HD.
      apply Rle_trans with (((1 + u) * g m - 1) * M); [|apply Rmult_le_compat_r; [unfold M; lra|lra]].
      replace (((1 + u) * g m - 1) * M) with (u * (g m * M) + (g m - 1) * M) by ring. lra. }
  assert (KB : Rabs (rnd t s) <= g D * M).
  { replace (rnd t s) with ((rnd t s - (pval x + pval y)) + (pval x + pval y)) by ring. eapply Rle_trans; [apply Rabs_triang|].
    pose proof (Rabs_triang (pval x) (pval y)). unfold M in *. lra. }
  destruct (fadd_fin n a b F1 F2) as (R1 & R2 & _); [fold s; lra|].
  split; [exact R1|]. rewrite pval_join, pmag_join. fold M D. split; [pose proof (Rabs_triang (pval x) (pval y)); unfold M; lra|].
  split; [rewrite R2; exact KEY|].
  intros K. assert (snd x = 0%nat /\ snd y = 0%nat) as [K1 K2].
  { clear - K. destruct x as [[v1 a1] k1], y as [[v2 a2] k2]. cbn [pjoin snd] in *. lia. }
  unfold M. rewrite (Z1 K1), (Z2 K2). lra.
Qed.

(** Every float is a multiple of the smallest positive one. *)
Lemma val_units (x : F t) : exists k, val x = IZR k * q.
Proof.
  pose proof (val_format x) as H. apply (FLT_format_generic radix2 (emin t) (prec t)) in H.
  destruct H as [[m e] E _ He]. change (emin t <= e)%Z in He. generalize dependent (emin t). intros em He. exists (m * 2 ^ (e - em))%Z. rewrite E. unfold F2R. cbn [Fnum Fexp].
  rewrite mult_IZR. change 2%Z with (radix_val radix2). rewrite IZR_Zpower by lia. rewrite Rmult_assoc, <- bpow_plus. do 2 f_equal. lia.
Qed.

(** Proof auxiliary: [p] is the single term [x]. *)
Definition leaf (x : F t) (p : part) : Prop :=
  pval p = val x /\ pmag p = Rabs (val x) /\ snd p = 1%nat.
Lemma leaf_ex x : exists p, leaf x p.
Proof.
  destruct (val_units x) as [k E]. exists (k, Z.abs_N k, 1%nat). split; [|split].
  - symmetry. exact E.
  - cbn. rewrite N2Z.inj_abs_N, E, Rabs_mult, abs_IZR. f_equal. rewrite Rabs_pos_eq; [reflexivity|apply bpow_ge_0].
  - reflexivity.
Qed.
Lemma leaf_rounds x p : isfin x = true -> leaf x p -> rounds x p.
Proof.
  intros Fx (H1 & H2 & H3). split; [exact Fx|]. rewrite H1, H2. split; [lra|]. split.
  - rewrite Rminus_diag_eq, Rabs_R0 by reflexivity. apply Rmult_le_pos; [pose proof (g_1 t (pdep p)); lra|apply Rabs_pos].
  - rewrite H3. discriminate.
Qed.
Lemma leaves_ex (l : list (F t)) : exists ps, Forall2 leaf l ps.
Proof. induction l as [|x l [ps H]]; [exists []; constructor|]. destruct (leaf_ex x) as [p Hp]. exists (p :: ps). constructor; assumption. Qed.
Lemma leaves_rounds (l : list (F t)) ps : all_finite l -> Forall2 leaf l ps -> Forall2 rounds l ps.
Proof. intros H K. induction K; inversion H; subst; constructor; auto. apply leaf_rounds; assumption. Qed.
Lemma leaves_fold l ps : Forall2 leaf l ps -> forall z, pval (fold_left pjoin ps z) = pval z + real_sum l /\
  pmag (fold_left pjoin ps z) = pmag z + real_sum_abs l /\ snd (fold_left pjoin ps z) = (snd z + length l)%nat.
Proof.
  induction 1 as [|x p l ps (H1 & H2 & H3) H IH]; intros z; cbn [fold_left real_sum real_sum_abs fold_right length].
  - split; [ring|]. split; [ring|lia].
  - destruct (IH (pjoin z p)) as (I1 & I2 & I3). rewrite I1, I2, I3, pval_join, pmag_join, H1, H2.
    fold (real_sum l) (real_sum_abs l). split; [ring|]. split; [ring|].
    destruct z as [[v a] k], p as [[v1 a1] k1]. cbn in *. lia.
Qed.
Lemma rounds_zero : rounds (f_ofZ t 0) (0%Z, 0%N, 0%nat).
Proof.
  split; [destruct t; reflexivity|]. cbn. rewrite Rmult_0_l, Rabs_R0. split; [lra|]. split; [|auto].
  replace (val (f_ofZ t 0)) with 0 by (destruct t; reflexivity). rewrite Rminus_0_r, Rabs_R0. lra.
Qed.

Lemma pdep_snd p : pdep p = Nat.pred (snd p). Proof. destruct p as [[v a] k]. reflexivity. Qed.

(** What a sum that starts from [z] gives. *)
Lemma rounds_result r l ps z : Forall2 leaf l ps -> rounds r (fold_left pjoin ps z) ->
  isfin r = true /\ Rabs (val r - (pval z + real_sum l)) <= (g (Nat.pred (snd z + length l)) - 1) * (pmag z + real_sum_abs l).
Proof.
  intros Hl (H1 & _ & H3 & _). destruct (leaves_fold l ps Hl z) as (I1 & I2 & I3).
  split; [exact H1|]. rewrite pdep_snd, I1, I2, I3 in H3. exact H3.
Qed.
Lemma pfits_fold l ps z : Forall2 leaf l ps -> g (Nat.pred (snd z + length l)) * (pmag z + real_sum_abs l) < overflow_bound t ->
  pfits (fold_left pjoin ps z).
Proof.
  intros Hl H. destruct (leaves_fold l ps Hl z) as (I1 & I2 & I3). unfold pfits. rewrite pdep_snd, I2, I3, <- ob_bpow. exact H.
Qed.

Lemma fold_sum_err n (l : list (F t)) a : isfin a = true -> all_finite l ->
  g (length l) * (Rabs (val a) + real_sum_abs l) < overflow_bound t ->
  isfin (fold_left (fadd n) l a) = true /\
  Rabs (val (fold_left (fadd n) l a) - (val a + real_sum l)) <= (g (length l) - 1) * (Rabs (val a) + real_sum_abs l).
Proof.
  intros Ha Hl Hb. destruct (leaves_ex l) as [ps Hps]. destruct (leaf_ex a) as [z (Z1 & Z2 & Z3)].
  assert (Hz : rounds a z) by (apply leaf_rounds; [exact Ha|repeat split; assumption]).
  rewrite <- Z2, <- Z1. replace (length l) with (Nat.pred (snd z + length l)) by (rewrite Z3; reflexivity).
  apply (rounds_result _ l ps z Hps). apply (fold_sim pjoin pfits pfits_l rounds (fadd n) (rounds_add n)); auto.
  - apply leaves_rounds; assumption.
  - apply (pfits_fold l); [assumption|]. rewrite Z2, Z3. exact Hb.
Qed.
Lemma fold_sum_err0 n (l : list (F t)) : all_finite l ->
  g (Nat.pred (length l)) * real_sum_abs l < overflow_bound t ->
  isfin (fold_left (fadd n) l (f_ofZ t 0)) = true /\
  Rabs (val (fold_left (fadd n) l (f_ofZ t 0)) - real_sum l) <= (g (Nat.pred (length l)) - 1) * real_sum_abs l.
Proof.
  intros Hl Hb. destruct (leaves_ex l) as [ps Hps].
  pose proof (rounds_result (fold_left (fadd n) l (f_ofZ t 0)) l ps (0%Z, 0%N, 0%nat) Hps) as K.
  cbn [pval pmag snd Nat.add] in K. change (IZR (Z.of_N 0)) with 0 in K. rewrite !Rmult_0_l, !Rplus_0_l in K. apply K.
  apply (fold_sim pjoin pfits pfits_l rounds (fadd n) (rounds_add n)); auto.
  - apply leaves_rounds; assumption.
  - apply rounds_zero.
  - apply (pfits_fold l); [assumption|]. cbn. change (IZR (Z.of_N 0)) with 0. rewrite !Rmult_0_l, !Rplus_0_l. exact Hb.
Qed.

Lemma hsum_err n m p N (l : list (F t)) : filled m p N l -> all_finite l ->
  g (Nat.pred (length l)) * real_sum_abs l < overflow_bound t ->
  exists r, horizontal_sum_vec (fred_scalar n) m p N = Ok r /\ isfin r = true /\
    Rabs (val r - real_sum l) <= (g (Nat.pred (length l)) - 1) * real_sum_abs l.
Proof.
  intros H Hl Hb. rewrite (horizontal_sum_vec_run _ m p N l H). eexists. split; [reflexivity|].
  apply fold_sum_err0; assumption.
Qed.
End Sim.

(** * Squares *)
Section Squares.
Context {t : fmt} (n : nans t).
Local Notation u := (unit_roundoff t).
Local Notation g := (growth t).
Local Notation ht := (half_tiny t).
Local Notation sq l := (map (fun x => fmul n x x) l).

Lemma real_sum_abs_pos (l : list (F t)) : 0 <= real_sum_abs l.
Proof. induction l as [|x l IH]; cbn; [lra|]. pose proof (Rabs_pos (val x)). fold (real_sum_abs l). lra. Qed.
Lemma real_sum_sqr_pos (l : list (F t)) : 0 <= real_sum_sqr l.
Proof. induction l as [|x l IH]; cbn; [lra|]. fold (real_sum_sqr l). nra. Qed.

Lemma squares_err (l : list (F t)) : all_finite l ->
  (1 + u) * real_sum_sqr l + INR (length l) * ht < overflow_bound t ->
  all_finite (sq l) /\ Rabs (real_sum (sq l) - real_sum_sqr l) <= u * real_sum_sqr l + INR (length l) * ht /\
  real_sum_abs (sq l) <= (1 + u) * real_sum_sqr l + INR (length l) * ht.
Proof.
  pose proof (u_pos t) as Hu. pose proof (ht_pos t) as Hh. rewrite ob_bpow.
  induction 1 as [|x l Hx H IH]; intros Hb.
  - cbn. split; [constructor|]. rewrite Rminus_diag_eq, Rabs_R0 by reflexivity. lra.
  - cbn [map real_sum real_sum_sqr real_sum_abs fold_right] in *. fold (real_sum (sq l)) (real_sum_sqr l) (real_sum_abs (sq l)) in *.
    change (length (x :: l)) with (S (length l)) in *. rewrite S_INR in *.
    pose proof (real_sum_sqr_pos l) as Ps. pose proof (pos_INR (length l)) as Pi.
    assert (Pi' : 0 <= INR (length l) * ht) by (apply Rmult_le_pos; lra).
    pose proof (rnd_any t (val x * val x)) as Hr.
    assert (Pq : 0 <= val x * val x) by nra. rewrite (Rabs_pos_eq (val x * val x)) in Hr by exact Pq.
    assert (Hq : Rabs (rnd t (val x * val x)) <= (1 + u) * (val x * val x) + ht).
    { replace (rnd t (val x * val x)) with ((rnd t (val x * val x) - val x * val x) + val x * val x) by ring.
      eapply Rle_trans; [apply Rabs_triang|]. rewrite (Rabs_pos_eq (val x * val x)) by exact Pq. lra. }
    assert (Pu : 0 <= u * real_sum_sqr l) by (apply Rmult_le_pos; lra).
    assert (Pu' : 0 <= u * (val x * val x)) by (apply Rmult_le_pos; lra).
    destruct IH as (I1 & I2 & I3); [lra|].
    destruct (fmul_fin n x x Hx Hx) as (R1 & R2 & _); [lra|]. rewrite R2. split; [constructor; assumption|].
    split; [|lra].
    replace (rnd t (val x * val x) + real_sum (sq l) - (val x * val x + real_sum_sqr l))
      with ((rnd t (val x * val x) - val x * val x) + (real_sum (sq l) - real_sum_sqr l)) by ring.
    eapply Rle_trans; [apply Rabs_triang|]. lra.
Qed.

(** Joining the error of the squares with that of the sum. *)
Lemma join_err N o S A T r : 0 <= T -> 0 <= A -> 0 <= INR N * ht ->
  Rabs (r - (o + S)) <= (g N - 1) * (Rabs o + A) -> Rabs (S - T) <= u * T + INR N * ht -> A <= (1 + u) * T + INR N * ht ->
  Rabs (r - (o + T)) <= (g (N + 1) - 1) * (Rabs o + T) + g N * (INR N * ht).
Proof.
  intros HT HA Hn H1 H2 H3. pose proof (u_pos t) as Hu. pose proof (g_1 t N) as G1. pose proof (Rabs_pos o) as Ho.
  replace (r - (o + T)) with ((r - (o + S)) + (S - T)) by ring. eapply Rle_trans; [apply Rabs_triang|].
  rewrite Nat.add_1_r, g_S. set (G := g N) in *. set (h := INR N * ht) in *. clearbody G h.
  assert (E1 : (G - 1) * (Rabs o + A) <= (G - 1) * (Rabs o + ((1 + u) * T + h))) by (apply Rmult_le_compat_l; lra).
  assert (E2 : 0 <= u * G * Rabs o) by (apply Rmult_le_pos; [apply Rmult_le_pos; lra|lra]).
  replace (((1 + u) * G - 1) * (Rabs o + T) + G * h) with
    ((G - 1) * (Rabs o + ((1 + u) * T + h)) + u * T + h + u * G * Rabs o) by ring. lra.
Qed.

(** The bound on the data of the meters. *)
Lemma rms_bound (l : list (F t)) o : all_finite l ->
  g (length l + 1) * (Rabs o + real_sum_sqr l) + g (length l) * (INR (length l) * ht) < overflow_bound t ->
  (1 + u) * real_sum_sqr l + INR (length l) * ht < overflow_bound t /\
  g (length l) * (Rabs o + ((1 + u) * real_sum_sqr l + INR (length l) * ht)) < overflow_bound t.
Proof.
  intros Hl Hb. pose proof (u_pos t) as Hu. pose proof (g_1 t (length l)) as G1. pose proof (Rabs_pos o) as Ho.
  pose proof (real_sum_sqr_pos l) as Hs.
  assert (Hn : 0 <= INR (length l) * ht) by (apply Rmult_le_pos; [apply pos_INR|apply Rlt_le, ht_pos]).
  rewrite Nat.add_1_r, g_S in Hb. set (G := g (length l)) in *. set (h := INR (length l) * ht) in *. clearbody G h.
  set (T := real_sum_sqr l) in *. clearbody T.
  assert (E2 : 0 <= u * G * Rabs o) by (apply Rmult_le_pos; [apply Rmult_le_pos; lra|lra]).
  assert (K : G * (Rabs o + ((1 + u) * T + h)) < overflow_bound t).
  { replace ((1 + u) * G * (Rabs o + T) + G * h) with (G * (Rabs o + ((1 + u) * T + h)) + u * G * Rabs o) in Hb by ring. lra. }
  split; [|exact K]. eapply Rle_lt_trans; [|exact K].
  assert (0 <= u * T) by (apply Rmult_le_pos; lra).
  apply Rle_trans with (1 * ((1 + u) * T + h)); [lra|]. apply Rmult_le_compat; lra.
Qed.

Lemma rms_err m p pk sq N (l : list (F t)) old olds : filled m p N l -> all_finite l ->
  m pk = Some old -> m sq = Some olds -> isfin olds = true ->
  g (length l + 1) * (Rabs (val olds) + real_sum_sqr l) + g (length l) * (INR (length l) * ht) < overflow_bound t ->
  exists m' r, peak_rms_vec (fred_scalar n) m p pk sq N = Ok m' /\ m' sq = Some r /\ isfin r = true /\
     Rabs (val r - (val olds + real_sum_sqr l)) <=
       (g (length l + 1) - 1) * (Rabs (val olds) + real_sum_sqr l) + g (length l) * (INR (length l) * ht).
Proof.
  intros H Hl Hpk Hsq Fo Hb. rewrite (peak_rms_vec_run _ m p pk sq N l old olds H Hpk Hsq).
  do 2 eexists. split; [reflexivity|]. split; [unfold upd; rewrite Z.eqb_refl; reflexivity|]. cbn [d_add d_mul fred_scalar].
  destruct (rms_bound l _ Hl Hb) as [B1 B2]. destruct (squares_err l Hl B1) as (S1 & S2 & S3).
  destruct (fold_sum_err n (map (fun x => fmul n x x) l) olds Fo S1) as [K1 K2].
  { rewrite map_length. eapply Rle_lt_trans; [|exact B2]. apply Rmult_le_compat_l; [apply Rlt_le, g_pos|lra]. }
  split; [exact K1|]. rewrite map_length in K2.
  eapply join_err; [apply real_sum_sqr_pos|apply real_sum_abs_pos| |exact K2|exact S2|exact S3].
  apply Rmult_le_pos; [apply pos_INR|apply Rlt_le, ht_pos].
Qed.
End Squares.

(** * Vector functions *)
Section Simd.
Context (c : cfg) (B : backend) (n : nans (fmt_of B)).
Local Notation t := (fmt_of B).
Local Notation wd := (vsize B).
Local Notation g := (growth t).
Local Notation ht := (half_tiny t).
Local Notation pz := (0%Z, 0%N, 0%nat).

Lemma hsum_simd_err m p N (l : list (F t)) : aligned B p -> whole_vectors B N -> filled m p N l -> all_finite l ->
  g (Nat.pred (length l)) * real_sum_abs l < overflow_bound t ->
  exists r, horizontal_sum_vec_simd (fred c B n) c B m p N = Ok r /\ isfin r = true /\
    Rabs (val r - real_sum l) <= (g (Nat.pred (length l)) - 1) * real_sum_abs l.
Proof.
  intros Ha Hw H Hl Hb. destruct (filled_blocks_exist wd m p N l (vsize_pos B) H (whole_vectors_div B N Hw)) as (bs & Hbs & <-).
  rewrite (horizontal_sum_vec_simd_run _ c B m p N bs Ha Hbs).
  destruct (leaves_ex (concat bs)) as [ps Hps].
  destruct (red_sum pjoin pjoin_assoc pjoin_comm (pfits (t := t)) pfits_l rounds (fadd n) (rounds_add n) c B bs
     ps (f_ofZ t 0) pz) as (r & E & K).
  - apply Hbs.
  - apply leaves_rounds; assumption.
  - apply rounds_zero.
  - apply pjoin_zero.
  - apply (pfits_fold (concat bs)); [assumption|]. cbn. change (IZR (Z.of_N 0)) with 0. rewrite !Rmult_0_l, !Rplus_0_l. exact Hb.
  - exists r. split; [exact E|].
    pose proof (rounds_result r (concat bs) ps pz Hps K) as K'.
    cbn [pval pmag snd Nat.add] in K'. change (IZR (Z.of_N 0)) with 0 in K'. rewrite !Rmult_0_l, !Rplus_0_l in K'. exact K'.
Qed.

Lemma vec_sum_err (v : list (F t)) : length v = wd -> all_finite v ->
  g (Nat.pred (length v)) * real_sum_abs v < overflow_bound t ->
  exists r, horizontal_sum c B (f_ofZ t 0) (fadd n) v = Ok r /\ isfin r = true /\
    Rabs (val r - real_sum v) <= (g (Nat.pred (length v)) - 1) * real_sum_abs v.
Proof.
  intros Hl Hv Hb. destruct (leaves_ex v) as [ps Hps].
  assert (Hne : ps <> []).
  { intros E. pose proof (vsize_pos B). apply Forall2_len in Hps. rewrite E, Hl in Hps. cbn in Hps. lia. }
  assert (T : tot pjoin ps pz = fold_left pjoin ps pz).
  { destruct ps as [|x ps']; [congruence|]. cbn [tot fold_left]. rewrite pjoin_zero. reflexivity. }
  destruct (horizontal_sum_sim pjoin pjoin_assoc pjoin_comm (pfits (t := t)) pfits_l rounds (fadd n) (rounds_add n) pz c B
      (f_ofZ t 0) pz v ps rounds_zero pjoin_zero (leaves_rounds v ps Hv Hps) Hl) as (r & E & K).
  - rewrite T. apply (pfits_fold v); [assumption|]. cbn. change (IZR (Z.of_N 0)) with 0. rewrite !Rmult_0_l, !Rplus_0_l. exact Hb.
  - exists r. split; [exact E|]. rewrite T in K.
    pose proof (rounds_result r v ps pz Hps K) as K'.
    cbn [pval pmag snd Nat.add] in K'. change (IZR (Z.of_N 0)) with 0 in K'. rewrite !Rmult_0_l, !Rplus_0_l in K'. exact K'.
Qed.

Lemma rms_simd_err junk m p pk sq N (l : list (F t)) old olds : aligned B p -> whole_quads B N -> filled m p N l -> all_finite l ->
  m pk = Some old -> m sq = Some olds -> pk <> sq -> isfin olds = true ->
  g (length l + 1) * (Rabs (val olds) + real_sum_sqr l) + g (length l) * (INR (length l) * ht) < overflow_bound t ->
  upper_lanes_zero B (f_ofZ t 0) junk ->
  exists m' r, peak_rms_vec_simd (fred c B n) c B junk m p pk sq N = Ok m' /\ m' sq = Some r /\ isfin r = true /\
     Rabs (val r - (val olds + real_sum_sqr l)) <=
       (g (length l + 1) - 1) * (Rabs (val olds) + real_sum_sqr l) + g (length l) * (INR (length l) * ht).
Proof.
  intros Ha Hw H Hl Hpk Hsq Hne Fo Hb0 Hj. pose proof (vsize_pos B) as HB.
  destruct (filled_blocks_exist (4 * wd) m p N l ltac:(lia) H (whole_quads_div B N Hw)) as (bs & Hbs & El). subst l.
  destruct (peak_rms_vec_simd_run (fred c B n) c B junk m p pk sq N bs old olds Ha Hbs Hpk Hsq) as (i1 & i2 & E1 & E2 & ->).
  pose proof (load_first_exact (fred c B n) B junk m sq olds Hsq Hj) as E2'. rewrite E2 in E2'. injection E2' as E2'. subst i2.
  destruct (hmax_total B (d_smax (fred c B n)) (d_vmax (fred c B n)) (fold_left (fun s b => map2 (d_vmax (fred c B n)) s (block_max (fred c B n) B b)) bs i1)) as [r Er].
  { apply acc_len; [|exact (load_first_len B _ _ _ _ _ _ Hpk E1)]. destruct Hbs as (_ & Hb' & _). revert Hb'. apply Forall_impl'. apply block_max_len. }
  rewrite Er. cbn [bind]. cbn [d_add d_zero fred].
  set (V := fadd n). set (sqr := fun x => fmul n x x). set (bs' := map (map sqr) bs).
  assert (E : forall s, fold_left (fun s b => map2 V s (block_sum (fred c B n) B b)) bs s =
    fold_left (fun s l => map2 V s (map2 V (map2 V (map2 V (quarter B 0 l) (quarter B 1 l)) (quarter B 2 l)) (quarter B 3 l))) bs' s).
  { unfold bs'. clear. induction bs as [|b bs IH]; intros s; cbn; [reflexivity|]. rewrite IH. do 2 f_equal.
    unfold block_sum, quarter_sqr. cbn [d_mul d_add fred]. fold sqr. rewrite !map_quarter. reflexivity. }
  rewrite E.
  assert (Ec : concat bs' = map sqr (concat bs)) by (unfold bs'; rewrite concat_map; reflexivity).
  destruct (rms_bound (concat bs) _ Hl Hb0) as [B1 B2]. destruct (squares_err n (concat bs) Hl B1) as (S1 & S2 & S3).
  fold sqr in S1, S2, S3.
  destruct (leaves_ex (map sqr (concat bs))) as [ps Hps]. destruct (leaf_ex olds) as [z Lz]. pose proof Lz as (Z1 & Z2 & Z3).
  assert (T0 : tot pjoin (z :: repeat pz (wd - 1)) pz = z).
  { cbn [tot]. generalize (wd - 1)%nat. intros k. induction k as [|k IH]; [reflexivity|]. cbn [repeat fold_left].
    rewrite (pjoin_comm z pz), pjoin_zero. exact IH. }
  assert (OKB : pfits (t := t) (fold_left pjoin ps z)).
  { apply (pfits_fold _ _ z Hps). rewrite Z2, Z3, map_length. cbn [Nat.add Nat.pred].
    eapply Rle_lt_trans; [|exact B2]. apply Rmult_le_compat_l; [apply Rlt_le, g_pos|lra]. }
  destruct (tree_acc pjoin pjoin_assoc pjoin_comm (pfits (t := t)) pfits_l rounds V (rounds_add n) B
     (fun l => map2 V (map2 V (map2 V (quarter B 0 l) (quarter B 1 l)) (quarter B 2 l)) (quarter B 3 l)) (tree_sum pjoin B)
     (tree_sum_len pjoin B) (tree_sum_tot pjoin pjoin_assoc pjoin_comm B)
     (tree_sum_R pjoin pjoin_assoc pjoin_comm (pfits (t := t)) pfits_l rounds V (rounds_add n) B)
     bs' ps (olds :: repeat (f_ofZ t 0) (wd - 1)) (z :: repeat pz (wd - 1)) pz
     ltac:(unfold bs'; apply block_map; apply Hbs)) as (vs & K1 & K2 & K3).
  - rewrite Ec. apply leaves_rounds; assumption.
  - constructor; [apply leaf_rounds; assumption|].
    generalize (wd - 1)%nat. intros k. induction k; cbn; constructor; auto. apply rounds_zero.
  - cbn. rewrite repeat_length. lia.
  - rewrite T0. exact OKB.
  - rewrite T0 in K3.
    destruct (horizontal_sum_sim pjoin pjoin_assoc pjoin_comm (pfits (t := t)) pfits_l rounds V (rounds_add n) pz c B
       (f_ofZ t 0) pz _ vs rounds_zero pjoin_zero K1 ltac:(rewrite (Forall2_len _ _ _ K1); exact K2)) as (q & Eq & J).
    + rewrite K3. exact OKB.
    + rewrite K3 in J. unfold V in Eq. cbn [d_zero fred]. fold V in Eq. fold V. rewrite Eq. cbn [bind]. do 2 eexists. split; [reflexivity|].
      split; [unfold upd; rewrite Z.eqb_refl; reflexivity|].
      destruct (rounds_result q _ ps z Hps J) as [J1 J2]. split; [exact J1|].
      rewrite Z1, Z2, Z3, map_length in J2. cbn [Nat.add Nat.pred] in J2.
      eapply join_err; [apply real_sum_sqr_pos|apply (real_sum_abs_pos (map sqr (concat bs)))| |exact J2|exact S2|exact S3].
      apply Rmult_le_pos; [apply pos_INR|apply Rlt_le, ht_pos].
Qed.
End Simd.
