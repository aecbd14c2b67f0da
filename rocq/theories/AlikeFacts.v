(** Reductions over related buffers. *)
From Coq Require Import ZArith Reals List Lia Lra Bool Permutation.
From Flocq Require Import Core IEEE754.Binary IEEE754.Bits.
From Verif Require Import Base Mem Loop Backend Args Lanes Float LaneOps Reduce FloatOps Spec SpecReduce SpecLane SpecAlike
  LoopFacts MemFacts FloatFacts LaneFacts ReduceFacts ReduceRun ReduceSim ReduceFloat ReduceMore FloatRound VecFacts VecMore VecMore2 RoundFacts RoundMore RoundMore2 MathMore SumErr KeepFacts NeutralFacts ExFloat.
Import ListNotations.
Local Open Scope Z_scope.

(** ** The same program on related samples *)
Section Par.
Context {A : Type} (R : A -> A -> Prop) (add : A -> A -> A).
Context (Radd : forall x x' y y', R x x' -> R y y' -> R (add x y) (add x' y')).

Lemma fold_par l l' : Forall2 R l l' -> forall a a', R a a' -> R (fold_left add l a) (fold_left add l' a').
Proof. induction 1; intros a a' Ha; cbn; auto. Qed.
Lemma map2_par : forall l l', Forall2 R l l' -> forall k k', Forall2 R k k' -> Forall2 R (map2 add l k) (map2 add l' k').
Proof. induction 1; intros k k' Hk; destruct Hk; cbn; constructor; auto. Qed.
Lemma acc_par bs bs' : Forall2 (Forall2 R) bs bs' -> forall u u', Forall2 R u u' ->
  Forall2 R (fold_left (map2 add) bs u) (fold_left (map2 add) bs' u').
Proof. induction 1; intros u u' Hu; cbn; auto. apply IHForall2. apply map2_par; assumption. Qed.
Lemma hsum_par c B z z' v v' : R z z' -> Forall2 R v v' -> length v = vsize B ->
  exists r r', horizontal_sum c B z add v = Ok r /\ horizontal_sum c B z' add v' = Ok r' /\ R r r'.
Proof.
  intros Hz H L.
  destruct B; cbn [vsize] in L;
  repeat (let a := fresh "a" in let b := fresh "b" in let Hab := fresh "Hab" in
    destruct H as [|a b ? ? Hab H]; cbn in L; try discriminate);
  cbn; try destruct (has_sse3 c); cbn; do 2 eexists; (split; [reflexivity|]; split; [reflexivity|]); auto 20.
Qed.
Lemma repeat_par x x' k : R x x' -> Forall2 R (repeat x k) (repeat x' k).
Proof. intros H. induction k; cbn; constructor; auto. Qed.
End Par.

Lemma filled_blocks_par {A} (R : A -> A -> Prop) w (m m' : mem A) p p' n bs l' :
  filled_blocks w m p n bs -> filled m' p' n l' -> Forall2 R (concat bs) l' ->
  exists bs', filled_blocks w m' p' n bs' /\ concat bs' = l' /\ Forall2 (Forall2 R) bs bs'.
Proof.
  intros (H1 & H2 & H3 & H4) (K1 & K2 & K3) HR. destruct (concat_split R bs l' HR) as (bs' & Hb & <-).
  exists bs'. split; [|auto]. split; [exact K1|]. split; [exact (blocks_len R w bs bs' Hb H2)|].
  rewrite <- (Forall2_len _ _ _ Hb). auto.
Qed.

Lemma hsum_vec_par {A} (d : redops A) (R : A -> A -> Prop) m m' p p' N l l' :
  (forall x x' y y', R x x' -> R y y' -> R (d_add d x y) (d_add d x' y')) -> R (d_zero d) (d_zero d) ->
  filled m p N l -> filled m' p' N l' -> Forall2 R l l' ->
  exists r r', horizontal_sum_vec d m p N = Ok r /\ horizontal_sum_vec d m' p' N = Ok r' /\ R r r'.
Proof.
  intros Ra Rz H H' HR. rewrite (horizontal_sum_vec_run d m p N l H), (horizontal_sum_vec_run d m' p' N l' H').
  do 2 eexists. split; [reflexivity|]. split; [reflexivity|]. apply (fold_par R); assumption.
Qed.
Lemma hsum_simd_par {A} (d : redops A) (R : A -> A -> Prop) c B m m' p p' N l l' :
  (forall x x' y y', R x x' -> R y y' -> R (d_add d x y) (d_add d x' y')) -> R (d_zero d) (d_zero d) ->
  aligned B p -> aligned B p' -> whole_vectors B N -> filled m p N l -> filled m' p' N l' -> Forall2 R l l' ->
  exists r r', horizontal_sum_vec_simd d c B m p N = Ok r /\ horizontal_sum_vec_simd d c B m' p' N = Ok r' /\ R r r'.
Proof.
  intros Ra Rz Ha Ha' Hw H H' HR.
  destruct (filled_blocks_exist (vsize B) m p N l (vsize_pos B) H (whole_vectors_div B N Hw)) as (bs & Hbs & <-).
  destruct (filled_blocks_par R _ _ _ _ _ _ _ _ Hbs H' HR) as (bs' & Hbs' & <- & HR').
  rewrite (horizontal_sum_vec_simd_run d c B m p N bs Ha Hbs), (horizontal_sum_vec_simd_run d c B m' p' N bs' Ha' Hbs').
  apply (hsum_par R); [exact Ra|exact Rz| |].
  - apply (acc_par R); [exact Ra|exact HR'|]. apply repeat_par. exact Rz.
  - apply (acc_len' B (d_add d)); [apply Hbs|apply set_vec_len].
Qed.

(** ** Negated samples *)
Section T.
Context {t : fmt} (n : nans t).
Implicit Types x y a b : F t.
Local Notation big := (bpow radix2 (emax t)).

Lemma feq_x x y : isnan x = false -> isnan y = false -> (feq x y = true <-> xval x = xval y).
Proof. intros Hx Hy. exact (srel_xval EQ x y Hx Hy). Qed.
Lemma nan_fneg x : isnan (fneg x) = isnan x.
Proof. apply isnan_fneg. Qed.
Lemma opposite_num x y : isnan x = false -> opposite x y -> isnan y = false /\ xval y = (- xval x)%R.
Proof.
  intros Hx [[H _]|H]; [congruence|]. destruct (feq_nn _ _ H) as [Hy _]. split; [exact Hy|].
  apply feq_x in H; [|exact Hy|rewrite nan_fneg; exact Hx]. rewrite H. apply xval_fneg.
Qed.
Lemma opposite_intro x y : isnan x = false -> isnan y = false -> xval y = (- xval x)%R -> opposite x y.
Proof. intros Hx Hy H. right. apply feq_x; [exact Hy|rewrite nan_fneg; exact Hx|rewrite H, xval_fneg; reflexivity]. Qed.
Lemma xval_fin_iff x : isnan x = false -> (isfin x = true <-> (Rabs (xval x) < big)%R).
Proof.
  intros Hx. split; intros H.
  - rewrite xval_fin by exact H. apply val_lt_emax.
  - destruct (isfin x) eqn:E; [reflexivity|]. rewrite (xval_inf x E) in H. pose proof (big_pos (t := t)).
    destruct (sgn x); [rewrite Rabs_Ropp in H|]; rewrite Rabs_pos_eq in H; lra.
Qed.
Lemma opposite_fin x y : isnan x = false -> opposite x y -> isfin y = isfin x.
Proof.
  intros Hx H. destruct (opposite_num x y Hx H) as [Hy E]. pose proof (xval_fin_iff x Hx) as A. pose proof (xval_fin_iff y Hy) as B.
  rewrite E, Rabs_Ropp in B. destruct (isfin x), (isfin y); try reflexivity; exfalso; enough (false = true) by discriminate; tauto.
Qed.
Lemma opposite_inf x y : isnan x = false -> isfin x = false -> opposite x y -> sgn y = negb (sgn x).
Proof.
  intros Hx Fx H. pose proof (opposite_fin x y Hx H) as Fy. rewrite Fx in Fy. destruct (opposite_num x y Hx H) as [Hy E].
  rewrite !xval_inf in E by assumption. pose proof (big_pos (t := t)). destruct (sgn x), (sgn y); try reflexivity; lra.
Qed.
Lemma fadd_inf_r x y : isfin y = false -> isnan y = false -> isfin x = true -> fadd n x y = y.
Proof. intros H1 H2 H3. destruct y; try discriminate; destruct x; try discriminate; reflexivity. Qed.
Lemma fadd_inf_inf x y : isfin x = false -> isnan x = false -> isfin y = false -> isnan y = false ->
  if Bool.eqb (sgn x) (sgn y) then fadd n x y = x else isnan (fadd n x y) = true.
Proof.
  intros H1 H2 H3 H4. destruct x as [|sx| |]; try discriminate; destruct y as [|sy| |]; try discriminate. cbn.
  destruct sx, sy; cbn; first [reflexivity|apply pn].
Qed.
Lemma opposite_add x x' y y' : opposite x x' -> opposite y y' -> opposite (fadd n x y) (fadd n x' y').
Proof.
  intros Hx Hy.
  assert (K : forall u u' : F t, opposite u u' -> isnan u = true -> isnan u' = true).
  { intros u u' [[_ H]|H] N; [exact H|]. apply feq_nn in H. rewrite nan_fneg in H. destruct H. congruence. }
  destruct (isnan x) eqn:Nx; [left; split; apply nan_fadd; left; [exact Nx|exact (K x x' Hx Nx)]|].
  destruct (isnan y) eqn:Ny; [left; split; apply nan_fadd; right; [exact Ny|exact (K y y' Hy Ny)]|].
  destruct (opposite_num x x' Nx Hx) as [Nx' Ex], (opposite_num y y' Ny Hy) as [Ny' Ey].
  pose proof (opposite_fin x x' Nx Hx) as Fx'. pose proof (opposite_fin y y' Ny Hy) as Fy'.
  destruct (isfin x) eqn:Fx, (isfin y) eqn:Fy.
  - destruct (fadd_x n x y Fx Fy) as [A1 A2], (fadd_x n x' y' Fx' Fy') as [B1 B2].
    apply opposite_intro; [exact A1|exact B1|]. rewrite A2, B2, <- sat_opp, <- rnd_opp.
    rewrite <- !xval_fin by assumption. rewrite Ex, Ey. do 2 f_equal. lra.
  - rewrite !fadd_inf_r by assumption. exact Hy.
  - rewrite !fadd_inf by assumption. exact Hx.
  - pose proof (opposite_inf x x' Nx Fx Hx) as Sx. pose proof (opposite_inf y y' Ny Fy Hy) as Sy.
    pose proof (fadd_inf_inf x y Fx Nx Fy Ny) as A. pose proof (fadd_inf_inf x' y' Fx' Nx' Fy' Ny') as B.
    rewrite Sx, Sy in B. destruct (sgn x), (sgn y); cbn in A, B; first [rewrite A, B; exact Hx|left; split; assumption].
Qed.
Lemma opposite_neg x : opposite x (fneg x).
Proof.
  destruct (isnan x) eqn:E; [left; split; [exact E|rewrite nan_fneg; exact E]|].
  apply opposite_intro; [exact E|rewrite nan_fneg; exact E|apply xval_fneg].
Qed.
Lemma opposite_negs (l : list (F t)) : Forall2 opposite l (map fneg l).
Proof. induction l; cbn; constructor; auto using opposite_neg. Qed.
Lemma opposite_zero : opposite (f_ofZ t 0) (f_ofZ t 0).
Proof. clear n. right. destruct t; vm_compute; reflexivity. Qed.

(** ** Scaled samples *)
Lemma rnd_scale_up k s : (0 <= k)%Z -> (exists j, s = IZR j * bpow radix2 (emin t))%R ->
  rnd t (s * bpow radix2 k) = (rnd t s * bpow radix2 k)%R.
Proof.
  intros Hk [j Hj]. unfold rnd. destruct (Req_dec s 0) as [->|Hs0]; [rewrite Rmult_0_l, !round_0, Rmult_0_l by typeclasses eauto; reflexivity|].
  pose proof (prec_pos t) as Hp.
  assert (FE : forall e, fexp t e = Z.max (e - prec t) (emin t)) by (intros e; reflexivity).
  pose proof (mag_mult_bpow radix2 s k Hs0) as M.
  assert (C : cexp radix2 (fexp t) (s * bpow radix2 k) = (cexp radix2 (fexp t) s + k)%Z \/ (Raux.mag radix2 s <= emin t + prec t)%Z).
  { unfold cexp. rewrite M, !FE. destruct (Z_le_gt_dec (Raux.mag radix2 s) (emin t + prec t)); [right; assumption|left; lia]. }
  destruct C as [C|C].
  - unfold round, F2R. cbn [Fnum Fexp]. rewrite C, bpow_plus. unfold scaled_mantissa. rewrite C.
    replace (s * bpow radix2 k * bpow radix2 (- (cexp radix2 (fexp t) s + k)))%R with (s * bpow radix2 (- cexp radix2 (fexp t) s))%R; [ring|].
    rewrite Rmult_assoc, <- bpow_plus. do 2 f_equal. lia.
  - assert (G : forall i, (0 <= i)%Z -> generic_format radix2 (fexp t) (s * bpow radix2 i)).
    { intros i Hi. rewrite Hj, Rmult_assoc, <- bpow_plus. change (IZR j * bpow radix2 (emin t + i))%R with (F2R (Float radix2 j (emin t + i))).
      apply generic_format_F2R. intros Hj0. unfold cexp, F2R. cbn [Fnum Fexp].
      replace (IZR j * bpow radix2 (emin t + i))%R with (s * bpow radix2 i)%R by (rewrite Hj, Rmult_assoc, <- bpow_plus; reflexivity).
      rewrite (mag_mult_bpow radix2 s i Hs0), FE. lia. }
    rewrite (round_generic _ _ _ _ (G k Hk)). pose proof (G 0%Z (Z.le_refl 0)) as G0. cbn [bpow] in G0. rewrite Rmult_1_r in G0.
    rewrite (round_generic _ _ _ _ G0). reflexivity.
Qed.
Lemma val_sum_units x y : exists j, (val x + val y = IZR j * bpow radix2 (emin t))%R.
Proof. destruct (val_units x) as [j Hj], (val_units y) as [k Hk]. exists (j + k)%Z. rewrite plus_IZR, Hj, Hk. ring. Qed.
Lemma rnd_scale k x y x' y' : val x' = (val x * bpow radix2 k)%R -> val y' = (val y * bpow radix2 k)%R ->
  rnd t (val x' + val y') = (rnd t (val x + val y) * bpow radix2 k)%R.
Proof.
  intros Hx Hy. destruct (Z_le_gt_dec 0 k) as [Hk|Hk].
  - rewrite <- rnd_scale_up by (exact Hk || apply val_sum_units). f_equal. rewrite Hx, Hy. ring.
  - assert (E : (val x + val y = (val x' + val y') * bpow radix2 (- k))%R).
    { rewrite Hx, Hy, <- Rmult_plus_distr_r, Rmult_assoc, <- bpow_plus. replace (k + - k)%Z with 0%Z by lia. cbn [bpow]. ring. }
    rewrite E, rnd_scale_up by (lia || apply val_sum_units). rewrite Rmult_assoc, <- bpow_plus. replace (- k + k)%Z with 0%Z by lia. cbn [bpow]. ring.
Qed.
Lemma fadd_fin_inv x y : isfin (fadd n x y) = true -> isfin x = true /\ isfin y = true /\ val (fadd n x y) = rnd t (val x + val y).
Proof.
  intros H. assert (K : isfin x = true /\ isfin y = true).
  { clear - H. destruct x as [sx|sx|sx px ex|sx mx ex hx], y as [sy|sy|sy py ey|sy my ey hy]; try (split; reflexivity); exfalso; cbn in H;
    try (destruct sx, sy; cbn in H); try discriminate H;
    match type of H with context [build_nan _ _ ?v] => destruct v as [[| | |] ?]; cbn in H; discriminate H end. }
  destruct K as [Hx Hy]. split; [exact Hx|]. split; [exact Hy|].
  destruct (fadd_x n x y Hx Hy) as [_ E]. rewrite xval_fin in E by exact H. pose proof (val_lt_emax (fadd n x y)) as L.
  pose proof (big_pos (t := t)).
  destruct (Rle_or_lt big (rnd t (val x + val y))) as [G|G]; [rewrite sat_hi in E by exact G; rewrite E, Rabs_pos_eq in L; lra|].
  destruct (Rle_or_lt (rnd t (val x + val y)) (- big)) as [G'|G']; [rewrite sat_lo in E by exact G'; rewrite E, Rabs_Ropp, Rabs_pos_eq in L; lra|].
  rewrite sat_id in E; [exact E|]. apply Rabs_le. lra.
Qed.
(** Proof auxiliary: if both are finite, the second is 2^k times the first. *)
Definition scaled (k : Z) (x y : F t) : Prop := isfin x = true -> isfin y = true -> val y = (val x * bpow radix2 k)%R.
Lemma scaled_add k x x' y y' : scaled k x x' -> scaled k y y' -> scaled k (fadd n x y) (fadd n x' y').
Proof.
  intros Hx Hy H H'. destruct (fadd_fin_inv x y H) as (A1 & A2 & A3), (fadd_fin_inv x' y' H') as (B1 & B2 & B3).
  rewrite A3, B3. apply rnd_scale; auto.
Qed.
Lemma scaled_zero k : scaled k (f_ofZ t 0) (f_ofZ t 0).
Proof. clear n. intros _ _. replace (val (f_ofZ t 0)) with 0%R by (destruct t; reflexivity). ring. Qed.
Lemma scaled_list k (l l' : list (F t)) : scaled_by_power k l l' -> Forall2 (scaled k) l l'.
Proof. induction 1 as [|x y l l' (H1 & H2 & H3) _ IH]; constructor; auto. intros _ _. exact H3. Qed.

(** ** Extremes do not depend on the order *)
Lemma is_max_unique (r r' : F t) l l' : (forall x, In x l <-> In x l') -> is_max r l -> is_max r' l' -> feq r r' = true.
Proof.
  intros HP [H1 (x & Hx & E)] [H1' (x' & Hx' & E')].
  pose proof (H1 x' (proj2 (HP x') Hx')) as A. pose proof (H1' x (proj1 (HP x) Hx)) as B.
  apply fle_iff in A. apply fle_iff in B. apply feq_iff in E. apply feq_iff in E'. apply feq_iff.
  destruct A as (A1 & A2 & A3), B as (B1 & B2 & B3), E as (_ & _ & E), E' as (_ & _ & E'). split; [exact A2|]. split; [exact B2|]. lia.
Qed.
Lemma is_min_unique (r r' : F t) l l' : (forall x, In x l <-> In x l') -> is_min r l -> is_min r' l' -> feq r r' = true.
Proof.
  intros HP [H1 (x & Hx & E)] [H1' (x' & Hx' & E')].
  pose proof (H1 x' (proj2 (HP x') Hx')) as A. pose proof (H1' x (proj1 (HP x) Hx)) as B.
  apply fle_iff in A. apply fle_iff in B. apply feq_iff in E. apply feq_iff in E'. apply feq_iff.
  destruct A as (A1 & A2 & A3), B as (B1 & B2 & B3), E as (_ & _ & E), E' as (_ & _ & E'). split; [exact A1|]. split; [exact B1|]. lia.
Qed.
Lemma feq_nonzero x y : feq x y = true -> (0 < xval x)%R -> x = y.
Proof.
  intros H P. destruct (feq_nn _ _ H) as [Nx Ny]. apply feq_x in H; [|assumption..].
  pose proof (xval_fin_iff x Nx) as A. pose proof (xval_fin_iff y Ny) as B. rewrite <- H in B.
  destruct (isfin x) eqn:Fx.
  - assert (Fy : isfin y = true) by (apply B, A; reflexivity). rewrite !xval_fin in H by assumption. rewrite xval_fin in P by exact Fx.
    apply B2R_Bsign_inj; [exact Fx|exact Fy|exact H|].
    pose proof (sgn_val_gen x Fx) as Sx. pose proof (sgn_val_gen y Fy) as Sy. rewrite <- H in Sy. rewrite Rabs_pos_eq in Sx, Sy by lra.
    change (sgn x = sgn y). destruct (sgn x), (sgn y); try reflexivity; lra.
  - destruct (isfin y) eqn:Fy; [assert (false = true) by (apply A, B; reflexivity); discriminate|].
    rewrite !xval_inf in H by assumption. pose proof (big_pos (t := t)).
    destruct x as [|sx| |]; try discriminate; destruct y as [|sy| |]; try discriminate. cbn in H. destruct sx, sy; try reflexivity; lra.
Qed.
Lemma fmin_pos : (0 < xval (f_min t))%R.
Proof. clear n. rewrite xval_fin by (destruct t; reflexivity). destruct t; apply F2R_gt_0; reflexivity. Qed.
Lemma is_max_above (r : F t) l : is_max r (f_min t :: l) -> (0 < xval r)%R.
Proof.
  intros [H _]. specialize (H (f_min t) (or_introl eq_refl)). pose proof fmin_pos. destruct (fle_num _ _ H) as [H1 H2].
  apply fle_x in H; [|assumption..]. lra.
Qed.
Lemma no_nan_perm (l l' : list (F t)) : Permutation l l' -> no_nan l -> no_nan l'.
Proof. intros P H. apply Forall_forall. intros x Hx. apply Permutation_sym in P. exact (proj1 (Forall_forall _ _) H x (Permutation_in x P Hx)). Qed.
Lemma perm_in (l l' : list (F t)) a : Permutation l l' -> forall x, In x (a :: l) <-> In x (a :: l').
Proof. intros P x. split; intros [H|H]; [left; exact H|right; exact (Permutation_in x P H)|left; exact H|right; exact (Permutation_in x (Permutation_sym P) H)]. Qed.

(** ** Minimum of negated samples *)
Lemma fle_neg x y : fle x y = true -> fle (fneg y) (fneg x) = true.
Proof.
  intros H. destruct (fle_num _ _ H) as [Nx Ny]. apply fle_x in H; [|assumption..].
  apply fle_x; [rewrite nan_fneg; assumption..|]. rewrite !xval_fneg. lra.
Qed.
Lemma feq_neg x y : feq x y = true -> feq (fneg x) (fneg y) = true.
Proof.
  intros H. destruct (feq_nn _ _ H) as [Nx Ny]. apply feq_x in H; [|assumption..].
  apply feq_x; [rewrite nan_fneg; assumption..|]. rewrite !xval_fneg. lra.
Qed.
Lemma is_min_neg (r : F t) l : is_max r l -> (exists x, In x l /\ fle (f_min t) x = true) -> is_min (fneg r) (f_min t :: map fneg l).
Proof.
  intros [H (x & Hx & E)] (y & Hy & Ly). split.
  - intros z [<-|Hz].
    + pose proof (H y Hy) as A. destruct (fle_num _ _ A) as [N1 N2]. destruct (fle_num _ _ Ly) as [N3 _].
      apply fle_x in A; [|assumption..]. apply fle_x in Ly; [|assumption..]. apply fle_x; [rewrite nan_fneg; assumption|assumption|].
      rewrite xval_fneg. pose proof fmin_pos. lra.
    + apply in_map_iff in Hz. destruct Hz as (w & <- & Hw). apply fle_neg, H, Hw.
  - exists (fneg x). split; [right; apply in_map; exact Hx|apply feq_neg; exact E].
Qed.

(** ** Signs *)
Lemma fabs_sign x y : y = x \/ y = fneg x -> fabs y = fabs x.
Proof. intros [->|E]; [reflexivity|]. rewrite E. destruct x; reflexivity. Qed.
Lemma sqr_sign x y : isnan x = false -> y = x \/ y = fneg x -> fmul n y y = fmul n x x.
Proof.
  intros N [->|E]; [reflexivity|]. rewrite E. destruct x as [s|s|s pl e|s m e h]; try discriminate N; try (destruct s; reflexivity).
  clear N y E. set (x := B754_finite (prec t) (emax t) s m e h).
  assert (N : isnan (fmul n x x) = false) by (apply (fmul_x n x x); reflexivity).
  revert N. unfold fmul, Bmult.
  match goal with |- isnan (BSN2B _ _ _ ?v) = false -> BSN2B _ _ _ ?u = BSN2B _ _ _ ?w =>
    assert (E : u = v); [|change w with v; rewrite E; clear E; destruct v; intros N; try reflexivity] end.
  - apply BinarySingleNaN.B2SF_inj. unfold x. cbn [fneg B2BSN BinarySingleNaN.Bmult]. rewrite !BinarySingleNaN.B2SF_SF2B. destruct s; reflexivity.
  - discriminate N.
Qed.
End T.

(** ** Meters see absolute values and squares only *)
Section Meter.
Context {A : Type} (d : redops A) (R : A -> A -> Prop).

Lemma map_par {X} (f : A -> X) l l' : (forall x y, R x y -> f x = f y) -> Forall2 R l l' -> map f l = map f l'.
Proof. intros Hf. induction 1; cbn; f_equal; auto. Qed.
Lemma last_map {X} (f : A -> X) l x0 : f (last l x0) = last (map f l) (f x0).
Proof. induction l as [|x l IH]; cbn; [reflexivity|]. destruct l; [reflexivity|]. exact IH. Qed.
Lemma upd_same {X} (m : mem X) a x : upd m a x a = Some x.
Proof. unfold upd. rewrite Z.eqb_refl. reflexivity. Qed.
Lemma upd_other {X} (m : mem X) a b x : b <> a -> upd m a x b = m b.
Proof. intros H. unfold upd. destruct (Z.eqb_spec b a); [contradiction|reflexivity]. Qed.

Context (Rf : forall x y, R x y -> d_fabs d x = d_fabs d y).
Lemma peak_vec_signs m m' p p' pk pk' N l l' old : filled m p N l -> filled m' p' N l' -> Forall2 R l l' ->
  m pk = Some old -> m' pk' = Some old ->
  exists m1 m2 z new, peak_vec d m p pk N = Ok (m1, z) /\ peak_vec d m' p' pk' N = Ok (m2, z) /\ m1 pk = Some new /\ m2 pk' = Some new.
Proof.
  intros H H' HR Hp Hp'. rewrite (peak_vec_run d m p pk N l old old H Hp), (peak_vec_run d m' p' pk' N l' old old H' Hp').
  rewrite !(last_map (d_fabs d)). rewrite (map_par (d_fabs d) l l' Rf HR). do 4 eexists. split; [reflexivity|]. split; [reflexivity|]. rewrite !upd_same. auto.
Qed.
Context (Rs : forall x y, R x y -> d_mul d x x = d_mul d y y).
Lemma peak_rms_vec_signs m m' p p' pk pk' sq sq' N l l' old olds : filled m p N l -> filled m' p' N l' -> Forall2 R l l' ->
  m pk = Some old -> m' pk' = Some old -> m sq = Some olds -> m' sq' = Some olds -> pk <> sq -> pk' <> sq' ->
  exists m1 m2 new news, peak_rms_vec d m p pk sq N = Ok m1 /\ peak_rms_vec d m' p' pk' sq' N = Ok m2 /\
    m1 pk = Some new /\ m2 pk' = Some new /\ m1 sq = Some news /\ m2 sq' = Some news.
Proof.
  intros H H' HR Hp Hp' Hs Hs' N1 N2.
  rewrite (peak_rms_vec_run d m p pk sq N l old olds H Hp Hs), (peak_rms_vec_run d m' p' pk' sq' N l' old olds H' Hp' Hs').
  rewrite (map_par (d_fabs d) l l' Rf HR), (map_par (fun x => d_mul d x x) l l' Rs HR). do 4 eexists. split; [reflexivity|]. split; [reflexivity|].
  rewrite (upd_other _ sq pk), (upd_other _ sq' pk'), !upd_same by assumption. repeat (split; [reflexivity|]). reflexivity.
Qed.

Context (Rv : forall x y, R x y -> d_vabs d x = d_vabs d y) (c : cfg) (B : backend).
Lemma block_max_signs b b' : Forall2 R b b' -> block_max d B b = block_max d B b'.
Proof. intros H. unfold block_max, quarter_abs. rewrite !map_quarter, (map_par (d_vabs d) b b' Rv H). reflexivity. Qed.
Lemma block_sum_signs b b' : Forall2 R b b' -> block_sum d B b = block_sum d B b'.
Proof. intros H. unfold block_sum, quarter_sqr. rewrite !map_quarter, (map_par (fun x => d_mul d x x) b b' Rs H). reflexivity. Qed.
Lemma fold_blocks {X} (f : X -> list A -> X) bs bs' : (forall s b b', Forall2 R b b' -> f s b = f s b') ->
  Forall2 (Forall2 R) bs bs' -> forall s, fold_left f bs s = fold_left f bs' s.
Proof. intros Hf. induction 1 as [|b b' bs bs' Hb H IH]; intros s; cbn; [reflexivity|]. rewrite (Hf s b b' Hb). apply IH. Qed.
Lemma load_first_same junk junk' (m m' : mem A) pk pk' old init : upper_lanes_zero B (d_zero d) junk -> upper_lanes_zero B (d_zero d) junk' ->
  m pk = Some old -> m' pk' = Some old -> load_first B (d_zero d) junk m pk = Ok init -> load_first B (d_zero d) junk' m' pk' = Ok init.
Proof.
  intros Hj Hj' H H' E. rewrite <- E. unfold load_first, load. rewrite H, H'. cbn [bind]. unfold upper_lanes_zero in *.
  destruct B; try reflexivity; rewrite !Hj, !Hj' by auto; reflexivity.
Qed.
Lemma peak_simd_signs junk junk' m m' p p' pk pk' N l l' old : aligned B p -> aligned B p' -> whole_quads B N ->
  upper_lanes_zero B (d_zero d) junk -> upper_lanes_zero B (d_zero d) junk' ->
  filled m p N l -> filled m' p' N l' -> Forall2 R l l' -> m pk = Some old -> m' pk' = Some old ->
  exists m1 m2 z new, peak_vec_simd d c B junk m p pk N = Ok (m1, z) /\ peak_vec_simd d c B junk' m' p' pk' N = Ok (m2, z) /\
    m1 pk = Some new /\ m2 pk' = Some new.
Proof.
  intros Ha Ha' Hw Hj Hj' H H' HR Hp Hp'.
  destruct (filled_blocks_exist (4 * vsize B) m p N l ltac:(pose proof (vsize_pos B); lia) H (whole_quads_div B N Hw)) as (bs & Hbs & <-).
  destruct (filled_blocks_par R _ _ _ _ _ _ _ _ Hbs H' HR) as (bs' & Hbs' & <- & HR').
  destruct (peak_vec_simd_run d c B junk m p pk N bs old old Ha Hbs Hp) as (init & E1 & ->).
  destruct (peak_vec_simd_run d c B junk' m' p' pk' N bs' old old Ha' Hbs' Hp') as (init' & E2 & ->).
  assert (init' = init) as ->.
  { pose proof (load_first_same junk junk' m m' pk pk' old init Hj Hj' Hp Hp' E1). congruence. }
  rewrite (fold_blocks (fun s b => map2 (d_vmax d) s (block_max d B b)) bs bs') by (assumption || (intros; f_equal; apply block_max_signs; assumption)).
  destruct (hmax_total B (d_smax d) (d_vmax d) (fold_left (fun s b => map2 (d_vmax d) s (block_max d B b)) bs' init)) as [r Er].
  { apply acc_len; [|apply (load_first_len B (d_zero d) junk m pk old); assumption].
    destruct Hbs' as (_ & L & _). eapply Forall_impl; [|exact L]. intros b Hb. apply block_max_len. exact Hb. }
  rewrite Er. cbn [bind]. rewrite !(last_map (d_vabs d)), (map_par (d_vabs d) _ _ Rv HR). do 4 eexists. split; [reflexivity|]. split; [reflexivity|]. rewrite !upd_same. auto.
Qed.
Lemma peak_rms_simd_signs junk junk' m m' p p' pk pk' sq sq' N l l' old olds : aligned B p -> aligned B p' -> whole_quads B N ->
  upper_lanes_zero B (d_zero d) junk -> upper_lanes_zero B (d_zero d) junk' ->
  filled m p N l -> filled m' p' N l' -> Forall2 R l l' -> m pk = Some old -> m' pk' = Some old -> m sq = Some olds -> m' sq' = Some olds ->
  pk <> sq -> pk' <> sq' ->
  exists m1 m2 new news, peak_rms_vec_simd d c B junk m p pk sq N = Ok m1 /\ peak_rms_vec_simd d c B junk' m' p' pk' sq' N = Ok m2 /\
    m1 pk = Some new /\ m2 pk' = Some new /\ m1 sq = Some news /\ m2 sq' = Some news.
Proof.
  intros Ha Ha' Hw Hj Hj' H H' HR Hp Hp' Hs Hs' N1 N2.
  destruct (filled_blocks_exist (4 * vsize B) m p N l ltac:(pose proof (vsize_pos B); lia) H (whole_quads_div B N Hw)) as (bs & Hbs & <-).
  destruct (filled_blocks_par R _ _ _ _ _ _ _ _ Hbs H' HR) as (bs' & Hbs' & <- & HR').
  destruct (peak_rms_vec_simd_run d c B junk m p pk sq N bs old olds Ha Hbs Hp Hs) as (init & inits & E1 & F1 & ->).
  destruct (peak_rms_vec_simd_run d c B junk' m' p' pk' sq' N bs' old olds Ha' Hbs' Hp' Hs') as (init' & inits' & E2 & F2 & ->).
  assert (init' = init) as ->.
  { pose proof (load_first_same junk junk' m m' pk pk' old init Hj Hj' Hp Hp' E1). congruence. }
  assert (inits' = inits) as ->.
  { pose proof (load_first_same junk junk' m m' sq sq' olds inits Hj Hj' Hs Hs' F1). congruence. }
  rewrite (fold_blocks (fun s b => map2 (d_vmax d) s (block_max d B b)) bs bs') by (assumption || (intros; f_equal; apply block_max_signs; assumption)).
  rewrite (fold_blocks (fun s b => map2 (d_add d) s (block_sum d B b)) bs bs') by (assumption || (intros; f_equal; apply block_sum_signs; assumption)).
  destruct Hbs' as (_ & L & _).
  destruct (hmax_total B (d_smax d) (d_vmax d) (fold_left (fun s b => map2 (d_vmax d) s (block_max d B b)) bs' init)) as [r Er].
  { apply acc_len; [|apply (load_first_len B (d_zero d) junk m pk old); assumption].
    eapply Forall_impl; [|exact L]. intros b Hb. apply block_max_len. exact Hb. }
  destruct (hsum_total c B (d_zero d) (d_add d) (fold_left (fun s b => map2 (d_add d) s (block_sum d B b)) bs' inits)) as [q Eq].
  { apply acc_len; [|apply (load_first_len B (d_zero d) junk m sq olds); assumption].
    eapply Forall_impl; [|exact L]. intros b Hb. apply block_sum_len. exact Hb. }
  rewrite Er. cbn [bind]. rewrite Eq. cbn [bind]. do 4 eexists. split; [reflexivity|]. split; [reflexivity|].
  rewrite (upd_other _ sq pk), (upd_other _ sq' pk'), !upd_same by assumption. repeat (split; [reflexivity|]). reflexivity.
Qed.
End Meter.

(** For the examples: integers times eight. *)
Lemma scaled_cells (f : Z -> Z) p k : (forall a, Z.abs (f a) <= 2 ^ 20) ->
  scaled_by_power 3 (map (fun i => f_ofZ F32 (f (p + Z.of_nat i))) (seq 0 k)) (map (fun i => f_ofZ F32 (8 * f (p + Z.of_nat i))) (seq 0 k)).
Proof.
  intros H. unfold scaled_by_power. generalize 0%nat. induction k as [|k IH]; intros s; cbn [seq map]; constructor; [|apply IH].
  specialize (H (p + Z.of_nat s)). generalize dependent (f (p + Z.of_nat s)). clear. intros k H.
  change (2 ^ 20) with 1048576 in H.
  destruct (f_ofZ_int (n0 F32) k) as [A1 A2]; [change (2 ^ prec F32) with 16777216; lia|].
  destruct (f_ofZ_int (n0 F32) (8 * k)) as [B1 B2]; [change (2 ^ prec F32) with 16777216; lia|].
  split; [exact A1|]. split; [exact B1|]. rewrite A2, B2, mult_IZR. cbn. lra.
Qed.
(** For the examples: cells with changed signs. *)
Lemma signs_cells {t} (v w : Z -> F t) p k : (forall a, w a = v a \/ w a = fneg (v a)) -> same_but_signs (cells v p k) (cells w p k).
Proof.
  intros H. unfold same_but_signs, cells. generalize 0%nat. induction k as [|k IH]; intros s; cbn [seq map]; constructor; [apply H|apply IH].
Qed.
