(** Mixing any number of buffers into one. *)
From Coq Require Import ZArith Reals List Lia Lra Bool Permutation.
From Flocq Require Import Core IEEE754.Binary IEEE754.Bits.
From Verif Require Import Base Mem Loop Backend Args MemFuns Drivers Functors Lanes Float LaneOps Reduce FloatOps VecMath FloatFuns Spec SpecLane SpecReduce SpecDrift SpecAgree SpecAlike SpecNeutral SpecSwap SpecChain SpecParts SpecBus
  FloatFacts LaneFacts FloatRound VecFacts VecMore ReduceFacts ReduceSim ReduceFloat ReduceMore SumErr RoundFacts RoundMore NeutralFacts AgreeFacts AlikeFacts MemClaims ExData ExFloat ExMath SwapFacts ChainFacts PartsFacts CallsFacts.
Import ListNotations.
Local Open Scope Z_scope.

Section M.
Context {A : Type} (ar : arith A).
Implicit Types m : mem A.
(** Proof auxiliary: the samples so far. *)
Definition mixed_from (m : mem A) (ps : list Z) (acc : Z -> option A) (i : Z) : option A :=
  fold_left (fun s p => lift2 (a_add ar) s (m (p + i))) ps (acc i).

Lemma adds (add : mem A -> Z -> res (mem A)) (fit : mem A -> Prop) out len :
  (forall m m1 v, fit m -> left_by m m1 out len v -> fit m1) ->
  forall ps, (forall m p, fit m -> In p ps -> leaves m (add m p) out len (fun i => lift2 (a_add ar) (m (out + i)) (m (p + i)))) ->
  Forall (fun p => clear_of (A := A) out len (APtr p)) ps ->
  forall m0 m acc, fit m -> left_by m0 m out len acc ->
  leaves m0 (in_turn (map (fun p m => add m p) ps) m) out len (mixed_from m0 ps acc).
Proof.
  intros Fk ps. induction ps as [|p ps IH]; intros Ha Hc m0 m acc Fm L; cbn [map in_turn].
  - exists m. split; [reflexivity|]. destruct L as [L1 L2]. split; [exact L2|exact L1].
  - inversion Hc as [|? ? Hp Hc']; subst. destruct (Ha m p Fm (or_introl eq_refl)) as (m1 & E & W & O). rewrite E. cbn [bind].
    assert (L0 := L). destruct L as [L1 L2].
    assert (K : left_by m0 m1 out len (fun i => lift2 (a_add ar) (acc i) (m0 (p + i)))).
    { split; [intros a H; rewrite O by exact H; apply L1; exact H|]. intros i Hi. destruct (W i Hi) as [W1 W2].
      rewrite (proj1 (L2 i Hi)) in W1, W2. rewrite (L1 (p + i)) in W1, W2 by (cbn [clear_of] in Hp; lia). auto. }
    change (mixed_from m0 (p :: ps) acc) with (mixed_from m0 ps (fun i => lift2 (a_add ar) (acc i) (m0 (p + i)))).
    apply (IH (fun m' p' F I => Ha m' p' F (or_intror I)) Hc' m0 m1 _); [|exact K].
    apply (Fk m m1 (fun i => lift2 (a_add ar) (m (out + i)) (m (p + i))) Fm). split; [exact O|exact W].
Qed.

Lemma left_self m m1 out len v : leaves m (Ok m1) out len v -> left_by m m1 out len v.
Proof. intros (m' & E & W & O). injection E as <-. split; assumption. Qed.
Lemma fits_left m m1 out len v ps : bus_fits m out len ps -> left_by m m1 out len v -> bus_fits m1 out len ps.
Proof.
  intros (H1 & H2 & H3) L. split; [exact H1|]. split; [exact (left_accessible _ _ _ _ _ _ _ L H2)|].
  eapply Forall_impl; [|exact H3]. cbv beta. intros p [K1 K2]. split; [exact (left_accessible _ _ _ _ _ _ _ L K1)|exact K2].
Qed.
Lemma clear_fit m out len p : accessible m p len -> clear_of (A := A) out len (APtr p) -> arg_fit m out len (APtr p).
Proof. intros H1 H2. split; [exact H1|]. cbn [overlap_ok clear_of] in *. lia. Qed.
Lemma clear_simd_fit B m out len p : accessible m p len -> clear_of (A := A) out len (APtr p) -> aligned B p -> simd_fit B m out len (APtr p).
Proof. intros H1 H2 H3. split; [exact H1|]. split; [cbn [overlap_ok clear_of] in *; lia|exact H3]. Qed.

Lemma bus_leaves m out len ps : bus_fits m out len ps ->
  leaves m (in_turn ((fun m => zerovec ar m out len) :: map (fun p m => addvec ar m out p len) ps) m) out len (mixed_from m ps (fun _ => Some (a_zero ar))).
Proof.
  intros H. assert (H0 := H). destruct H0 as (H1 & H2 & H3). cbn [in_turn].
  destruct (C12_zerovec_lemma A ar m out len ltac:(lia) H2) as (m1 & E & W & O). rewrite E. cbn [bind].
  assert (L : left_by m m1 out len (fun _ => Some (a_zero ar))) by (split; assumption).
  apply (adds (fun m p => addvec ar m out p len) (fun m => bus_fits m out len ps) out len) with (m := m1).
  - intros m' m2 v F L'. exact (fits_left _ _ _ _ _ _ F L').
  - intros m' p (F1 & F2 & F3) I. rewrite Forall_forall in F3. destruct (F3 p I) as [F4 F5]. apply C14_addvec_lemma; [exact F1|exact F2|apply clear_fit; assumption].
  - eapply Forall_impl; [|exact H3]. cbv beta. tauto.
  - exact (fits_left _ _ _ _ _ _ H L).
  - exact L.
Qed.
Lemma simd_bus_leaves B m out len ps : simd_bus_fits B m out len ps ->
  leaves m (in_turn ((fun m => zerovec_simd ar B m out len) :: map (fun p m => addvec_simd ar B m out p len) ps) m) out len (mixed_from m ps (fun _ => Some (a_zero ar))).
Proof.
  intros (Hl & Ha & H & Hp). assert (H0 := H). destruct H0 as (H1 & H2 & H3). cbn [in_turn].
  destruct (C12_zerovec_simd_lemma A ar B m out len Hl Ha H2) as (m1 & E & W & O). rewrite E. cbn [bind].
  assert (L : left_by m m1 out len (fun _ => Some (a_zero ar))) by (split; assumption).
  apply (adds (fun m p => addvec_simd ar B m out p len) (fun m => bus_fits m out len ps) out len) with (m := m1).
  - intros m' m2 v F L'. exact (fits_left _ _ _ _ _ _ F L').
  - intros m' p (F1 & F2 & F3) I. rewrite Forall_forall in F3, Hp. destruct (F3 p I) as [F4 F5]. apply C14_addvec_simd_lemma; [exact Hl|exact Ha|exact F2|apply clear_simd_fit; auto].
  - eapply Forall_impl; [|exact H3]. cbv beta. tauto.
  - exact (fits_left _ _ _ _ _ _ H L).
  - exact L.
Qed.

Lemma column_ex m out len ps i : bus_fits m out len ps -> 0 <= i < len -> exists l, column m ps i l.
Proof.
  intros (_ & _ & H) Hi. unfold column. induction H as [|p ps [H1 _] _ (l & IH)]; [exists []; constructor|].
  destruct (H1 i Hi) as [x Hx]. exists (x :: l). constructor; assumption.
Qed.
Lemma mixed_column m ps i l : column m ps i l -> forall acc x, acc i = Some x -> mixed_from m ps acc i = Some (fold_left (a_add ar) l x).
Proof.
  unfold column. induction 1 as [|p y ps l H _ IH]; intros acc x E; [exact E|].
  change (mixed_from m (p :: ps) acc i) with (mixed_from m ps (fun i => lift2 (a_add ar) (acc i) (m (p + i))) i).
  apply IH. rewrite E, H. reflexivity.
Qed.
Lemma mixes_of_leaves (P : list A -> A -> Prop) m r out len ps : bus_fits m out len ps ->
  leaves m r out len (mixed_from m ps (fun _ => Some (a_zero ar))) ->
  (forall l, P l (fold_left (a_add ar) l (a_zero ar))) -> mixes P m r out len ps.
Proof.
  intros H (m' & E & W & O) K. exists m'. split; [exact E|]. split; [exact O|]. intros i Hi. destruct (column_ex m out len ps i H Hi) as [l Hl].
  exists l, (fold_left (a_add ar) l (a_zero ar)). split; [exact Hl|]. split; [|apply K].
  rewrite (proj1 (W i Hi)). apply mixed_column; [exact Hl|reflexivity].
Qed.

(** ** Order *)
Lemma fold_perm (X : exact_arith ar) l l' : Permutation l l' -> forall x, fold_left (a_add ar) l x = fold_left (a_add ar) l' x.
Proof.
  induction 1 as [|y l l' _ IH|y z l|l l' l'' _ IH1 _ IH2]; intros x; cbn [fold_left]; [reflexivity|apply IH| |rewrite IH1; apply IH2].
  f_equal. rewrite <- !(ex_add_assoc ar X). f_equal. apply (ex_add_comm ar X).
Qed.
Lemma mixed_perm (X : exact_arith ar) m ps qs i : Permutation ps qs -> forall acc, mixed_from m ps acc i = mixed_from m qs acc i.
Proof.
  unfold mixed_from. intros H acc. generalize (acc i). induction H as [|y l l' _ IH|y z l|l l' l'' _ IH1 _ IH2]; intros x; cbn [fold_left]; [reflexivity|apply IH| |rewrite IH1; apply IH2].
  f_equal. destruct x as [x|], (m (y + i)) as [u|], (m (z + i)) as [v|]; cbn [lift2]; try reflexivity. f_equal. rewrite <- !(ex_add_assoc ar X). f_equal. apply (ex_add_comm ar X).
Qed.
Lemma fits_perm m out len ps qs : Permutation ps qs -> bus_fits m out len ps -> bus_fits m out len qs.
Proof. intros P (H1 & H2 & H3). split; [exact H1|]. split; [exact H2|]. exact (Permutation_Forall P H3). Qed.
End M.

Section T.
Context {t : fmt} (n : nans t).
Implicit Types x y z : F t.
Local Notation Zs := (B754_zero (prec t) (emax t)).
Lemma sum_int (l : list (F t)) ks : integers l ks -> zsum_abs ks <= 2 ^ prec t ->
  isfin (fold_left (fadd n) l (f_ofZ t 0)) = true /\ val (fold_left (fadd n) l (f_ofZ t 0)) = IZR (zsum ks).
Proof.
  intros Hl Hb. destruct (fold_padd ks (0, 0%N)) as [E1 E2]. cbn [fst snd] in E1, E2.
  destruct (fold_sim padd budget budget_fst repi (fadd n) (fadd_int n) l _ (f_ofZ t 0) (0, 0%N) (integers_repi l ks Hl) (repi_zero n)) as (K1 & K2 & _).
  - unfold budget. rewrite E2. cbn. lia.
  - split; [exact K1|]. rewrite K2, E1. reflexivity.
Qed.
Lemma equal_cases x y : equal_numbers x y -> x = y \/ (a_zero_of x /\ a_zero_of y).
Proof.
  unfold equal_numbers. intros E. destruct (isfin x) eqn:Fx, (isfin y) eqn:Fy.
  - apply feq_iff in E. destruct E as (_ & _ & E). apply (ord_eq_val x y Fx Fy) in E. destruct (Req_dec (val x) 0) as [Z|Z].
    + right. split; split; congruence.
    + left. apply fin_eq0; try assumption. intros Z'. contradiction.
  - exfalso. destruct x as [s|s|s pl H|s mm e H], y as [s'|s'|s' pl' H'|s' mm' e' H']; try discriminate; destruct s'; try discriminate; cbn in E; destruct s; discriminate.
  - exfalso. destruct x as [s|s|s pl H|s mm e H], y as [s'|s'|s' pl' H'|s' mm' e' H']; try discriminate; destruct s; try discriminate; cbn in E; destruct s'; discriminate.
  - left. destruct x as [s|s|s pl H|s mm e H], y as [s'|s'|s' pl' H'|s' mm' e' H']; try discriminate; destruct s, s'; try discriminate; reflexivity.
Qed.
Lemma same_number_refl x : same_number x x.
Proof. destruct (isnan x) eqn:N; [right; auto|left; apply feq_refl; exact N]. Qed.
Lemma add_same x y z : same_number x y -> same_number (fadd n x z) (fadd n y z).
Proof.
  intros [E|[N1 N2]]; [|right; split; apply nan_fadd; auto]. destruct (equal_cases x y E) as [->|[Z1 Z2]]; [apply same_number_refl|].
  apply a_zero_cases in Z1. apply a_zero_cases in Z2. destruct Z1 as [s ->], Z2 as [s' ->].
  destruct (isnan z) eqn:Nz; [right; split; apply nan_fadd; auto|]. destruct (zero_dec z) as [Z|Z].
  - apply a_zero_cases in Z. destruct Z as [q ->]. rewrite !fadd_zeros. left. reflexivity.
  - assert (K : forall q, fadd n (Zs q) z = z) by (intros q; destruct z as [q'|q'|q' pl H|q' mm e H]; try reflexivity; [exfalso; apply Z; apply a_zero_cases; eauto|discriminate]).
    rewrite !K. apply same_number_refl.
Qed.
Lemma zero_plus x : same_number x (fadd n (f_ofZ t 0) x).
Proof.
  change (f_ofZ t 0) with (zero t). rewrite zero_eq. destruct (isnan x) eqn:Nx; [right; split; [exact Nx|apply nan_fadd; auto]|]. destruct x as [q|q|q pl H|q mm e H]; [|left; apply feq_refl; reflexivity|discriminate|left; apply feq_refl; reflexivity].
  rewrite fadd_zeros. left. reflexivity.
Qed.
End T.

(** Example data. *)
Ltac bus_ex := unfold simd_bus_fits, bus_fits;
  repeat match goal with |- _ /\ _ => split | |- Forall _ _ => constructor end; chain_tac.
