(** Further facts about the reductions: splitting into blocks, exact
    arithmetic, short lengths, combined functions, lane access. *)

From Coq Require Import ZArith Reals Bool List Lia Lra.
From Flocq Require Import Core IEEE754.Binary IEEE754.Bits.
From Verif Require Import Base Mem Loop Backend Lanes Float LaneOps Reduce FloatOps Spec SpecReduce LoopFacts MemFacts
  FaultFacts FloatFacts LaneFacts ReduceFacts ReduceRun ReduceSim ReduceFloat.
Import ListNotations.
Local Open Scope Z_scope.

(** * Order on floats *)
Section Order.
Context {t : fmt}.
Lemma fle_nn (x y : F t) : fle x y = true -> isnan x = false /\ isnan y = false.
Proof. unfold fle. destruct (Bcompare _ _ x y) eqn:E; [|discriminate]. intros _. exact (compare_some x y _ E). Qed.
Lemma feq_nn (x y : F t) : feq x y = true -> isnan x = false /\ isnan y = false.
Proof. unfold feq. destruct (Bcompare _ _ x y) eqn:E; [|discriminate]. intros _. exact (compare_some x y _ E). Qed.
Lemma flt_nn (x y : F t) : flt x y = true -> isnan x = false /\ isnan y = false.
Proof. unfold flt. destruct (Bcompare _ _ x y) eqn:E; [|discriminate]. intros _. exact (compare_some x y _ E). Qed.
Lemma fle_iff (x y : F t) : fle x y = true <-> isnan x = false /\ isnan y = false /\ ord x <= ord y.
Proof.
  split.
  - intros H. destruct (fle_nn x y H) as [H1 H2]. rewrite fle_ord in H by assumption. apply Z.leb_le in H. auto.
  - intros (H1 & H2 & H). rewrite fle_ord by assumption. apply Z.leb_le. exact H.
Qed.
Lemma feq_iff (x y : F t) : feq x y = true <-> isnan x = false /\ isnan y = false /\ ord x = ord y.
Proof.
  split.
  - intros H. destruct (feq_nn x y H) as [H1 H2]. rewrite feq_ord in H by assumption. apply Z.eqb_eq in H. auto.
  - intros (H1 & H2 & H). rewrite feq_ord by assumption. apply Z.eqb_eq. exact H.
Qed.
Lemma flt_iff (x y : F t) : flt x y = true <-> isnan x = false /\ isnan y = false /\ ord x < ord y.
Proof.
  split.
  - intros H. destruct (flt_nn x y H) as [H1 H2]. rewrite flt_ord in H by assumption. apply Z.ltb_lt in H. auto.
  - intros (H1 & H2 & H). rewrite flt_ord by assumption. apply Z.ltb_lt. exact H.
Qed.

Lemma is_max_single (x : F t) : isnan x = false -> is_max x [x].
Proof.
  intros H. split.
  - intros y [<-|[]]. apply fle_iff. repeat split; auto; lia.
  - exists x. split; [left; reflexivity|]. apply feq_iff. auto.
Qed.
Lemma is_max_nn (r x : F t) l : is_max r (x :: l) -> isnan r = false.
Proof. intros [H _]. apply (fle_nn x r). apply H. left. reflexivity. Qed.
Lemma is_max_app (a b r : F t) l1 l2 : is_max b (a :: l1) -> is_max r (b :: l2) -> is_max r (a :: l1 ++ l2).
Proof.
  intros H1 [H2 H3]. pose proof (is_max_nn _ _ _ H1) as Hb. destruct H1 as [H0 H1].
  assert (Hbr : fle b r = true) by (apply H2; left; reflexivity). apply fle_iff in Hbr. destruct Hbr as (_ & Hr & Hbr).
  split.
  - intros x Hx. assert (D : In x (a :: l1) \/ In x l2).
    { destruct Hx as [<-|Hx]; [left; left; reflexivity|]. apply in_app_or in Hx. destruct Hx; [left; right|right]; assumption. }
    destruct D as [D|D]; [|apply H2; right; exact D]. apply H0 in D. apply fle_iff in D. apply fle_iff. destruct D as (D1 & D2 & D3). repeat split; auto; lia.
  - destruct H3 as (x & [<-|Hx] & E).
    + destruct H1 as (y & Hy & Ey). exists y. split.
      * destruct Hy as [<-|Hy]; [left; reflexivity|]. right. apply in_or_app. left. exact Hy.
      * apply feq_iff in E. apply feq_iff in Ey. apply feq_iff. destruct E as (? & ? & ?), Ey as (? & ? & ?). repeat split; auto; lia.
    + exists x. split; [|exact E]. right. apply in_or_app. right. exact Hx.
Qed.

(** Dropping the start value when some element reaches it. *)
Lemma is_max_drop (r a : F t) l : is_max r (a :: l) -> (exists x, In x l /\ fle a x = true) -> is_max r l.
Proof.
  intros [H1 (y & Hy & Ey)] (x & Hx & Ex). split; [intros z Hz; apply H1; right; exact Hz|].
  destruct Hy as [<-|Hy]; [|exists y; auto]. exists x. split; [exact Hx|].
  pose proof (H1 x (or_intror Hx)) as K. apply fle_iff in K. apply fle_iff in Ex. apply feq_iff in Ey. apply feq_iff.
  destruct K as (? & ? & ?), Ex as (? & ? & ?), Ey as (? & ? & ?). repeat split; auto; lia.
Qed.
Lemma is_min_drop (r a : F t) l : is_min r (a :: l) -> (exists x, In x l /\ fle x a = true) -> is_min r l.
Proof.
  intros [H1 (y & Hy & Ey)] (x & Hx & Ex). split; [intros z Hz; apply H1; right; exact Hz|].
  destruct Hy as [<-|Hy]; [|exists y; auto]. exists x. split; [exact Hx|].
  pose proof (H1 x (or_intror Hx)) as K. apply fle_iff in K. apply fle_iff in Ex. apply feq_iff in Ey. apply feq_iff.
  destruct K as (? & ? & ?), Ex as (? & ? & ?), Ey as (? & ? & ?). repeat split; auto; lia.
Qed.
Lemma is_max_below (r a : F t) l : is_max r (a :: l) -> Forall (fun x => flt x a = true) l -> ~ is_max r l.
Proof.
  intros [H1 _] Hl [_ (x & Hx & E)]. rewrite Forall_forall in Hl. specialize (Hl x Hx).
  specialize (H1 a (or_introl eq_refl)). apply fle_iff in H1. apply feq_iff in E. apply flt_iff in Hl. lia.
Qed.
Lemma is_min_above (r a : F t) l : is_min r (a :: l) -> Forall (fun x => flt a x = true) l -> ~ is_min r l.
Proof.
  intros [H1 _] Hl [_ (x & Hx & E)]. rewrite Forall_forall in Hl. specialize (Hl x Hx).
  specialize (H1 a (or_introl eq_refl)). apply fle_iff in H1. apply feq_iff in E. apply flt_iff in Hl. lia.
Qed.
Lemma ord_fmax : ord (f_max t) = inf_bits (t := t) - 1. Proof. destruct t; reflexivity. Qed.
Lemma below_fmax (x : F t) : isfin x = true -> fle x (f_max t) = true.
Proof.
  intros H. apply fle_iff. split; [apply fin_not_nan; exact H|]. split; [apply isnan_fmax|].
  rewrite ord_fmax. rewrite isfin_mag in H. apply Z.ltb_lt in H. unfold ord. pose proof (mag_range x).
  destruct (sgn x); lia.
Qed.
End Order.

(** * Block after block *)
Section Blocks.
Context {t : fmt} (call : mem (F t) -> Z -> Z -> res (mem (F t) * F t)) (pk : Z).
Context (P Q : Z -> Prop) (PQ : forall p n, P p -> Q n -> P (p + n)).
Context (Hcall : forall m p n l old, P p -> Q n -> filled m p n l -> m pk = Some old -> isnan old = false -> no_nan l ->
   peak_updated m (call m p n) p pk n old l).

Lemma blocks_run : forall ns m p l old, P p -> Forall (fun n => Q n /\ 0 < n < 2 ^ 32) ns ->
  holds m p l -> Z.of_nat (length l) = zsum ns -> (pk < p \/ p + Z.of_nat (length l) <= pk) ->
  m pk = Some old -> isnan old = false -> no_nan l ->
  exists m' new, block_after_block call m p ns = Ok m' /\ sets_cell m m' pk new /\ is_max new (old :: map fabs l).
Proof.
  induction ns as [|n ns IH]; intros m p l old Hp Hns Hl HL Hout Hpk Ho Hn; cbn [block_after_block].
  - cbn in HL. destruct l; [|cbn in HL; lia]. exists m, old. split; [reflexivity|]. split; [split; auto|]. apply is_max_single. exact Ho.
  - inversion Hns as [|? ? [Hq Hr] Hns']; subst. cbn [zsum fold_right] in HL. fold (zsum ns) in HL.
    assert (Hs : 0 <= zsum ns). { clear - Hns'. induction Hns' as [|? ? [_ K] _ IH']; [cbn; lia|]. cbn [zsum fold_right]. fold (zsum l). lia. }
    set (l1 := firstn (Z.to_nat n) l). set (l2 := skipn (Z.to_nat n) l).
    assert (El : l = l1 ++ l2) by (symmetry; apply firstn_skipn).
    assert (L1 : Z.of_nat (length l1) = n) by (unfold l1; rewrite firstn_length; lia).
    assert (L2 : Z.of_nat (length l2) = zsum ns) by (unfold l2; rewrite skipn_length; lia).
    rewrite El in Hl, Hn. apply holds_app in Hl. destruct Hl as [Hl1 Hl2]. apply Forall_app in Hn. destruct Hn as [Hn1 Hn2].
    destruct (Hcall m p n l1 old Hp Hq (conj Hl1 (conj L1 Hr)) Hpk Ho Hn1) as (m1 & new1 & z & -> & _ & [S1 S2] & M1).
    cbn [bind]. rewrite L1 in Hl2.
    destruct (IH m1 (p + n) l2 new1) as (m' & new & E & [S3 S4] & M2); auto.
    + intros i x Hi. rewrite S2; [apply Hl2; exact Hi|].
      assert (i < length l2)%nat by (apply nth_error_Some; congruence). rewrite El, app_length in Hout. lia.
    + rewrite El, app_length in Hout. lia.
    + exact (is_max_nn _ _ _ M1).
    + exists m', new. split; [exact E|]. split.
      * split; [exact S3|]. intros b Hb. rewrite S4, S2 by assumption. reflexivity.
      * rewrite El, map_app. exact (is_max_app _ _ _ _ _ M1 M2).
Qed.
End Blocks.

Lemma peak_vec_blocks {t} (n : nans t) ns m p pk (l : list (F t)) old :
  Forall (fun k => 0 < k < 2 ^ 32) ns -> holds m p l -> Z.of_nat (length l) = zsum ns ->
  (pk < p \/ p + zsum ns <= pk) -> m pk = Some old -> isnan old = false -> no_nan l ->
  exists m' new, block_after_block (fun m p k => peak_vec (fred_scalar n) m p pk k) m p ns = Ok m' /\
    sets_cell m m' pk new /\ is_max new (old :: map fabs l).
Proof.
  intros Hns Hl HL Hout Hpk Ho Hn.
  apply (blocks_run (fun m p k => peak_vec (fred_scalar n) m p pk k) pk (fun _ => True) (fun _ => True)); auto; try (rewrite HL; assumption).
  - intros. apply peak_vec_float; assumption.
  - clear - Hns. induction Hns; constructor; auto.
Qed.

Lemma whole_quads_aligned B p k : aligned B p -> whole_quads B k -> aligned B (p + k).
Proof.
  intros Hp Hk. apply whole_quads_div in Hk. destruct Hk as [q Hq].
  replace (p + k) with (p + (4 * q) * Z.of_nat (vsize B)) by lia. apply aligned_step. exact Hp.
Qed.

Lemma peak_vec_simd_blocks c B (n : nans (fmt_of B)) junk ns m p pk (l : list (F (fmt_of B))) old :
  aligned B p -> upper_lanes_zero B (f_ofZ (fmt_of B) 0) junk ->
  Forall (fun k => whole_quads B k /\ 0 < k < 2 ^ 32) ns -> holds m p l -> Z.of_nat (length l) = zsum ns ->
  (pk < p \/ p + zsum ns <= pk) -> m pk = Some old -> isnan old = false -> no_nan l ->
  exists m' new, block_after_block (fun m p k => peak_vec_simd (fred c B n) c B junk m p pk k) m p ns = Ok m' /\
    sets_cell m m' pk new /\ is_max new (old :: map fabs l).
Proof.
  intros Ha Hj Hns Hl HL Hout Hpk Ho Hn.
  apply (blocks_run (fun m p k => peak_vec_simd (fred c B n) c B junk m p pk k) pk (aligned B) (whole_quads B)); auto; try (rewrite HL; assumption).
  - intros. apply whole_quads_aligned; assumption.
  - intros. apply peak_vec_simd_float; assumption.
Qed.

(** * Exact arithmetic *)
Section Exact.
Context {A : Type} (d : redops A) (X : exact_reductions d).
(** Proof auxiliary: the trivial predicate. *)
Definition any (_ : A) : Prop := True.

Lemma Forall2_eq (l : list A) : Forall2 eq l l. Proof. induction l; constructor; auto. Qed.

Context (c : cfg) (B : backend).
Local Notation wd := (vsize B).

Lemma addR : forall a b x y : A, a = x -> b = y -> any (d_add d x y) -> d_add d a b = d_add d x y.
Proof. intros; subst; reflexivity. Qed.
Lemma smaxR : forall a b x y : A, a = x -> b = y -> any (d_smax d x y) -> d_smax d a b = d_smax d x y.
Proof. intros; subst; reflexivity. Qed.
Lemma vmaxR : forall a b x y : A, a = x -> b = y -> any (d_smax d x y) -> d_vmax d a b = d_smax d x y.
Proof. intros; subst. apply X. Qed.

Lemma vec_sum_exact v : length v = wd -> horizontal_sum c B (d_zero d) (d_add d) v = Ok (sum_from d (d_zero d) v).
Proof.
  intros Hl.
  destruct (horizontal_sum_sim (d_add d) (er_add_assoc d X) (er_add_comm d X) any (fun _ _ _ => I) eq (d_add d) addR (d_zero d) c B
     (d_zero d) (d_zero d) v v eq_refl (er_add_zero d X) (Forall2_eq v) Hl I) as (r & E & ->).
  rewrite E. f_equal. destruct v as [|x v]; [reflexivity|]. unfold sum_from. cbn. rewrite (er_add_zero d X). reflexivity.
Qed.

Lemma hsum_simd_exact m p N l : aligned B p -> whole_vectors B N -> filled m p N l ->
  horizontal_sum_vec_simd d c B m p N = Ok (sum_from d (d_zero d) l).
Proof.
  intros Ha Hw H. destruct (filled_blocks_exist wd m p N l (vsize_pos B) H (whole_vectors_div B N Hw)) as (bs & Hbs & <-).
  rewrite (horizontal_sum_vec_simd_run _ c B m p N bs Ha Hbs).
  destruct (red_sum (d_add d) (er_add_assoc d X) (er_add_comm d X) any (fun _ _ _ => I) eq (d_add d) addR c B bs
     (concat bs) (d_zero d) (d_zero d) (proj1 (proj2 Hbs)) (Forall2_eq _) eq_refl (er_add_zero d X) I) as (r & E & ->).
  exact E.
Qed.

Lemma load_first_exact junk (m : mem A) pk old : m pk = Some old -> upper_lanes_zero B (d_zero d) junk ->
  load_first B (d_zero d) junk m pk = Ok (old :: repeat (d_zero d) (wd - 1)).
Proof.
  intros Hpk Hj. unfold load_first, load. rewrite Hpk. cbn [bind]. unfold upper_lanes_zero in Hj.
  destruct B; cbn; try rewrite !Hj by auto; reflexivity.
Qed.

Lemma block_map (f : A -> A) (bs : list (list A)) : Forall (fun b => length b = (4 * wd)%nat) bs ->
  Forall (fun b => length b = (4 * wd)%nat) (map (map f) bs).
Proof. induction 1; cbn; constructor; auto. rewrite map_length. assumption. Qed.

Lemma rms_sum_exact (bs : list (list A)) olds : Forall (fun b => length b = (4 * wd)%nat) bs ->
  horizontal_sum c B (d_zero d) (d_add d)
     (fold_left (fun s b => map2 (d_add d) s (block_sum d B b)) bs (olds :: repeat (d_zero d) (wd - 1))) =
  Ok (sum_from d olds (map (fun x => d_mul d x x) (concat bs))).
Proof.
  intros Hb. pose proof (vsize_pos B) as HB. set (V := d_add d). set (sq := fun x => d_mul d x x).
  set (bs' := map (map sq) bs).
  assert (E : forall s, fold_left (fun s b => map2 V s (block_sum d B b)) bs s =
    fold_left (fun s l => map2 V s (map2 V (map2 V (map2 V (quarter B 0 l) (quarter B 1 l)) (quarter B 2 l)) (quarter B 3 l))) bs' s).
  { unfold bs'. clear. induction bs as [|b bs IH]; intros s; cbn; [reflexivity|]. rewrite IH. do 2 f_equal.
    unfold block_sum, quarter_sqr. fold sq. rewrite !map_quarter. reflexivity. }
  rewrite E.
  destruct (tree_acc V (er_add_assoc d X) (er_add_comm d X) any (fun _ _ _ => I) eq V addR B
     (fun l => map2 V (map2 V (map2 V (quarter B 0 l) (quarter B 1 l)) (quarter B 2 l)) (quarter B 3 l)) (tree_sum V B)
     (tree_sum_len V B) (tree_sum_tot V (er_add_assoc d X) (er_add_comm d X) B)
     (tree_sum_R V (er_add_assoc d X) (er_add_comm d X) any (fun _ _ _ => I) eq V addR B)
     bs' (concat bs') (olds :: repeat (d_zero d) (wd - 1)) (olds :: repeat (d_zero d) (wd - 1)) (d_zero d) (block_map sq bs Hb) (Forall2_eq _) (Forall2_eq _)
     ltac:(cbn; rewrite repeat_length; lia) I) as (vs & K1 & K2 & K3).
  destruct (horizontal_sum_sim V (er_add_assoc d X) (er_add_comm d X) any (fun _ _ _ => I) eq V addR (d_zero d) c B
     (d_zero d) (d_zero d) _ vs eq_refl (er_add_zero d X) K1 ltac:(rewrite (Forall2_len _ _ _ K1); exact K2) I) as (r & Er & ->).
  rewrite Er, K3. f_equal. unfold sum_from. fold V. replace (concat bs') with (map sq (concat bs)) by (unfold bs'; rewrite concat_map; reflexivity).
  f_equal. cbn [tot]. generalize (wd - 1)%nat. intros k. induction k as [|k IH]; cbn; [reflexivity|].
  rewrite (er_add_comm d X), (er_add_zero d X). exact IH.
Qed.

Lemma max_zeros k zs z : zs <> [] -> Forall (fun x => d_smax d (d_zero d) x = x) zs ->
  fold_left (d_smax d) zs (fold_left (d_smax d) (repeat (d_zero d) k) z) = fold_left (d_smax d) zs z.
Proof.
  intros Hne Hzs.
  assert (K : fold_left (d_smax d) (repeat (d_zero d) k) z = z \/ fold_left (d_smax d) (repeat (d_zero d) k) z = d_smax d z (d_zero d)).
  { destruct k as [|k]; [left; reflexivity|right]. cbn. induction k as [|k IH]; cbn; [reflexivity|].
    rewrite <- (er_max_assoc d X), (er_max_same d X). exact IH. }
  destruct K as [->| ->]; [reflexivity|]. destruct zs as [|x zs]; [congruence|]. inversion Hzs as [|? ? Hx _]; subst. cbn [fold_left].
  f_equal. rewrite <- (er_max_assoc d X), Hx. reflexivity.
Qed.

Lemma peak_max_exact (bs : list (list A)) old : Forall (fun b => length b = (4 * wd)%nat) bs -> bs <> [] ->
  horizontal_max B (d_smax d) (d_vmax d)
     (fold_left (fun s b => map2 (d_vmax d) s (block_max d B b)) bs (old :: repeat (d_zero d) (wd - 1))) =
  Ok (max_from d old (map (d_fabs d) (concat bs))).
Proof.
  intros Hb Hne. pose proof (vsize_pos B) as HB. set (V := d_vmax d). set (C := d_smax d).
  set (bs' := map (map (d_fabs d)) bs).
  assert (E : forall s, fold_left (fun s b => map2 V s (block_max d B b)) bs s =
    fold_left (fun s l => map2 V s (map2 V (map2 V (quarter B 0 l) (quarter B 1 l)) (map2 V (quarter B 2 l) (quarter B 3 l)))) bs' s).
  { unfold bs'. clear - X. induction bs as [|b bs IH]; intros s; cbn; [reflexivity|]. rewrite IH. do 2 f_equal.
    unfold block_max, quarter_abs. rewrite !map_quarter.
    assert (Ea : map (d_vabs d) b = map (d_fabs d) b) by (apply map_ext; apply X). rewrite Ea. reflexivity. }
  rewrite E.
  destruct (tree_acc C (er_max_assoc d X) (er_max_comm d X) any (fun _ _ _ => I) eq V vmaxR B
     (fun l => map2 V (map2 V (quarter B 0 l) (quarter B 1 l)) (map2 V (quarter B 2 l) (quarter B 3 l))) (tree_max C B)
     (tree_max_len C B) (tree_max_tot C (er_max_assoc d X) (er_max_comm d X) B)
     (tree_max_R C (er_max_assoc d X) (er_max_comm d X) any (fun _ _ _ => I) eq V vmaxR B)
     bs' (concat bs') (old :: repeat (d_zero d) (wd - 1)) (old :: repeat (d_zero d) (wd - 1)) (d_zero d) (block_map _ bs Hb) (Forall2_eq _) (Forall2_eq _)
     ltac:(cbn; rewrite repeat_length; lia) I) as (vs & K1 & K2 & K3).
  destruct (horizontal_sim C (er_max_assoc d X) (er_max_comm d X) any (fun _ _ _ => I) eq C V smaxR vmaxR (d_zero d) B
     _ vs K1 ltac:(rewrite (Forall2_len _ _ _ K1); exact K2) I) as (r & Er & ->).
  rewrite Er, K3. f_equal. unfold max_from. cbn [tot]. fold C.
  assert (Ec : concat bs' = map (d_fabs d) (concat bs)) by (unfold bs'; rewrite concat_map; reflexivity). rewrite Ec.
  apply max_zeros.
  - intros Z0. apply map_eq_nil in Z0. destruct bs as [|b bs]; [congruence|]. cbn in Z0. apply app_eq_nil in Z0. destruct Z0 as [-> _].
    inversion Hb; subst. cbn in *. lia.
  - apply Forall_forall. intros x Hx. apply in_map_iff in Hx. destruct Hx as (y & <- & _). apply X.
Qed.

Lemma peak_rms_simd_exact junk m p pk sq N l old olds :
  aligned B p -> whole_quads B N -> filled m p N l -> m pk = Some old -> m sq = Some olds ->
  upper_lanes_zero B (d_zero d) junk ->
  peak_rms_vec_simd d c B junk m p pk sq N =
  Ok (upd (upd m pk (max_from d old (map (d_fabs d) l))) sq (sum_from d olds (map (fun x => d_mul d x x) l))).
Proof.
  intros Ha Hw H Hpk Hsq Hj.
  destruct (filled_blocks_exist (4 * wd) m p N l ltac:(pose proof (vsize_pos B); lia) H (whole_quads_div B N Hw)) as (bs & Hbs & <-).
  destruct (peak_rms_vec_simd_run d c B junk m p pk sq N bs old olds Ha Hbs Hpk Hsq) as (i1 & i2 & E1 & E2 & ->).
  rewrite (load_first_exact junk m pk old Hpk Hj) in E1. rewrite (load_first_exact junk m sq olds Hsq Hj) in E2.
  injection E1 as <-. injection E2 as <-.
  rewrite (peak_max_exact bs old (proj1 (proj2 Hbs)) (filled_blocks_ne _ _ _ _ _ Hbs)). cbn [bind].
  rewrite (rms_sum_exact bs olds (proj1 (proj2 Hbs))). reflexivity.
Qed.
End Exact.

(** * Same peak as the plain meter, for any operations *)
Section Same.
Context {A : Type} (d : redops A) (c : cfg) (B : backend).

Lemma peak_rms_same m p pk sq N l old olds : filled m p N l -> m pk = Some old -> m sq = Some olds -> pk <> sq ->
  exists m1 z m2, peak_vec d m p pk N = Ok (m1, z) /\ peak_rms_vec d m p pk sq N = Ok m2 /\ m1 pk = m2 pk.
Proof.
  intros H Hpk Hsq Hne. assert (l0 : A) by exact old.
  rewrite (peak_vec_run d m p pk N l old l0 H Hpk), (peak_rms_vec_run d m p pk sq N l old olds H Hpk Hsq).
  do 3 eexists. split; [reflexivity|]. split; [reflexivity|]. unfold upd. rewrite Z.eqb_refl.
  destruct (Z.eqb_spec pk sq); [contradiction|reflexivity].
Qed.

(** Proof auxiliary: the trivial relation. *)
Definition anyu (_ : A) (_ : unit) : Prop := True.
(** Proof auxiliary: the only binary operation on unit. *)
Definition u2 (_ _ : unit) : unit := tt.
(** Proof auxiliary: the trivial predicate on unit. *)
Definition oku (_ : unit) : Prop := True.
Lemma u2A x y z : u2 x (u2 y z) = u2 (u2 x y) z. Proof. reflexivity. Qed.
Lemma u2C x y : u2 x y = u2 y x. Proof. reflexivity. Qed.
Lemma anyu_list (l : list A) : Forall2 anyu l (repeat tt (length l)).
Proof. induction l; cbn; constructor; auto. exact I. Qed.

Lemma hmax_total sop vop (v : list A) : length v = vsize B -> exists r, horizontal_max B sop vop v = Ok r.
Proof.
  intros H. destruct (horizontal_sim u2 u2A u2C oku (fun _ _ _ => I) anyu sop vop (fun _ _ _ _ _ _ _ => I)
    (fun _ _ _ _ _ _ _ => I) tt B v _ (anyu_list v) H I) as (r & E & _). eauto.
Qed.
Lemma hsum_total zero add (v : list A) : length v = vsize B -> exists r, horizontal_sum c B zero add v = Ok r.
Proof.
  intros H. destruct (horizontal_sum_sim u2 u2A u2C oku (fun _ _ _ => I) anyu add
    (fun _ _ _ _ _ _ _ => I) tt c B zero tt v _ I ltac:(intros []; reflexivity) (anyu_list v) H I) as (r & E & _). eauto.
Qed.
Lemma map2_len_eq {X Y Z'} (f : X -> Y -> Z') : forall l1 l2, length l1 = length l2 -> length (map2 f l1 l2) = length l1.
Proof. induction l1; intros [|y l2]; cbn; intros; try discriminate; auto. Qed.
Lemma acc_len (G : list A -> list A) (op : A -> A -> A) : forall bs init, Forall (fun b => length (G b) = vsize B) bs ->
  length init = vsize B -> length (fold_left (fun s b => map2 op s (G b)) bs init) = vsize B.
Proof.
  induction bs as [|b bs IH]; intros init Hb Hi; cbn; [exact Hi|]. inversion Hb; subst. apply IH; auto.
  rewrite map2_len_eq; lia.
Qed.
Lemma load_first_len zero junk (m : mem A) pk old init : m pk = Some old -> load_first B zero junk m pk = Ok init -> length init = vsize B.
Proof. intros H. unfold load_first, load. rewrite H. cbn [bind]. intros E. injection E as <-. destruct B; reflexivity. Qed.
Lemma block_max_len b : length b = (4 * vsize B)%nat -> length (block_max d B b) = vsize B.
Proof.
  intros H. unfold block_max, quarter_abs. rewrite !map2_len_eq; rewrite ?map2_len_eq; rewrite ?map_length, ?quarter_length; auto; lia.
Qed.
Lemma block_sum_len b : length b = (4 * vsize B)%nat -> length (block_sum d B b) = vsize B.
Proof.
  intros H. unfold block_sum, quarter_sqr. rewrite !map2_len_eq; rewrite ?map2_len_eq; rewrite ?map2_len_eq; rewrite ?map_length, ?quarter_length; auto; lia.
Qed.
Lemma Forall_impl' {X} (P Q : X -> Prop) l : (forall x, P x -> Q x) -> Forall P l -> Forall Q l.
Proof. intros H. induction 1; constructor; auto. Qed.

Lemma peak_rms_simd_same junk m p pk sq N l old olds : aligned B p -> whole_quads B N ->
  filled m p N l -> m pk = Some old -> m sq = Some olds -> pk <> sq ->
  exists m1 z m2, peak_vec_simd d c B junk m p pk N = Ok (m1, z) /\ peak_rms_vec_simd d c B junk m p pk sq N = Ok m2 /\ m1 pk = m2 pk
    /\ (forall a, a <> pk -> a <> sq -> m2 a = m a).
Proof.
  intros Ha Hw H Hpk Hsq Hne. assert (l0 : A) by exact old.
  destruct (filled_blocks_exist (4 * vsize B) m p N l ltac:(pose proof (vsize_pos B); lia) H (whole_quads_div B N Hw)) as (bs & Hbs & <-).
  destruct (peak_rms_vec_simd_run d c B junk m p pk sq N bs old olds Ha Hbs Hpk Hsq) as (i1 & i2 & E1 & E2 & ->).
  destruct (peak_vec_simd_run d c B junk m p pk N bs old l0 Ha Hbs Hpk) as (i3 & E3 & ->).
  rewrite E1 in E3. injection E3 as <-.
  destruct (hmax_total (d_smax d) (d_vmax d) (fold_left (fun s b => map2 (d_vmax d) s (block_max d B b)) bs i1)) as [r Er].
  { apply acc_len; [|exact (load_first_len _ _ _ _ _ _ Hpk E1)]. destruct Hbs as (_ & Hb & _). revert Hb. apply Forall_impl'. apply block_max_len. }
  destruct (hsum_total (d_zero d) (d_add d) (fold_left (fun s b => map2 (d_add d) s (block_sum d B b)) bs i2)) as [q Eq].
  { apply acc_len; [|exact (load_first_len _ _ _ _ _ _ Hsq E2)]. destruct Hbs as (_ & Hb & _). revert Hb. apply Forall_impl'. apply block_sum_len. }
  rewrite Er, Eq. cbn [bind]. do 3 eexists. split; [reflexivity|]. split; [reflexivity|]. unfold upd. rewrite Z.eqb_refl.
  destruct (Z.eqb_spec pk sq); [contradiction|]. split; [reflexivity|].
  intros a H1 H2. destruct (Z.eqb_spec a sq); [contradiction|]. destruct (Z.eqb_spec a pk); [contradiction|reflexivity].
Qed.

Lemma set_vec_len (x : A) : length (set_vec B x) = vsize B. Proof. apply repeat_length. Qed.
Lemma acc_len' (op : A -> A -> A) bs init : Forall (fun b => length b = vsize B) bs ->
  length init = vsize B -> length (fold_left (map2 op) bs init) = vsize B.
Proof. intros H1 H2. apply (acc_len (fun b => b) op bs init H1 H2). Qed.

Lemma minmax_same m p N l : filled m p N l ->
  exists rmin rmax, horizontal_minmax_vec d m p N = Ok (rmin, rmax) /\ horizontal_max_vec d m p N = Ok rmax.
Proof. intros H. rewrite (horizontal_minmax_vec_run d m p N l H), (horizontal_max_vec_run d m p N l H). eauto. Qed.
Lemma maxsum_same m p N l : filled m p N l ->
  exists rmax rsum, horizontal_maxsum_vec d m p N = Ok (rmax, rsum) /\ horizontal_max_vec d m p N = Ok rmax /\ horizontal_sum_vec d m p N = Ok rsum.
Proof.
  intros H. rewrite (horizontal_maxsum_vec_run d m p N l H), (horizontal_max_vec_run d m p N l H), (horizontal_sum_vec_run d m p N l H). eauto.
Qed.
Lemma minmax_simd_same m p N l : aligned B p -> whole_vectors B N -> filled m p N l ->
  exists rmin rmax, horizontal_minmax_vec_simd d B m p N = Ok (rmin, rmax) /\ horizontal_max_vec_simd d B m p N = Ok rmax.
Proof.
  intros Ha Hw H. destruct (filled_blocks_exist (vsize B) m p N l (vsize_pos B) H (whole_vectors_div B N Hw)) as (bs & Hbs & <-).
  rewrite (horizontal_minmax_vec_simd_run d B m p N bs Ha Hbs), (horizontal_max_vec_simd_run d B m p N bs Ha Hbs).
  destruct (hmax_total (d_smin d) (d_vmin d) (fold_left (map2 (d_vmin d)) bs (set_vec B (d_lmax d)))) as [r1 E1];
    [apply acc_len'; [apply Hbs|apply set_vec_len]|].
  destruct (hmax_total (d_smax d) (d_vmax d) (fold_left (map2 (d_vmax d)) bs (set_vec B (d_lmin d)))) as [r2 E2];
    [apply acc_len'; [apply Hbs|apply set_vec_len]|].
  change (horizontal_min B (d_smin d) (d_vmin d) (fold_left (map2 (d_vmin d)) bs (set_vec B (d_lmax d))) = Ok r1) in E1.
  rewrite E1, E2. cbn [bind]. eauto.
Qed.
Lemma maxsum_simd_same m p N l : aligned B p -> whole_vectors B N -> filled m p N l ->
  exists rmax rsum, horizontal_maxsum_vec_simd d c B m p N = Ok (rmax, rsum) /\ horizontal_max_vec_simd d B m p N = Ok rmax /\
    horizontal_sum_vec_simd d c B m p N = Ok rsum.
Proof.
  intros Ha Hw H. destruct (filled_blocks_exist (vsize B) m p N l (vsize_pos B) H (whole_vectors_div B N Hw)) as (bs & Hbs & <-).
  rewrite (horizontal_maxsum_vec_simd_run d c B m p N bs Ha Hbs), (horizontal_max_vec_simd_run d B m p N bs Ha Hbs),
   (horizontal_sum_vec_simd_run d c B m p N bs Ha Hbs).
  destruct (hsum_total (d_zero d) (d_add d) (fold_left (map2 (d_add d)) bs (set_vec B (d_zero d)))) as [r1 E1];
    [apply acc_len'; [apply Hbs|apply set_vec_len]|].
  destruct (hmax_total (d_smax d) (d_vmax d) (fold_left (map2 (d_vmax d)) bs (set_vec B (d_lmin d)))) as [r2 E2];
    [apply acc_len'; [apply Hbs|apply set_vec_len]|].
  rewrite E1, E2. cbn [bind]. eauto.
Qed.

(** * Lengths that are not whole groups of four vectors *)
Lemma peak_simd_rounds junk m p pk N : peak_vec_simd d c B junk m p pk N =
  peak_vec_simd d c B junk m p pk (N - N mod (4 * lanes B)).
Proof.
  unfold peak_vec_simd. rewrite <- lanes_vsize.
  replace ((N - N mod (4 * lanes B)) / (4 * lanes B)) with (N / (4 * lanes B)); [reflexivity|].
  assert (0 < 4 * lanes B) by (destruct B; reflexivity).
  rewrite Z.mod_eq by lia. replace (N - (N - 4 * lanes B * (N / (4 * lanes B)))) with ((N / (4 * lanes B)) * (4 * lanes B)) by lia.
  symmetry. apply Z.div_mul. lia.
Qed.
Lemma peak_rms_simd_rounds junk m p pk sq N : peak_rms_vec_simd d c B junk m p pk sq N =
  peak_rms_vec_simd d c B junk m p pk sq (N - N mod (4 * lanes B)).
Proof.
  unfold peak_rms_vec_simd. rewrite <- lanes_vsize.
  replace ((N - N mod (4 * lanes B)) / (4 * lanes B)) with (N / (4 * lanes B)); [reflexivity|].
  assert (0 < 4 * lanes B) by (destruct B; reflexivity).
  rewrite Z.mod_eq by lia. replace (N - (N - 4 * lanes B * (N / (4 * lanes B)))) with ((N / (4 * lanes B)) * (4 * lanes B)) by lia.
  symmetry. apply Z.div_mul. lia.
Qed.

Lemma vload_ok_inv (m : mem A) a v : aligned B a -> vload_aligned B m a = Ok v ->
  length v = vsize B /\ forall i, 0 <= i < Z.of_nat (vsize B) -> m (a + i) <> None.
Proof.
  intros Ha. unfold vload_aligned. rewrite vaddr_aligned by exact Ha. cbn [bind]. clear Ha.
  generalize (vsize B). intros k. revert a v. induction k as [|k IH]; intros a v E; cbn in E.
  - injection E as <-. split; [reflexivity|]. intros; lia.
  - destruct (load m a) as [x|e] eqn:EL; cbn in E; [|discriminate]. destruct (load_n k m (a + 1)) as [w|e] eqn:E2; cbn in E; [|discriminate].
    injection E as <-. destruct (IH _ _ E2) as [H1 H2]. split; [cbn; congruence|]. intros i Hi.
    destruct (Z.eq_dec i 0) as [->|Hi0].
    + rewrite Z.add_0_r. unfold load in EL. destruct (m a); congruence.
    + replace (a + i) with (a + 1 + (i - 1)) by lia. apply H2. lia.
Qed.

Lemma quad_loop {S} (m : mem A) (body : Z * S -> res (Z * S)) :
  (forall p s, aligned B p -> (exists s', body (p, s) = Ok (p + 4 * Z.of_nat (vsize B), s') /\
                   forall i, 0 <= i < 4 * Z.of_nat (vsize B) -> m (p + i) <> None) \/
              (exists e, body (p, s) = Fault e /\ memfault e)) ->
  forall T p s, aligned B p ->
  match iter_res T body (p, s) with
  | Ok _ => forall i, 0 <= i < Z.of_nat T * (4 * Z.of_nat (vsize B)) -> m (p + i) <> None
  | Fault e => memfault e
  end.
Proof.
  intros Hb. induction T as [|T IH]; intros p s Hp; cbn [iter_res].
  - intros; lia.
  - destruct (Hb p s Hp) as [(s' & -> & Hv)|(e & -> & He)]; cbn [bind]; [|exact He].
    assert (Hp' : aligned B (p + 4 * Z.of_nat (vsize B))) by (apply aligned_step; exact Hp).
    specialize (IH _ s' Hp'). destruct (iter_res T body _); [|exact IH].
    intros i Hi. destruct (Z_lt_ge_dec i (4 * Z.of_nat (vsize B))); [apply Hv; lia|].
    replace (p + i) with (p + 4 * Z.of_nat (vsize B) + (i - 4 * Z.of_nat (vsize B))) by lia. apply IH. lia.
Qed.

Lemma four_loads {X} (m : mem A) p (k : list A -> list A -> list A -> list A -> X) : aligned B p ->
  (exists v0 v1 v2 v3,
    (in0 <- vload_aligned B m p ;; in1 <- vload_aligned B m (p + Z.of_nat (vsize B)) ;;
     in2 <- vload_aligned B m (p + 2 * Z.of_nat (vsize B)) ;; in3 <- vload_aligned B m (p + 3 * Z.of_nat (vsize B)) ;;
     Ok (k in0 in1 in2 in3)) = Ok (k v0 v1 v2 v3) /\
    forall i, 0 <= i < 4 * Z.of_nat (vsize B) -> m (p + i) <> None) \/
  (exists e, (in0 <- vload_aligned B m p ;; in1 <- vload_aligned B m (p + Z.of_nat (vsize B)) ;;
     in2 <- vload_aligned B m (p + 2 * Z.of_nat (vsize B)) ;; in3 <- vload_aligned B m (p + 3 * Z.of_nat (vsize B)) ;;
     Ok (k in0 in1 in2 in3)) = Fault e /\ memfault e).
Proof.
  intros Hp. set (w := Z.of_nat (vsize B)).
  assert (Q : forall j, aligned B (p + j * w)) by (intro; apply aligned_step; exact Hp).
  pose proof (Q 1) as Q1. rewrite Z.mul_1_l in Q1.
  destruct (vload_aligned_cases B m p) as [(v0 & E0 & _)|(e & -> & He)]; [rewrite E0; cbn [bind]|right; exists e; split; [reflexivity|exact He]].
  destruct (vload_aligned_cases B m (p + w)) as [(v1 & E1 & _)|(e & -> & He)]; [rewrite E1; cbn [bind]|right; exists e; split; [reflexivity|exact He]].
  destruct (vload_aligned_cases B m (p + 2 * w)) as [(v2 & E2 & _)|(e & -> & He)]; [rewrite E2; cbn [bind]|right; exists e; split; [reflexivity|exact He]].
  destruct (vload_aligned_cases B m (p + 3 * w)) as [(v3 & E3 & _)|(e & -> & He)]; [rewrite E3; cbn [bind]|right; exists e; split; [reflexivity|exact He]].
  left. exists v0, v1, v2, v3. split; [reflexivity|].
  destruct (vload_ok_inv m p v0 Hp E0) as [_ V0]. destruct (vload_ok_inv m (p + w) v1 Q1 E1) as [_ V1].
  destruct (vload_ok_inv m (p + 2 * w) v2 (Q 2) E2) as [_ V2]. destruct (vload_ok_inv m (p + 3 * w) v3 (Q 3) E3) as [_ V3].
  fold w in V0, V1, V2, V3. intros i Hi.
  destruct (Z_lt_ge_dec i w); [apply V0; lia|]. destruct (Z_lt_ge_dec i (2 * w)).
  - replace (p + i) with (p + w + (i - w)) by lia. apply V1. lia.
  - destruct (Z_lt_ge_dec i (3 * w)).
    + replace (p + i) with (p + 2 * w + (i - 2 * w)) by lia. apply V2. lia.
    + replace (p + i) with (p + 3 * w + (i - 3 * w)) by lia. apply V3. lia.
Qed.

Lemma reassoc_loop {S T} (body : Z * S * T -> res (Z * S * T)) (body' : Z * (S * T) -> res (Z * (S * T))) k :
  (forall p s u, body (p, s, u) = ('(p', (s', u')) <- body' (p, (s, u)) ;; Ok (p', s', u'))) ->
  forall p s u, iter_res k body (p, s, u) = ('(p', (s', u')) <- iter_res k body' (p, (s, u)) ;; Ok (p', s', u')).
Proof.
  intros H. induction k as [|k IH]; intros p s u; cbn [iter_res]; [reflexivity|]. rewrite H.
  destruct (body' (p, (s, u))) as [[p' [s' u']]|e]; cbn [bind]; [apply IH|reflexivity].
Qed.

Lemma short_quads N : 0 <= N < 4 * lanes B -> N / (4 * Z.of_nat (vsize B)) = 0.
Proof. rewrite lanes_vsize. intros H. apply Z.div_small. exact H. Qed.

Lemma peak_simd_short junk (m : mem A) p pk N i : 0 <= N < 4 * lanes B -> aligned B p ->
  0 <= i < 2 ^ 32 * (4 * lanes B) -> m (p + i) = None ->
  memory_fault (peak_vec_simd d c B junk m p pk N).
Proof.
  intros HN Ha Hi Hm. unfold peak_vec_simd, load_first, load. destruct (m pk) as [old|] eqn:Hpk; cbn [bind]; [|eexists; left; reflexivity].
  fold (@load A). rewrite short_quads by exact HN. rewrite do_while_zero.
  set (init := match B with SSE64 => _ | AVX32 => _ | AVX64 => _ | _ => _ end).
  set (w := Z.of_nat (vsize B)).
  set (body' := fun s : Z * (list A * option (list A)) =>
     in0 <- vload_aligned B m (fst s) ;; in1 <- vload_aligned B m (fst s + w) ;;
     in2 <- vload_aligned B m (fst s + 2 * w) ;; in3 <- vload_aligned B m (fst s + 3 * w) ;;
     Ok (fst s + 4 * w,
         (map2 (d_vmax d) (fst (snd s)) (map2 (d_vmax d) (map2 (d_vmax d) (map (d_vabs d) in0) (map (d_vabs d) in1))
            (map2 (d_vmax d) (map (d_vabs d) in2) (map (d_vabs d) in3))), Some (map (d_vabs d) in3)))).
  erewrite (reassoc_loop _ body').
  2: { intros q s u. unfold body'. cbn [fst snd].
       destruct (vload_aligned B m q); cbn [bind]; [|reflexivity]. destruct (vload_aligned B m (q + w)); cbn [bind]; [|reflexivity].
       destruct (vload_aligned B m (q + 2 * w)); cbn [bind]; [|reflexivity]. destruct (vload_aligned B m (q + 3 * w)); cbn [bind]; reflexivity. }
  assert (HB : forall p s, aligned B p -> (exists s', body' (p, s) = Ok (p + 4 * w, s') /\ forall i, 0 <= i < 4 * w -> m (p + i) <> None) \/
              (exists e, body' (p, s) = Fault e /\ memfault e)).
  { intros q s Hq. unfold body'. cbn [fst].
    destruct (four_loads m q (fun in0 in1 in2 in3 => (q + 4 * w,
         (map2 (d_vmax d) (fst (snd (q, s))) (map2 (d_vmax d) (map2 (d_vmax d) (map (d_vabs d) in0) (map (d_vabs d) in1))
            (map2 (d_vmax d) (map (d_vabs d) in2) (map (d_vabs d) in3))), Some (map (d_vabs d) in3)))) Hq) as [(v0 & v1 & v2 & v3 & E & V)|(e & E & He)].
    - left. eexists. split; [exact E|exact V].
    - right. exists e. split; [exact E|exact He]. }
  pose proof (quad_loop m body' HB (Z.to_nat two32) p (init, None) Ha) as L.
  remember (Z.to_nat two32) as T eqn:HT.
  destruct (iter_res T body' (p, (init, None))) as [s|e]; cbn [bind]; [|apply memfault_spec; exact L].
  exfalso. apply (L i); [|exact Hm]. rewrite HT, to_nat_two32. fold w. rewrite lanes_vsize in Hi. fold w in Hi. lia.
Qed.

Lemma peak_rms_simd_short junk (m : mem A) p pk sq N i : 0 <= N < 4 * lanes B -> aligned B p ->
  0 <= i < 2 ^ 32 * (4 * lanes B) -> m (p + i) = None ->
  memory_fault (peak_rms_vec_simd d c B junk m p pk sq N).
Proof.
  intros HN Ha Hi Hm. unfold peak_rms_vec_simd, load_first, load. destruct (m pk) as [old|] eqn:Hpk; cbn [bind]; [|eexists; left; reflexivity].
  destruct (m sq) as [olds|] eqn:Hsq; cbn [bind]; [|eexists; left; reflexivity].
  fold (@load A). rewrite short_quads by exact HN. rewrite do_while_zero.
  set (init := match B with SSE64 => [old; _] | AVX32 => _ | AVX64 => _ | _ => _ end).
  set (inits := match B with SSE64 => [olds; _] | AVX32 => _ | AVX64 => _ | _ => _ end).
  set (w := Z.of_nat (vsize B)).
  set (q2 := fun x => d_mul d x x).
  set (body' := fun s : Z * (list A * list A) =>
     in0 <- vload_aligned B m (fst s) ;; in1 <- vload_aligned B m (fst s + w) ;;
     in2 <- vload_aligned B m (fst s + 2 * w) ;; in3 <- vload_aligned B m (fst s + 3 * w) ;;
     Ok (fst s + 4 * w,
         (map2 (d_vmax d) (fst (snd s)) (map2 (d_vmax d) (map2 (d_vmax d) (map (d_vabs d) in0) (map (d_vabs d) in1))
            (map2 (d_vmax d) (map (d_vabs d) in2) (map (d_vabs d) in3))),
          map2 (d_add d) (snd (snd s)) (map2 (d_add d) (map2 (d_add d) (map2 (d_add d) (map q2 in0) (map q2 in1)) (map q2 in2)) (map q2 in3))))).
  erewrite (reassoc_loop _ body').
  2: { intros q s u. unfold body'. cbn [fst snd].
       destruct (vload_aligned B m q); cbn [bind]; [|reflexivity]. destruct (vload_aligned B m (q + w)); cbn [bind]; [|reflexivity].
       destruct (vload_aligned B m (q + 2 * w)); cbn [bind]; [|reflexivity]. destruct (vload_aligned B m (q + 3 * w)); cbn [bind]; reflexivity. }
  assert (HB : forall p s, aligned B p -> (exists s', body' (p, s) = Ok (p + 4 * w, s') /\ forall i, 0 <= i < 4 * w -> m (p + i) <> None) \/
              (exists e, body' (p, s) = Fault e /\ memfault e)).
  { intros q s Hq. unfold body'. cbn [fst].
    destruct (four_loads m q (fun in0 in1 in2 in3 => (q + 4 * w,
         (map2 (d_vmax d) (fst (snd (q, s))) (map2 (d_vmax d) (map2 (d_vmax d) (map (d_vabs d) in0) (map (d_vabs d) in1))
            (map2 (d_vmax d) (map (d_vabs d) in2) (map (d_vabs d) in3))),
          map2 (d_add d) (snd (snd (q, s))) (map2 (d_add d) (map2 (d_add d) (map2 (d_add d) (map q2 in0) (map q2 in1)) (map q2 in2)) (map q2 in3))))) Hq) as [(v0 & v1 & v2 & v3 & E & V)|(e & E & He)].
    - left. eexists. split; [exact E|exact V].
    - right. exists e. split; [exact E|exact He]. }
  pose proof (quad_loop m body' HB (Z.to_nat two32) p (init, inits) Ha) as L.
  remember (Z.to_nat two32) as T eqn:HT.
  destruct (iter_res T body' (p, (init, inits))) as [s|e]; cbn [bind]; [|apply memfault_spec; exact L].
  exfalso. apply (L i); [|exact Hm]. rewrite HT, to_nat_two32. fold w. rewrite lanes_vsize in Hi. fold w in Hi. lia.
Qed.
End Same.

(** * Sums of squares of integers *)
Section IntSquares.
Context {t : fmt} (n : nans t).

Lemma fmul_int (a b : F t) j k : isfin a = true -> isfin b = true -> val a = IZR j -> val b = IZR k ->
  Z.abs (j * k) <= 2 ^ prec t -> isfin (fmul n a b) = true /\ val (fmul n a b) = IZR (j * k).
Proof.
  intros F1 F2 V1 V2 Hk.
  pose proof (Bmult_correct (prec t) (emax t) (Hprec t) (Hmax t) (nan_mul n) BinarySingleNaN.mode_NE a b) as H.
  fold (val a) (val b) in H. rewrite V1, V2, <- mult_IZR in H.
  rewrite (round_generic radix2 _ _ _ (int_format n _ Hk)) in H.
  assert (Hlt : Rlt_bool (Rabs (IZR (j * k))) (bpow radix2 (emax t)) = true).
  { apply Rlt_bool_true. rewrite <- abs_IZR. apply Rle_lt_trans with (IZR (2 ^ prec t)); [apply IZR_le; exact Hk|].
    change 2 with (radix_val radix2) at 1. rewrite IZR_Zpower by (destruct t; discriminate). apply bpow_lt. apply prec_lt_emax. }
  rewrite Hlt in H. destruct H as (H1 & H2 & _). split; [|exact H1].
  fold (isfin a) (isfin b) in H2. rewrite F1, F2 in H2. exact H2.
Qed.

Lemma f_ofZ_int k : Z.abs k <= 2 ^ prec t -> isfin (f_ofZ t k) = true /\ val (f_ofZ t k) = IZR k.
Proof.
  intros Hk. pose proof (binary_normalize_correct (prec t) (emax t) (Hprec t) (Hmax t) BinarySingleNaN.mode_NE k 0 false) as H.
  cbv zeta in H. replace (F2R {| Fnum := k; Fexp := 0 |}) with (IZR k) in H by (unfold F2R; cbn [Fnum Fexp bpow]; rewrite Rmult_1_r; reflexivity).
  rewrite (round_generic radix2 _ _ _ (int_format n _ Hk)) in H.
  assert (Hlt : Rlt_bool (Rabs (IZR k)) (bpow radix2 (emax t)) = true).
  { apply Rlt_bool_true. rewrite <- abs_IZR. apply Rle_lt_trans with (IZR (2 ^ prec t)); [apply IZR_le; exact Hk|].
    change 2 with (radix_val radix2) at 1. rewrite IZR_Zpower by (destruct t; discriminate). apply bpow_lt. apply prec_lt_emax. }
  rewrite Hlt in H. destruct H as (H1 & H2 & _). split; assumption.
Qed.
Lemma integers_ofZ ks : forallb (fun k => Z.abs k <=? 2 ^ prec t) ks = true -> integers (map (f_ofZ t) ks) ks.
Proof.
  induction ks as [|k ks IH]; intros H; cbn in *; constructor.
  - apply f_ofZ_int. apply Bool.andb_true_iff in H. lia.
  - apply IH. apply Bool.andb_true_iff in H. apply H.
Qed.

Lemma squares_int (l : list (F t)) ks : integers l ks -> zsum (map (fun k => k * k) ks) <= 2 ^ prec t ->
  integers (map (fun x => fmul n x x) l) (map (fun k => k * k) ks).
Proof.
  induction 1 as [|x k l ks [H1 H2] H IH]; intros Hs; cbn; constructor.
  - apply fmul_int; auto. cbn [map zsum fold_right] in Hs.
    assert (0 <= zsum (map (fun k => k * k) ks)). { clear. induction ks; [cbn; lia|]. cbn [map zsum fold_right]. fold (zsum (map (fun k => k * k) ks)). nia. }
    fold (zsum (map (fun k => k * k) ks)) in Hs. nia.
  - apply IH. cbn [map zsum fold_right] in Hs. fold (zsum (map (fun k => k * k) ks)) in Hs. nia.
Qed.

Lemma zsum_abs_squares ks : zsum_abs (map (fun k => k * k) ks) = zsum (map (fun k => k * k) ks).
Proof. induction ks as [|k ks IH]; [reflexivity|]. cbn [map zsum zsum_abs fold_right]. fold (zsum (map (fun k => k * k) ks)) (zsum_abs (map (fun k => k * k) ks)). rewrite IH. nia. Qed.

Lemma rms_int m p pk sq N (l : list (F t)) ks old olds s0 : filled m p N l -> integers l ks ->
  m pk = Some old -> m sq = Some olds -> isfin olds = true -> val olds = IZR s0 -> 0 <= s0 ->
  s0 + zsum (map (fun k => k * k) ks) <= 2 ^ prec t ->
  exists m' r, peak_rms_vec (fred_scalar n) m p pk sq N = Ok m' /\ m' sq = Some r /\ isfin r = true /\
     val r = IZR (s0 + zsum (map (fun k => k * k) ks)).
Proof.
  intros H Hl Hpk Hsq Fo Vo Ho Hb. rewrite (peak_rms_vec_run _ m p pk sq N l old olds H Hpk Hsq).
  do 2 eexists. split; [reflexivity|]. split; [unfold upd; rewrite Z.eqb_refl; reflexivity|]. cbn [d_add d_mul fred_scalar].
  assert (Hl2 : integers (map (fun x => fmul n x x) l) (map (fun k => k * k) ks)) by (apply squares_int; auto; lia).
  destruct (fold_padd (map (fun k => k * k) ks) (s0, Z.abs_N s0)) as [E1 E2]. cbn [fst snd] in E1, E2.
  destruct (fold_sim padd budget budget_fst repi (fadd n) (fadd_int n) _ _ olds (s0, Z.abs_N s0) (integers_repi _ _ Hl2)) as (K1 & K2 & _).
  - split; [exact Fo|]. split; [exact Vo|]. cbn. lia.
  - unfold budget. rewrite E2, zsum_abs_squares. lia.
  - split; [exact K1|]. rewrite K2, E1. reflexivity.
Qed.
End IntSquares.

Section IntSquaresSimd.
Context (c : cfg) (B : backend) (n : nans (fmt_of B)).
Local Notation t := (fmt_of B).
Local Notation wd := (vsize B).

Lemma rms_simd_int junk m p pk sq N (l : list (F t)) ks old olds s0 : aligned B p -> whole_quads B N -> filled m p N l -> integers l ks ->
  m pk = Some old -> m sq = Some olds -> pk <> sq -> isfin olds = true -> val olds = IZR s0 -> 0 <= s0 ->
  s0 + zsum (map (fun k => k * k) ks) <= 2 ^ prec t ->
  upper_lanes_zero B (f_ofZ t 0) junk ->
  exists m' r, peak_rms_vec_simd (fred c B n) c B junk m p pk sq N = Ok m' /\ m' sq = Some r /\ isfin r = true /\
     val r = IZR (s0 + zsum (map (fun k => k * k) ks)).
Proof.
  intros Ha Hw H Hl Hpk Hsq Hne Fo Vo Ho Hb Hj. pose proof (vsize_pos B) as HB.
  destruct (filled_blocks_exist (4 * wd) m p N l ltac:(lia) H (whole_quads_div B N Hw)) as (bs & Hbs & <-).
  destruct (peak_rms_vec_simd_run (fred c B n) c B junk m p pk sq N bs old olds Ha Hbs Hpk Hsq) as (i1 & i2 & E1 & E2 & ->).
  pose proof (load_first_exact (fred c B n) B junk m sq olds Hsq Hj) as E2'. rewrite E2 in E2'. injection E2' as E2'. subst i2.
  destruct (hmax_total B (d_smax (fred c B n)) (d_vmax (fred c B n)) (fold_left (fun s b => map2 (d_vmax (fred c B n)) s (block_max (fred c B n) B b)) bs i1)) as [r Er].
  { apply acc_len; [|exact (load_first_len B _ _ _ _ _ _ Hpk E1)]. destruct Hbs as (_ & Hb' & _). revert Hb'. apply Forall_impl'. apply block_max_len. }
  rewrite Er. cbn [bind]. cbn [d_add d_zero fred].
  set (V := fadd n). set (sqr := fun x => fmul n x x). set (bs' := map (map sqr) bs).
  assert (E : forall s, fold_left (fun s b => map2 V s (block_sum (fred c B n) B b)) bs s =
    fold_left (fun s l => map2 V s (map2 V (map2 V (map2 V (quarter B 0 l) (quarter B 1 l)) (quarter B 2 l)) (quarter B 3 l))) bs' s).
  { unfold bs'. clear. induction bs as [|b bs IH]; intros s; cbn; [reflexivity|]. rewrite IH. do 2 f_equal.
    unfold block_sum, quarter_sqr. cbn [d_mul d_add fred]. fold sqr. rewrite !map_quarter. reflexivity. }
  rewrite E.
  assert (Hl2 : integers (concat bs') (map (fun k => k * k) ks)).
  { unfold bs'. rewrite <- concat_map. apply squares_int; auto. lia. }
  destruct (fold_padd (map (fun k => k * k) ks) (s0, Z.abs_N s0)) as [G1 G2]. cbn [fst snd] in G1, G2.
  assert (T0 : tot padd ((s0, Z.abs_N s0) :: repeat (0, 0%N) (wd - 1)) (0, 0%N) = (s0, Z.abs_N s0)).
  { cbn [tot]. generalize (wd - 1)%nat. intros k. induction k as [|k IH]; [reflexivity|]. cbn [repeat fold_left].
    assert (E0 : padd (s0, Z.abs_N s0) (0, 0%N) = (s0, Z.abs_N s0)) by (unfold padd; cbn [fst snd]; f_equal; lia). rewrite E0. exact IH. }
  assert (OKB : budget (t := t) (fold_left padd (map (fun k => (k, Z.abs_N k)) (map (fun k => k * k) ks)) (s0, Z.abs_N s0))).
  { unfold budget. rewrite G2, zsum_abs_squares. lia. }
  destruct (tree_acc padd padd_assoc padd_comm (budget (t := t)) budget_fst repi V (fadd_int n) B
     (fun l => map2 V (map2 V (map2 V (quarter B 0 l) (quarter B 1 l)) (quarter B 2 l)) (quarter B 3 l)) (tree_sum padd B)
     (tree_sum_len padd B) (tree_sum_tot padd padd_assoc padd_comm B)
     (tree_sum_R padd padd_assoc padd_comm (budget (t := t)) budget_fst repi V (fadd_int n) B)
     bs' _ (olds :: repeat (f_ofZ t 0) (wd - 1)) ((s0, Z.abs_N s0) :: repeat (0, 0%N) (wd - 1)) (0, 0%N)
     ltac:(unfold bs'; apply block_map; apply Hbs) (integers_repi _ _ Hl2)) as (vs & K1 & K2 & K3).
  - constructor; [split; [exact Fo|]; split; [exact Vo|cbn; lia]|].
    generalize (wd - 1)%nat. intros k. induction k; cbn; constructor; auto. apply (repi_zero n).
  - cbn. rewrite repeat_length. lia.
  - rewrite T0. exact OKB.
  - rewrite T0 in K3.
    destruct (horizontal_sum_sim padd padd_assoc padd_comm (budget (t := t)) budget_fst repi V (fadd_int n) (0, 0%N) c B
       (f_ofZ t 0) (0, 0%N) _ vs (repi_zero n) ltac:(intros [a b]; reflexivity) K1 ltac:(rewrite (Forall2_len _ _ _ K1); exact K2)) as (q & Eq & J1 & J2 & _).
    + rewrite K3. exact OKB.
    + unfold V in Eq. cbn [d_zero fred]. fold V in Eq. fold V. rewrite Eq. cbn [bind]. do 2 eexists. split; [reflexivity|].
      split; [unfold upd; rewrite Z.eqb_refl; reflexivity|]. split; [exact J1|]. rewrite J2, K3, G1. reflexivity.
Qed.
End IntSquaresSimd.

(** * Lane access *)
Section LaneAccess.
Context {A : Type} (c : cfg) (B : backend).

Lemma get_nth (v : list A) i : length v = vsize B -> (i < vsize B)%nat -> exists x, nth_error v i = Some x /\ get c B v i = Ok x.
Proof.
  intros Hv Hi. destruct c as [a b [] e]; destruct B; cbn [vsize] in *;
  repeat (destruct v as [|? v]; cbn in Hv; try discriminate);
  repeat (destruct i as [|i]; [eexists; split; reflexivity|]); lia.
Qed.
Lemma set_lane_nth (v : list A) i x : (i < length v)%nat ->
  exists v', set_lane v i x = Ok v' /\ length v' = length v /\
    forall j, (j < length v)%nat -> nth_error v' j = if Nat.eqb j i then Some x else nth_error v j.
Proof.
  intros Hi. unfold set_lane. apply Nat.ltb_lt in Hi as E. rewrite E. eexists. split; [reflexivity|].
  assert (L : length (firstn i v ++ x :: skipn (S i) v) = length v).
  { rewrite app_length, firstn_length. cbn [length]. rewrite skipn_length. lia. }
  split; [exact L|]. intros j Hj. destruct (Nat.eqb_spec j i) as [->|Hne].
  - rewrite nth_error_app2 by (rewrite firstn_length; lia). rewrite firstn_length, Nat.min_l by lia. rewrite Nat.sub_diag. reflexivity.
  - destruct (Nat.lt_ge_cases j i) as [H|H].
    + rewrite nth_error_app1 by (rewrite firstn_length; lia). rewrite <- (firstn_skipn i v) at 2.
      rewrite nth_error_app1 by (rewrite firstn_length; lia). reflexivity.
    + rewrite nth_error_app2 by (rewrite firstn_length; lia). rewrite firstn_length, Nat.min_l by lia.
      rewrite <- (firstn_skipn (S i) v) at 2. rewrite nth_error_app2 by (rewrite firstn_length; lia). rewrite firstn_length, Nat.min_l by lia.
      replace (j - i)%nat with (S (j - S i)) by lia. reflexivity.
Qed.
Lemma set_nth (zero : A) v i x : length v = vsize B -> (i < vsize B)%nat ->
  exists v', set c B zero v i x = Ok v' /\ length v' = vsize B /\
    forall j, (j < vsize B)%nat -> nth_error v' j = if Nat.eqb j i then Some x else nth_error v j.
Proof.
  intros Hv Hi. destruct (set_lane_nth v i x ltac:(lia)) as (v0 & E0 & L0 & N0). rewrite Hv in L0, N0.
  destruct B; unfold set; try (exists v0; split; [exact E0|split; assumption]).
  - destruct (has_sse41 c); [|exists v0; split; [exact E0|split; assumption]]. cbn [vsize] in *.
    destruct v as [|v0' [|v1 [|v2 [|v3 [|]]]]]; cbn in Hv; try discriminate.
    destruct i as [|[|[|[|i]]]]; [| | | |lia]; (eexists; split; [reflexivity|]; split; [reflexivity|]);
      (intros [|[|[|[|j]]]] Hj; [reflexivity..|lia]).
  - cbn [vsize] in *. destruct i as [|[|[|[|i]]]]; [| | | |lia]; (exists v0; split; [exact E0|split; assumption]).
Qed.
Lemma get_set (zero : A) v i x : length v = vsize B -> (i < vsize B)%nat ->
  exists v', set c B zero v i x = Ok v' /\ get c B v' i = Ok x /\
   forall j, (j < vsize B)%nat -> j <> i -> get c B v' j = get c B v j.
Proof.
  intros Hv Hi. destruct (set_nth zero v i x Hv Hi) as (v' & E & L & N). exists v'. split; [exact E|]. split.
  - destruct (get_nth v' i L Hi) as (y & H1 & H2). rewrite (N i Hi), Nat.eqb_refl in H1. congruence.
  - intros j Hj Hne. destruct (get_nth v' j L Hj) as (y & H1 & H2). destruct (get_nth v j Hv Hj) as (z & H3 & H4).
    rewrite (N j Hj) in H1. destruct (Nat.eqb_spec j i); [contradiction|]. congruence.
Qed.
Lemma get_set_vec (x : A) i : (i < vsize B)%nat -> get c B (set_vec B x) i = Ok x.
Proof.
  intros Hi. destruct (get_nth (set_vec B x) i (repeat_length _ _) Hi) as (y & H1 & H2).
  unfold set_vec in H1. rewrite nth_error_repeat in H1 by exact Hi. congruence.
Qed.
End LaneAccess.
