(** The reductions on float and double samples. *)

From Coq Require Import ZArith Reals Bool List Lia Lra.
From Flocq Require Import Core IEEE754.Binary IEEE754.Bits.
From Verif Require Import Base Mem Loop Backend Lanes Float LaneOps Reduce FloatOps Spec SpecReduce LoopFacts MemFacts
  FloatFacts LaneFacts ReduceFacts ReduceRun ReduceSim.
Import ListNotations.
Local Open Scope Z_scope.

Lemma lanes_vsize B : lanes B = Z.of_nat (vsize B). Proof. destruct B; reflexivity. Qed.
Lemma whole_vectors_div B n : whole_vectors B n -> (Z.of_nat (vsize B) | n).
Proof. unfold whole_vectors. rewrite lanes_vsize. auto. Qed.
Lemma whole_quads_div B n : whole_quads B n -> (Z.of_nat (4 * vsize B) | n).
Proof. unfold whole_quads. rewrite lanes_vsize. replace (Z.of_nat (4 * vsize B)) with (4 * Z.of_nat (vsize B)) by lia. auto. Qed.

Lemma fold_max_spec zs : forall a, (forall x, In x (a :: zs) -> x <= fold_left Z.max zs a) /\ In (fold_left Z.max zs a) (a :: zs).
Proof.
  induction zs as [|z zs IH]; intros a; cbn.
  - split; [|auto]. intros x [->|[]]. lia.
  - destruct (IH (Z.max a z)) as [H1 H2]. split.
    + intros x [->|[->|Hx]].
      * specialize (H1 (Z.max x z)). cbn in H1. pose proof (H1 (or_introl eq_refl)). lia.
      * specialize (H1 (Z.max a x)). cbn in H1. pose proof (H1 (or_introl eq_refl)). lia.
      * apply H1. right. exact Hx.
    + destruct H2 as [H2|H2]; [|auto]. rewrite <- H2. destruct (Z.max_spec a z) as [[_ ->]|[_ ->]]; auto.
Qed.
Lemma fold_min_spec zs : forall a, (forall x, In x (a :: zs) -> fold_left Z.min zs a <= x) /\ In (fold_left Z.min zs a) (a :: zs).
Proof.
  induction zs as [|z zs IH]; intros a; cbn.
  - split; [|auto]. intros x [->|[]]. lia.
  - destruct (IH (Z.min a z)) as [H1 H2]. split.
    + intros x [->|[->|Hx]].
      * specialize (H1 (Z.min x z)). cbn in H1. pose proof (H1 (or_introl eq_refl)). lia.
      * specialize (H1 (Z.min a x)). cbn in H1. pose proof (H1 (or_introl eq_refl)). lia.
      * apply H1. right. exact Hx.
    + destruct H2 as [H2|H2]; [|auto]. rewrite <- H2. destruct (Z.min_spec a z) as [[_ ->]|[_ ->]]; auto.
Qed.

Section Float.
Context {t : fmt}.

Lemma rep_list (l : list (F t)) : no_nan l -> Forall2 rep l (map ord l).
Proof. induction 1; cbn; constructor; auto. split; auto. Qed.

Lemma rep_is_max (r a : F t) l : isnan a = false -> no_nan l ->
  rep r (fold_left Z.max (map ord l) (ord a)) -> is_max r (a :: l).
Proof.
  intros Ha Hl [Hr Er]. destruct (fold_max_spec (map ord l) (ord a)) as [H1 H2].
  assert (HN : forall x, In x (a :: l) -> isnan x = false).
  { intros x [<-|Hx]; [exact Ha|]. unfold no_nan in Hl. rewrite Forall_forall in Hl. auto. }
  split.
  - intros x Hx. rewrite fle_ord by auto. apply Z.leb_le. rewrite Er. apply H1.
    change (ord a :: map ord l) with (map ord (a :: l)). apply in_map. exact Hx.
  - rewrite <- Er in H2. change (ord a :: map ord l) with (map ord (a :: l)) in H2. apply in_map_iff in H2.
    destruct H2 as (x & E & Hx). exists x. split; [exact Hx|]. rewrite feq_ord by auto. apply Z.eqb_eq. exact E.
Qed.
Lemma rep_is_min (r a : F t) l : isnan a = false -> no_nan l ->
  rep r (fold_left Z.min (map ord l) (ord a)) -> is_min r (a :: l).
Proof.
  intros Ha Hl [Hr Er]. destruct (fold_min_spec (map ord l) (ord a)) as [H1 H2].
  assert (HN : forall x, In x (a :: l) -> isnan x = false).
  { intros x [<-|Hx]; [exact Ha|]. unfold no_nan in Hl. rewrite Forall_forall in Hl. auto. }
  split.
  - intros x Hx. rewrite fle_ord by auto. apply Z.leb_le. rewrite Er. apply H1.
    change (ord a :: map ord l) with (map ord (a :: l)). apply in_map. exact Hx.
  - rewrite <- Er in H2. change (ord a :: map ord l) with (map ord (a :: l)) in H2. apply in_map_iff in H2.
    destruct H2 as (x & E & Hx). exists x. split; [exact Hx|]. rewrite feq_ord by auto. apply Z.eqb_eq. exact E.
Qed.

Lemma no_nan_fabs (l : list (F t)) : no_nan l -> no_nan (map fabs l).
Proof. induction 1; cbn; constructor; auto. rewrite isnan_fabs. assumption. Qed.

(** Proof auxiliary: the trivial predicate. *)
Definition tt1 (_ : Z) : Prop := True.
Lemma tt_l x y : tt1 (Z.max x y) -> tt1 x. Proof. exact (fun _ => I). Qed.

Lemma fold_smax_rep (l : list (F t)) a : isnan a = false -> no_nan l ->
  rep (fold_left smax l a) (fold_left Z.max (map ord l) (ord a)).
Proof.
  intros Ha Hl. apply (fold_sim Z.max tt1 (fun _ _ _ => I) rep smax); [|apply rep_list; exact Hl|split; auto|exact I].
  intros ? ? ? ? H1 H2 _. apply smax_rep; assumption.
Qed.
Lemma fold_smin_rep (l : list (F t)) a : isnan a = false -> no_nan l ->
  rep (fold_left smin l a) (fold_left Z.min (map ord l) (ord a)).
Proof.
  intros Ha Hl. apply (fold_sim Z.min tt1 (fun _ _ _ => I) rep smin); [|apply rep_list; exact Hl|split; auto|exact I].
  intros ? ? ? ? H1 H2 _. apply smin_rep; assumption.
Qed.

Lemma isnan_fmin : isnan (f_min t) = false. Proof. destruct t; reflexivity. Qed.
Lemma isnan_fmax : isnan (f_max t) = false. Proof. destruct t; reflexivity. Qed.

(** * Scalar functions *)
Context (n : nans t).

Lemma sets_cell_upd {A} (m : mem A) a x : sets_cell m (upd m a x) a x.
Proof.
  split.
  - unfold upd. rewrite Z.eqb_refl. reflexivity.
  - intros b Hb. unfold upd. destruct (Z.eqb_spec b a); [contradiction|reflexivity].
Qed.

Lemma filled_last (m : mem (F t)) p N l x0 : filled m p N l -> m (p + N - 1) = Some (last l x0).
Proof.
  intros (H1 & H2 & H3). assert (Hl : l <> []) by (intros ->; cbn in H2; lia).
  destruct (exists_last Hl) as (l' & x & ->). rewrite last_last. rewrite app_length in H2. cbn in H2.
  replace (p + N - 1) with (p + Z.of_nat (length l')) by lia. apply H1.
  rewrite nth_error_app2 by lia. rewrite Nat.sub_diag. reflexivity.
Qed.

Lemma peak_vec_float (m : mem (F t)) p pk N l old : filled m p N l -> m pk = Some old -> isnan old = false -> no_nan l ->
  peak_updated m (peak_vec (fred_scalar n) m p pk N) p pk N old l.
Proof.
  intros H Hpk Ho Hl. rewrite (peak_vec_run _ m p pk N l old (f_ofZ t 0) H Hpk).
  do 3 eexists. split; [reflexivity|]. split; [exact (filled_last m p N l _ H)|]. split; [apply sets_cell_upd|].
  apply rep_is_max; [exact Ho|apply no_nan_fabs; exact Hl|]. cbn [d_smax d_fabs fred_scalar].
  apply fold_smax_rep; [exact Ho|apply no_nan_fabs; exact Hl].
Qed.

Lemma smax_nan_r (a b : F t) : isnan b = true -> smax a b = a.
Proof. intros H. unfold smax, flt. rewrite compare_nan by auto. reflexivity. Qed.
Lemma smax_nan_l (a b : F t) : isnan a = true -> smax a b = a.
Proof. intros H. unfold smax, flt. rewrite compare_nan by auto. reflexivity. Qed.

Lemma peak_skips_nan (l : list (F t)) : forall a, fold_left smax (map fabs l) a =
  fold_left smax (map fabs (filter (fun x => negb (isnan x)) l)) a.
Proof.
  induction l as [|x l IH]; intros a; cbn; [reflexivity|].
  destruct (isnan x) eqn:E; cbn; [|apply IH].
  rewrite smax_nan_r by (rewrite isnan_fabs; exact E). apply IH.
Qed.
Lemma no_nan_filter (l : list (F t)) : no_nan (filter (fun x => negb (isnan x)) l).
Proof. apply Forall_forall. intros x Hx. apply filter_In in Hx. destruct Hx as [_ Hx]. destruct (isnan x); [discriminate|reflexivity]. Qed.

Lemma peak_vec_nan (m : mem (F t)) p pk N l old : filled m p N l -> m pk = Some old -> isnan old = false ->
  peak_updated m (peak_vec (fred_scalar n) m p pk N) p pk N old (filter (fun x => negb (isnan x)) l).
Proof.
  intros H Hpk Ho. rewrite (peak_vec_run _ m p pk N l old (f_ofZ t 0) H Hpk).
  do 3 eexists. split; [reflexivity|]. split; [exact (filled_last m p N l _ H)|]. split; [apply sets_cell_upd|].
  cbn [d_smax d_fabs fred_scalar]. rewrite peak_skips_nan.
  apply rep_is_max; [exact Ho|apply no_nan_fabs, no_nan_filter|].
  apply fold_smax_rep; [exact Ho|apply no_nan_fabs, no_nan_filter].
Qed.

Lemma peak_vec_nan_sticks (m : mem (F t)) p pk N l old : filled m p N l -> m pk = Some old -> isnan old = true ->
  exists m' z, peak_vec (fred_scalar n) m p pk N = Ok (m', z) /\ sets_cell m m' pk old.
Proof.
  intros H Hpk Ho. rewrite (peak_vec_run _ m p pk N l old (f_ofZ t 0) H Hpk).
  do 2 eexists. split; [reflexivity|]. cbn [d_smax d_fabs fred_scalar].
  replace (fold_left smax (map fabs l) old) with old; [apply sets_cell_upd|].
  symmetry. clear - Ho. induction l as [|x l IH]; cbn; [reflexivity|]. rewrite smax_nan_l by exact Ho. exact IH.
Qed.

Lemma hmax_float m p N (l : list (F t)) : filled m p N l -> no_nan l ->
  exists r, horizontal_max_vec (fred_scalar n) m p N = Ok r /\ is_max r (f_min t :: l).
Proof.
  intros H Hl. rewrite (horizontal_max_vec_run _ m p N l H). eexists. split; [reflexivity|].
  apply rep_is_max; [apply isnan_fmin|exact Hl|]. apply fold_smax_rep; [apply isnan_fmin|exact Hl].
Qed.
Lemma hmin_float m p N (l : list (F t)) : filled m p N l -> no_nan l ->
  exists r, horizontal_min_vec (fred_scalar n) m p N = Ok r /\ is_min r (f_min t :: l).
Proof.
  intros H Hl. rewrite (horizontal_min_vec_run _ m p N l H). eexists. split; [reflexivity|].
  apply rep_is_min; [apply isnan_fmin|exact Hl|]. apply fold_smin_rep; [apply isnan_fmin|exact Hl].
Qed.
Lemma hminmax_float m p N (l : list (F t)) : filled m p N l -> no_nan l ->
  exists rmin rmax, horizontal_minmax_vec (fred_scalar n) m p N = Ok (rmin, rmax) /\
    is_min rmin (f_max t :: l) /\ is_max rmax (f_min t :: l).
Proof.
  intros H Hl. rewrite (horizontal_minmax_vec_run _ m p N l H). do 2 eexists. split; [reflexivity|]. split.
  - apply rep_is_min; [apply isnan_fmax|exact Hl|]. apply fold_smin_rep; [apply isnan_fmax|exact Hl].
  - apply rep_is_max; [apply isnan_fmin|exact Hl|]. apply fold_smax_rep; [apply isnan_fmin|exact Hl].
Qed.

(** * Exact integer sums *)
Definition budget (z : Z * N) : Prop := Z.of_N (snd z) <= 2 ^ prec t.
(** Proof auxiliary: sums of values paired with bounds. *)
Definition padd (x y : Z * N) : Z * N := (fst x + fst y, (snd x + snd y)%N).
(** Proof auxiliary: the float is the integer sum, and the bound keeps it exact.
    *)
Definition repi (x : F t) (z : Z * N) : Prop := isfin x = true /\ val x = IZR (fst z) /\ Z.abs (fst z) <= Z.of_N (snd z).

Lemma padd_assoc x y z : padd x (padd y z) = padd (padd x y) z.
Proof. unfold padd. cbn. f_equal; lia. Qed.
Lemma padd_comm x y : padd x y = padd y x. Proof. unfold padd. f_equal; lia. Qed.

Lemma int_format k : Z.abs k <= 2 ^ prec t -> generic_format radix2 (SpecFloat.fexp (prec t) (emax t)) (IZR k).
Proof.
  intros Hk. apply generic_format_FLT.
  assert (He : SpecFloat.emin (prec t) (emax t) <= 0) by (destruct t; vm_compute; discriminate).
  destruct (Z.eq_dec (Z.abs k) (2 ^ prec t)) as [E|E].
  - assert (HS : exists s, k = s * 2 ^ prec t /\ Z.abs s = 1).
    { destruct (Z.abs_spec k) as [[_ K]|[_ K]]; [exists 1|exists (-1)]; lia. }
    destruct HS as (s & -> & Hs).
    exists (Float radix2 s (prec t)).
    + unfold F2R. cbn [Fnum Fexp]. rewrite mult_IZR. f_equal. rewrite <- IZR_Zpower by (destruct t; discriminate). reflexivity.
    + cbn [Fnum]. rewrite Hs. destruct t; reflexivity.
    + cbn [Fexp]. destruct t; vm_compute; discriminate.
  - exists (Float radix2 k 0).
    + unfold F2R. cbn. lra.
    + cbn [Fnum]. change (radix_val radix2) with 2. lia.
    + exact He.
Qed.

Lemma fadd_int a b x y : repi a x -> repi b y -> budget (padd x y) -> repi (fadd n a b) (padd x y).
Proof.
  unfold repi, budget, padd. cbn [fst snd]. intros (F1 & V1 & A1) (F2 & V2 & A2) Hb.
  pose proof (Bplus_correct (prec t) (emax t) (Hprec t) (Hmax t) (nan_add n) BinarySingleNaN.mode_NE a b F1 F2) as H.
  fold (val a) (val b) in H. rewrite V1, V2, <- plus_IZR in H.
  assert (Hk : Z.abs (fst x + fst y) <= 2 ^ prec t) by lia.
  rewrite (round_generic radix2 _ _ _ (int_format _ Hk)) in H.
  assert (Hlt : Rlt_bool (Rabs (IZR (fst x + fst y))) (bpow radix2 (emax t)) = true).
  { apply Rlt_bool_true. rewrite <- abs_IZR. apply Rle_lt_trans with (IZR (2 ^ prec t)); [apply IZR_le; exact Hk|].
    change 2 with (radix_val radix2) at 1. rewrite IZR_Zpower by (destruct t; discriminate). apply bpow_lt. apply prec_lt_emax. }
  rewrite Hlt in H. destruct H as (H1 & H2 & _). split; [exact H2|]. split; [exact H1|]. lia.
Qed.

Lemma repi_zero : repi (f_ofZ t 0) (0, 0%N).
Proof. split; [destruct t; reflexivity|]. split; [destruct t; reflexivity|cbn; lia]. Qed.

Lemma fold_padd ks : forall z, fst (fold_left padd (map (fun k => (k, Z.abs_N k)) ks) z) = fst z + zsum ks /\
  Z.of_N (snd (fold_left padd (map (fun k => (k, Z.abs_N k)) ks) z)) = Z.of_N (snd z) + zsum_abs ks.
Proof.
  induction ks as [|k ks IH]; intros z; cbn [map fold_left zsum zsum_abs fold_right].
  - cbn. lia.
  - destruct (IH (padd z (k, Z.abs_N k))) as [H1 H2]. rewrite H1, H2. unfold padd, zsum, zsum_abs. cbn. lia.
Qed.
Lemma integers_repi (l : list (F t)) ks : integers l ks -> Forall2 repi l (map (fun k => (k, Z.abs_N k)) ks).
Proof. induction 1 as [|x k l ks [H1 H2] H IH]; cbn; constructor; auto. split; [exact H1|]. split; [exact H2|cbn; lia]. Qed.
Lemma budget_fst x y : budget (padd x y) -> budget x.
Proof. unfold budget, padd. cbn. lia. Qed.

Lemma hsum_int m p N (l : list (F t)) ks : filled m p N l -> integers l ks -> zsum_abs ks <= 2 ^ prec t ->
  exists r, horizontal_sum_vec (fred_scalar n) m p N = Ok r /\ isfin r = true /\ val r = IZR (zsum ks).
Proof.
  intros H Hl Hb. rewrite (horizontal_sum_vec_run _ m p N l H). eexists. split; [reflexivity|].
  destruct (fold_padd ks (0, 0%N)) as [E1 E2]. cbn [fst snd] in E1, E2.
  destruct (fold_sim padd budget budget_fst repi (fadd n) fadd_int l _ (f_ofZ t 0) (0, 0%N) (integers_repi l ks Hl) repi_zero) as (K1 & K2 & _).
  - unfold budget. rewrite E2. cbn. lia.
  - split; [exact K1|]. cbn [d_add d_zero fred_scalar]. rewrite K2, E1. reflexivity.
Qed.
End Float.

(** * Vector functions *)
Section Simd.
Context (c : cfg) (B : backend) (n : nans (fmt_of B)).
Local Notation t := (fmt_of B).
Local Notation wd := (vsize B).

Lemma Zmax_A x y z : Z.max x (Z.max y z) = Z.max (Z.max x y) z. Proof. lia. Qed.
Lemma Zmin_A x y z : Z.min x (Z.min y z) = Z.min (Z.min x y) z. Proof. lia. Qed.
Lemma tt_min x y : tt1 (Z.min x y) -> tt1 x. Proof. exact (fun _ => I). Qed.

Lemma vec_max (v : list (F t)) : length v = wd -> no_nan v ->
  exists r, horizontal_max B smax (vmax (isa_of B) n) v = Ok r /\ is_max r v.
Proof.
  intros Hl Hv.
  destruct (horizontal_sim Z.max Zmax_A Z.max_comm tt1 tt_l rep smax (vmax (isa_of B) n)
    ltac:(intros; apply smax_rep; assumption) ltac:(intros; apply vmax_rep; assumption) 0 B v _ (rep_list v Hv) Hl I) as (r & E & Hr).
  exists r. split; [exact E|]. destruct v as [|a v]; [pose proof (vsize_pos B); cbn in Hl; lia|].
  inversion Hv; subst. apply rep_is_max; assumption.
Qed.
Lemma vec_min (v : list (F t)) : length v = wd -> no_nan v ->
  exists r, horizontal_min B smin (vmin (isa_of B) n) v = Ok r /\ is_min r v.
Proof.
  intros Hl Hv.
  destruct (horizontal_sim Z.min Zmin_A Z.min_comm tt1 tt_min rep smin (vmin (isa_of B) n)
    ltac:(intros; apply smin_rep; assumption) ltac:(intros; apply vmin_rep; assumption) 0 B v _ (rep_list v Hv) Hl I) as (r & E & Hr).
  exists r. split; [exact E|]. destruct v as [|a v]; [pose proof (vsize_pos B); cbn in Hl; lia|].
  inversion Hv; subst. apply rep_is_min; assumption.
Qed.
Lemma vec_sum (v : list (F t)) ks : length v = wd -> integers v ks -> zsum_abs ks <= 2 ^ prec t ->
  exists r, horizontal_sum c B (f_ofZ t 0) (fadd n) v = Ok r /\ isfin r = true /\ val r = IZR (zsum ks).
Proof.
  intros Hl Hv Hb.
  assert (T : forall l, l <> [] -> tot padd l (0, 0%N) = fold_left padd l (0, 0%N)).
  { intros [|x l] Hne; [congruence|]. cbn. f_equal. destruct x. reflexivity. }
  assert (Hne : map (fun k => (k, Z.abs_N k)) ks <> []).
  { intros E. apply map_eq_nil in E. subst. inversion Hv; subst. pose proof (vsize_pos B). cbn in Hl. lia. }
  destruct (fold_padd ks (0, 0%N)) as [E1 E2]. cbn [fst snd] in E1, E2.
  destruct (horizontal_sum_sim padd padd_assoc padd_comm (budget (t := t)) budget_fst repi (fadd n) (fadd_int n) (0, 0%N) c B
      (f_ofZ t 0) (0, 0%N) v _ (repi_zero n) ltac:(intros [a b]; reflexivity) (integers_repi v ks Hv) Hl) as (r & E & K1 & K2 & _).
  - rewrite T by exact Hne. unfold budget. rewrite E2. cbn. lia.
  - exists r. split; [exact E|]. split; [exact K1|]. rewrite K2, T by exact Hne. rewrite E1. reflexivity.
Qed.

Lemma red_max_float bs a : Forall (fun b => length b = wd) bs -> no_nan (concat bs) -> isnan a = false ->
  exists r, horizontal_max B smax (vmax (isa_of B) n) (fold_left (map2 (vmax (isa_of B) n)) bs (set_vec B a)) = Ok r /\
  is_max r (a :: concat bs).
Proof.
  intros Hb Hn Ha.
  destruct (red_max Z.max Zmax_A Z.max_comm tt1 tt_l rep smax (vmax (isa_of B) n)
    ltac:(intros; apply smax_rep; assumption) ltac:(intros; apply vmax_rep; assumption) B bs _ a (ord a) Hb (rep_list _ Hn)
    (conj Ha eq_refl) (Z.max_id _) I) as (r & E & Hr).
  exists r. split; [exact E|]. apply rep_is_max; assumption.
Qed.
Lemma red_min_float bs a : Forall (fun b => length b = wd) bs -> no_nan (concat bs) -> isnan a = false ->
  exists r, horizontal_min B smin (vmin (isa_of B) n) (fold_left (map2 (vmin (isa_of B) n)) bs (set_vec B a)) = Ok r /\
  is_min r (a :: concat bs).
Proof.
  intros Hb Hn Ha.
  destruct (red_max Z.min Zmin_A Z.min_comm tt1 tt_min rep smin (vmin (isa_of B) n)
    ltac:(intros; apply smin_rep; assumption) ltac:(intros; apply vmin_rep; assumption) B bs _ a (ord a) Hb (rep_list _ Hn)
    (conj Ha eq_refl) (Z.min_id _) I) as (r & E & Hr).
  exists r. split; [exact E|]. apply rep_is_min; assumption.
Qed.

Lemma hmax_simd_float m p N (l : list (F t)) : aligned B p -> whole_vectors B N -> filled m p N l -> no_nan l ->
  exists r, horizontal_max_vec_simd (fred c B n) B m p N = Ok r /\ is_max r (f_min t :: l).
Proof.
  intros Ha Hw H Hl. destruct (filled_blocks_exist wd m p N l (vsize_pos B) H (whole_vectors_div B N Hw)) as (bs & Hbs & <-).
  rewrite (horizontal_max_vec_simd_run _ B m p N bs Ha Hbs). apply red_max_float; [apply Hbs|exact Hl|apply isnan_fmin].
Qed.
Lemma hmin_simd_float m p N (l : list (F t)) : aligned B p -> whole_vectors B N -> filled m p N l -> no_nan l ->
  exists r, horizontal_min_vec_simd (fred c B n) B m p N = Ok r /\ is_min r (f_min t :: l).
Proof.
  intros Ha Hw H Hl. destruct (filled_blocks_exist wd m p N l (vsize_pos B) H (whole_vectors_div B N Hw)) as (bs & Hbs & <-).
  rewrite (horizontal_min_vec_simd_run _ B m p N bs Ha Hbs). apply red_min_float; [apply Hbs|exact Hl|apply isnan_fmin].
Qed.
Lemma hminmax_simd_float m p N (l : list (F t)) : aligned B p -> whole_vectors B N -> filled m p N l -> no_nan l ->
  exists rmin rmax, horizontal_minmax_vec_simd (fred c B n) B m p N = Ok (rmin, rmax) /\
    is_min rmin (f_max t :: l) /\ is_max rmax (f_min t :: l).
Proof.
  intros Ha Hw H Hl. destruct (filled_blocks_exist wd m p N l (vsize_pos B) H (whole_vectors_div B N Hw)) as (bs & Hbs & <-).
  rewrite (horizontal_minmax_vec_simd_run _ B m p N bs Ha Hbs).
  destruct (red_min_float bs (f_max t)) as (r1 & E1 & H1); [apply Hbs|exact Hl|apply isnan_fmax|].
  destruct (red_max_float bs (f_min t)) as (r2 & E2 & H2); [apply Hbs|exact Hl|apply isnan_fmin|].
  cbn [d_smin d_vmin d_lmax d_smax d_vmax d_lmin fred]. rewrite E1. cbn [bind]. rewrite E2. cbn [bind]. eauto.
Qed.
Lemma hsum_simd_int m p N (l : list (F t)) ks : aligned B p -> whole_vectors B N -> filled m p N l ->
  integers l ks -> zsum_abs ks <= 2 ^ prec t ->
  exists r, horizontal_sum_vec_simd (fred c B n) c B m p N = Ok r /\ isfin r = true /\ val r = IZR (zsum ks).
Proof.
  intros Ha Hw H Hl Hb. destruct (filled_blocks_exist wd m p N l (vsize_pos B) H (whole_vectors_div B N Hw)) as (bs & Hbs & <-).
  rewrite (horizontal_sum_vec_simd_run _ c B m p N bs Ha Hbs).
  destruct (fold_padd ks (0, 0%N)) as [E1 E2]. cbn [fst snd] in E1, E2.
  destruct (red_sum padd padd_assoc padd_comm (budget (t := t)) budget_fst repi (fadd n) (fadd_int n) c B bs
     (map (fun k => (k, Z.abs_N k)) ks) (f_ofZ t 0) (0, 0%N)) as (r & E & K1 & K2 & _).
  - apply Hbs.
  - apply integers_repi. exact Hl.
  - apply (repi_zero n).
  - intros [a b]. reflexivity.
  - unfold budget. rewrite E2. cbn. lia.
  - exists r. split; [exact E|]. split; [exact K1|]. rewrite K2, E1. reflexivity.
Qed.

(** * The peak meter *)
Lemma load_first_rep junk m pk old : m pk = Some old -> isnan old = false -> upper_lanes_zero B (f_ofZ t 0) junk ->
  exists init, load_first B (f_ofZ t 0) junk m pk = Ok init /\
    Forall2 rep init (ord old :: repeat 0 (wd - 1)).
Proof.
  intros Hpk Ho Hj. unfold load_first, load. rewrite Hpk. cbn [bind]. eexists. split; [reflexivity|].
  assert (R0 : rep (f_ofZ t 0) 0) by (split; [apply isnan_zero|apply ord_zero]).
  assert (Ro : rep old (ord old)) by (split; auto).
  unfold upper_lanes_zero in Hj.
  destruct B; cbn; try rewrite !Hj by auto; repeat (constructor; try assumption).
Qed.

Lemma block_max_float b : block_max (fred c B n) B b =
  let l := map fabs b in
  map2 (vmax (isa_of B) n) (map2 (vmax (isa_of B) n) (quarter B 0 l) (quarter B 1 l)) (map2 (vmax (isa_of B) n) (quarter B 2 l) (quarter B 3 l)).
Proof.
  unfold block_max, quarter_abs. cbn [d_vmax d_vabs fred]. rewrite !map_quarter. cbn zeta.
  assert (E : map (vabs c (isa_of B)) b = map fabs b) by (apply map_ext; intro; apply vabs_fabs). rewrite E. reflexivity.
Qed.

Lemma fold_max_zeros k zs z : zs <> [] -> Forall (fun x => 0 <= x) zs ->
  fold_left Z.max zs (fold_left Z.max (repeat 0 k) z) = fold_left Z.max zs z.
Proof.
  intros Hne Hzs.
  assert (M : forall l a b, fold_left Z.max l (Z.max a b) = Z.max a (fold_left Z.max l b)).
  { intros l a b. apply (fold_cmb Z.max Zmax_A). }
  assert (K : fold_left Z.max (repeat 0 k) z = z \/ fold_left Z.max (repeat 0 k) z = Z.max z 0).
  { destruct k as [|k]; [left; reflexivity|right]. cbn. induction k as [|k IH]; cbn; [reflexivity|].
    rewrite <- Z.max_assoc, Z.max_id. exact IH. }
  destruct K as [->| ->]; [reflexivity|]. rewrite Z.max_comm, M.
  destruct zs as [|x zs]; [congruence|]. inversion Hzs; subst. cbn [fold_left].
  destruct (fold_max_spec zs (Z.max z x)) as [G1 _]. specialize (G1 _ (or_introl eq_refl)). lia.
Qed.

Lemma peak_max_simd (bs : list (list (F t))) init old : Forall (fun b => length b = (4 * wd)%nat) bs -> bs <> [] ->
  no_nan (concat bs) -> isnan old = false -> Forall2 rep init (ord old :: repeat 0 (wd - 1)) ->
  exists r, horizontal_max B smax (vmax (isa_of B) n)
     (fold_left (fun s b => map2 (vmax (isa_of B) n) s (block_max (fred c B n) B b)) bs init) = Ok r /\
  is_max r (old :: map fabs (concat bs)).
Proof.
  intros Hb Hne Hn Ho Hi. pose proof (vsize_pos B) as HB.
  set (V := vmax (isa_of B) n).
  assert (RV : forall a b x y, rep a x -> rep b y -> tt1 (Z.max x y) -> rep (V a b) (Z.max x y)) by (intros; apply vmax_rep; assumption).
  assert (RS : forall a b x y, rep a x -> rep b y -> tt1 (Z.max x y) -> rep (smax (t := t) a b) (Z.max x y)) by (intros; apply smax_rep; assumption).
  set (bs' := map (map fabs) bs).
  assert (E : fold_left (fun s b => map2 V s (block_max (fred c B n) B b)) bs init =
    fold_left (fun s l => map2 V s (map2 V (map2 V (quarter B 0 l) (quarter B 1 l)) (map2 V (quarter B 2 l) (quarter B 3 l)))) bs' init).
  { unfold bs'. clear. revert init. induction bs as [|b bs IH]; intros init; cbn; [reflexivity|]. rewrite IH, block_max_float. reflexivity. }
  rewrite E. assert (Ec : concat bs' = map fabs (concat bs)) by (unfold bs'; rewrite concat_map; reflexivity).
  assert (Hn' : no_nan (concat bs')) by (rewrite Ec; apply no_nan_fabs; exact Hn).
  assert (Hb' : Forall (fun b => length b = (4 * wd)%nat) bs').
  { unfold bs'. clear - Hb. induction Hb; cbn; constructor; auto. rewrite map_length. assumption. }
  destruct (tree_acc Z.max Zmax_A Z.max_comm tt1 tt_l rep V RV B
     (fun l => map2 V (map2 V (quarter B 0 l) (quarter B 1 l)) (map2 V (quarter B 2 l) (quarter B 3 l))) (tree_max Z.max B)
     (tree_max_len Z.max B) (tree_max_tot Z.max Zmax_A Z.max_comm B)
     (tree_max_R Z.max Zmax_A Z.max_comm tt1 tt_l rep V RV B)
     bs' _ init (ord old :: repeat 0 (wd - 1)) 0 Hb' (rep_list _ Hn') Hi ltac:(cbn; rewrite repeat_length; lia) I) as (vs & K1 & K2 & K3).
  destruct (horizontal_sim Z.max Zmax_A Z.max_comm tt1 tt_l rep smax V RS RV 0 B _ vs K1) as (r & Er & Hr);
    [rewrite (Forall2_len _ _ _ K1); exact K2|exact I|].
  exists r. split; [exact Er|]. rewrite K3 in Hr. cbn [tot] in Hr. rewrite fold_max_zeros in Hr.
  - rewrite <- Ec. apply rep_is_max; assumption.
  - intros C. apply map_eq_nil in C. unfold bs' in C. destruct bs as [|b bs]; [congruence|]. cbn in C.
    apply app_eq_nil in C. destruct C as [C _]. apply map_eq_nil in C. inversion Hb; subst. cbn in *. lia.
  - rewrite Ec, map_map. apply Forall_forall. intros x Hx. apply in_map_iff in Hx. destruct Hx as (y & <- & _).
    rewrite ord_fabs. apply mag_range.
Qed.

Lemma filled_blocks_ne {A} w (m : mem A) p N bs : filled_blocks w m p N bs -> bs <> [].
Proof. intros (_ & _ & H & H') ->. cbn in H. lia. Qed.

Lemma peak_vec_simd_float junk m p pk N (l : list (F t)) old :
  aligned B p -> whole_quads B N -> filled m p N l -> m pk = Some old -> isnan old = false -> no_nan l ->
  upper_lanes_zero B (f_ofZ t 0) junk ->
  peak_updated m (peak_vec_simd (fred c B n) c B junk m p pk N) p pk N old l.
Proof.
  intros Ha Hw H Hpk Ho Hl Hj.
  destruct (filled_blocks_exist (4 * wd) m p N l ltac:(pose proof (vsize_pos B); lia) H (whole_quads_div B N Hw)) as (bs & Hbs & <-).
  destruct (load_first_rep junk m pk old Hpk Ho Hj) as (init & Ei & Hi).
  destruct (peak_vec_simd_run (fred c B n) c B junk m p pk N bs old (f_ofZ t 0) Ha Hbs Hpk) as (init' & Ei' & ->).
  cbn [d_zero fred] in Ei'. rewrite Ei in Ei'. injection Ei' as <-.
  destruct (peak_max_simd bs init old (proj1 (proj2 Hbs)) (filled_blocks_ne _ _ _ _ _ Hbs) Hl Ho Hi) as (r & Er & Hr).
  cbn [d_smax d_vmax d_vabs fred]. rewrite Er. cbn [bind]. rewrite vabs_fabs.
  do 3 eexists. split; [reflexivity|]. split; [exact (filled_last m p N _ _ H)|]. split; [apply sets_cell_upd|exact Hr].
Qed.
End Simd.
