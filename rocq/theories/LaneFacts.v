(** Facts about the lane operations. *)

From Coq Require Import ZArith Reals Bool List Lia Lra.
From Flocq Require Import Core IEEE754.Binary IEEE754.Bits.
From Verif Require Import Base Backend Lanes Float LaneOps FloatFacts.
Local Open Scope Z_scope.

Section Facts.
Context {t : fmt}.
Local Notation top := (2 ^ (mw t + ew t)).
Local Notation sb := (mw t + ew t).

Lemma sb_pos : 0 < sb. Proof. destruct t; reflexivity. Qed.
Lemma top_pos : 0 < top. Proof. destruct t; reflexivity. Qed.

Lemma sgn_testbit (x : F t) : sgn x = Z.testbit (bits x) sb.
Proof.
  rewrite bits_sm. pose proof (mag_range x). pose proof sb_pos.
  rewrite Z.testbit_odd, Z.shiftr_div_pow2 by lia.
  destruct (sgn x).
  - replace ((top + mag x) / top) with 1; [reflexivity|]. apply Z.div_unique with (mag x); lia.
  - rewrite Z.add_0_l, Z.div_small by lia. reflexivity.
Qed.

Lemma mag_mod (x : F t) : mag x = bits x mod top.
Proof. rewrite bits_sm. pose proof (mag_range x). destruct (sgn x).
  - apply Z.mod_unique with 1; lia.
  - apply Z.mod_unique with 0; lia.
Qed.

Lemma mag_land (x : F t) : mag x = Z.land (bits x) (Z.ones sb).
Proof. rewrite mag_mod, Z.land_ones by (pose proof sb_pos; lia). reflexivity. Qed.

Lemma width_nonneg : 0 <= width t. Proof. destruct t; discriminate. Qed.

Lemma bits_lt_iff z : 0 <= z -> (z < 2 ^ width t <-> (z = 0 \/ Z.log2 z < width t)).
Proof.
  intros H. pose proof width_nonneg. split.
  - intros K. destruct (Z.eq_dec z 0); [left; lia|]. right. apply Z.log2_lt_pow2; lia.
  - intros [->|K]; [destruct t; reflexivity|]. destruct (Z.eq_dec z 0); [subst; destruct t; reflexivity|].
    apply Z.log2_lt_pow2; lia.
Qed.

Lemma land_range x y : 0 <= x < 2 ^ width t -> 0 <= y < 2 ^ width t -> 0 <= Z.land x y < 2 ^ width t.
Proof.
  intros Hx Hy. assert (0 <= Z.land x y) by (apply Z.land_nonneg; lia). split; [assumption|].
  rewrite <- (Z.mod_small x (2 ^ width t)), <- (Z.mod_small y (2 ^ width t)) by assumption.
  rewrite <- !Z.land_ones by apply width_nonneg.
  rewrite <- !Z.land_assoc, (Z.land_comm (Z.ones _) (Z.land y _)), <- !Z.land_assoc, Z.land_diag, Z.land_assoc.
  rewrite Z.land_ones by apply width_nonneg. apply Z.mod_pos_bound. destruct t; reflexivity.
Qed.

Lemma lor_range x y : 0 <= x < 2 ^ width t -> 0 <= y < 2 ^ width t -> 0 <= Z.lor x y < 2 ^ width t.
Proof.
  intros Hx Hy. assert (0 <= Z.lor x y) by (apply Z.lor_nonneg; lia). split; [assumption|].
  apply bits_lt_iff; [assumption|]. destruct (Z.eq_dec (Z.lor x y) 0); [left; assumption|right].
  rewrite Z.log2_lor by lia. destruct Hx as [H1 Hx], Hy as [H2 Hy].
  apply bits_lt_iff in Hx; [|assumption]. apply bits_lt_iff in Hy; [|assumption].
  pose proof (Z.log2_nonneg x). pose proof (Z.log2_nonneg y).
  assert (0 < width t) by (destruct t; reflexivity).
  destruct Hx as [->|Hx], Hy as [->|Hy]; cbn [Z.log2] in *; lia.
Qed.

Lemma lxor_range x y : 0 <= x < 2 ^ width t -> 0 <= y < 2 ^ width t -> 0 <= Z.lxor x y < 2 ^ width t.
Proof.
  intros Hx Hy. assert (0 <= Z.lxor x y) by (apply Z.lxor_nonneg; lia). split; [assumption|].
  apply bits_lt_iff; [assumption|]. destruct (Z.eq_dec (Z.lxor x y) 0); [left; assumption|right].
  pose proof (Z.log2_lxor x y ltac:(lia) ltac:(lia)). destruct Hx as [H1 Hx], Hy as [H2 Hy].
  apply bits_lt_iff in Hx; [|assumption]. apply bits_lt_iff in Hy; [|assumption].
  pose proof (Z.log2_nonneg x). pose proof (Z.log2_nonneg y).
  assert (0 < width t) by (destruct t; reflexivity).
  destruct Hx as [->|Hx], Hy as [->|Hy]; cbn [Z.log2] in *; lia.
Qed.

Lemma bits_band (x y : F t) : bits (band x y) = Z.land (bits x) (bits y).
Proof. apply bits_of_bits, land_range; apply bits_range. Qed.
Lemma bits_bor (x y : F t) : bits (bor x y) = Z.lor (bits x) (bits y).
Proof. apply bits_of_bits, lor_range; apply bits_range. Qed.
Lemma bits_bxor (x y : F t) : bits (bxor x y) = Z.lxor (bits x) (bits y).
Proof. apply bits_of_bits, lxor_range; apply bits_range. Qed.
Lemma bits_bnot (x : F t) : bits (bnot x) = ones (width t) - bits x.
Proof. apply bits_of_bits. pose proof (bits_range x). unfold ones. lia. Qed.

Lemma sgn_band (x y : F t) : sgn (band x y) = sgn x && sgn y.
Proof. rewrite !sgn_testbit, bits_band. apply Z.land_spec. Qed.
Lemma sgn_bor (x y : F t) : sgn (bor x y) = sgn x || sgn y.
Proof. rewrite !sgn_testbit, bits_bor. apply Z.lor_spec. Qed.
Lemma sgn_bxor (x y : F t) : sgn (bxor x y) = xorb (sgn x) (sgn y).
Proof. rewrite !sgn_testbit, bits_bxor. apply Z.lxor_spec. Qed.
Lemma mag_band (x y : F t) : mag (band x y) = Z.land (mag x) (mag y).
Proof.
  rewrite !mag_land, bits_band. apply Z.bits_inj'. intros k _. rewrite !Z.land_spec.
  destruct (Z.testbit (bits x) k), (Z.testbit (bits y) k), (Z.testbit (Z.ones sb) k); reflexivity.
Qed.
Lemma mag_bor (x y : F t) : mag (bor x y) = Z.lor (mag x) (mag y).
Proof.
  rewrite !mag_land, bits_bor. apply Z.bits_inj'. intros k _. rewrite !Z.land_spec, !Z.lor_spec, !Z.land_spec.
  destruct (Z.testbit (bits x) k), (Z.testbit (bits y) k), (Z.testbit (Z.ones sb) k); reflexivity.
Qed.
Lemma mag_bxor (x y : F t) : mag (bxor x y) = Z.lxor (mag x) (mag y).
Proof.
  rewrite !mag_land, bits_bxor. apply Z.bits_inj'. intros k _. rewrite !Z.land_spec, !Z.lxor_spec, !Z.land_spec.
  destruct (Z.testbit (bits x) k), (Z.testbit (bits y) k), (Z.testbit (Z.ones sb) k); reflexivity.
Qed.
Lemma sgn_bnot (x : F t) : sgn (bnot x) = negb (sgn x).
Proof.
  pose proof (bits_bnot x) as E. rewrite !bits_sm in E. unfold ones in E. rewrite width_top in E.
  pose proof (mag_range x). pose proof (mag_range (bnot x)). destruct (sgn x), (sgn (bnot x)); cbn; lia.
Qed.
Lemma mag_bnot (x : F t) : mag (bnot x) = top - 1 - mag x.
Proof.
  pose proof (bits_bnot x) as E. rewrite !bits_sm in E. unfold ones in E. rewrite width_top in E.
  pose proof (mag_range x). pose proof (mag_range (bnot x)). destruct (sgn x), (sgn (bnot x)); cbn; lia.
Qed.

Lemma land_mag_ones (x : F t) : Z.land (mag x) (top - 1) = mag x.
Proof.
  replace (top - 1) with (Z.ones sb) by (rewrite Z.ones_equiv; lia).
  rewrite Z.land_ones by (pose proof sb_pos; lia). apply Z.mod_small, mag_range.
Qed.
Lemma lor_mag_ones (x : F t) : Z.lor (mag x) (top - 1) = top - 1.
Proof.
  replace (top - 1) with (Z.ones sb) by (rewrite Z.ones_equiv; lia).
  destruct (Z.eq_dec (mag x) 0) as [->|H]; [apply Z.lor_0_l|]. pose proof (mag_range x).
  apply Z.lor_ones_low; [lia|]. apply Z.log2_lt_pow2; lia.
Qed.
Lemma lxor_mag_ones (x : F t) : Z.lxor (mag x) (top - 1) = top - 1 - mag x.
Proof.
  replace (top - 1) with (Z.ones sb) by (rewrite Z.ones_equiv; lia).
  pose proof (mag_range x).
  rewrite (Z.sub_nocarry_ldiff (Z.ones sb)).
  - apply Z.bits_inj'. intros k Hk. rewrite Z.lxor_spec, Z.ldiff_spec.
    pose proof (f_equal (fun z => Z.testbit z k) (land_mag_ones x)) as E.
    replace (top - 1) with (Z.ones sb) in E by (rewrite Z.ones_equiv; lia). cbn beta in E. rewrite Z.land_spec in E.
    destruct (Z.testbit (mag x) k), (Z.testbit (Z.ones sb) k); cbn in *; congruence.
  - apply Z.bits_inj'. intros k Hk. rewrite Z.ldiff_spec, Z.bits_0.
    pose proof (f_equal (fun z => Z.testbit z k) (land_mag_ones x)) as E.
    replace (top - 1) with (Z.ones sb) in E by (rewrite Z.ones_equiv; lia). cbn beta in E. rewrite Z.land_spec in E.
    destruct (Z.testbit (mag x) k), (Z.testbit (Z.ones sb) k); cbn in *; congruence.
Qed.

(** * Constants *)
Lemma ones_range : 0 <= ones (width t) < 2 ^ width t. Proof. unfold ones. destruct t; cbn; lia. Qed.
Lemma bits_mask b : bits (mask (t := t) b) = if b then ones (width t) else 0.
Proof. apply bits_of_bits. pose proof ones_range. destruct b; lia. Qed.
Lemma sgn_mask b : sgn (mask (t := t) b) = b.
Proof. pose proof (bits_sm (mask (t := t) b)) as E. rewrite bits_mask in E. pose proof (mag_range (mask (t := t) b)).
  unfold ones in E. rewrite width_top in E. destruct b, (sgn (mask _)); try reflexivity; lia. Qed.
Lemma mag_mask b : mag (mask (t := t) b) = if b then top - 1 else 0.
Proof. pose proof (bits_sm (mask (t := t) b)) as E. rewrite bits_mask in E. rewrite sgn_mask in E.
  unfold ones in E. rewrite width_top in E. destruct b; lia. Qed.

Lemma bits_zero : bits (f_ofZ t 0) = 0. Proof. destruct t; vm_compute; reflexivity. Qed.
Lemma sgn_zero : sgn (f_ofZ t 0) = false. Proof. destruct t; reflexivity. Qed.
Lemma mag_zero0 : mag (f_ofZ t 0) = 0. Proof. destruct t; reflexivity. Qed.
Lemma isnan_zero : isnan (f_ofZ t 0) = false. Proof. destruct t; reflexivity. Qed.
Lemma ord_zero : ord (f_ofZ t 0) = 0. Proof. destruct t; reflexivity. Qed.

Lemma band_mask_l b (x : F t) : band (mask b) x = if b then x else f_ofZ t 0.
Proof.
  apply sm_inj; rewrite ?sgn_band, ?mag_band, ?sgn_mask, ?mag_mask; destruct b; rewrite ?sgn_zero, ?mag_zero0; cbn [andb]; auto.
  rewrite Z.land_comm. apply land_mag_ones.
Qed.
Lemma band_mask_r b (x : F t) : band x (mask b) = if b then x else f_ofZ t 0.
Proof.
  apply sm_inj; rewrite ?sgn_band, ?mag_band, ?sgn_mask, ?mag_mask; destruct b; rewrite ?sgn_zero, ?mag_zero0, ?andb_true_r, ?andb_false_r; auto.
  - apply land_mag_ones.
  - apply Z.land_0_r.
Qed.
Lemma bnot_mask b : bnot (mask (t := t) b) = mask (negb b).
Proof. apply sm_inj; rewrite ?sgn_bnot, ?mag_bnot, ?sgn_mask, ?mag_mask; auto. destruct b; cbn; lia. Qed.
Lemma bor_zero_l (x : F t) : bor (f_ofZ t 0) x = x.
Proof. apply bits_inj. rewrite bits_bor, bits_zero. apply Z.lor_0_l. Qed.
Lemma bor_zero_r (x : F t) : bor x (f_ofZ t 0) = x.
Proof. apply bits_inj. rewrite bits_bor, bits_zero. apply Z.lor_0_r. Qed.

Lemma bits_sign_mask c I : bits (gen_sign_mask (t := t) c I) = top.
Proof. destruct c as [[] ? ? ?], I, t; vm_compute; reflexivity. Qed.
Lemma bits_abs_mask c I : bits (gen_abs_mask (t := t) c I) = top - 1.
Proof. destruct c as [[] ? ? ?], I, t; vm_compute; reflexivity. Qed.
Lemma gen_one_1 c I : gen_one (t := t) c I = f_ofZ t 1.
Proof. apply bits_inj. destruct c as [[] ? ? ?], I, t; vm_compute; reflexivity. Qed.
Lemma gen_05_half c I : gen_05 (t := t) c I = f_lit t 1 (-1).
Proof. apply bits_inj. destruct c as [[] ? ? ?], I, t; vm_compute; reflexivity. Qed.
Lemma gen_ones_all I : I <> GEN -> gen_ones (t := t) I = mask true.
Proof. intros H. apply bits_inj. destruct I, t; try congruence; vm_compute; reflexivity. Qed.

Lemma sgn_sign_mask c I : sgn (gen_sign_mask (t := t) c I) = true.
Proof. rewrite sgn_testbit, bits_sign_mask. apply Z.pow2_bits_true. pose proof sb_pos; lia. Qed.
Lemma mag_sign_mask c I : mag (gen_sign_mask (t := t) c I) = 0.
Proof. rewrite mag_mod, bits_sign_mask. apply Z_mod_same_full. Qed.
Lemma sgn_abs_mask c I : sgn (gen_abs_mask (t := t) c I) = false.
Proof. pose proof (bits_sm (gen_abs_mask (t := t) c I)) as E. rewrite bits_abs_mask in E.
  pose proof (mag_range (gen_abs_mask (t := t) c I)). destruct (sgn _); [lia|reflexivity]. Qed.
Lemma mag_abs_mask c I : mag (gen_abs_mask (t := t) c I) = top - 1.
Proof. pose proof (bits_sm (gen_abs_mask (t := t) c I)) as E. rewrite bits_abs_mask, sgn_abs_mask in E. lia. Qed.

(** * abs, minus, maximum and minimum *)
Lemma vabs_fabs c I (x : F t) : vabs c I x = fabs x.
Proof.
  assert (E : band (gen_abs_mask c I) x = fabs x).
  { apply sm_inj; rewrite ?sgn_band, ?mag_band, ?sgn_abs_mask, ?mag_abs_mask, ?sgn_fabs, ?mag_fabs; [reflexivity|].
    rewrite Z.land_comm. apply land_mag_ones. }
  destruct I; try exact E; reflexivity.
Qed.
Lemma vneg_fneg c I (x : F t) : vneg c I x = fneg x.
Proof.
  unfold vneg. apply sm_inj; rewrite ?sgn_bxor, ?mag_bxor, ?sgn_sign_mask, ?mag_sign_mask, ?sgn_fneg, ?mag_fneg.
  - apply xorb_true_r.
  - apply Z.lxor_0_r.
Qed.

(** Proof auxiliary: the float represents [z] in the order of non-NaN floats. *)
Definition rep (x : F t) (z : Z) : Prop := isnan x = false /\ ord x = z.

Lemma smax_rep a b x y : rep a x -> rep b y -> rep (smax a b) (Z.max x y).
Proof.
  intros [H1 <-] [H2 <-]. unfold rep, smax. rewrite flt_ord by assumption.
  destruct (Z.ltb_spec (ord a) (ord b)); split; auto; lia.
Qed.
Lemma smin_rep a b x y : rep a x -> rep b y -> rep (smin a b) (Z.min x y).
Proof.
  intros [H1 <-] [H2 <-]. unfold rep, smin. rewrite flt_ord by assumption.
  destruct (Z.ltb_spec (ord b) (ord a)); split; auto; lia.
Qed.
Lemma vmax_rep I n a b x y : rep a x -> rep b y -> rep (vmax I n a b) (Z.max x y).
Proof.
  intros Ha Hb. destruct I; [apply smax_rep; assumption| | | |];
    destruct Ha as [H1 <-], Hb as [H2 <-]; unfold rep, vmax.
  1-2: rewrite fgt_ord by assumption; destruct (Z.ltb_spec (ord b) (ord a)); split; auto; lia.
  all: rewrite H1, H2; cbn [orb]; rewrite !flt_ord by assumption;
    destruct (Z.ltb_spec (ord a) (ord b)); [split; auto; lia|]; destruct (Z.ltb_spec (ord b) (ord a)); [split; auto; lia|];
    destruct (sgn a); split; auto; lia.
Qed.
Lemma vmin_rep I n a b x y : rep a x -> rep b y -> rep (vmin I n a b) (Z.min x y).
Proof.
  intros Ha Hb. destruct I; [apply smin_rep; assumption| | | |];
    destruct Ha as [H1 <-], Hb as [H2 <-]; unfold rep, vmin.
  1-2: rewrite flt_ord by assumption; destruct (Z.ltb_spec (ord a) (ord b)); split; auto; lia.
  all: rewrite H1, H2; cbn [orb]; rewrite !flt_ord by assumption;
    destruct (Z.ltb_spec (ord a) (ord b)); [split; auto; lia|]; destruct (Z.ltb_spec (ord b) (ord a)); [split; auto; lia|];
    destruct (sgn a); split; auto; lia.
Qed.
End Facts.
