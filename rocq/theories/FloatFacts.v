(** Basic facts about the float layer: bit patterns, signs and the order. *)

From Coq Require Import ZArith Reals Bool List Lia Lra.
From Flocq Require Import Core IEEE754.Binary IEEE754.Bits.
From Verif Require Import Float.
Local Open Scope Z_scope.

Section Facts.
Context {t : fmt}.
Local Notation p := (prec t).
Local Notation e := (emax t).
Local Notation top := (2 ^ (mw t + ew t)).
Local Notation emn := (SpecFloat.emin (prec t) (emax t)).

Lemma bits_range (x : F t) : 0 <= bits x < 2 ^ width t.
Proof. apply bits_of_binary_float_range; [apply mw_pos|apply ew_pos]. Qed.

Lemma of_bits_bits (x : F t) : of_bits t (bits x) = x.
Proof. apply binary_float_of_bits_of_binary_float. Qed.

Lemma bits_of_bits z : 0 <= z < 2 ^ width t -> bits (of_bits t z) = z.
Proof. apply bits_of_binary_float_of_bits. Qed.

Lemma bits_inj (x y : F t) : bits x = bits y -> x = y.
Proof. intros H. rewrite <- (of_bits_bits x), H. apply of_bits_bits. Qed.

Lemma pow_split : top = 2 ^ ew t * 2 ^ mw t.
Proof. rewrite Z.pow_add_r by (destruct t; cbv; discriminate). lia. Qed.

Lemma width_top : 2 ^ width t = 2 * top.
Proof. rewrite Z.pow_add_r by (destruct t; cbv; discriminate). lia. Qed.

Lemma mwp : 0 < 2 ^ mw t. Proof. destruct t; reflexivity. Qed.
Lemma ewp : 4 <= 2 ^ ew t. Proof. destruct t; cbv; discriminate. Qed.

(** A finite value's mantissa and exponent. *)
Lemma finite_bounds m ex : SpecFloat.bounded p e m ex = true ->
  emn <= ex <= e - p /\ 0 < Z.pos m < 2 ^ (mw t + 1) /\ (emn < ex -> 2 ^ mw t <= Z.pos m).
Proof.
  intros H. apply andb_true_iff in H. destruct H as [H1 H2].
  apply Z.leb_le in H2. apply Zeq_bool_eq in H1. unfold SpecFloat.fexp in H1.
  rewrite Digits.Zpos_digits2_pos in H1.
  pose proof (Digits.Zdigits_correct radix2 (Z.pos m)) as D.
  pose proof (Digits.Zdigits_gt_0 radix2 (Z.pos m) ltac:(discriminate)) as D0.
  rewrite Z.abs_eq in D by lia.
  set (d := Digits.Zdigits radix2 (Z.pos m)) in *.
  assert (Hd : d <= p) by (destruct t; cbn in *; lia).
  change (radix_val radix2) with 2 in D.
  split; [|split].
  - destruct t; cbn in *; lia.
  - split; [lia|]. destruct D as [_ D].
    eapply Z.lt_le_trans; [exact D|]. apply Z.pow_le_mono_r; lia.
  - intros Hx. assert (d = p) by (destruct t; cbn in *; lia).
    destruct D as [D _]. eapply Z.le_trans; [|exact D]. apply Z.pow_le_mono_r; lia.
Qed.

Lemma emn_e : e - emn = 2 ^ ew t + mw t - 2.
Proof. unfold SpecFloat.emin. destruct t; reflexivity. Qed.

Lemma pw1 : 2 ^ (mw t + 1) = 2 * 2 ^ mw t.
Proof. rewrite Z.pow_add_r by (pose proof (mw_pos t); lia). lia. Qed.

(** Bit pattern of the magnitude. *)
Definition mag (x : F t) : Z := bits (fabs x).

Lemma bits_finite s m ex H :
  bits (B754_finite p e s m ex H) = (if s then top else 0) + (ex - emn) * 2 ^ mw t + Z.pos m.
Proof.
  destruct (finite_bounds m ex H) as (H1 & H2 & H3). pose proof mwp as Hmp. rewrite pow_split.
  unfold bits, bits_of_binary_float, join_bits.
  destruct (Z.leb_spec 0 (Z.pos m - 2 ^ mw t)).
  - rewrite Z.shiftl_mul_pow2 by (pose proof (mw_pos t); lia). destruct s; nia.
  - rewrite Z.shiftl_mul_pow2 by (pose proof (mw_pos t); lia).
    assert (ex = emn) by (destruct (Z.eq_dec ex emn); [assumption|lia]). subst ex. destruct s; nia.
Qed.

Lemma mag_finite s m ex H :
  mag (B754_finite p e s m ex H) = (ex - emn) * 2 ^ mw t + Z.pos m.
Proof. unfold mag. cbn [fabs]. rewrite bits_finite. lia. Qed.

Lemma bits_join s mm ee : join_bits (mw t) (ew t) s mm ee = (if s then top else 0) + ee * 2 ^ mw t + mm.
Proof.
  rewrite pow_split. unfold join_bits. rewrite Z.shiftl_mul_pow2 by (pose proof (mw_pos t); lia).
  destruct s; nia.
Qed.

Lemma nan_pl_bound pl : nan_pl p pl = true -> 0 < Z.pos pl < 2 ^ mw t.
Proof.
  intros H. unfold nan_pl in H. apply Z.ltb_lt in H. rewrite Digits.Zpos_digits2_pos in H.
  split; [lia|]. pose proof (Digits.Zdigits_correct radix2 (Z.pos pl)) as [_ D].
  rewrite Z.abs_eq in D by lia. change (radix_val radix2) with 2 in D.
  eapply Z.lt_le_trans; [exact D|]. apply Z.pow_le_mono_r; lia.
Qed.

Lemma mag_zero s : mag (B754_zero p e s) = 0.
Proof. unfold mag, bits. cbn. rewrite bits_join. lia. Qed.
Lemma mag_inf s : mag (B754_infinity p e s) = (2 ^ ew t - 1) * 2 ^ mw t.
Proof. unfold mag, bits. cbn [fabs bits_of_binary_float]. rewrite bits_join. lia. Qed.
Lemma mag_nan s pl H : mag (B754_nan p e s pl H) = (2 ^ ew t - 1) * 2 ^ mw t + Z.pos pl.
Proof. unfold mag, bits. cbn [fabs bits_of_binary_float]. rewrite bits_join. lia. Qed.

(** Sign bit and magnitude. *)
Lemma bits_sm (x : F t) : bits x = (if sgn x then top else 0) + mag x.
Proof.
  destruct x as [s|s|s pl H|s m ex H].
  - rewrite mag_zero. unfold bits. cbn [bits_of_binary_float sgn Bsign]. rewrite bits_join. unfold sgn; cbn. destruct s; lia.
  - rewrite mag_inf. unfold bits. cbn [bits_of_binary_float]. rewrite bits_join. unfold sgn; cbn [Bsign]. destruct s; lia.
  - rewrite mag_nan. unfold bits. cbn [bits_of_binary_float]. rewrite bits_join. unfold sgn; cbn [Bsign]. destruct s; lia.
  - rewrite mag_finite, bits_finite. unfold sgn; cbn [Bsign]. destruct s; lia.
Qed.

(** Proof auxiliary: bit pattern of +infinity. *)
Definition inf_bits : Z := (2 ^ ew t - 1) * 2 ^ mw t.

Lemma mag_fin_range s m ex H : 0 < mag (B754_finite p e s m ex H) < inf_bits.
Proof.
  rewrite mag_finite. destruct (finite_bounds m ex H) as (H1 & H2 & H3). pose proof mwp as Hmp. pose proof emn_e as Hee.
  pose proof pw1. unfold inf_bits. split; [nia|].
  assert (ex - emn <= 2 ^ ew t - 3) by lia. nia.
Qed.

Lemma inf_bits_top : inf_bits + 2 ^ mw t = top.
Proof. rewrite pow_split. unfold inf_bits. lia. Qed.

Lemma mag_range (x : F t) : 0 <= mag x < top.
Proof.
  pose proof mwp as Hmp. pose proof ewp as Hep. pose proof inf_bits_top as E. destruct x as [s|s|s pl H|s m ex H].
  - rewrite mag_zero. unfold inf_bits in E. nia.
  - rewrite mag_inf. unfold inf_bits in E. nia.
  - rewrite mag_nan. pose proof (nan_pl_bound _ H). unfold inf_bits in E. nia.
  - pose proof (mag_fin_range s m ex H). lia.
Qed.

Lemma isnan_mag (x : F t) : isnan x = (inf_bits <? mag x).
Proof.
  pose proof mwp as Hmp. pose proof ewp as Hep. symmetry. destruct x as [s|s|s pl H|s m ex H]; unfold isnan; cbn [is_nan].
  - rewrite mag_zero. apply Z.ltb_ge. unfold inf_bits. nia.
  - rewrite mag_inf. apply Z.ltb_ge. unfold inf_bits. nia.
  - rewrite mag_nan. pose proof (nan_pl_bound _ H). apply Z.ltb_lt. unfold inf_bits. nia.
  - pose proof (mag_fin_range s m ex H). apply Z.ltb_ge. lia.
Qed.

Lemma isfin_mag (x : F t) : isfin x = (mag x <? inf_bits).
Proof.
  pose proof mwp as Hmp. pose proof ewp as Hep. symmetry. destruct x as [s|s|s pl H|s m ex H]; unfold isfin; cbn [is_finite].
  - rewrite mag_zero. apply Z.ltb_lt. unfold inf_bits. nia.
  - rewrite mag_inf. apply Z.ltb_ge. unfold inf_bits. nia.
  - rewrite mag_nan. pose proof (nan_pl_bound _ H). apply Z.ltb_ge. unfold inf_bits. nia.
  - pose proof (mag_fin_range s m ex H). apply Z.ltb_lt. lia.
Qed.

(** A value is determined by sign and magnitude. *)
Lemma sm_inj (x y : F t) : sgn x = sgn y -> mag x = mag y -> x = y.
Proof. intros H1 H2. apply bits_inj. rewrite !bits_sm, H1, H2. reflexivity. Qed.

Lemma sgn_of_bits z : 0 <= z < 2 ^ width t -> sgn (of_bits t z) = (top <=? z).
Proof.
  intros H. pose proof (bits_sm (of_bits t z)) as E. rewrite bits_of_bits in E by assumption.
  pose proof (mag_range (of_bits t z)). destruct (sgn (of_bits t z)); symmetry; [apply Z.leb_le|apply Z.leb_gt]; lia.
Qed.

Lemma mag_of_bits z : 0 <= z < 2 ^ width t -> mag (of_bits t z) = z mod top.
Proof.
  intros H. pose proof (bits_sm (of_bits t z)) as E. rewrite bits_of_bits in E by assumption.
  pose proof (mag_range (of_bits t z)). rewrite width_top in H.
  destruct (sgn (of_bits t z)).
  - apply Z.mod_unique with 1; lia.
  - apply Z.mod_unique with 0; lia.
Qed.

(** Position in the total order of non-NaN values (the zeros coincide). *)
Definition ord (x : F t) : Z := if sgn x then - mag x else mag x.

Lemma compare_ord (x y : F t) : isnan x = false -> isnan y = false ->
  Bcompare p e x y = Some (ord x ?= ord y).
Proof.
  intros Hx Hy. unfold ord. pose proof mwp as Hmp. pose proof ewp as Hep.
  assert (HI : 0 < inf_bits) by (unfold inf_bits; nia).
  destruct x as [s|s|s pl H1|s m ex H1]; try discriminate; destruct y as [s'|s'|s' pl' H2|s' m' ex' H2]; try discriminate;
    rewrite ?mag_zero, ?mag_inf; unfold sgn; cbn [Bsign]; fold inf_bits;
    try pose proof (mag_fin_range s m ex H1); try pose proof (mag_fin_range s' m' ex' H2);
    unfold Bcompare; cbn [B2BSN BinarySingleNaN.Bcompare].
  1-8: unfold BinarySingleNaN.Bcompare; destruct s, s'; cbn [BinarySingleNaN.B2SF SpecFloat.SFcompare]; f_equal;
       first [reflexivity | symmetry]; first [apply Z.compare_refl | apply Z.compare_eq_iff; lia | apply Z.compare_lt_iff; lia | apply Z.compare_gt_iff; lia].
  unfold BinarySingleNaN.Bcompare. cbn [BinarySingleNaN.B2SF SpecFloat.SFcompare].
  assert (L : forall ma xa mb xb (Ha : SpecFloat.bounded p e ma xa = true) (Hb : SpecFloat.bounded p e mb xb = true),
     ((xa - emn) * 2 ^ mw t + Z.pos ma ?= (xb - emn) * 2 ^ mw t + Z.pos mb) =
     match xa ?= xb with Eq => Pos.compare_cont Eq ma mb | r => r end).
  { intros ma xa mb xb Ha Hb. destruct (finite_bounds _ _ Ha) as (A1 & A2 & A3).
    destruct (finite_bounds _ _ Hb) as (B1 & B2 & B3). pose proof pw1. change (Pos.compare_cont Eq ma mb) with (Z.pos ma ?= Z.pos mb).
    destruct (Z.compare_spec xa xb) as [E|E|E].
    - subst xb. destruct (Z.compare_spec (Z.pos ma) (Z.pos mb)); [apply Z.compare_eq_iff|apply Z.compare_lt_iff|apply Z.compare_gt_iff]; nia.
    - apply Z.compare_lt_iff. assert (xa + 1 <= xb) by lia. specialize (B3 ltac:(lia)). nia.
    - apply Z.compare_gt_iff. assert (xb + 1 <= xa) by lia. specialize (A3 ltac:(lia)). nia. }
  destruct s, s'; f_equal.
  - rewrite !mag_finite. rewrite Z.compare_opp.
    rewrite L by assumption. rewrite Z.compare_antisym. destruct (ex' ?= ex) eqn:E; cbn [CompOpp]; try reflexivity.
    change (Pos.compare_cont Eq m' m) with (m' ?= m)%positive. change (Pos.compare_cont Eq m m') with (m ?= m')%positive.
    symmetry. apply Pos.compare_antisym.
  - symmetry. apply Z.compare_lt_iff. lia.
  - symmetry. apply Z.compare_gt_iff. lia.
  - rewrite !mag_finite. rewrite L by assumption. reflexivity.
Qed.

(** The comparisons of non-NaN values, through [ord]. *)
Lemma flt_ord (x y : F t) : isnan x = false -> isnan y = false -> flt x y = (ord x <? ord y).
Proof. intros Hx Hy. unfold flt, Z.ltb. rewrite compare_ord by assumption. destruct (ord x ?= ord y); reflexivity. Qed.
Lemma fle_ord (x y : F t) : isnan x = false -> isnan y = false -> fle x y = (ord x <=? ord y).
Proof. intros Hx Hy. unfold fle, Z.leb. rewrite compare_ord by assumption. destruct (ord x ?= ord y); reflexivity. Qed.
Lemma fgt_ord (x y : F t) : isnan x = false -> isnan y = false -> fgt x y = (ord y <? ord x).
Proof. intros Hx Hy. unfold fgt, Z.ltb. rewrite compare_ord by assumption. rewrite (Z.compare_antisym (ord x)). destruct (ord x ?= ord y); reflexivity. Qed.
Lemma fge_ord (x y : F t) : isnan x = false -> isnan y = false -> fge x y = (ord y <=? ord x).
Proof. intros Hx Hy. unfold fge, Z.leb. rewrite compare_ord by assumption. rewrite (Z.compare_antisym (ord x)). destruct (ord x ?= ord y); reflexivity. Qed.
Lemma feq_ord (x y : F t) : isnan x = false -> isnan y = false -> feq x y = (ord x =? ord y).
Proof. intros Hx Hy. unfold feq. rewrite Z.eqb_compare. rewrite compare_ord by assumption. destruct (ord x ?= ord y); reflexivity. Qed.

(** With a NaN operand nothing compares. *)
Lemma compare_nan (x y : F t) : isnan x = true \/ isnan y = true -> Bcompare p e x y = None.
Proof.
  intros H. destruct x, y; try reflexivity; destruct H as [H|H]; try discriminate;
    unfold Bcompare, BinarySingleNaN.Bcompare; cbn; repeat match goal with s : bool |- _ => destruct s end; reflexivity.
Qed.

Lemma compare_some (x y : F t) c : Bcompare p e x y = Some c -> isnan x = false /\ isnan y = false.
Proof.
  intros H. split; destruct (isnan _) eqn:E; try reflexivity; rewrite compare_nan in H by auto; discriminate.
Qed.

(** Signs and magnitudes of abs and minus. *)
Lemma sgn_fabs (x : F t) : sgn (fabs x) = false. Proof. destruct x; reflexivity. Qed.
Lemma mag_fabs (x : F t) : mag (fabs x) = mag x. Proof. unfold mag. destruct x; reflexivity. Qed.
Lemma sgn_fneg (x : F t) : sgn (fneg x) = negb (sgn x). Proof. destruct x; reflexivity. Qed.
Lemma mag_fneg (x : F t) : mag (fneg x) = mag x. Proof. unfold mag. destruct x; reflexivity. Qed.
Lemma isnan_fabs (x : F t) : isnan (fabs x) = isnan x. Proof. destruct x; reflexivity. Qed.
Lemma isnan_fneg (x : F t) : isnan (fneg x) = isnan x. Proof. destruct x; reflexivity. Qed.
Lemma isfin_fabs (x : F t) : isfin (fabs x) = isfin x. Proof. destruct x; reflexivity. Qed.
Lemma isfin_fneg (x : F t) : isfin (fneg x) = isfin x. Proof. destruct x; reflexivity. Qed.
Lemma val_fabs (x : F t) : val (fabs x) = Rabs (val x).
Proof.
  unfold val. destruct x as [s|s|s pl H|s m ex H]; cbn [fabs B2R]; try (symmetry; apply Rabs_R0).
  rewrite <- F2R_Zabs. f_equal. f_equal. destruct s; reflexivity.
Qed.
Lemma val_fneg (x : F t) : val (fneg x) = (- val x)%R.
Proof.
  unfold val. destruct x as [s|s|s pl H|s m ex H]; cbn [fneg B2R]; try (symmetry; apply Ropp_0).
  rewrite <- F2R_Zopp. f_equal. f_equal. destruct s; reflexivity.
Qed.
Lemma ord_fabs (x : F t) : ord (fabs x) = mag x.
Proof. unfold ord. rewrite sgn_fabs, mag_fabs. reflexivity. Qed.
Lemma ord_fneg (x : F t) : ord (fneg x) = - ord x.
Proof. unfold ord. rewrite sgn_fneg, mag_fneg. destruct (sgn x); cbn; lia. Qed.
Lemma fneg_fneg (x : F t) : fneg (fneg x) = x.
Proof. apply sm_inj; rewrite ?sgn_fneg, ?mag_fneg; auto. apply negb_involutive. Qed.
Lemma mag_0_ord (x : F t) : mag x = 0 <-> ord x = 0.
Proof. unfold ord. destruct (sgn x); lia. Qed.

(** The order agrees with the real values of finite numbers. *)
Lemma ord_lt_val (x y : F t) : isfin x = true -> isfin y = true -> (ord x < ord y <-> (val x < val y)%R).
Proof.
  intros Hx Hy. assert (Nx : isnan x = false) by (destruct x; try reflexivity; discriminate).
  assert (Ny : isnan y = false) by (destruct y; try reflexivity; discriminate).
  pose proof (compare_ord x y Nx Ny) as E. rewrite Bcompare_correct in E by assumption.
  injection E as E. fold (val x) (val y) in E.
  rewrite <- Z.compare_lt_iff, <- E. split; intros G.
  - apply Rcompare_Lt_inv. exact G.
  - apply Rcompare_Lt. exact G.
Qed.
Lemma ord_eq_val (x y : F t) : isfin x = true -> isfin y = true -> (ord x = ord y <-> val x = val y).
Proof.
  intros Hx Hy. assert (Nx : isnan x = false) by (destruct x; try reflexivity; discriminate).
  assert (Ny : isnan y = false) by (destruct y; try reflexivity; discriminate).
  pose proof (compare_ord x y Nx Ny) as E. rewrite Bcompare_correct in E by assumption.
  injection E as E. fold (val x) (val y) in E.
  rewrite <- Z.compare_eq_iff, <- E. split; intros G.
  - apply Rcompare_Eq_inv. exact G.
  - apply Rcompare_Eq. exact G.
Qed.
Lemma ord_le_val (x y : F t) : isfin x = true -> isfin y = true -> (ord x <= ord y <-> (val x <= val y)%R).
Proof.
  intros Hx Hy. pose proof (ord_lt_val y x Hy Hx). split; intros G.
  - apply Rnot_lt_le. intros K. apply H in K. lia.
  - apply Z.nlt_ge. intros K. apply H in K. lra.
Qed.
Lemma fin_not_nan (x : F t) : isfin x = true -> isnan x = false.
Proof. destruct x; cbn; congruence. Qed.
End Facts.
