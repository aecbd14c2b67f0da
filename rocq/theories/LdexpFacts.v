(** Facts about ldexp_float and frexp_float. *)

From Coq Require Import ZArith Reals List Lia Lra Bool.
From Flocq Require Import Core IEEE754.Binary IEEE754.Bits.
From Verif Require Import Base Backend Lanes Float LaneOps IntVec SpecLane SpecRound SpecInt FloatFacts FloatRound LaneFacts VecFacts VecMore2 RoundFacts RoundMore RoundMore2 IntFacts.
Local Open Scope Z_scope.

(** The exponent field and the fraction field of a float. *)
Definition efield (x : F F32) : Z := mag x / 2 ^ 23.
(** Proof auxiliary: the fraction field. *)
Definition ffield (x : F F32) : Z := mag x mod 2 ^ 23.
Lemma mag_fields x : mag x = efield x * 2 ^ 23 + ffield x.
Proof. unfold efield, ffield. pose proof (Z.div_mod (mag x) (2 ^ 23)). lia. Qed.
Lemma ffield_range x : 0 <= ffield x < 2 ^ 23.
Proof. apply Z.mod_pos_bound. lia. Qed.
Lemma fields_of x e f : mag x = e * 2 ^ 23 + f -> 0 <= f < 2 ^ 23 -> efield x = e /\ ffield x = f.
Proof.
  intros H Hf. unfold efield, ffield. rewrite H. rewrite Z.add_comm. rewrite Z.div_add, Z.mod_add by lia.
  rewrite Z.div_small, Z.mod_small by lia. lia.
Qed.
Lemma normal_fields x : isfin x = true -> ~ tiny x -> 1 <= efield x <= 254.
Proof.
  intros Hf Ht. rewrite isfin_mag in Hf. apply Z.ltb_lt in Hf. change (inf_bits (t := F32)) with (255 * 2 ^ 23) in Hf.
  assert (2 ^ 23 <= mag x). { destruct (Z_lt_ge_dec (mag x) (2 ^ 23)); [elim Ht; apply tiny_mag; assumption|lia]. }
  pose proof (mag_fields x). pose proof (ffield_range x). lia.
Qed.
Lemma fields_normal x : 1 <= efield x <= 254 -> isfin x = true /\ ~ tiny x.
Proof.
  intros H. pose proof (mag_fields x). pose proof (ffield_range x). split.
  - rewrite isfin_mag. apply Z.ltb_lt. change (inf_bits (t := F32)) with (255 * 2 ^ 23). lia.
  - rewrite tiny_mag. change (mw F32) with 23. lia.
Qed.
Lemma val_fields x : 1 <= efield x <= 254 -> Rabs (val x) = (IZR (2 ^ 23 + ffield x) * bpow radix2 (efield x - 150))%R.
Proof.
  intros He. destruct (fields_normal x He) as [Hf Ht]. destruct (normal_form x Hf Ht) as (s & m & ex & H & -> & M).
  pose proof (mag_finite (t := F32) s m ex H) as Q. change (mw F32) with 23 in Q.
  set (k := ex + 149).
  destruct (fields_of (B754_finite 24 128 s m ex H : F F32) (k + 1) (Z.pos m - 2 ^ 23)) as [E1 E2].
  - etransitivity; [exact Q|]. change (SpecFloat.emin (23 + 1) (emax F32)) with (-149). unfold k. lia.
  - lia.
  - rewrite E1, E2, <- val_fabs. change (F2R (Float radix2 (Z.pos m) ex) = IZR (2 ^ 23 + (Z.pos m - 2 ^ 23)) * bpow radix2 (k + 1 - 150))%R.
    unfold F2R. cbn [Fnum Fexp]. f_equal; [f_equal; lia|f_equal]. unfold k. lia.
Qed.
Lemma val_binade x : 1 <= efield x <= 254 -> (bpow radix2 (efield x - 127) <= Rabs (val x) < bpow radix2 (efield x - 126))%R.
Proof.
  intros He. rewrite (val_fields x He). pose proof (ffield_range x) as Hf.
  replace (efield x - 127) with (23 + (efield x - 150)) by lia. replace (efield x - 126) with (24 + (efield x - 150)) by lia.
  rewrite !bpow_plus. pose proof (bpow_gt_0 radix2 (efield x - 150)).
  change (bpow radix2 23) with (IZR (2 ^ 23)). change (bpow radix2 24) with (IZR (2 ^ 24)).
  split; [apply Rmult_le_compat_r; [lra|]; apply IZR_le; lia|apply Rmult_lt_compat_r; [lra|]; apply IZR_lt; lia].
Qed.

Lemma lor_disjoint a b : 0 <= a < 2 ^ 23 -> 0 <= b -> Z.lor a (b * 2 ^ 23) = a + b * 2 ^ 23.
Proof.
  intros Ha Hb. assert (L : Z.land a (b * 2 ^ 23) = 0).
  { apply Z.bits_inj'. intros i Hi. rewrite Z.land_spec, Z.bits_0. destruct (Z_lt_ge_dec i 23).
    - rewrite Z.mul_pow2_bits_low by lia. apply andb_false_r.
    - rewrite (testbit_above 23 a i) by lia. reflexivity. }
  rewrite <- Z.lxor_lor by exact L. symmetry. apply Z.add_nocarry_lxor. exact L.
Qed.
Lemma x86_wo I (x : F F32) : I = SSE \/ I = AVX ->
  sgn (andnot I gen_exp_mask x) = sgn x /\ mag (andnot I gen_exp_mask x) = ffield x.
Proof.
  intros HI. assert (E : andnot I gen_exp_mask x = band (bnot gen_exp_mask) x) by (destruct HI as [-> | ->]; reflexivity).
  rewrite E, sgn_band, mag_band, sgn_bnot, mag_bnot. split; [reflexivity|].
  change (mag (gen_exp_mask (t := F32))) with 0x7F800000. change (2 ^ (mw F32 + ew F32) - 1 - 2139095040) with (Z.ones 23).
  rewrite Z.land_comm, Z.land_ones by lia. reflexivity.
Qed.
Lemma band_comm (x y : F F32) : band x y = band y x.
Proof. apply bits_inj. rewrite !bits_band. apply Z.land_comm. Qed.
Lemma exponent_bits (x : F F32) : bits (band gen_exp_mask x) = efield x * 2 ^ 23.
Proof. rewrite band_comm, bits_sm, sgn_exp_mask, mag_exp_mask. reflexivity. Qed.

Lemma ldexp_fields I x n N : I = SSE \/ I = AVX -> reads n N -> 0 <= efield x + N < 256 ->
  sgn (ldexp_float I x n) = sgn x /\ mag (ldexp_float I x n) = ffield x + (efield x + N) * 2 ^ 23.
Proof.
  intros HI Hn He. destruct (x86_wo I x HI) as [S M]. unfold ldexp_float.
  assert (X : iadd (islli I n (16 + 7)) (bits (band gen_exp_mask x)) = (efield x + N) * 2 ^ 23).
  { rewrite exponent_bits. rewrite islli_lane by (try exact (proj1 Hn); lia). destruct Hn as (_ & _ & [q ->]).
    unfold iadd, u32. change 4294967296 with (2 ^ 32). change (16 + 7) with 23. rewrite Zplus_mod_idemp_l.
    replace ((N + q * 2 ^ 32) * 2 ^ 23 + efield x * 2 ^ 23) with ((efield x + N) * 2 ^ 23 + (q * 2 ^ 23) * 2 ^ 32) by lia.
    rewrite Z.mod_add by lia. apply Z.mod_small. lia. }
  cbv zeta. rewrite X. set (E := efield x + N) in *.
  assert (R : 0 <= E * 2 ^ 23 < 2 ^ width F32) by (change (width F32) with 32; lia).
  destruct (Z_lt_ge_dec (E * 2 ^ 23) (2 ^ 31)) as [L|L]; [|lia].
  rewrite sgn_bor, mag_bor, S, M. rewrite sgn_of_bits, mag_of_bits by exact R.
  change (2 ^ (mw F32 + ew F32)) with (2 ^ 31). rewrite (proj2 (Z.leb_gt _ _)) by exact L. rewrite Z.mod_small by lia.
  split; [apply orb_false_r|]. apply lor_disjoint; [apply ffield_range|lia].
Qed.
Local Open Scope R_scope.
Lemma ldexp_exact I x n N : I = SSE \/ I = AVX -> isfin x = true -> ~ tiny x -> reads n N ->
  bpow radix2 (-126) <= Rabs (val x) * bpow radix2 N < bpow radix2 128 ->
  isfin (ldexp_float I x n) = true /\ val (ldexp_float I x n) = val x * bpow radix2 N /\ sgn (ldexp_float I x n) = sgn x.
Proof.
  intros HI Hf Ht Hn [R1 R2]. pose proof (normal_fields x Hf Ht) as He. pose proof (val_binade x He) as [B1 B2].
  pose proof (bpow_gt_0 radix2 N) as BN.
  assert (E : (1 <= efield x + N <= 254)%Z).
  { split.
    - assert ((-126 < efield x - 126 + N)%Z); [|lia]. apply (lt_bpow radix2). rewrite bpow_plus.
      eapply Rle_lt_trans; [exact R1|]. apply Rmult_lt_compat_r; assumption.
    - assert ((efield x - 127 + N < 128)%Z); [|lia]. apply (lt_bpow radix2). rewrite bpow_plus.
      eapply Rle_lt_trans; [|exact R2]. apply Rmult_le_compat_r; [lra|assumption]. }
  destruct (ldexp_fields I x n N HI Hn) as [S M]; [lia|].
  destruct (fields_of (ldexp_float I x n) (efield x + N) (ffield x)) as [F1 F2]; [rewrite M; lia|apply ffield_range|].
  assert (E' : (1 <= efield (ldexp_float I x n) <= 254)%Z) by lia.
  destruct (fields_normal _ E') as [HF _]. split; [exact HF|]. split; [|exact S].
  rewrite (sgn_val_gen _ HF), (sgn_val_gen x Hf), S, (val_fields _ E'), (val_fields x He), F1, F2.
  replace (efield x + N - 150)%Z with (efield x - 150 + N)%Z by lia. rewrite bpow_plus. destruct (sgn x); ring.
Qed.
Lemma frexp_fields I x : I = SSE \/ I = AVX ->
  sgn (fst (frexp_float I x)) = sgn x /\ efield (fst (frexp_float I x)) = 126%Z /\ ffield (fst (frexp_float I x)) = ffield x /\
  reads (snd (frexp_float I x)) (efield x - 126).
Proof.
  intros HI. destruct (x86_wo I x HI) as [S M]. unfold frexp_float. cbn [fst snd].
  assert (X : mag (bor (andnot I gen_exp_mask x) gen_exp_mask_1) = (126 * 2 ^ 23 + ffield x)%Z).
  { rewrite mag_bor, M. change (mag (gen_exp_mask_1 (t := F32))) with (126 * 2 ^ 23)%Z.
    rewrite lor_disjoint by (try apply ffield_range; lia). lia. }
  destruct (fields_of _ _ _ X (ffield_range x)) as [F1 F2].
  split; [rewrite sgn_bor, S; apply orb_false_r|]. split; [exact F1|]. split; [exact F2|].
  assert (R : (0 <= efield x < 256)%Z).
  { unfold efield. pose proof (mag_range x) as G. change (2 ^ (mw F32 + ew F32))%Z with (2 ^ 31)%Z in G. split; [apply Z.div_pos; lia|apply Z.div_lt_upper_bound; lia]. }
  rewrite exponent_bits. rewrite isrli_lane; [|unfold pattern; lia|lia]. change (16 + 7)%Z with 23%Z. rewrite Z.div_mul by lia.
  change (u32 126) with 126%Z. apply reads_u32. lia.
Qed.
Lemma frexp_exact I x : I = SSE \/ I = AVX -> isfin x = true -> ~ tiny x ->
  let s := fst (frexp_float I x) in
  exists E, reads (snd (frexp_float I x)) E /\ isfin s = true /\ / 2 <= Rabs (val s) < 1 /\ sgn s = sgn x /\
    val x = val s * bpow radix2 E.
Proof.
  intros HI Hf Ht s. pose proof (normal_fields x Hf Ht) as He. destruct (frexp_fields I x HI) as (S & F1 & F2 & R).
  fold s in S, F1, F2. exists (efield x - 126)%Z. split; [exact R|].
  assert (E' : (1 <= efield s <= 254)%Z) by lia. destruct (fields_normal _ E') as [HF _]. split; [exact HF|].
  split.
  { pose proof (val_binade s E') as B. rewrite F1 in B. change (bpow radix2 (126 - 127)) with (/ 2) in B. change (bpow radix2 (126 - 126)) with 1 in B. exact B. }
  split; [exact S|].
  rewrite (sgn_val_gen s HF), (sgn_val_gen x Hf), S, (val_fields _ E'), (val_fields x He), F1, F2.
  replace (efield x - 150)%Z with ((126 - 150) + (efield x - 126))%Z by lia. rewrite bpow_plus. destruct (sgn x); ring.
Qed.
Lemma ldexp_frexp I x : I = SSE \/ I = AVX ->
  ldexp_float I (fst (frexp_float I x)) (snd (frexp_float I x)) = x.
Proof.
  intros HI. destruct (frexp_fields I x HI) as (S & F1 & F2 & R).
  assert (E : (0 <= efield x < 256)%Z).
  { unfold efield. pose proof (mag_range x) as G. change (2 ^ (mw F32 + ew F32))%Z with (2 ^ 31)%Z in G. split; [apply Z.div_pos; lia|apply Z.div_lt_upper_bound; lia]. }
  destruct (ldexp_fields I (fst (frexp_float I x)) _ _ HI R) as [S' M']; [lia|].
  apply sm_inj; [congruence|]. rewrite M', F1, F2, (mag_fields x). lia.
Qed.
Lemma ldexp_zero I n N : I = SSE \/ I = AVX -> reads n N -> (1 <= N <= 254)%Z ->
  val (ldexp_float I (f_ofZ F32 0) n) = bpow radix2 (N - 127).
Proof.
  intros HI Hn HN. assert (Z1 : efield (f_ofZ F32 0) = 0%Z) by (unfold efield; rewrite mag_zero0; reflexivity).
  assert (Z2 : ffield (f_ofZ F32 0) = 0%Z) by (unfold ffield; rewrite mag_zero0; reflexivity).
  destruct (ldexp_fields I (f_ofZ F32 0) n N HI Hn) as [S M]; [lia|].
  destruct (fields_of (ldexp_float I (f_ofZ F32 0) n) N 0) as [F1 F2]; [rewrite M; lia|lia|].
  assert (E' : (1 <= efield (ldexp_float I (f_ofZ F32 0) n) <= 254)%Z) by lia.
  destruct (fields_normal _ E') as [HF _]. rewrite (sgn_val_gen _ HF), S, sgn_zero, (val_fields _ E'), F1, F2.
  change (IZR (2 ^ 23 + 0)) with (bpow radix2 23). rewrite <- bpow_plus. f_equal. lia.
Qed.
