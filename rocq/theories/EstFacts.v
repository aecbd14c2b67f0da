(** Facts about the estimate instructions: bit fields and tables. *)
From Coq Require Import ZArith Reals List Lia Lra Bool.
From Flocq Require Import Core IEEE754.Binary IEEE754.Bits.
From Verif Require Import Base Backend Lanes Float LaneOps VecMath Estimate SpecLane SpecRound SpecInt FloatFacts FloatRound LaneFacts VecFacts VecMore2
  RoundFacts RoundMore RoundMore2 IntFacts LdexpFacts.
Local Open Scope Z_scope.

(** ** Fields *)
Lemma sign_field_ok (x : F F32) : sign_field x = if sgn x then 1 else 0.
Proof. unfold sign_field. rewrite (bits_sm x). pose proof (mag_range x). change (2 ^ (mw F32 + ew F32)) with (2 ^ 31) in *.
  destruct (sgn x); symmetry; apply (Z.div_unique _ _ _ (mag x)); lia. Qed.
Lemma exp_field_ok (x : F F32) : exp_field x = efield x.
Proof. unfold exp_field, efield. rewrite (bits_sm x). pose proof (mag_range x). change (2 ^ (mw F32 + ew F32)) with (2 ^ 8 * 2 ^ 23) in *.
  assert (0 <= mag x / 2 ^ 23 < 2 ^ 8) by (split; [apply Z.div_pos; lia|apply Z.div_lt_upper_bound; lia]).
  destruct (sgn x); [|apply Z.mod_small; lia].
  rewrite Z.div_add_l by lia. rewrite <- Zplus_mod_idemp_l, Z.mod_same, Z.add_0_l by lia. apply Z.mod_small. lia. Qed.
Lemma frac_field_ok (x : F F32) : frac_field x = ffield x.
Proof. unfold frac_field, ffield. rewrite (bits_sm x). change (2 ^ (mw F32 + ew F32)) with (2 ^ 8 * 2 ^ 23) in *.
  destruct (sgn x); [|f_equal; lia]. rewrite Z.add_comm, Z.mod_add by lia. reflexivity. Qed.

(** A float put together from its fields. *)
Lemma built (s : bool) (E f : Z) : 1 <= E <= 254 -> 0 <= f < 2 ^ 23 ->
  let x := of_bits F32 ((if s then 1 else 0) * 2 ^ 31 + E * 2 ^ 23 + f) in
  isfin x = true /\ sgn x = s /\ val x = ((if s then -1 else 1) * (IZR (2 ^ 23 + f) * bpow radix2 (E - 150)))%R.
Proof.
  intros HE Hf x. assert (B : bits x = (if s then 1 else 0) * 2 ^ 31 + E * 2 ^ 23 + f).
  { apply bits_of_bits. change (width F32) with 32. destruct s; lia. }
  pose proof (bits_sm x) as Q. pose proof (mag_range x) as M. change (2 ^ (mw F32 + ew F32)) with (2 ^ 31) in *.
  assert (S : sgn x = s) by (destruct s, (sgn x); try reflexivity; lia).
  assert (MX : mag x = E * 2 ^ 23 + f) by (rewrite S in Q; destruct s; lia).
  destruct (fields_of x E f MX Hf) as [E1 E2]. assert (E' : 1 <= efield x <= 254) by lia. destruct (fields_normal x E') as [FX _].
  split; [exact FX|]. split; [exact S|]. rewrite (sgn_val_gen x FX), S, (val_fields x E'), E1, E2. destruct s; ring.
Qed.

(** ** The table of the reciprocal estimate *)
(** Proof auxiliary: the error check of one entry. *)
Definition recip_entry (a : Z) : bool :=
  let e := recip_estimate a in
  (256 <=? e) && (e <=? 511) && (2 ^ 17 - 374 <=? a * e) && ((a + 1) * e <=? 2 ^ 17 + 374).
Lemma recip_table : forallb (fun i => recip_entry (256 + Z.of_nat i)) (seq 0 256) = true.
Proof. vm_compute. reflexivity. Qed.
Lemma recip_entry_ok a : 256 <= a <= 511 -> recip_entry a = true.
Proof.
  intros H. pose proof recip_table as T. rewrite forallb_forall in T. specialize (T (Z.to_nat (a - 256))).
  rewrite Z2Nat.id in T by lia. replace (256 + (a - 256)) with a in T by lia. apply T. apply in_seq. lia.
Qed.
(** Proof auxiliary: the error check of one entry of the rsqrt table. *)
Definition rsqrt_row (a e : Z) : bool :=
  (256 <=? e) && (e <=? 511) && (33333419 <=? a * (e * e)) && ((a + 1) * (e * e) <=? 33775000).
Lemma rsqrt_row_ok a e : rsqrt_row a e = true -> 256 <= e /\ e <= 511 /\ 33333419 <= a * (e * e) /\ (a + 1) * (e * e) <= 33775000.
Proof. unfold rsqrt_row. rewrite !andb_true_iff, !Z.leb_le. tauto. Qed.
Lemma rsqrt_table : forallb (fun i => rsqrt_row (128 + Z.of_nat i) (rsqrt_estimate (128 + Z.of_nat i))) (seq 0 384) = true.
Proof. vm_compute. reflexivity. Qed.
Lemma rsqrt_entry_ok a : 128 <= a <= 511 -> rsqrt_row a (rsqrt_estimate a) = true.
Proof.
  intros H. pose proof rsqrt_table as T. rewrite forallb_forall in T. specialize (T (Z.to_nat (a - 128))).
  rewrite Z2Nat.id in T by lia. replace (128 + (a - 128)) with a in T by lia. apply T. apply in_seq. lia.
Qed.

(** ** vrecpe *)
Local Open Scope R_scope.
Lemma scaled_frac (f k : Z) : (0 <= k)%Z -> IZR (f / 2 ^ k) * IZR (2 ^ k) <= IZR f < (IZR (f / 2 ^ k) + 1) * IZR (2 ^ k).
Proof.
  intros K. pose proof (Z.pow_pos_nonneg 2 k ltac:(lia) K) as P. pose proof (Z.mul_div_le f (2 ^ k) P). pose proof (Z.mul_succ_div_gt f (2 ^ k) P).
  change 1 with (IZR 1). rewrite <- plus_IZR, <- !mult_IZR. split; [apply IZR_le|apply IZR_lt]; lia.
Qed.
Lemma bp (a b c : Z) : (a + b = c)%Z -> bpow radix2 a * bpow radix2 b = bpow radix2 c.
Proof. intros <-. symmetry. apply bpow_plus. Qed.

Lemma normal_e (x : F F32) : isfin x = true -> bpow radix2 (-126) <= Rabs (val x) -> (1 <= efield x <= 254)%Z.
Proof. intros H B. apply normal_fields; [exact H|]. intros [_ T]. change (bpow radix2 (-126)) with (bpow radix2 (match F32 with F32 => -126 | F64 => -1022 end)) in B. lra. Qed.
Lemma efield_lt (x : F F32) k : (1 <= efield x <= 254)%Z -> Rabs (val x) < bpow radix2 k -> (efield x <= k + 126)%Z.
Proof. intros E H. pose proof (val_binade x E) as [B _]. assert (efield x - 127 < k)%Z; [|lia]. apply (lt_bpow radix2). lra. Qed.

Lemma vrecpe_ok (n : nans F32) (x : F F32) : (1 <= efield x <= 252)%Z ->
  isfin (vrecpe n x) = true /\ sgn (vrecpe n x) = sgn x /\ Rabs (val (vrecpe n x) * val x - 1) <= 187 / 65536.
Proof.
  intros HE. unfold vrecpe. cbv zeta. rewrite exp_field_ok, frac_field_ok, sign_field_ok.
  destruct (Z.eqb_spec (efield x) 255); [lia|]. destruct (Z.eqb_spec (efield x) 0); [lia|]. destruct (Z.leb_spec 253 (efield x)); [lia|].
  pose proof (ffield_range x) as HF. set (a := (256 + ffield x / 2 ^ 15)%Z).
  assert (A0 : (0 <= ffield x / 2 ^ 15 < 256)%Z) by (split; [apply Z.div_pos; lia|apply Z.div_lt_upper_bound; lia]).
  assert (HA : (256 <= a <= 511)%Z) by (unfold a; lia). pose proof (recip_entry_ok a HA) as T. unfold recip_entry in T. cbv zeta in T.
  rewrite !andb_true_iff, !Z.leb_le in T. set (e := recip_estimate a) in *. destruct T as (((T1 & T2) & T3) & T4).
  destruct (built (sgn x) (253 - efield x) ((e - 256) * 2 ^ 15)) as (B1 & B2 & B3); [lia|lia|].
  split; [exact B1|]. split; [exact B2|]. rewrite B3. destruct (fields_normal x ltac:(lia)) as [FX _].
  rewrite (sgn_val_gen x FX), (val_fields x ltac:(lia)).
  replace (2 ^ 23 + (e - 256) * 2 ^ 15)%Z with (e * 2 ^ 15)%Z by lia. rewrite mult_IZR.
  pose proof (scaled_frac (ffield x) 15 ltac:(lia)) as SF. rewrite plus_IZR.
  assert (AV : IZR (ffield x / 2 ^ 15) = IZR a - 256) by (unfold a; rewrite plus_IZR; ring). rewrite AV in SF.
  change (IZR (2 ^ 23)) with 8388608. change (IZR (2 ^ 15)) with 32768 in *.
  pose proof (bp (253 - efield x - 150) (efield x - 150) (-47) ltac:(lia)) as BP. change (bpow radix2 (-47)) with (/ 140737488355328) in BP.
  set (b1 := bpow radix2 (253 - efield x - 150)) in *. set (b2 := bpow radix2 (efield x - 150)) in *. clearbody b1 b2.
  set (fr := IZR (ffield x)) in *. clearbody fr.
  assert (Q : forall q, (if sgn x then -1 else 1) * (IZR e * 32768 * b1) * q = IZR e * 32768 * (b1 * ((if sgn x then -1 else 1) * q))) by (intros q; ring).
  assert (V : forall m, (if sgn x then - (m * b2) else m * b2) = (if sgn x then -1 else 1) * (m * b2)) by (intros m; destruct (sgn x); ring).
  apply IZR_le in T1, T2, T3, T4. rewrite minus_IZR, mult_IZR in T3. rewrite plus_IZR, mult_IZR, plus_IZR in T4.
  change (IZR (2 ^ 17)) with 131072 in *.
  set (ev := IZR e) in *. set (av := IZR a) in *. clearbody ev av.
  match goal with |- Rabs (?p * ?w - 1) <= _ => assert (W : p * w - 1 = ev * (8388608 + fr) / 4294967296 - 1) end.
  { destruct (sgn x).
    - transitivity (ev * 32768 * (8388608 + fr) * (b1 * b2) - 1); [ring|]. rewrite BP. field.
    - transitivity (ev * 32768 * (8388608 + fr) * (b1 * b2) - 1); [ring|]. rewrite BP. field. }
  rewrite W. apply Rabs_le.
  assert (L : ev * (av * 32768) <= ev * (8388608 + fr)) by (apply Rmult_le_compat_l; lra).
  assert (U : ev * (8388608 + fr) <= ev * ((av + 1) * 32768)) by (apply Rmult_le_compat_l; lra). lra.
Qed.

(** ** vrsqrte *)
Lemma rsqrt_built (x : F F32) : (1 <= efield x <= 254)%Z -> sgn x = false ->
  forall a k q E, (128 <= a <= 511)%Z -> (1 <= E <= 254)%Z -> k = IZR (2 ^ q) -> (q = 15 \/ q = 16)%Z -> (E * 2 + (efield x - 127) = 268 - q)%Z ->
    IZR a * k <= 8388608 + IZR (ffield x) <= (IZR a + 1) * k ->
    let r := of_bits F32 (E * 2 ^ 23 + (rsqrt_estimate a - 256) * 2 ^ 15) in
    isfin r = true /\ 0 < val r /\ 33333419 / 33554432 <= val x * (val r * val r) <= 33775000 / 33554432.
Proof.
  intros HE HS. pose proof (ffield_range x) as HF.
  intros a k q E Ha HEE Hk Hq HEQ HB. pose proof (rsqrt_row_ok a (rsqrt_estimate a) (rsqrt_entry_ok a Ha)) as T.
    generalize dependent (rsqrt_estimate a). intros e T r. destruct T as (T1 & T2 & T3 & T4).
    pose proof (built false E ((e - 256) * 2 ^ 15) HEE ltac:(lia)) as BB. cbv zeta in BB. cbn [negb] in BB.
    replace (0 * 2 ^ 31 + E * 2 ^ 23 + (e - 256) * 2 ^ 15)%Z with (E * 2 ^ 23 + (e - 256) * 2 ^ 15)%Z in BB by lia. fold r in BB.
    clearbody r. destruct BB as (B1 & B2 & B3). split; [exact B1|].
    rewrite B3. replace (2 ^ 23 + (e - 256) * 2 ^ 15)%Z with (e * 2 ^ 15)%Z by lia. rewrite mult_IZR. change (IZR (2 ^ 15)) with 32768.
    apply IZR_le in T1, T2, T3, T4. rewrite !mult_IZR in T3. rewrite !mult_IZR, plus_IZR in T4. set (ev := IZR e) in *. set (av := IZR a) in *.
    split. { rewrite Rmult_1_l. apply Rmult_lt_0_compat; [lra|apply bpow_gt_0]. }
    destruct (fields_normal x ltac:(lia)) as [FX _]. rewrite (sgn_val_gen x FX), HS, (val_fields x ltac:(lia)), plus_IZR. change (IZR (2 ^ 23)) with 8388608.
    set (fr := IZR (ffield x)) in *. clearbody ev av fr.
    match goal with |- _ <= ?w <= _ => assert (W : w = (8388608 + fr) / k * (ev * ev) / 33554432) end.
    { transitivity ((8388608 + fr) * (ev * ev) * (32768 * 32768) * (bpow radix2 (efield x - 150) * bpow radix2 (E - 150) * bpow radix2 (E - 150))); [ring|].
      rewrite <- !bpow_plus. replace (efield x - 150 + (E - 150) + (E - 150))%Z with (-55 - (q - 0) + - 0)%Z by lia.
      subst k. destruct Hq as [-> | ->].
      - change (bpow radix2 (-55 - (15 - 0) + - 0)) with (/ 1180591620717411303424). change (IZR (2 ^ 15)) with 32768. field.
      - change (bpow radix2 (-55 - (16 - 0) + - 0)) with (/ 2361183241434822606848). change (IZR (2 ^ 16)) with 65536. field. }
    rewrite W. assert (KP : 0 < k) by (subst k; destruct Hq as [-> | ->]; apply IZR_lt; lia).
    assert (Z1 : av <= (8388608 + fr) / k) by (apply Rmult_le_reg_r with k; [exact KP|]; unfold Rdiv; rewrite Rmult_assoc, Rinv_l by lra; lra).
    assert (Z2 : (8388608 + fr) / k <= av + 1) by (apply Rmult_le_reg_r with k; [exact KP|]; unfold Rdiv; rewrite Rmult_assoc, Rinv_l by lra; lra).
    set (z := (8388608 + fr) / k) in *. clearbody z.
    assert (0 <= ev * ev) by (apply Rmult_le_pos; lra).
    assert (av * (ev * ev) <= z * (ev * ev)) by (apply Rmult_le_compat_r; assumption).
    assert (z * (ev * ev) <= (av + 1) * (ev * ev)) by (apply Rmult_le_compat_r; assumption). lra. 
Qed.
Lemma vrsqrte_ok (n : nans F32) (x : F F32) : (1 <= efield x <= 254)%Z -> sgn x = false ->
  isfin (vrsqrte n x) = true /\ 0 < val (vrsqrte n x) /\
  33333419 / 33554432 <= val x * (val (vrsqrte n x) * val (vrsqrte n x)) <= 33775000 / 33554432.
Proof.
  intros HE HS. unfold vrsqrte. cbv zeta. rewrite exp_field_ok, frac_field_ok, sign_field_ok, HS. cbn [Z.eqb negb].
  destruct (Z.eqb_spec (efield x) 255); [lia|]. destruct (Z.eqb_spec (efield x) 0); [lia|]. cbn [andb].
  pose proof (ffield_range x) as HF.
  pose proof (rsqrt_built x HE HS) as G.
  destruct (Z.even (efield x)) eqn:EV.
  - apply (G _ (IZR (2 ^ 15)) 15%Z).
    + assert (0 <= ffield x / 2 ^ 15 < 256)%Z by (split; [apply Z.div_pos; lia|apply Z.div_lt_upper_bound; lia]). lia.
    + split; [apply Z.div_le_lower_bound; lia|]. assert ((380 - efield x) / 2 < 255)%Z; [apply Z.div_lt_upper_bound; lia|lia].
    + reflexivity.
    + auto.
    + rewrite Z.even_spec in EV. destruct EV as [h Eh]. rewrite Eh. replace (380 - 2 * h)%Z with ((190 - h) * 2)%Z by lia. rewrite Z.div_mul by lia. lia.
    + pose proof (scaled_frac (ffield x) 15 ltac:(lia)). rewrite plus_IZR. change (IZR (2 ^ 15)) with 32768 in *. lra.
  - apply (G _ (IZR (2 ^ 16)) 16%Z).
    + assert (0 <= ffield x / 2 ^ 16 < 128)%Z by (split; [apply Z.div_pos; lia|apply Z.div_lt_upper_bound; lia]). lia.
    + split; [apply Z.div_le_lower_bound; lia|]. assert ((380 - efield x) / 2 < 255)%Z; [apply Z.div_lt_upper_bound; lia|lia].
    + reflexivity.
    + auto.
    + rewrite <- Z.negb_odd, negb_false_iff, Z.odd_spec in EV. destruct EV as [h Eh]. rewrite Eh. replace (380 - (2 * h + 1))%Z with (1 + (189 - h) * 2)%Z by lia. rewrite Z.div_add by lia. change (1 / 2)%Z with 0%Z. lia.
    + pose proof (scaled_frac (ffield x) 16 ltac:(lia)). rewrite plus_IZR. change (IZR (2 ^ 16)) with 65536 in *. lra.
Qed.
