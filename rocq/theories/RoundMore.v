(** Floor, ceiling, fractional part and truncation. *)

From Coq Require Import ZArith Reals List Lia Lra Bool.
From Flocq Require Import Core IEEE754.Binary IEEE754.Bits.
From Verif Require Import Base Mem Backend Lanes Float LaneOps ScalarMath VecMath SpecLane SpecRound FloatFacts FloatRound LaneFacts VecFacts VecMore ReduceMore RoundFacts.
Local Open Scope R_scope.

Section Sgn.
Context {t : fmt}.
Implicit Types x y : F t.
Lemma sgn_val_gen x : isfin x = true -> val x = (if sgn x then - Rabs (val x) else Rabs (val x)).
Proof.
  intros H. rewrite <- val_fabs. rewrite <- (cond_fabs x) at 1. destruct (sgn x); [apply val_fneg|reflexivity].
Qed.
Lemma sgn_nonzero x y : isfin x = true -> isfin y = true -> val x = val y -> val x <> 0 -> sgn x = sgn y.
Proof.
  intros Hx Hy E N. pose proof (sgn_val_gen x Hx) as A. pose proof (sgn_val_gen y Hy) as B. rewrite <- E in B.
  pose proof (Rabs_pos_lt _ N). destruct (sgn x), (sgn y); try reflexivity; lra.
Qed.
Lemma fin_eq0 x y : isfin x = true -> isfin y = true -> val x = val y -> (val x = 0 -> sgn x = sgn y) -> x = y.
Proof.
  intros Hx Hy E S. apply fin_eq; [exact Hx|exact Hy|exact E|].
  destruct (Req_dec (val x) 0) as [Z|Z]; [exact (S Z)|]. apply sgn_nonzero; assumption.
Qed.
Lemma feq_val x y : isfin x = true -> isfin y = true -> val x = val y -> feq x y = true.
Proof.
  intros Hx Hy E. apply feq_iff. split; [apply fin_not_nan; exact Hx|]. split; [apply fin_not_nan; exact Hy|].
  apply ord_eq_val; assumption.
Qed.
(** A mask and gen_one. *)
Lemma vmask_one c I r a b : isnan a = false -> isnan b = false ->
  band (vmask I r a b) (gen_one c I) = if srel r a b then f_ofZ t 1 else f_ofZ t 0.
Proof.
  intros Ha Hb. rewrite gen_one_1. unfold vmask.
  assert (H : vrel I r a b = srel r a b).
  { rewrite vrel_srel. unfold avx_hole. rewrite Ha, Hb. destruct I, r; cbn [orb andb]; apply orb_false_r. }
  destruct I; try (rewrite band_mask_l, H; reflexivity).
  destruct (srel r a b); apply bits_inj; rewrite bits_band; destruct t; vm_compute; reflexivity.
Qed.
End Sgn.

Section Odd.
Context (n : nans F32).
Implicit Types x y : F F32.
Lemma rnd_odd m : (2 ^ 24 < m < 2 ^ 25)%Z -> Z.odd m = true ->
  rnd F32 (IZR m) = IZR (if Z.even ((m - 1) / 2) then m - 1 else m + 1).
Proof.
  intros Hm Ho. unfold rnd. rewrite fexp_FLT. unfold round.
  assert (Hc : cexp radix2 (FLT_exp (emin F32) (prec F32)) (IZR m) = 1%Z).
  { unfold cexp. rewrite (mag_unique_pos radix2 (IZR m) 25).
    - reflexivity.
    - change (bpow radix2 (25 - 1)) with (IZR (2 ^ 24)). change (bpow radix2 25) with (IZR (2 ^ 25)).
      split; [apply IZR_le; lia|apply IZR_lt; lia]. }
  unfold scaled_mantissa. rewrite Hc. unfold F2R. cbn [Fnum Fexp Z.opp].
  change (bpow radix2 (-1)) with (/ 2). change (bpow radix2 1) with 2.
  set (j := ((m - 1) / 2)%Z).
  assert (Ej : m = (2 * j + 1)%Z).
  { apply Z.odd_spec in Ho. destruct Ho as [q ->]. unfold j. replace (2 * q + 1 - 1)%Z with (q * 2)%Z by lia. rewrite Z.div_mul by lia. reflexivity. }
  assert (Et : IZR m * / 2 = IZR j + / 2) by (rewrite Ej, plus_IZR, mult_IZR; field).
  rewrite Et. cbn [BinarySingleNaN.round_mode].
  rewrite (nearest_even_unique _ _ _ (nearest_even_ZnearestE (IZR j + / 2)) (nearest_even_tie _ _ eq_refl)).
  rewrite <- mult_IZR. f_equal. destruct (Z.even j); lia.
Qed.
Lemma magic_odd c I k : (2 ^ 23 < k < 2 ^ 24)%Z -> Z.odd k = true ->
  let r := vec_round_float c I n (f_ofZ F32 k) in
  isfin r = true /\ val r = IZR (if Z.even ((k - 1) / 2) then k - 1 else k + 1).
Proof.
  intros Hk Ho r. destruct (ofZ_exact (t := F32) k) as (A & B & C); [change (2 ^ prec F32)%Z with 16777216%Z; lia|].
  assert (Hs : sgn (f_ofZ F32 k) = false) by (rewrite C; apply Z.ltb_ge; lia).
  assert (Hf : fabs (f_ofZ F32 k) = f_ofZ F32 k) by (rewrite fabs_cond, Hs; reflexivity).
  unfold r. rewrite vec_round_float_abs. cbv zeta. rewrite Hs, Hf.
  destruct (magic_sum n (f_ofZ F32 k) A) as (P & Q & S).
  { rewrite B. split; [apply IZR_le; lia|apply IZR_le; lia]. }
  rewrite B, <- plus_IZR in Q. rewrite rnd_odd in Q; [|lia|rewrite Z.odd_add, Ho; reflexivity].
  assert (E : Z.even ((k + 2 ^ 23 - 1) / 2) = Z.even ((k - 1) / 2)).
  { replace (k + 2 ^ 23 - 1)%Z with (k - 1 + 2 ^ 22 * 2)%Z by lia. rewrite Z.div_add by lia. rewrite Z.even_add.
    change (Z.even (2 ^ 22)) with true. destruct (Z.even ((k - 1) / 2)); reflexivity. }
  rewrite E in Q. destruct two23 as (A2 & B2 & C2).
  set (K := (if Z.even ((k - 1) / 2) then k - 1 else k + 1)%Z).
  assert (D : val (fadd n (f_ofZ F32 k) (f_ofZ F32 (2 ^ 23))) - val (f_ofZ F32 (2 ^ 23)) = IZR K).
  { rewrite Q, B2, <- minus_IZR. f_equal. unfold K. destruct (Z.even ((k - 1) / 2)); lia. }
  assert (HK : (0 <= K <= 2 ^ 24)%Z) by (unfold K; destruct (Z.even ((k - 1) / 2)); lia).
  assert (RK : rnd F32 (IZR K) = IZR K) by (apply rnd_id, (int_fmt (t := F32)); change (2 ^ prec F32)%Z with 16777216%Z; lia).
  destruct (fsub_fin n _ _ P A2) as (X & Y & Z).
  - rewrite D, RK. apply big_int. lia.
  - rewrite D, RK in Y. split; [exact X|exact Y].
Qed.
End Odd.

Section FloorCeil.
Context (n : nans F32).
Implicit Types x y : F F32.
Lemma one_ok : isfin (f_ofZ F32 1) = true /\ val (f_ofZ F32 1) = 1 /\ sgn (f_ofZ F32 1) = false.
Proof. destruct (ofZ_exact (t := F32) 1) as (A & B & C); [cbv; discriminate|]. auto. Qed.
Lemma zero_ok : isfin (f_ofZ F32 0) = true /\ val (f_ofZ F32 0) = 0 /\ sgn (f_ofZ F32 0) = false.
Proof. destruct (ofZ_exact (t := F32) 0) as (A & B & C); [cbv; discriminate|]. auto. Qed.
Lemma int_op (r a : F F32) K d : isfin r = true -> val r = IZR K -> isfin a = true -> val a = IZR d -> sgn a = false ->
  (Z.abs (K - d) <= 2 ^ 24)%Z -> isfin (fsub n r a) = true /\ val (fsub n r a) = IZR (K - d) /\
  (val (fsub n r a) = 0 -> sgn (fsub n r a) = sgn r).
Proof.
  intros Hr Vr Ha Va Sa HK.
  assert (D : val r - val a = IZR (K - d)) by (rewrite Vr, Va, minus_IZR; reflexivity).
  assert (RK : rnd F32 (IZR (K - d)) = IZR (K - d)) by (apply rnd_id, (int_fmt (t := F32)); exact HK).
  destruct (fsub_fin n _ _ Hr Ha) as (X & Y & Z).
  - rewrite D, RK. apply big_int. lia.
  - rewrite D in Y, Z. rewrite RK in Y. split; [exact X|]. split; [exact Y|]. intros E. rewrite Y in E. rewrite Z, E.
    rewrite Rcompare_Eq by reflexivity. rewrite Sa, andb_true_r. reflexivity.
Qed.
Lemma int_op_add (r a : F F32) K d : isfin r = true -> val r = IZR K -> isfin a = true -> val a = IZR d -> sgn a = false ->
  (Z.abs (K + d) <= 2 ^ 24)%Z -> isfin (fadd n r a) = true /\ val (fadd n r a) = IZR (K + d) /\
  (val (fadd n r a) = 0 -> sgn (fadd n r a) = false).
Proof.
  intros Hr Vr Ha Va Sa HK.
  assert (D : val r + val a = IZR (K + d)) by (rewrite Vr, Va, plus_IZR; reflexivity).
  assert (RK : rnd F32 (IZR (K + d)) = IZR (K + d)) by (apply rnd_id, (int_fmt (t := F32)); exact HK).
  destruct (fadd_fin n _ _ Hr Ha) as (X & Y & Z).
  - rewrite D, RK. apply big_int. lia.
  - rewrite D in Y, Z. rewrite RK in Y. split; [exact X|]. split; [exact Y|]. intros E. rewrite Y in E. rewrite Z, E.
    rewrite Rcompare_Eq by reflexivity. rewrite Sa, andb_false_r. reflexivity.
Qed.
(** vec_floor_float and vec_ceil_float in terms of the rounded argument. *)
Lemma floor_from_round c I x K : isfin x = true -> isfin (vec_round_float c I n x) = true ->
  val (vec_round_float c I n x) = IZR K -> (Z.abs K < 2 ^ 24)%Z \/ (K = 2 ^ 24)%Z ->
  let r := vec_floor_float c I n x in
  isfin r = true /\ val r = IZR (if Rlt_bool (val x) (IZR K) then K - 1 else K) /\
  (val r = 0 -> sgn r = sgn (vec_round_float c I n x)).
Proof.
  intros Hx Hr Vr HK r. unfold r, vec_floor_float. rewrite vmask_one by (apply fin_not_nan; assumption).
  assert (G : srel GT (vec_round_float c I n x) x = Rlt_bool (val x) (IZR K)).
  { destruct (Rlt_bool_spec (val x) (IZR K)) as [L|L].
    - apply (srel_real GT); [assumption..|]. cbn. lra.
    - apply not_true_iff_false. intros T. apply (srel_real GT) in T; [|assumption..]. cbn in T. lra. }
  rewrite G. destruct (Rlt_bool (val x) (IZR K)).
  - destruct one_ok as (A & B & C). apply int_op; [assumption..|lia].
  - destruct zero_ok as (A & B & C). replace (IZR K) with (IZR (K - 0)) by (f_equal; lia). apply int_op; [assumption..|lia].
Qed.
Lemma ceil_from_round c I x K : isfin x = true -> isfin (vec_round_float c I n x) = true ->
  val (vec_round_float c I n x) = IZR K -> (Z.abs K < 2 ^ 24)%Z ->
  let r := vec_ceil_float c I n x in
  isfin r = true /\ val r = IZR (if Rlt_bool (IZR K) (val x) then K + 1 else K) /\
  (val r = 0 -> sgn r = false).
Proof.
  intros Hx Hr Vr HK r. unfold r, vec_ceil_float. rewrite vmask_one by (apply fin_not_nan; assumption).
  assert (G : srel LT (vec_round_float c I n x) x = Rlt_bool (IZR K) (val x)).
  { destruct (Rlt_bool_spec (IZR K) (val x)) as [L|L].
    - apply (srel_real LT); [assumption..|]. cbn. lra.
    - apply not_true_iff_false. intros T. apply (srel_real LT) in T; [|assumption..]. cbn in T. lra. }
  rewrite G. destruct (Rlt_bool (IZR K) (val x)).
  - destruct one_ok as (A & B & C). apply int_op_add; [assumption..|lia].
  - destruct zero_ok as (A & B & C). replace (IZR K) with (IZR (K + 0)) by (f_equal; lia). apply int_op_add; [assumption..|lia].
Qed.
Lemma round_small x : within_2_23 x -> (Z.abs (ZnearestE (val x)) <= 2 ^ 23)%Z.
Proof.
  intros [_ H]. apply Rabs_le_inv in H. rewrite <- opp_IZR in H. apply ZnearestE_bounds in H. lia.
Qed.
Lemma floor_val r : (if Rlt_bool r (IZR (ZnearestE r)) then ZnearestE r - 1 else ZnearestE r)%Z = Zfloor r.
Proof.
  apply floor_of_unique. pose proof (Znearest_half (fun z => negb (Z.even z)) r) as H. apply Rabs_le_inv in H.
  unfold floor_of. destruct (Rlt_bool_spec r (IZR (ZnearestE r))) as [L|L]; [rewrite minus_IZR|]; lra.
Qed.
Lemma ceil_val r : (if Rlt_bool (IZR (ZnearestE r)) r then ZnearestE r + 1 else ZnearestE r)%Z = Zceil r.
Proof.
  apply ceil_of_unique. pose proof (Znearest_half (fun z => negb (Z.even z)) r) as H. apply Rabs_le_inv in H.
  unfold ceil_of. destruct (Rlt_bool_spec (IZR (ZnearestE r)) r) as [L|L]; [rewrite plus_IZR|]; lra.
Qed.
Lemma vec_floor_float_eq c I x : within_2_23 x -> vec_floor_float c I n x = ffloor n x.
Proof.
  intros H. destruct (vec_round_float_fin n c I x H) as (A & B & C). pose proof (round_small x H) as R.
  destruct (floor_from_round c I x _ (proj1 H) A B) as (P & Q & S); [left; lia|]. rewrite floor_val in Q.
  destruct (ffloor_fin n x (proj1 H)) as (D & E & G).
  apply fin_eq0; [exact P|exact D|congruence|]. intros Z. rewrite (S Z), G. exact C.
Qed.
Lemma vec_ceil_float_fin c I x : within_2_23 x ->
  isfin (vec_ceil_float c I n x) = true /\ val (vec_ceil_float c I n x) = IZR (Zceil (val x)) /\
  (val (vec_ceil_float c I n x) = 0 -> sgn (vec_ceil_float c I n x) = false).
Proof.
  intros H. destruct (vec_round_float_fin n c I x H) as (A & B & C). pose proof (round_small x H) as R.
  destruct (ceil_from_round c I x _ (proj1 H) A B) as (P & Q & S); [lia|]. rewrite ceil_val in Q. auto.
Qed.
Lemma floor_odd c I k : (2 ^ 23 < k < 2 ^ 24)%Z -> (k mod 4 = 1)%Z ->
  is_int (vec_floor_float c I n (f_ofZ F32 k)) (k - 1).
Proof.
  intros Hk H4. assert (Ek : k = (4 * (k / 4) + 1)%Z) by (pose proof (Z.div_mod k 4); lia).
  assert (Ho : Z.odd k = true) by (rewrite Ek, Z.odd_add, Z.odd_mul; reflexivity).
  assert (E2 : Z.even ((k - 1) / 2) = true).
  { rewrite Ek. replace (4 * (k / 4) + 1 - 1)%Z with (2 * (k / 4) * 2)%Z by lia. rewrite Z.div_mul by lia. apply Z.even_mul. }
  destruct (magic_odd n c I k Hk Ho) as [A B]. rewrite E2 in B.
  destruct (ofZ_exact (t := F32) k) as (X & Y & _); [change (2 ^ prec F32)%Z with 16777216%Z; lia|].
  destruct (floor_from_round c I _ _ X A B) as (P & Q & _); [lia|].
  rewrite Y in Q. rewrite Rlt_bool_false in Q by (apply IZR_le; lia). split; assumption.
Qed.
Lemma ceil_odd c I k : (2 ^ 23 < k < 2 ^ 24 - 1)%Z -> (k mod 4 = 3)%Z ->
  is_int (vec_ceil_float c I n (f_ofZ F32 k)) (k + 1).
Proof.
  intros Hk H4. assert (Ek : k = (4 * (k / 4) + 3)%Z) by (pose proof (Z.div_mod k 4); lia).
  assert (Ho : Z.odd k = true) by (rewrite Ek, Z.odd_add, Z.odd_mul; reflexivity).
  assert (E2 : Z.even ((k - 1) / 2) = false).
  { rewrite Ek. replace (4 * (k / 4) + 3 - 1)%Z with ((2 * (k / 4) + 1) * 2)%Z by lia. rewrite Z.div_mul by lia.
    rewrite Z.even_add, Z.even_mul. reflexivity. }
  destruct (magic_odd n c I k) as [A B]; [lia|exact Ho|]. rewrite E2 in B.
  destruct (ofZ_exact (t := F32) k) as (X & Y & _); [change (2 ^ prec F32)%Z with 16777216%Z; lia|].
  destruct (ceil_from_round c I _ _ X A B) as (P & Q & _); [lia|].
  rewrite Y in Q. rewrite Rlt_bool_false in Q by (apply IZR_le; lia). split; assumption.
Qed.
End FloorCeil.
