(** Proofs of the statements of Prop_Round.v. *)
From Coq Require Import ZArith Reals List Lia Bool Lra.
From Flocq Require Import Core IEEE754.Binary IEEE754.Bits.
From Verif Require Import
  Base Mem Backend Args Drivers Functors Lanes Float LaneOps FloatOps ScalarMath VecMath FloatFuns IntVec Spec SpecLane SpecRound SpecInt
  FloatFacts LaneFacts LaneMore FloatRound ReduceMore VecFacts VecMore VecMore2 RoundFacts RoundMore RoundMore2 IntFacts LdexpFacts DriverFacts DriverClaims DriverClaims2 MemClaims ExFloat.
Import ListNotations.
Local Open Scope Z_scope.

Lemma C38_scalar_round_lemma : 
  forall t (n : nans t) (x : F t), isfin x = true ->
    exists k, is_int (s_round n x) k /\ nearest_away (val x) k /\ sgn (s_round n x) = sgn x.
Proof.
  intros t n x Hx. destruct (fround_away_fin n x Hx) as (A & B & C). eexists. split; [split; [exact A|exact B]|].
  split; [apply nearest_away_ZnearestA|exact C].
Qed.

Lemma C38_round_instruction_lemma : 
  forall t (n : nans t) (c : cfg) (I : isa) (x : F t),
    I = AVX \/ (I = SSE /\ has_sse41 c = true) -> isfin x = true ->
    exists k, is_int (vround c I n x) k /\ nearest_even (val x) k /\ sgn (vround c I n x) = sgn x.
Proof.
  intros t n c I x HI Hx. assert (E : vround c I n x = fround_even n x).
  { destruct HI as [-> | [-> H]]; [reflexivity|]. unfold vround. rewrite H. destruct t; reflexivity. }
  rewrite E. destruct (fround_even_fin n x Hx) as (A & B & C). eexists. split; [split; [exact A|exact B]|].
  split; [apply nearest_even_ZnearestE|exact C].
Qed.

Lemma C38_magic_round_lemma : 
  forall (n : nans F32) (c : cfg) (I : isa) (x : F F32), within_2_23 x ->
    exists k, is_int (vec_round_float c I n x) k /\ nearest_even (val x) k /\ sgn (vec_round_float c I n x) = sgn x.
Proof.
  intros n c I x Hx. destruct (vec_round_float_fin n c I x Hx) as (A & B & C). eexists. split; [split; [exact A|exact B]|].
  split; [apply nearest_even_ZnearestE|exact C].
Qed.

Lemma C38_magic_round_is_the_instruction_lemma : 
  forall (n : nans F32) (c c' : cfg) (I : isa) (x : F F32), within_2_23 x -> has_sse41 c' = true ->
    bits (vec_round_float c I n x) = bits (vround c' SSE n x).
Proof.
  intros n c c' I x Hx H. rewrite (vec_round_float_even n c I x Hx). unfold vround. rewrite H. reflexivity.
Qed.

Lemma C38_magic_round_beyond_lemma : 
  forall (n : nans F32) (c : cfg) (I : isa) (k : Z), 2 ^ 23 < k < 2 ^ 24 -> Z.odd k = true ->
    is_int (f_ofZ F32 k) k /\
    exists j, is_int (vec_round_float c I n (f_ofZ F32 k)) j /\ Z.even j = true /\ Z.abs (k - j) = 1.
Proof.
  intros n c I k Hk Ho. split; [destruct (ofZ_exact (t := F32) k) as (A & B & _); [change (2 ^ prec F32) with 16777216; lia|split; assumption]|].
  destruct (magic_odd n c I k Hk Ho) as [A B]. eexists. split; [split; [exact A|exact B]|].
  destruct (Z.even ((k - 1) / 2)); (split; [|lia]).
  - rewrite Z.even_sub, <- Z.negb_odd, Ho. reflexivity.
  - rewrite Z.even_add, <- Z.negb_odd, Ho. reflexivity.
Qed.

Lemma C38_magic_round_unrestricted_refuted_lemma : 
  exists x : F F32, isfin x = true /\ ~ exists k, is_int (vec_round_float no_ext SSE (n0 F32) x) k /\ nearest_even (val x) k.
Proof.
  destruct (C38_magic_round_beyond_lemma (n0 F32) no_ext SSE 8388609) as [[A1 A2] (j & [B1 B2] & _ & D)]; [lia|reflexivity|].
  exists (f_ofZ F32 8388609). split; [exact A1|]. intros (k & [K1 K2] & [K3 _]).
  rewrite B2 in K2. apply eq_IZR in K2. subst k. rewrite A2, <- minus_IZR, <- abs_IZR, D in K3. lra.
Qed.

Lemma C38_forms_agree_off_ties_lemma : 
  forall (c : cfg) (B : backend) (n : nans (fmt_of B)) (x : F (fmt_of B)),
    within_2_23 x -> ~ tie (val x) ->
    vround c (isa_of B) n x = s_round n x.
Proof.
  intros c B n x Hx Ht.
  assert (E : vround c (isa_of B) n x = s_round n x \/ vround c (isa_of B) n x = fround_even n x).
  { destruct B; cbn [isa_of fmt_of] in *; unfold vround; try (destruct (has_sse41 c)); auto; right; apply vec_round_float_even; exact Hx. }
  destruct E as [-> | ->]; [reflexivity|]. destruct Hx as [Hx _].
  destruct (fround_even_fin n x Hx) as (A1 & B1 & C1). destruct (fround_away_fin n x Hx) as (A2 & B2 & C2).
  apply fin_eq; [exact A1|exact A2| |unfold s_round; rewrite C1, C2; reflexivity].
  unfold s_round. rewrite B1, B2. f_equal. apply (nearest_off_tie (val x)); [exact Ht|apply nearest_even_ZnearestE|apply nearest_away_ZnearestA].
Qed.

Lemma C38_ties_differ_lemma : 
  forall (n : nans F32) (c : cfg) (I : isa) (x : F F32) (j : Z),
    I <> GEN -> within_2_23 x -> 0 <= j -> Z.even j = true -> val x = (IZR j + / 2)%R ->
    is_int (vround c I n x) j /\ is_int (s_round n x) (j + 1).
Proof.
  intros n c I x j HI Hx Hj He Hv.
  assert (E : vround c I n x = fround_even n x).
  { destruct I; try congruence; unfold vround; try (destruct (has_sse41 c)); try reflexivity; apply vec_round_float_even; exact Hx. }
  rewrite E. destruct Hx as [Hx _].
  destruct (fround_even_fin n x Hx) as (A1 & B1 & C1). destruct (fround_away_fin n x Hx) as (A2 & B2 & C2). split.
  - split; [exact A1|]. rewrite B1. f_equal. pose proof (nearest_even_tie (val x) j Hv) as T. rewrite He in T.
    eapply nearest_even_unique; [apply nearest_even_ZnearestE|exact T].
  - split; [exact A2|]. unfold s_round. rewrite B2. f_equal. eapply nearest_away_unique; [apply nearest_away_ZnearestA|].
    assert (0 <= IZR j)%R by (apply IZR_le; lia). unfold nearest_away. rewrite Hv, plus_IZR.
    replace (IZR j + / 2 - (IZR j + 1))%R with (- / 2)%R by lra. rewrite Rabs_Ropp, !Rabs_pos_eq by lra. split; [lra|intros _; lra].
Qed.

Lemma C38_round_vec_simd_equals_round_vec_lemma : 
  forall (c : cfg) (B : backend) (n : nans (fmt_of B)) (m : mem (F (fmt_of B))) (out inp len : Z),
    legal_simd_length B len -> aligned B out -> accessible m out len -> simd_fit B m out len (APtr inp) ->
    each (fun x => within_2_23 x /\ ~ tie (val x)) m inp len ->
    same_effect (round_vec B n m out inp len) (round_vec_simd c B n m out inp len).
Proof.
  intros c B n m out inp len H1 H2 H3 H4 HN.
  destruct (unary_both (farith n) B (s_round n) (vround c (isa_of B) n) (fun x => within_2_23 x /\ ~ tie (val x)) m out inp len) as [A1 A2]; auto.
  - intros x [Hx Ht]. apply C38_forms_agree_off_ties_lemma; assumption.
  - eapply leaves_same; eassumption.
Qed.

Lemma C38_floor_of_x_plus_half_refuted_lemma : 
  exists x : F F32, isfin x = true /\ (Rabs (val x) < / 2)%R /\ is_int (s_round_fallback (n0 F32) x) 1.
Proof.
  exists (f_lit F32 16777215 (-25)).
  destruct (f_lit_exact (t := F32) 16777215 (-25)) as (A & B & _); [cbv; congruence..|].
  split; [exact A|]. split.
  - rewrite B. rewrite Rabs_pos_eq; cbn; lra.
  - assert (E : bits (s_round_fallback (n0 F32) (f_lit F32 16777215 (-25))) = bits (f_ofZ F32 1)) by (vm_compute; reflexivity).
    apply bits_inj in E. rewrite E. destruct (ofZ_exact (t := F32) 1) as (C & D & _); [cbv; congruence|]. split; assumption.
Qed.

Lemma C39_scalar_floor_and_ceil_lemma : 
  forall t (n : nans t) (x : F t), isfin x = true ->
    (exists k, is_int (s_floor n x) k /\ floor_of (val x) k /\ sgn (s_floor n x) = sgn x) /\
    (exists k, is_int (s_ceil n x) k /\ ceil_of (val x) k /\ sgn (s_ceil n x) = sgn x).
Proof.
  intros t n x Hx. destruct (ffloor_fin n x Hx) as (A & B & C). destruct (fceil_fin n x Hx) as (A' & B' & C'). split.
  - eexists. split; [split; [exact A|exact B]|]. split; [apply floor_of_Zfloor|exact C].
  - eexists. split; [split; [exact A'|exact B']|]. split; [apply ceil_of_Zceil|exact C'].
Qed.

Lemma C39_magic_floor_lemma : 
  forall (n : nans F32) (c : cfg) (I : isa) (x : F F32), within_2_23 x ->
    exists k, is_int (vec_floor_float c I n x) k /\ floor_of (val x) k /\ sgn (vec_floor_float c I n x) = sgn x.
Proof.
  intros n c I x Hx. rewrite (vec_floor_float_eq n c I x Hx). apply (C39_scalar_floor_and_ceil_lemma F32 n x). apply Hx.
Qed.

Lemma C39_magic_ceil_lemma : 
  forall (n : nans F32) (c : cfg) (I : isa) (x : F F32), within_2_23 x ->
    exists k, is_int (vec_ceil_float c I n x) k /\ ceil_of (val x) k /\ (k = 0 -> sgn (vec_ceil_float c I n x) = false).
Proof.
  intros n c I x Hx. destruct (vec_ceil_float_fin n c I x Hx) as (A & B & C). eexists. split; [split; [exact A|exact B]|].
  split; [apply ceil_of_Zceil|]. intros E. apply C. rewrite B, E. reflexivity.
Qed.

Lemma C39_floor_forms_agree_lemma : 
  forall (c : cfg) (B : backend) (n : nans (fmt_of B)) (x : F (fmt_of B)),
    within_2_23 x -> bits (vfloor c (isa_of B) n x) = bits (s_floor n x).
Proof.
  intros c B n x Hx. f_equal. destruct B; cbn [isa_of fmt_of] in *; unfold vfloor; try (destruct (has_sse41 c)); try reflexivity; apply vec_floor_float_eq; exact Hx.
Qed.

Lemma C39_ceil_forms_agree_lemma : 
  forall (c : cfg) (B : backend) (n : nans (fmt_of B)) (x : F (fmt_of B)),
    within_2_23 x -> feq (s_ceil n x) (vceil c (isa_of B) n x) = true.
Proof.
  intros c B n x Hx. destruct (fceil_fin n x (proj1 Hx)) as (A & V & _).
  assert (S : feq (s_ceil n x) (s_ceil n x) = true) by (apply feq_val; auto).
  destruct B; cbn [isa_of fmt_of] in *; unfold vceil; try (destruct (has_sse41 c)); try exact S;
    destruct (vec_ceil_float_fin n c SSE x Hx) as (P & Q & _); destruct (vec_ceil_float_fin n c NEON x Hx) as (P' & Q' & _);
    apply feq_val; try assumption; unfold s_ceil; congruence.
Qed.

Lemma C39_ceil_zero_sign_lemma : 
  forall (n : nans F32) (c : cfg) (I : isa) (x : F F32),
    isfin x = true -> sgn x = true -> (-1 < val x)%R ->
    bits (vec_ceil_float c I n x) = 0 /\ bits (s_ceil n x) = 2 ^ 31.
Proof.
  intros n c I x Hx Hs Hv. assert (U : (val x <= 0)%R) by (rewrite (sgn_val_gen x Hx), Hs; pose proof (Rabs_pos (val x)); lra).
  assert (W : within_2_23 x) by (split; [exact Hx|]; rewrite Rabs_left1 by exact U; assert (1 <= IZR (2 ^ 23))%R by (apply IZR_le; lia); lra).
  destruct (vec_ceil_float_fin n c I x W) as (P & Q & R). destruct (fceil_fin n x Hx) as (A & B & C).
  assert (Z0 : Zceil (val x) = 0) by (apply Zceil_imp; cbn; lra). rewrite Z0 in Q, B. specialize (R Q).
  split.
  - replace (vec_ceil_float c I n x) with (f_ofZ F32 0); [reflexivity|]. destruct (zero_ok) as (D & E & G).
    apply fin_eq; try assumption; [congruence|]. rewrite R. reflexivity.
  - unfold s_ceil. replace (fceil n x) with (fneg (f_ofZ F32 0)); [reflexivity|].
    apply fin_eq; [reflexivity|exact A| |rewrite C, Hs; reflexivity]. rewrite B. reflexivity.
Qed.

Lemma C39_magic_floor_and_ceil_beyond_lemma : 
  forall (n : nans F32) (c : cfg) (I : isa) (k : Z), 2 ^ 23 < k < 2 ^ 24 - 1 ->
    is_int (f_ofZ F32 k) k /\
    (k mod 4 = 1 -> is_int (vec_floor_float c I n (f_ofZ F32 k)) (k - 1)) /\
    (k mod 4 = 3 -> is_int (vec_ceil_float c I n (f_ofZ F32 k)) (k + 1)).
Proof.
  intros n c I k Hk. split; [destruct (ofZ_exact (t := F32) k) as (A & B & _); [change (2 ^ prec F32) with 16777216; lia|split; assumption]|].
  split; intros H; [apply floor_odd|apply ceil_odd]; try exact H; lia.
Qed.

Lemma C39_floor_vec_simd_equals_floor_vec_lemma : 
  forall (c : cfg) (B : backend) (n : nans (fmt_of B)) (m : mem (F (fmt_of B))) (out inp len : Z),
    legal_simd_length B len -> aligned B out -> accessible m out len -> simd_fit B m out len (APtr inp) ->
    each within_2_23 m inp len ->
    same_effect (floor_vec B n m out inp len) (floor_vec_simd c B n m out inp len).
Proof.
  intros c B n m out inp len H1 H2 H3 H4 HN.
  destruct (unary_both (farith n) B (s_floor n) (vfloor c (isa_of B) n) within_2_23 m out inp len) as [A1 A2]; auto.
  - intros x Hx. apply bits_inj. apply C39_floor_forms_agree_lemma; assumption.
  - eapply leaves_same; eassumption.
Qed.

Lemma C39_ceil_vec_simd_matches_ceil_vec_lemma : 
  forall (c : cfg) (B : backend) (n : nans (fmt_of B)) (m : mem (F (fmt_of B))) (out inp len : Z),
    legal_simd_length B len -> aligned B out -> accessible m out len -> simd_fit B m out len (APtr inp) ->
    each within_2_23 m inp len ->
    same_numbers (ceil_vec B n m out inp len) (ceil_vec_simd c B n m out inp len) out len.
Proof.
  intros c B n m out inp len H1 H2 H3 H4 HN.
  eapply leaves_numbers; [apply (unary_leaves (farith n)); [apply H1|assumption|eapply fit_of_simd; eassumption]|apply unary_simd_leaves; assumption|].
  intros i x y Hi Hx Hy. cbv beta in Hx, Hy. destruct (m (inp + i)) as [z|] eqn:E; [|discriminate].
  injection Hx as <-. injection Hy as <-. apply C39_ceil_forms_agree_lemma. exact (HN i z Hi E).
Qed.

Lemma C40_frac_lies_between_0_and_1_lemma : 
  forall t (n : nans t) (x : F t), isfin x = true ->
    isfin (s_frac n x) = true /\ (0 <= val (s_frac n x) <= 1)%R.
Proof.
  intros t n x Hx. destruct (s_frac_fin n x Hx) as (A & _ & B). auto.
Qed.

Lemma C40_frac_is_exact_lemma : 
  forall t (n : nans t) (x : F t), isfin x = true -> (0 <= val x \/ val x <= - / 2)%R ->
    exists k, floor_of (val x) k /\ (val (s_frac n x) = val x - IZR k)%R.
Proof.
  intros t n x Hx Hr. exists (Zfloor (val x)). split; [apply floor_of_Zfloor|]. apply s_frac_exact; assumption.
Qed.

Lemma C40_frac_is_the_nearest_float_lemma : 
  forall t (n : nans t) (x y : F t), isfin x = true -> isfin y = true ->
    exists k, floor_of (val x) k /\
      (Rabs (val (s_frac n x) - (val x - IZR k)) <= Rabs (val y - (val x - IZR k)))%R.
Proof.
  intros t n x y Hx Hy. exists (Zfloor (val x)). split; [apply floor_of_Zfloor|].
  destruct (s_frac_fin n x Hx) as (A & B & _). rewrite B.
  pose proof (round_N_pt radix2 (SpecFloat.fexp (prec t) (emax t)) (fun k => negb (Z.even k)) (val x - IZR (Zfloor (val x)))) as [_ H].
  apply H. apply val_format.
Qed.

Lemma C40_frac_of_tiny_negative_is_one_lemma : 
  forall t (n : nans t) (x : F t), isfin x = true ->
    (- bpow radix2 (match t with F32 => -25 | F64 => -54 end) <= val x < 0)%R -> (val (s_frac n x) = 1)%R.
Proof.
  intros t n x Hx Hv. apply s_frac_tiny; [exact Hx|]. destruct t; exact Hv.
Qed.

Lemma C40_frac_below_one_refuted_lemma : 
  exists x : F F32, isfin x = true /\ ~ (val (s_frac (n0 F32) x) < 1)%R.
Proof.
  exists (f_lit F32 (-1) (-25)). destruct (f_lit_exact (t := F32) (-1) (-25)) as (A & B & _); [cbv; congruence..|].
  split; [exact A|]. rewrite (C40_frac_of_tiny_negative_is_one_lemma F32 (n0 F32)); [lra|exact A|]. rewrite B. cbn. lra.
Qed.

Lemma C40_frac_forms_agree_lemma : 
  forall (c : cfg) (B : backend) (n : nans (fmt_of B)) (x : F (fmt_of B)),
    within_2_23 x -> bits (vfrac c (isa_of B) n x) = bits (s_frac n x).
Proof.
  intros c B n x Hx. f_equal. unfold vfrac, s_frac. f_equal. apply bits_inj. apply C39_floor_forms_agree_lemma. exact Hx.
Qed.

Lemma C40_magic_frac_beyond_lemma : 
  forall (n : nans F32) (c : cfg) (I : isa) (k : Z),
    (I = SSE /\ has_sse41 c = false) \/ I = NEON ->
    2 ^ 23 < k < 2 ^ 24 - 1 -> k mod 4 = 1 ->
    is_int (vfrac c I n (f_ofZ F32 k)) 1 /\ is_int (s_frac n (f_ofZ F32 k)) 0.
Proof.
  intros n c I k HI Hk Hm.
  destruct (C39_magic_floor_and_ceil_beyond_lemma n c I k Hk) as ([A1 A2] & Fl & _). specialize (Fl Hm). destruct Fl as [F1 F2].
  split.
  - assert (E : vfrac c I n (f_ofZ F32 k) = fsub n (f_ofZ F32 k) (vec_floor_float c I n (f_ofZ F32 k))).
    { unfold vfrac. f_equal. destruct HI as [[-> H] | ->]; [unfold vfloor; rewrite H; reflexivity|reflexivity]. }
    rewrite E. assert (D : (val (f_ofZ F32 k) - val (vec_floor_float c I n (f_ofZ F32 k)) = 1)%R) by (rewrite A2, F2, minus_IZR; lra).
    assert (R1 : rnd F32 1 = 1%R) by (apply rnd_id; apply fmt01).
    destruct (fsub_fin n _ _ A1 F1) as (P & Q & _).
    { rewrite D, R1, Rabs_pos_eq by lra. apply one_bpow. }
    split; [exact P|]. rewrite Q, D, R1. reflexivity.
  - destruct (s_frac_fin n _ A1) as (P & Q & _). split; [exact P|]. rewrite Q, A2, Zfloor_IZR, Rminus_diag_eq by reflexivity.
    apply rnd_id. apply fmt01.
Qed.

Lemma C40_frac_vec_simd_equals_frac_vec_lemma : 
  forall (c : cfg) (B : backend) (n : nans (fmt_of B)) (m : mem (F (fmt_of B))) (out inp len : Z),
    legal_simd_length B len -> aligned B out -> accessible m out len -> simd_fit B m out len (APtr inp) ->
    each within_2_23 m inp len ->
    same_effect (frac_vec B n m out inp len) (frac_vec_simd c B n m out inp len).
Proof.
  intros c B n m out inp len H1 H2 H3 H4 HN.
  destruct (unary_both (farith n) B (s_frac n) (vfrac c (isa_of B) n) within_2_23 m out inp len) as [A1 A2]; auto.
  - intros x Hx. apply bits_inj. apply C40_frac_forms_agree_lemma; assumption.
  - eapply leaves_same; eassumption.
Qed.

Lemma C41_scalar_trunc_lemma : 
  forall t (n : nans t) (x : F t) (k : Z), isfin x = true -> trunc_of (val x) k -> - 2 ^ 63 <= k < 2 ^ 63 ->
    exists y, s_trunc x = Ok y /\ is_int y k.
Proof.
  intros t n x k Hx Hk Hr. assert (E : k = Ztrunc (val x)).
  { apply trunc_of_eq; assumption. }
  subst k. apply s_trunc_ok; assumption.
Qed.

Lemma C41_scalar_trunc_undefined_lemma : 
  forall t (x : F t),
    isfin x = false \/ (val x <= - IZR (2 ^ 63) - 1)%R \/ (IZR (2 ^ 63) <= val x)%R ->
    s_trunc x = Fault BadConversion.
Proof.
  intros t x H. apply s_trunc_fault. destruct H as [H|[H|H]]; [left; exact H|right; left|right; right].
  - destruct (trunc_of_Ztrunc (val x)) as [_ T2]. assert (K : (val x <= 0)%R) by (assert (0 <= IZR (2 ^ 63))%R by (apply IZR_le; lia); lra).
    destruct (T2 K) as [L _]. assert (G : (IZR (Ztrunc (val x)) < IZR (- 2 ^ 63))%R) by (rewrite opp_IZR; lra). apply lt_IZR in G. exact G.
  - destruct (trunc_of_Ztrunc (val x)) as [T1 _]. assert (K : (0 <= val x)%R) by (assert (0 <= IZR (2 ^ 63))%R by (apply IZR_le; lia); lra).
    destruct (T1 K) as [_ L]. assert (G : (IZR (2 ^ 63) < IZR (Ztrunc (val x) + 1))%R) by (rewrite plus_IZR; lra). apply lt_IZR in G. lia.
Qed.

Lemma C41_trunc_instruction_lemma : 
  forall t (n : nans t) (c : cfg) (I : isa) (x : F t),
    I = AVX \/ (I = SSE /\ has_sse41 c = true) -> isfin x = true ->
    exists y k, vtrunc c I n x = Ok y /\ is_int y k /\ trunc_of (val x) k /\ sgn y = sgn x.
Proof.
  intros t n c I x HI Hx. exists (fround_zero n x), (Ztrunc (val x)). destruct (fround_zero_fin n x Hx) as (A & B & C).
  split; [|split; [split; assumption|split; [apply trunc_of_Ztrunc|exact C]]].
  destruct HI as [-> | [-> H]]; [reflexivity|]. unfold vtrunc. rewrite H. reflexivity.
Qed.

Lemma C41_trunc_instruction_on_infinities_lemma : 
  forall t (n : nans t) (c : cfg) (I : isa) (x : F t),
    I = AVX \/ (I = SSE /\ has_sse41 c = true) -> isfin x = false -> isnan x = false ->
    vtrunc c I n x = Ok x.
Proof.
  intros t n c I x HI Hx Hn. assert (E : vtrunc c I n x = Ok (fround_zero n x)).
  { destruct HI as [-> | [-> H]]; [reflexivity|]. unfold vtrunc. rewrite H. reflexivity. }
  rewrite E. f_equal. apply nearby_inf; assumption.
Qed.

Lemma C41_trunc_forms_agree_lemma : 
  forall t (n : nans t) (c : cfg) (I : isa) (x y z : F t),
    I <> ALTIVEC -> s_trunc x = Ok y -> vtrunc c I n x = Ok z -> feq y z = true.
Proof.
  intros t n c I x y z HI Hy Hz.
  assert (Hx : isfin x = true).
  { destruct (isfin x) eqn:E; [reflexivity|]. rewrite s_trunc_fault in Hy by (left; exact E). discriminate. }
  assert (R : - 2 ^ 63 <= Ztrunc (val x) < 2 ^ 63).
  { destruct (Z_lt_ge_dec (Ztrunc (val x)) (- 2 ^ 63)); [rewrite s_trunc_fault in Hy by auto; discriminate|].
    destruct (Z_le_gt_dec (2 ^ 63) (Ztrunc (val x))); [rewrite s_trunc_fault in Hy by auto; discriminate|]. lia. }
  destruct (s_trunc_ok n x Hx R) as (y' & E & [A B]). rewrite E in Hy. injection Hy as ->.
  assert (K : vtrunc c I n x = Ok y \/ vtrunc c I n x = Ok (fround_zero n x)).
  { destruct I; try congruence; cbn; try (destruct (has_sse41 c)); auto. }
  destruct K as [K|K]; rewrite K in Hz; injection Hz as <-; apply feq_val; try assumption; try reflexivity.
  - apply (fround_zero_fin n x Hx).
  - destruct (fround_zero_fin n x Hx) as (_ & V & _). congruence.
Qed.

Lemma C41_altivec_trunc_of_negative_lemma : 
  forall (n : nans F32) (c : cfg) (x : F F32), flt x (f_ofZ F32 0) = true ->
    exists y, vtrunc c ALTIVEC n x = Ok y /\ bits y = 0.
Proof.
  intros n c x H. eexists. split; [reflexivity|]. apply altivec_trunc_neg. exact H.
Qed.

Lemma C41_altivec_trunc_of_positive_lemma : 
  forall (n : nans F32) (c : cfg) (x : F F32), isfin x = true ->
    (forall k, (0 <= val x)%R -> floor_of (val x) k -> k < 2 ^ 32 -> exists y, vtrunc c ALTIVEC n x = Ok y /\ is_int y k) /\
    ((IZR (2 ^ 32) <= val x)%R -> exists y, vtrunc c ALTIVEC n x = Ok y /\ is_int y (2 ^ 32)).
Proof.
  intros n c x Hx. split.
  - intros k H0 Hk Hl. eexists. split; [reflexivity|].
    assert (E : k = Ztrunc (val x)) by (rewrite (floor_of_unique _ _ Hk); symmetry; apply floor_of_unique; apply trunc_of_Ztrunc; exact H0). subst k.
    apply altivec_trunc_pos; [exact n|exact Hx|]. split; [exact H0|]. destruct Hk as [_ Hk].
    apply Rlt_le_trans with (1 := Hk). rewrite <- plus_IZR. apply IZR_le. lia.
  - intros H. eexists. split; [reflexivity|]. rewrite (altivec_trunc_big x Hx H).
    assert (E : bits (f_ofZ F32 (2 ^ 32 - 1)) = bits (f_lit F32 1 32)) by (vm_compute; reflexivity). apply bits_inj in E.
    rewrite E. destruct (f_lit_exact (t := F32) 1 32) as (A & B & _); [cbv; congruence..|]. split; [exact A|]. rewrite B. cbn. lra.
Qed.

Lemma C43_add_and_sub_lemma : 
  forall (I : isa) (l r : list Z), vector (ilanes I) l -> vector (ilanes I) r ->
    lanes2 (fun a b c => pattern c /\ same_mod32 c (a + b)) l r (int_add I l r) /\
    lanes2 (fun a b c => pattern c /\ same_mod32 c (a - b)) l r (int_sub I l r).
Proof.
  intros I l r Hl Hr. split; apply int_binary_lanes; try assumption; intros a b _ _; [apply iadd_lane|apply isub_lane].
Qed.

Lemma C43_signed_comparisons_lemma : 
  forall (I : isa) (l r : list Z), I = SSE \/ I = AVX -> vector (ilanes I) l -> vector (ilanes I) r ->
    lanes2 (fun a b c => forall ka kb, reads a ka -> reads b kb -> truth (ka < kb) c) l r (int_mask_lt I l r) /\
    lanes2 (fun a b c => forall ka kb, reads a ka -> reads b kb -> truth (ka > kb) c) l r (int_mask_gt I l r).
Proof.
  intros I l r HI Hl Hr. split; apply int_binary_lanes; try assumption; intros a b _ _ ka kb Ka Kb; [apply ilt_signed|apply igt_signed]; try assumption; destruct HI; congruence.
Qed.

Lemma C43_unsigned_comparisons_lemma : 
  forall (I : isa) (l r : list Z), I = NEON \/ I = ALTIVEC -> vector (ilanes I) l -> vector (ilanes I) r ->
    lanes2 (fun a b c => truth (a < b) c) l r (int_mask_lt I l r) /\
    lanes2 (fun a b c => truth (a > b) c) l r (int_mask_gt I l r).
Proof.
  intros I l r HI Hl Hr. split; apply int_binary_lanes; try assumption; intros a b _ _; [apply ilt_unsigned|apply igt_unsigned]; assumption.
Qed.

Lemma C43_comparisons_differ_lemma : 
  forall a b, pattern a -> pattern b ->
    (ilt SSE a b = ilt NEON a b <-> (a < 2147483648 <-> b < 2147483648)) /\
    (igt SSE a b = igt NEON a b <-> (a < 2147483648 <-> b < 2147483648)).
Proof.
  intros a b Ha Hb. split; [apply ilt_differ; assumption|].
  assert (E : forall I x y, igt I x y = ilt I y x) by (intros I x y; unfold igt, ilt; destruct I; rewrite Z.gtb_ltb; reflexivity).
  rewrite !E. rewrite (ilt_differ b a Hb Ha). tauto.
Qed.

Lemma C43_equality_lemma : 
  forall (I : isa) (l r : list Z), vector (ilanes I) l -> vector (ilanes I) r ->
    lanes2 (fun a b c => truth (a = b) c) l r (int_mask_eq I l r).
Proof.
  intros I l r Hl Hr. apply int_binary_lanes; try assumption; intros a b _ _; apply ieq_lane.
Qed.

Lemma C43_and_andnot_lemma : 
  forall (I : isa) (l r : list Z), vector (ilanes I) l -> vector (ilanes I) r ->
    lanes2 (fun a b c => forall j, 0 <= j < 32 -> Z.testbit c j = Z.testbit a j && Z.testbit b j) l r (int_and I l r) /\
    lanes2 (fun a b c => forall j, 0 <= j < 32 -> Z.testbit c j =
      match I with NEON | ALTIVEC => Z.testbit a j && negb (Z.testbit b j) | _ => negb (Z.testbit a j) && Z.testbit b j end) l r (int_andnot I l r).
Proof.
  intros I l r Hl Hr. split; eapply lanes2_map2; try eassumption; intros a b Ha Hb j Hj.
  - apply Z.land_spec.
  - unfold iandnot. destruct I; rewrite Z.land_spec, not_testbit by assumption; reflexivity.
Qed.

Lemma C43_shifts_lemma : 
  forall (I : isa) (v : list Z) (k : Z), vector (ilanes I) v -> 0 <= k <= 31 ->
    lanes1 (fun a c => pattern c /\ same_mod32 c (a * 2 ^ k)) v (int_slli I v k) /\
    lanes1 (fun a c => c * 2 ^ k <= a < (c + 1) * 2 ^ k) v (int_srli I v k).
Proof.
  intros I v k Hv Hk. split; apply int_shift_lanes; try assumption; intros a Ha.
  - rewrite islli_lane by assumption. split; [apply u32_pattern|apply u32_same].
  - rewrite isrli_lane by assumption. assert (0 < 2 ^ k) by (apply Z.pow_pos_nonneg; lia).
    pose proof (Z.div_mod a (2 ^ k)). pose proof (Z.mod_pos_bound a (2 ^ k)). nia.
Qed.

Lemma C43_shifts_from_32_lemma : 
  forall (I : isa) (v : list Z) (k : Z), vector (ilanes I) v -> 32 <= k < 128 ->
    (I <> ALTIVEC -> lanes1 (fun _ c => c = 0) v (int_slli I v k) /\ lanes1 (fun _ c => c = 0) v (int_srli I v k)) /\
    (I = ALTIVEC -> int_slli I v k = int_slli I v (k - 32) /\ int_srli I v k = int_srli I v (k - 32)).
Proof.
  intros I v k Hv Hk. split.
  - intros HI. split; apply int_shift_lanes; try assumption; intros a Ha; apply islli_far; try assumption; lia.
  - intros ->. unfold int_slli, int_srli, islli, isrli. replace ((k - 32) mod 32) with (k mod 32); [split; [|]|].
    + rewrite !int_shift_map. replace ((k - 32) mod 32) with (k mod 32); [reflexivity|]. rewrite <- (Z.mod_add (k - 32) 1 32) by lia. f_equal. lia.
    + rewrite !int_shift_map. replace ((k - 32) mod 32) with (k mod 32); [reflexivity|]. rewrite <- (Z.mod_add (k - 32) 1 32) by lia. f_equal. lia.
    + rewrite <- (Z.mod_add (k - 32) 1 32) by lia. f_equal. lia.
Qed.

Lemma C43_set_lemma : 
  forall (I : isa) (k : Z), - 2147483648 <= k < 2147483648 ->
    length (int_set I k) = ilanes I /\ forall z, In z (int_set I k) -> reads z k.
Proof.
  intros I k Hk. split; [apply repeat_length|]. intros z Hz. apply repeat_spec in Hz. subst z. apply reads_u32. exact Hk.
Qed.

Lemma C43_convert_to_float_lemma : 
  forall (I : isa) (v : list Z), vector (ilanes I) v ->
    lanes1 (fun a y => forall k, (match I with ALTIVEC => k = a | _ => reads a k end) ->
      isfin y = true /\
      (forall z : F F32, isfin z = true -> (Rabs (val y - IZR k) <= Rabs (val z - IZR k))%R) /\
      (Z.abs k <= 16777216 -> is_int y k)) v (int_convert I v).
Proof.
  intros I v [_ Hv]. apply lanes1_map. intros a Ha k Hk. rewrite Forall_forall in Hv. specialize (Hv a Ha).
  assert (E : iconvert I a = f_ofZ F32 k) by (unfold iconvert; destruct I; try (rewrite (reads_s32 _ _ Hk)); congruence).
  assert (B : Z.abs k <= 2 ^ 32) by (change (2 ^ 32) with 4294967296; unfold pattern in Hv; destruct I; try (destruct Hk as (_ & Hk & _)); lia).
  rewrite E. destruct (iconvert_fin k B) as [A V]. split; [exact A|split].
  - intros z Hz. rewrite V.
    pose proof (round_N_pt radix2 (SpecFloat.fexp (prec F32) (emax F32)) (fun k => negb (Z.even k)) (IZR k)) as [_ H].
    apply H. apply (val_format z).
  - intros Hs. destruct (ofZ_exact (t := F32) k) as (P & Q & _); [change (2 ^ prec F32) with 16777216; exact Hs|]. split; assumption.
Qed.

Lemma C43_truncate_to_int_lemma : 
  forall (I : isa) (x : F F32) (k : Z), isfin x = true -> trunc_of (val x) k ->
    (I <> ALTIVEC -> -2147483648 <= k < 2147483648 -> reads (itruncate I x) k) /\
    (I = ALTIVEC -> 0 <= k < 4294967296 -> itruncate I x = k).
Proof.
  intros I x k Hx Hk. assert (E : k = Ztrunc (val x)).
  { apply trunc_of_eq; assumption. }
  subst k. split; [intros HI HR; apply itruncate_reads; assumption|intros -> HR; apply itruncate_altivec; assumption].
Qed.

Lemma C43_truncate_to_int_outside_lemma : 
  forall (x : F F32) (I : isa), I = SSE \/ I = AVX ->
    isfin x = false \/ (val x <= - IZR 2147483648 - 1)%R \/ (IZR 2147483648 <= val x)%R ->
    itruncate I x = 2147483648.
Proof.
  intros x I HI H. rewrite itruncate_x86 by (destruct HI; congruence).
  change (2 ^ 31) with 2147483648. change (- (2147483648)) with (-2147483648).
  destruct H as [H|[H|H]]; [rewrite H; reflexivity| |]; destruct (trunc_of_Ztrunc (val x)) as [T1 T2].
  - assert (K : (val x <= 0)%R) by lra. destruct (T2 K) as [L _]. assert (G : (IZR (Ztrunc (val x)) < IZR (-2147483648))%R) by lra. apply lt_IZR in G.
    replace (-2147483648 <=? Ztrunc (val x)) with false by (symmetry; apply Z.leb_gt; exact G). destruct (isfin x); reflexivity.
  - assert (K : (0 <= val x)%R) by lra. destruct (T1 K) as [_ L]. assert (G : (IZR 2147483648 < IZR (Ztrunc (val x) + 1))%R) by (rewrite plus_IZR; lra). apply lt_IZR in G.
    replace (Ztrunc (val x) <? 2147483648) with false by (symmetry; apply Z.ltb_ge; lia). destruct (isfin x), (-2147483648 <=? Ztrunc (val x)); reflexivity.
Qed.

Lemma C43_convert_of_truncate_lemma : 
  forall (n : nans F32) (I : isa) (x : F F32) (k : Z), I <> ALTIVEC -> isfin x = true -> trunc_of (val x) k ->
    -2147483648 <= k < 2147483648 -> is_int (iconvert I (itruncate I x)) k.
Proof.
  intros n I x k HI Hx Hk HR. assert (E : k = Ztrunc (val x)).
  { apply trunc_of_eq; assumption. }
  subst k. apply iconvert_truncate; assumption.
Qed.

Lemma C44_frexp_splits_lemma : 
  forall (I : isa) (x : F F32), I = SSE \/ I = AVX -> isfin x = true -> ~ tiny x ->
    exists s z e, frexp_float I x = (s, z) /\ reads z e /\ isfin s = true /\
      (/ 2 <= Rabs (val s) < 1)%R /\ sgn s = sgn x /\ (val x = val s * bpow radix2 e)%R.
Proof.
  intros I x HI Hx Ht. destruct (frexp_exact I x HI Hx Ht) as (E & A & B & C & D & G).
  exists (fst (frexp_float I x)), (snd (frexp_float I x)), E. split; [destruct (frexp_float I x); reflexivity|]. auto 10.
Qed.

Lemma C44_ldexp_scales_lemma : 
  forall (I : isa) (x : F F32) (z e : Z), I = SSE \/ I = AVX -> isfin x = true -> ~ tiny x -> reads z e ->
    (bpow radix2 (-126) <= Rabs (val x) * bpow radix2 e < bpow radix2 128)%R ->
    isfin (ldexp_float I x z) = true /\ (val (ldexp_float I x z) = val x * bpow radix2 e)%R /\ sgn (ldexp_float I x z) = sgn x.
Proof.
  intros I x z e HI Hx Ht Hz Hr. apply (ldexp_exact I x z e); assumption.
Qed.

Lemma C44_ldexp_of_frexp_lemma : 
  forall (I : isa) (x s : F F32) (z : Z), I = SSE \/ I = AVX -> frexp_float I x = (s, z) ->
    bits (ldexp_float I s z) = bits x.
Proof.
  intros I x s z HI E. pose proof (ldexp_frexp I x HI) as H. rewrite E in H. cbn [fst snd] in H. rewrite H. reflexivity.
Qed.

Lemma C44_ldexp_of_zero_lemma : 
  forall (I : isa) (z e : Z), I = SSE \/ I = AVX -> reads z e -> 1 <= e <= 254 ->
    (val (ldexp_float I (f_ofZ F32 0) z) = bpow radix2 (e - 127))%R.
Proof.
  intros I z e HI Hz He. apply ldexp_zero; assumption.
Qed.

Lemma C44_frexp_of_zero_lemma : 
  forall (I : isa), I = SSE \/ I = AVX ->
    exists s z, frexp_float I (f_ofZ F32 0) = (s, z) /\ bits s = bits (f_lit F32 1 (-1)) /\ reads z (-126).
Proof.
  intros I HI. exists (fst (frexp_float I (f_ofZ F32 0))), (snd (frexp_float I (f_ofZ F32 0))).
  split; [destruct (frexp_float I (f_ofZ F32 0)); reflexivity|]. destruct HI as [-> | ->]; (split; [vm_compute; reflexivity|]).
  - change (snd (frexp_float SSE (f_ofZ F32 0))) with 4294967170. repeat split; try (cbv; congruence). exists 1. reflexivity.
  - change (snd (frexp_float AVX (f_ofZ F32 0))) with 4294967170. repeat split; try (cbv; congruence). exists 1. reflexivity.
Qed.
