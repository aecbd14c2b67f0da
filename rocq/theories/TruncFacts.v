(** The drivers of TruncFuns.v. *)
From Coq Require Import ZArith Reals List Lia Bool Lra.
From Flocq Require Import Core IEEE754.Binary IEEE754.Bits.
From Verif Require Import Base Mem Loop Backend Args Drivers Lanes Float LaneOps FloatOps ScalarMath VecMath TruncFuns Spec SpecLane SpecRound SpecTrunc SpecAgree
  LoopFacts MemFacts KaryFacts DriverFacts DriverClaims DriverClaims2 FloatFacts VecFacts RoundFacts RoundMore RoundMore2 RoundClaims.
Import ListNotations.
Local Open Scope Z_scope.

Section Gen.
Context {A : Type} (ar : arith A) (B : backend).
Local Notation step := (Z.of_nat (vsize B)).

(** Proof auxiliary: the value of a call, with a default. *)
Definition dflt (d : A) (r : res A) : A := match r with Ok y => y | Fault _ => d end.
Lemma telements_ok (f : A -> res A) d v : (forall x, In x v -> exists y, f x = Ok y) -> telements f v = Ok (map (fun x => dflt d (f x)) v).
Proof.
  induction v as [|x r IH]; intros H; cbn [telements map]; [reflexivity|]. destruct (H x (or_introl eq_refl)) as [y E]. rewrite E. cbn [bind dflt].
  rewrite IH by (intros; apply H; right; assumption). reflexivity.
Qed.

(** ** Every sample converts *)
Lemma tbody_iter (f : A -> res A) d m out inp k : accessible m out (Z.of_nat k) -> accessible m inp (Z.of_nat k) -> @overlap_ok A out (APtr inp) (Z.of_nat k) ->
  (forall i x, 0 <= i < Z.of_nat k -> m (inp + i) = Some x -> exists y, f x = Ok y) ->
  exists m', iter_res k (tbody f) (m, out, inp) = Ok (m', out + Z.of_nat k, inp + Z.of_nat k) /\
    meq m' (wr m out (Z.of_nat k) (fun i => dflt d (f (cell d m (inp + i))))).
Proof.
  intros Ho Hi Hov Hf. set (v := fun i => dflt d (f (cell d m (inp + i)))).
  destruct (iter_res_inv (tbody f) (fun j s => exists m1, s = (m1, out + Z.of_nat j, inp + Z.of_nat j) /\ meq m1 (wr m out (Z.of_nat j) v)) k) with (s := (m, out, inp))
    as (s' & E & m' & -> & G).
  - intros j s Hj (m1 & -> & Hm). cbn [tbody]. destruct (Hi (Z.of_nat j)) as [x X]; [lia|]. destruct (Hf (Z.of_nat j) x ltac:(lia) X) as [y Y].
    assert (L : load m1 (inp + Z.of_nat j) = Ok x). { unfold load. rewrite Hm, wr_out by (cbn [overlap_ok] in Hov; lia). rewrite X. reflexivity. }
    rewrite L. cbn [bind]. rewrite Y. cbn [bind].
    destruct (store_wr m out v (Z.of_nat j) m1 y) as (m2 & E2 & G2); [lia|exact Hm| | |].
    + apply Ho. lia.
    + unfold v, cell. rewrite X, Y. reflexivity.
    + rewrite E2. cbn [bind]. eexists. split; [reflexivity|]. exists m2. split; [f_equal; [f_equal|]; lia|]. replace (Z.of_nat (S j)) with (Z.of_nat j + 1) by lia. exact G2.
  - exists m. split; [f_equal; [f_equal|]; lia|apply meq_wr_0].
  - exists m'. split; [exact E|exact G].
Qed.
Lemma tapply_ok (f : A -> res A) m out inp n : 0 < n < 2 ^ 32 -> accessible m out n -> accessible m inp n -> @overlap_ok A out (APtr inp) n ->
  (forall i x, 0 <= i < n -> m (inp + i) = Some x -> exists y, f x = Ok y) ->
  leaves m (tapply f m out inp n) out n (fun i => match m (inp + i) with Some x => match f x with Ok y => Some y | Fault _ => None end | None => None end).
Proof.
  intros Hn Ho Hi Hov Hf. unfold tapply. rewrite do_while_iter by (unfold two32; lia). destruct (Ho 0) as [d _]; [lia|].
  destruct (tbody_iter f d m out inp (Z.to_nat n)) as (m' & E & G); rewrite ?Z2Nat.id by lia; try assumption.
  rewrite E. cbn [bind]. exists m'. split; [reflexivity|]. rewrite Z2Nat.id in G by lia.
  eapply writes_exactly_of_wr; [exact G|]. intros i H. cbv beta. destruct (Hi i H) as [x X]. destruct (Hf i x H X) as [y Y]. unfold cell. rewrite X, Y. reflexivity.
Qed.

Lemma tmp_spec (f : A -> res A) d m out p N : aligned B out -> accessible m out (Z.of_nat N * step) -> varg_ok B m out N (VPtr p) ->
  (forall i x, 0 <= i < Z.of_nat N * step -> m (p + i) = Some x -> exists y, f x = Ok y) ->
  forall k J m1, (0 < k)%nat -> (J + k <= N)%nat -> let v := fun i => dflt d (f (cell d m (p + i))) in
    meq m1 (wr m out (Z.of_nat J * step) v) ->
    exists m2, tmp_iteration ar B k m1 (out + Z.of_nat J * step) (Some (vchunk ar B d m (VPtr p) J)) (vadv ar B (S J) (VPtr p)) (telements f)
        = Ok (m2, vadv ar B (J + k) (VPtr p)) /\ meq m2 (wr m out (Z.of_nat (J + k) * step) v).
Proof.
  intros Hal Hacc Harg Hf k J m1 Hk HJ v. revert k J m1 Hk HJ. pose proof (vsize_pos B) as HB.
  induction k as [|k IH]; intros J m1 Hk HJ Hm; [lia|]. cbn [tmp_iteration].
  assert (Hpre : preload ar B (negb (Nat.eqb k 0)) m1 (vadv ar B (S J) (VPtr p))
               = Ok (if Nat.eqb k 0 then None else Some (vchunk ar B d m (VPtr p) (S J)), vadv ar B (if Nat.eqb k 0 then S J else S (S J)) (VPtr p))).
  { unfold preload. destruct (Nat.eqb_spec k 0) as [E|E]; cbn [negb]; [reflexivity|].
    rewrite (consume_spec ar B d m m1 out N v J (S J)) by (auto; lia). reflexivity. }
  rewrite Hpre. cbn [bind use]. clear Hpre. destruct Harg as (A1 & A2 & A3).
  rewrite (telements_ok f d).
  2: { intros x Hin. cbn [vchunk] in Hin. apply in_map_iff in Hin. destruct Hin as (l & <- & Hl). apply in_seq in Hl.
       destruct (A1 (Z.of_nat J * step + Z.of_nat l)) as [x X]; [nia|]. unfold cell. replace (p + Z.of_nat J * step + Z.of_nat l) with (p + (Z.of_nat J * step + Z.of_nat l)) by lia. rewrite X.
       apply (Hf (Z.of_nat J * step + Z.of_nat l)); [nia|exact X]. }
  cbn [bind]. set (w := map _ _).
  assert (Hlen : length w = vsize B) by (unfold w; cbn [vchunk]; rewrite !map_length, seq_length; reflexivity).
  assert (Hnth : forall l, (l < vsize B)%nat -> nth l w d = v (Z.of_nat J * step + Z.of_nat l)).
  { intros l Hl. unfold w. cbn [vchunk]. rewrite map_map. rewrite (nth_indep _ _ (dflt d (f (cell d m (p + Z.of_nat J * step + Z.of_nat 0))))) by (rewrite map_length, seq_length; lia).
    rewrite (map_nth (fun l => dflt d (f (cell d m (p + Z.of_nat J * step + Z.of_nat l))))), seq_nth by lia. unfold v. f_equal. f_equal. f_equal. lia. }
  clearbody w.
  unfold vstore_aligned. rewrite vaddr_aligned by (apply aligned_step; exact Hal). cbn [bind].
  destruct (store_list_wr m out v w d (Z.of_nat J * step) m1) as (m2 & E2 & G2); auto; [lia| | |].
  { rewrite Hlen. intros i Hi. destruct (Hacc (Z.of_nat J * step + i)) as [x Hx]; [nia|]. exists x. rewrite <- Hx. f_equal. lia. }
  { rewrite Hlen. exact Hnth. }
  rewrite E2. cbn [bind]. rewrite Hlen in G2.
  replace (Z.of_nat J * step + step) with (Z.of_nat (S J) * step) in G2 by lia.
  destruct (Nat.eqb_spec k 0) as [->|Nk].
  - cbn [tmp_iteration]. exists m2. rewrite Nat.add_1_r. split; [reflexivity|exact G2].
  - replace (out + Z.of_nat J * step + step) with (out + Z.of_nat (S J) * step) by lia.
    destruct (IH (S J) m2) as (m3 & E3 & G3); [lia|lia|exact G2|].
    exists m3. replace (J + S k)%nat with (S J + k)%nat by lia. split; [exact E3|exact G3].
Qed.
Lemma trun_spec (f : A -> res A) d m out p N : aligned B out -> accessible m out (Z.of_nat N * step) -> varg_ok B m out N (VPtr p) ->
  (forall i x, 0 <= i < Z.of_nat N * step -> m (p + i) = Some x -> exists y, f x = Ok y) ->
  forall k J m1, (0 < k)%nat -> (J + k <= N)%nat -> let v := fun i => dflt d (f (cell d m (p + i))) in
    meq m1 (wr m out (Z.of_nat J * step) v) ->
    exists m2, trun ar B k m1 (out + Z.of_nat J * step) (vadv ar B J (VPtr p)) (telements f) = Ok (m2, vadv ar B (J + k) (VPtr p)) /\
      meq m2 (wr m out (Z.of_nat (J + k) * step) v).
Proof.
  intros Hal Hacc Harg Hf k J m1 Hk HJ v Hm. unfold trun. rewrite (consume_spec ar B d m m1 out N v J J) by (auto; lia). cbn [bind].
  apply (tmp_spec f d m out p N); assumption.
Qed.
Lemma leaves_of_wr (f : A -> res A) d m m' out inp n : accessible m inp n -> (forall i x, 0 <= i < n -> m (inp + i) = Some x -> exists y, f x = Ok y) ->
  meq m' (wr m out n (fun i => dflt d (f (cell d m (inp + i))))) ->
  leaves m (Ok m') out n (fun i => match m (inp + i) with Some x => match f x with Ok y => Some y | Fault _ => None end | None => None end).
Proof.
  intros Hi Hf G. exists m'. split; [reflexivity|]. eapply writes_exactly_of_wr; [exact G|].
  intros i H. cbv beta. destruct (Hi i H) as [x X]. destruct (Hf i x H X) as [y Y]. unfold cell. rewrite X, Y. reflexivity.
Qed.
Lemma tloop_ok (f : A -> res A) m out inp n : legal_simd_length B n -> aligned B out -> accessible m out n -> simd_fit B m out n (APtr inp) ->
  (forall i x, 0 <= i < n -> m (inp + i) = Some x -> exists y, f x = Ok y) ->
  leaves m (tloop ar B (telements f) m out inp n) out n (fun i => match m (inp + i) with Some x => match f x with Ok y => Some y | Fault _ => None end | None => None end).
Proof.
  intros [Hn [T0 HT0]] Hal Ho (Hi & Hov & Hai) Hf. destruct (Ho 0) as [d _]; [lia|]. pose proof (loop_unit_pos B) as LP.
  destruct (vecs_per_loop_spec B) as [HV HV0]. unfold tloop. rewrite loop_unit_spec.
  assert (Q : n / loop_unit B = T0) by (rewrite HT0; apply Z.div_mul; lia). rewrite Q. assert (T1 : 1 <= T0) by nia.
  rewrite do_while_iter by (unfold two32; nia). set (T := Z.to_nat T0). assert (TT : Z.of_nat T = T0) by (unfold T; lia).
  set (V := vecs_per_loop B) in *. assert (HT : forall t, Z.of_nat (t * V) * step = Z.of_nat t * loop_unit B) by (intros; nia).
  assert (NN : Z.of_nat (T * V) * step = n) by (rewrite HT, TT; lia). cbn [arg_accessible overlap_ok arg_aligned] in *.
  set (v := fun i => dflt d (f (cell d m (inp + i)))).
  destruct (iter_res_inv (tloop_body ar B (telements f)) (fun t s => exists m1, s = (m1, out + Z.of_nat (t * V) * step, vadv ar B (t * V) (VPtr inp)) /\
      meq m1 (wr m out (Z.of_nat (t * V) * step) v)) T) with (s := (m, out, @VPtr A inp)) as (s' & E & m' & -> & G).
  - intros t s Ht (m1 & -> & Hm). cbn [tloop_body].
    destruct (trun_spec f d m out inp (T * V) Hal) with (k := V) (J := (t * V)%nat) (m1 := m1) as (m2 & E2 & G2); rewrite ?NN; auto; [|nia|].
    + cbn [varg_ok]. rewrite NN. split; [exact Hi|]. split; [exact Hai|lia].
    + fold V. rewrite E2. cbn [bind]. eexists. split; [reflexivity|]. exists m2.
      replace (S t * V)%nat with (t * V + V)%nat by lia. split; [|exact G2]. f_equal. f_equal. rewrite loop_unit_spec. nia.
  - exists m. split.
    + cbn [Nat.mul]. rewrite vadv_0. f_equal. f_equal. lia.
    + cbn [Nat.mul]. replace (Z.of_nat 0 * step) with 0 by lia. apply meq_wr_0.
  - rewrite E. cbn [bind]. rewrite NN in G. apply (leaves_of_wr f d); assumption.
Qed.
Lemma trun_ok (f : A -> res A) m out inp k : (0 < k)%nat -> let n := Z.of_nat k * step in aligned B out -> accessible m out n -> simd_fit B m out n (APtr inp) ->
  (forall i x, 0 <= i < n -> m (inp + i) = Some x -> exists y, f x = Ok y) ->
  leaves m ('(m', _) <- trun ar B k m out (VPtr inp) (telements f) ;; Ok m') out n
    (fun i => match m (inp + i) with Some x => match f x with Ok y => Some y | Fault _ => None end | None => None end).
Proof.
  intros Hk n Hal Ho (Hi & Hov & Hai) Hf. pose proof (vsize_pos B) as HB. destruct (Ho 0) as [d _]; [unfold n; nia|]. cbn [arg_accessible overlap_ok arg_aligned] in *.
  destruct (trun_spec f d m out inp k Hal) with (k := k) (J := O) (m1 := m) as (m2 & E2 & G2); auto.
  - cbn [varg_ok]. split; [exact Hi|]. split; [exact Hai|]. fold n. lia.
  - cbn [Nat.mul]. replace (Z.of_nat 0 * step) with 0 by lia. apply meq_wr_0.
  - rewrite vadv_0 in E2. replace (out + Z.of_nat 0 * step) with out in E2 by lia. rewrite E2. cbn [bind]. apply (leaves_of_wr f d); assumption.
Qed.

(** ** Some sample does not *)
(** Proof auxiliary: the first call does what the second does, unless it meets the fault [e]. *)
Definition upto {X} (e : fault) (r1 r2 : res X) : Prop := r1 = r2 \/ r1 = Fault e.
Lemma upto_bind {X Y} e (r1 r2 : res X) (k1 k2 : X -> res Y) : upto e r1 r2 -> (forall x, upto e (k1 x) (k2 x)) -> upto e (bind r1 k1) (bind r2 k2).
Proof. intros [-> | ->] H; [|right; reflexivity]. destruct r2; cbn [bind]; [apply H|left; reflexivity]. Qed.
Lemma upto_refl {X} e (r : res X) : upto e r r. Proof. left. reflexivity. Qed.
Lemma upto_iter {S} e (b1 b2 : S -> res S) : (forall s, upto e (b1 s) (b2 s)) -> forall k s, upto e (iter_res k b1 s) (iter_res k b2 s).
Proof. intros H. induction k as [|k IH]; intros s; cbn [iter_res]; [apply upto_refl|]. apply upto_bind; [apply H|exact IH]. Qed.
Lemma upto_while {S} e (b1 b2 : S -> res S) : (forall s, upto e (b1 s) (b2 s)) -> forall n s, upto e (do_while b1 n s) (do_while b2 n s).
Proof.
  intros H n. unfold do_while. generalize (Z.to_nat (if n =? 0 then two32 else n)). intros k. revert n. induction k as [|k IH]; intros n s; cbn [do_while_fuel]; [apply upto_refl|].
  apply upto_bind; [apply H|]. intros s'. destruct (dec32 n =? 0); [apply upto_refl|apply IH].
Qed.
Section G.
Context (f : A -> res A) (g : A -> A) (e : fault) (H : forall x, upto e (f x) (Ok (g x))).
Lemma tapply_upto m out inp n : upto e (tapply f m out inp n) (unary_vec g m out inp n).
Proof.
  unfold tapply, unary_vec, apply_on_vector1. apply upto_bind; [|intros [[m' ?] ?]; apply upto_refl]. apply upto_while. intros [[m1 o] i]. cbn [tbody sbody1].
  apply upto_bind; [apply upto_refl|]. intros x. destruct (H x) as [-> | ->]; [apply upto_refl|right; reflexivity].
Qed.
Lemma telements_upto v : upto e (telements f v) (Ok (map g v)).
Proof.
  induction v as [|x r IH]; cbn [telements map]; [apply upto_refl|]. destruct (H x) as [-> | ->]; [|right; reflexivity]. cbn [bind].
  destruct IH as [-> | ->]; [left|right]; reflexivity.
Qed.
Lemma tmp_upto : forall k m out l1 in1, upto e (tmp_iteration ar B k m out l1 in1 (telements f)) (mp_iteration_1 ar B k m out l1 in1 (map g)).
Proof.
  induction k as [|k IH]; intros m out l1 in1; cbn [tmp_iteration mp_iteration_1]; [apply upto_refl|].
  apply upto_bind; [apply upto_refl|]. intros [n1 a1]. apply upto_bind; [apply upto_refl|]. intros v. destruct (telements_upto v) as [-> | ->]; [|right; reflexivity]. cbn [bind].
  apply upto_bind; [apply upto_refl|]. intros m'. apply IH.
Qed.
Lemma trun_upto k m out in1 : upto e (trun ar B k m out in1 (telements f)) (run1 ar B k m out in1 (map g)).
Proof. unfold trun, run1. apply upto_bind; [apply upto_refl|]. intros [v a]. apply tmp_upto. Qed.
Lemma tloop_upto m out inp n : upto e (tloop ar B (telements f) m out inp n) (unary_vec_simd ar B (map g) m out inp n).
Proof.
  unfold tloop, unary_vec_simd, generate_simd_loop1. apply upto_bind; [|intros [[m' ?] ?]; apply upto_refl]. apply upto_while. intros [[m1 o] i]. cbn [tloop_body].
  apply upto_bind; [apply trun_upto|]. intros [m2 a]. apply upto_refl.
Qed.
Lemma trun_ct_upto k m out inp : upto e ('(m', _) <- trun ar B k m out (VPtr inp) (telements f) ;; Ok m') (unary_vec_simd_ct ar B k (map g) m out inp).
Proof. unfold unary_vec_simd_ct. apply upto_bind; [apply trun_upto|]. intros [m' a]. apply upto_refl. Qed.
End G.
(** A call that, for either of two substitutes, does what the total function does
    unless it faults, faults if a sample does. *)
Lemma fault_found (f : A -> res A) e (d1 d2 : A) (m : mem A) (r : res (mem A)) (out inp n i : Z) (x : A) (R : (A -> A) -> res (mem A)) : d1 <> d2 -> (forall z, f z = Fault e \/ exists y, f z = Ok y) ->
  (forall g, (forall z, upto e (f z) (Ok (g z))) -> upto e r (R g)) ->
  (forall g, leaves m (R g) out n (fun i => lift1 g (m (inp + i)))) ->
  0 <= i < n -> m (inp + i) = Some x -> f x = Fault e -> r = Fault e.
Proof.
  intros D Hf HR HL Hi X Fx.
  assert (G : forall d z, upto e (f z) (Ok (dflt d (f z)))) by (intros d z; destruct (Hf z) as [E|[y E]]; rewrite E; [right|left]; reflexivity).
  destruct (HR _ (G d1)) as [E1|E1]; [|exact E1]. destruct (HR _ (G d2)) as [E2|E2]; [|exact E2]. exfalso.
  destruct (HL (fun z => dflt d1 (f z))) as (m1 & O1 & W1 & _). destruct (HL (fun z => dflt d2 (f z))) as (m2 & O2 & W2 & _).
  assert (m1 = m2) as -> by congruence. destruct (W1 i Hi) as [Q1 _]. destruct (W2 i Hi) as [Q2 _]. rewrite X in Q1, Q2. cbn [lift1] in Q1, Q2. rewrite Fx in Q1, Q2. cbn [dflt] in Q1, Q2. congruence.
Qed.
End Gen.

Lemma alike_of_leaves {A} (P : A -> A -> Prop) (m : mem A) r1 r2 out len v1 v2 : leaves m r1 out len v1 -> leaves m r2 out len v2 ->
  (forall i x y, 0 <= i < len -> v1 i = Some x -> v2 i = Some y -> P x y) -> alike P m r1 r2 out len.
Proof.
  intros (m1 & E1 & W1 & W2) (m2 & E2 & V1 & V2) H. exists m1, m2. split; [exact E1|]. split; [exact E2|]. split.
  - intros i Hi. destruct (W1 i Hi) as [Q1 N1]. destruct (V1 i Hi) as [Q2 N2]. destruct (v1 i) as [x|] eqn:X; [|congruence]. destruct (v2 i) as [y|] eqn:Y; [|congruence].
    exists x, y. split; [exact Q1|]. split; [exact Q2|]. exact (H i x y Hi X Y).
  - intros a Ha. split; [apply W2|apply V2]; exact Ha.
Qed.

(** * trunc *)
Section T.
Context {t : fmt} (n : nans t).
Lemma in_long_range (x : F t) : in_long x -> (- 2 ^ 63 <= Ztrunc (val x) < 2 ^ 63)%Z.
Proof.
  intros [_ [L U]]. destruct (trunc_of_Ztrunc (val x)) as [T1 T2]. destruct (Rle_dec 0 (val x)) as [P|P].
  - destruct (T1 P) as [A C]. split; [|apply lt_IZR; lra]. assert (K : (-1 < Ztrunc (val x))%Z) by (apply lt_IZR; lra). lia.
  - destruct (T2 ltac:(lra)) as [A C]. split; [|assert (K : (Ztrunc (val x) < 1)%Z) by (apply lt_IZR; lra); lia].
    assert (K : (- 2 ^ 63 - 1 < Ztrunc (val x))%Z) by (apply lt_IZR; rewrite minus_IZR, opp_IZR; lra). lia.
Qed.
Lemma s_trunc_in (x : F t) : in_long x -> exists y, s_trunc x = Ok y /\ truncated x y.
Proof.
  intros H. destruct (s_trunc_ok n x (proj1 H) (in_long_range x H)) as (y & E & K). exists y. split; [exact E|]. exists (Ztrunc (val x)). split; [exact K|apply trunc_of_Ztrunc].
Qed.
Lemma s_trunc_out (x : F t) : ~ in_long x -> s_trunc x = Fault BadConversion.
Proof.
  intros H. apply C41_scalar_trunc_undefined_lemma. destruct (isfin x) eqn:Fx; [right|left; reflexivity].
  destruct (Rle_dec (val x) (- IZR (2 ^ 63) - 1)) as [L|L]; [left; exact L|right]. destruct (Rle_dec (IZR (2 ^ 63)) (val x)) as [U|U]; [exact U|].
  exfalso. apply H. split; [exact Fx|lra].
Qed.
Lemma s_trunc_any (x : F t) : s_trunc x = Fault BadConversion \/ exists y, s_trunc x = Ok y.
Proof. unfold s_trunc, to_long. destruct (_ && _ && _); [right; eexists; reflexivity|left; reflexivity]. Qed.
Lemma two_values : f_ofZ t 0 <> f_ofZ t 1.
Proof. intros E. apply (f_equal bits) in E. destruct t; vm_compute in E; discriminate. Qed.
End T.
Section V.
Context (c : cfg) (B : backend) (n : nans (fmt_of B)).
Let I := isa_of B.
Lemma vtrunc_soft x : ~ has_trunc c B -> I <> ALTIVEC -> vtrunc c I n x = s_trunc x.
Proof.
  unfold has_trunc. fold I. intros H1 H2. unfold vtrunc. destruct I; try congruence; [|exfalso; apply H1; left; reflexivity].
  destruct (has_sse41 c) eqn:E; [exfalso; apply H1; right; auto|reflexivity].
Qed.
Lemma vtrunc_hard x : has_trunc c B -> vtrunc c I n x = Ok (fround_zero n x).
Proof. unfold has_trunc. fold I. intros [-> | [-> H]]; cbn [vtrunc]; [|rewrite H]; reflexivity. Qed.
Lemma vtrunc_any x : vtrunc c I n x = Fault BadConversion \/ exists y, vtrunc c I n x = Ok y.
Proof. unfold vtrunc. destruct I; try apply s_trunc_any; try (right; eexists; reflexivity). destruct (has_sse41 c); [right; eexists; reflexivity|apply s_trunc_any]. Qed.
Lemma yields_leaves {A} (P : A -> A -> Prop) m r out inp len (f : A -> res A) :
  leaves m r out len (fun i => match m (inp + i) with Some x => match f x with Ok y => Some y | Fault _ => None end | None => None end) ->
  (forall i x y, 0 <= i < len -> m (inp + i) = Some x -> f x = Ok y -> P x y) -> yields P m r out inp len.
Proof.
  intros (m' & E & W & R) H. exists m'. split; [exact E|]. split; [|exact R]. intros i x Hi X. destruct (W i Hi) as [Q N]. rewrite X in Q, N.
  destruct (f x) as [y|] eqn:Y; [|congruence]. exists y. split; [exact Q|]. exact (H i x y Hi X Y).
Qed.
Lemma scalar_ok m out inp len : 0 < len < 2 ^ 32 -> accessible m out len -> arg_fit m out len (APtr inp) -> each in_long m inp len ->
  leaves m (trunc_vec B m out inp len) out len (fun i => match m (inp + i) with Some x => match s_trunc x with Ok y => Some y | Fault _ => None end | None => None end).
Proof.
  intros H1 H2 [H3 H4] HE. apply tapply_ok; try assumption. intros i x Hi X. destruct (s_trunc_in n x (HE i x Hi X)) as (y & E & _). exists y. exact E.
Qed.
Lemma simd_ok m out inp len : buffers_fit B m out inp len -> (forall i x, 0 <= i < len -> m (inp + i) = Some x -> exists y, vtrunc c I n x = Ok y) ->
  leaves m (trunc_vec_simd c B n m out inp len) out len (fun i => match m (inp + i) with Some x => match vtrunc c I n x with Ok y => Some y | Fault _ => None end | None => None end).
Proof. intros (H1 & H2 & H3 & H4) HE. apply tloop_ok; assumption. Qed.
Lemma scalar_fault m out inp len i x : 0 < len < 2 ^ 32 -> accessible m out len -> arg_fit m out len (APtr inp) -> 0 <= i < len -> m (inp + i) = Some x -> ~ in_long x ->
  trunc_vec B m out inp len = Fault BadConversion.
Proof.
  intros H1 H2 H3 Hi X Hx. apply (fault_found s_trunc BadConversion _ _ m _ out inp len i x (fun g => unary_vec g m out inp len) (two_values n)); try assumption.
  - exact s_trunc_any.
  - intros g Hg. apply tapply_upto. exact Hg.
  - intros g. apply (unary_leaves (farith n)); assumption.
  - apply s_trunc_out. exact Hx.
Qed.
Lemma simd_fault m out inp len i x : buffers_fit B m out inp len -> 0 <= i < len -> m (inp + i) = Some x -> vtrunc c I n x = Fault BadConversion ->
  trunc_vec_simd c B n m out inp len = Fault BadConversion.
Proof.
  intros (H1 & H2 & H3 & H4) Hi X Hx.
  apply (fault_found (vtrunc c I n) BadConversion _ _ m _ out inp len i x (fun g => unary_vec_simd (farith n) B (map g) m out inp len) (two_values n)); try assumption.
  - exact vtrunc_any.
  - intros g Hg. apply tloop_upto. exact Hg.
  - intros g. apply unary_simd_leaves; assumption.
Qed.
Lemma fit_scalar {A} (m : mem A) out inp len : buffers_fit B m out inp len -> 0 < len < 2 ^ 32 /\ accessible m out len /\ arg_fit m out len (APtr inp).
Proof. intros ([H1 _] & _ & H3 & H4). split; [exact H1|]. split; [exact H3|]. eapply fit_of_simd. exact H4. Qed.
End V.
