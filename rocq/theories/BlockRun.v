(** Loops composed of loops: processing in blocks. *)
From Coq Require Import ZArith List Lia Bool.
From Verif Require Import Base Mem Loop Backend Args Drivers MemFuns Spec SpecBlocks LoopFacts MemFacts KaryFacts DriverFacts RampFacts.
Import ListNotations.
Local Open Scope Z_scope.

Section Compose.
Context {A S : Type} (body : S -> res S) (st : nat -> mem A -> S) (proj : S -> mem A) (u : Z).
Context (Hu : 0 < u) (Hproj : forall j m, proj (st j m) = m).
Context (Hst : forall j m s, body (st j m) = Ok s -> exists m', s = st (Datatypes.S j) m').

Lemma iter_st : forall k j m s, iter_res k body (st j m) = Ok s -> exists m', s = st (k + j) m'.
Proof.
  induction k as [|k IH]; intros j m s H; cbn [iter_res] in H.
  - injection H as <-. eauto.
  - destruct (body (st j m)) as [s1|] eqn:E; cbn [bind] in H; [|discriminate].
    destruct (Hst _ _ _ E) as (m1 & ->). destruct (IH _ _ _ H) as (m' & ->).
    exists m'. f_equal. lia.
Qed.

Lemma compose_blocks (call : Z -> Z -> mem A -> res (mem A)) :
  (forall j n m, 0 < n -> n < 2 ^ 32 -> (u | n) ->
     call (Z.of_nat j * u) n m = rmap proj (iter_res (Z.to_nat (n / u)) body (st j m))) ->
  forall lens j m, Forall (fun n => 0 < n) lens -> total lens < 2 ^ 32 -> Forall (fun n => (u | n)) lens ->
    in_blocks call (Z.of_nat j * u) lens m
    = rmap proj (iter_res (Z.to_nat (total lens / u)) body (st j m)).
Proof.
  intros Hc. induction lens as [|n lens IH]; intros j m H1 H2 H3; cbn [in_blocks total fold_right].
  - rewrite Z.div_0_l by lia. cbn. rewrite Hproj. reflexivity.
  - inversion H1 as [|? ? P1 P2]; subst. inversion H3 as [|? ? D1 D2]; subst.
    cbn [total fold_right] in H2. fold (total lens) in *.
    assert (HP : 0 <= total lens).
    { clear - P2. induction P2; cbn [total fold_right]; [lia|]. fold (total l). lia. }
    assert (HD : (u | total lens)).
    { clear - D2. induction D2; cbn [total fold_right]; [apply Z.divide_0_r|]. apply Z.divide_add_r; assumption. }
    destruct D1 as [k Hk]. destruct HD as [k' Hk']. assert (0 < k) by nia. assert (0 <= k') by nia.
    rewrite Hc by (try lia; exists k; exact Hk).
    replace ((n + total lens) / u) with (k + k') by (rewrite Hk, Hk', <- Z.mul_add_distr_r, Z.div_mul; lia).
    replace (n / u) with k by (rewrite Hk, Z.div_mul; lia).
    replace (Z.to_nat (k + k')) with (Z.to_nat k + Z.to_nat k')%nat by lia. rewrite iter_res_add.
    destruct (iter_res (Z.to_nat k) body (st j m)) as [s|] eqn:E; cbn [rmap bind]; [|reflexivity].
    destruct (iter_st _ _ _ _ E) as (m1 & ->). rewrite Hproj.
    replace (Z.of_nat j * u + n) with (Z.of_nat (Z.to_nat k + j) * u) by nia.
    rewrite IH; [|assumption|lia|assumption]. f_equal. f_equal.
    rewrite Hk', Z.div_mul by lia. reflexivity.
Qed.
End Compose.

Lemma total_pos lens : lens <> [] -> Forall (fun n => 0 < n) lens -> 0 < total lens.
Proof.
  intros H F. destruct F as [|n l P F]; [congruence|]. cbn [total fold_right]. fold (total l).
  assert (0 <= total l); [|lia]. clear - F. induction F; cbn [total fold_right]; [lia|]. fold (total l). lia.
Qed.

Lemma total_div u lens : Forall (fun n => (u | n)) lens -> (u | total lens).
Proof. induction 1; cbn [total fold_right]; [apply Z.divide_0_r|]. apply Z.divide_add_r; assumption. Qed.

(** * Scalar *)
Section Scalar.
Context {A : Type} (ar : arith A).

Lemma advanced_incr a j : arg_incr ar (advanced ar a (Z.of_nat j * 1)) = advanced ar a (Z.of_nat (S j) * 1).
Proof.
  destruct a as [p|x|b s]; cbn [advanced arg_incr]; [f_equal; lia|reflexivity|].
  f_equal. replace (Z.to_nat (Z.of_nat (S j) * 1)) with (S (Z.to_nat (Z.of_nat j * 1))) by lia. reflexivity.
Qed.

Lemma advanced_0 a : advanced ar a 0 = a.
Proof. destruct a; cbn; try reflexivity. f_equal. lia. Qed.

Ltac crush_body :=
  repeat match goal with
  | H : bind ?x _ = Ok _ |- _ => destruct x eqn:?; cbn [bind] in H; [|discriminate H]
  end;
  match goal with H : Ok _ = Ok _ |- _ => injection H as <- end.

Lemma scalar_blocks {S} (body : S -> res S) (st : nat -> mem A -> S) (proj : S -> mem A)
    (call : Z -> Z -> mem A -> res (mem A)) lens m :
  (forall j m, proj (st j m) = m) ->
  (forall j m s, body (st j m) = Ok s -> exists m', s = st (Datatypes.S j) m') ->
  (forall j n m, call (Z.of_nat j * 1) n m = rmap proj (do_while body n (st j m))) ->
  blocks lens -> in_blocks call 0 lens m = call 0 (total lens) m.
Proof.
  intros H1 H2 H3 (HN & HP & HT).
  assert (HC : forall j n m, 0 < n -> n < 2 ^ 32 -> (1 | n) ->
     call (Z.of_nat j * 1) n m = rmap proj (iter_res (Z.to_nat (n / 1)) body (st j m))).
  { intros j n m' Hp Hl _. rewrite H3, do_while_iter by (change two32 with (2 ^ 32); lia). rewrite Z.div_1_r. reflexivity. }
  assert (F1 : Forall (fun n => (1 | n)) lens) by (apply Forall_forall; intros; apply Z.divide_1_l).
  pose proof (compose_blocks body st proj 1 eq_refl H1 H2 call HC lens O m HP HT F1) as E.
  change (Z.of_nat 0 * 1) with 0 in E. rewrite E. change 0 with (Z.of_nat 0 * 1).
  symmetry. apply HC; [apply total_pos; assumption|assumption|apply Z.divide_1_l].
Qed.

Lemma unary_blocks (f : A -> A) m out inp lens : blocks lens ->
  in_blocks (fun off n m => unary_vec f m (out + off) (inp + off) n) 0 lens m = unary_vec f m out inp (total lens).
Proof.
  intros H.
  rewrite (scalar_blocks (sbody1 f) (fun j m => (m, out + Z.of_nat j * 1, inp + Z.of_nat j * 1)) (fun s => fst (fst s))); try assumption.
  - f_equal; lia.
  - reflexivity.
  - intros j m0 s E. unfold sbody1 in E. crush_body. eexists. f_equal; [f_equal|]; lia.
  - intros j n m0. unfold unary_vec, apply_on_vector1.
    destruct (do_while _ _ _) as [[[? ?] ?]|]; reflexivity.
Qed.

Lemma binary_blocks f m out a1 a2 lens : blocks lens ->
  in_blocks (fun off n m => binary_vec ar f m (out + off) (advanced ar a1 off) (advanced ar a2 off) n) 0 lens m
  = binary_vec ar f m out a1 a2 (total lens).
Proof.
  intros H.
  rewrite (scalar_blocks (sbody2 ar f) (fun j m => (m, out + Z.of_nat j * 1, advanced ar a1 (Z.of_nat j * 1), advanced ar a2 (Z.of_nat j * 1)))
    (fun s => fst (fst (fst s)))); try assumption.
  - rewrite !advanced_0. f_equal; lia.
  - reflexivity.
  - intros j m0 s E. unfold sbody2 in E. crush_body. eexists. rewrite !advanced_incr. repeat (f_equal; try lia).
  - intros j n m0. unfold binary_vec, apply_on_vector2.
    destruct (do_while _ _ _) as [[[[? ?] ?] ?]|]; reflexivity.
Qed.

Lemma ternary_blocks f m out a1 a2 a3 lens : blocks lens ->
  in_blocks (fun off n m => ternary_vec ar f m (out + off) (advanced ar a1 off) (advanced ar a2 off) (advanced ar a3 off) n) 0 lens m
  = ternary_vec ar f m out a1 a2 a3 (total lens).
Proof.
  intros H.
  rewrite (scalar_blocks (sbody3 ar f) (fun j m => (m, out + Z.of_nat j * 1, advanced ar a1 (Z.of_nat j * 1), advanced ar a2 (Z.of_nat j * 1), advanced ar a3 (Z.of_nat j * 1)))
    (fun s => fst (fst (fst (fst s))))); try assumption.
  - rewrite !advanced_0. f_equal; lia.
  - reflexivity.
  - intros j m0 s E. unfold sbody3 in E. crush_body. eexists. rewrite !advanced_incr. repeat (f_equal; try lia).
  - intros j n m0. unfold ternary_vec, apply_on_vector3.
    destruct (do_while _ _ _) as [[[[[? ?] ?] ?] ?]|]; reflexivity.
Qed.

Lemma quaternary_blocks f m out a1 a2 a3 a4 lens : blocks lens ->
  in_blocks (fun off n m => quaternary_vec ar f m (out + off) (advanced ar a1 off) (advanced ar a2 off) (advanced ar a3 off) (advanced ar a4 off) n) 0 lens m
  = quaternary_vec ar f m out a1 a2 a3 a4 (total lens).
Proof.
  intros H.
  rewrite (scalar_blocks (sbody4 ar f) (fun j m => (m, out + Z.of_nat j * 1, advanced ar a1 (Z.of_nat j * 1), advanced ar a2 (Z.of_nat j * 1), advanced ar a3 (Z.of_nat j * 1), advanced ar a4 (Z.of_nat j * 1)))
    (fun s => fst (fst (fst (fst (fst s)))))); try assumption.
  - rewrite !advanced_0. f_equal; lia.
  - reflexivity.
  - intros j m0 s E. unfold sbody4 in E. crush_body. eexists. rewrite !advanced_incr. repeat (f_equal; try lia).
  - intros j n m0. unfold quaternary_vec, apply_on_vector4.
    destruct (do_while _ _ _) as [[[[[[? ?] ?] ?] ?] ?]|]; reflexivity.
Qed.

Lemma slope_blocks m dest start slope lens : blocks lens ->
  in_blocks (fun off n m => set_slope_vec ar m (dest + off) (Nat.iter (Z.to_nat off) (fun y => a_add ar y slope) start) slope n) 0 lens m
  = set_slope_vec ar m dest start slope (total lens).
Proof.
  intros H.
  match goal with |- in_blocks ?c _ _ _ = _ => rewrite (scalar_blocks (fun s : mem A * Z * A =>
                          let '(m, dest, f) := s in
                          m' <- store m dest f ;; Ok (m', dest + 1, a_add ar f slope)) (fun j m => (m, dest + Z.of_nat j * 1, Nat.iter (Z.to_nat (Z.of_nat j * 1)) (fun y => a_add ar y slope) start))
    (fun s => fst (fst s)) c) end; try assumption.
  - cbn [Z.to_nat Nat.iter]. change (Nat.iter 0 (fun y => a_add ar y slope) start) with start. f_equal; lia.
  - reflexivity.
  - intros j m0 s E. crush_body. eexists.
    replace (Z.to_nat (Z.of_nat (S j) * 1)) with (S (Z.to_nat (Z.of_nat j * 1))) by lia. rewrite iterS. repeat (f_equal; try lia).
  - intros j n m0. unfold set_slope_vec. destruct (do_while _ _ _) as [[[? ?] ?]|]; reflexivity.
Qed.

Lemma exp_blocks m dest start curve lens : blocks lens ->
  in_blocks (fun off n m => set_exp_vec ar m (dest + off) (Nat.iter (Z.to_nat off) (fun y => a_mul ar y curve) start) curve n) 0 lens m
  = set_exp_vec ar m dest start curve (total lens).
Proof.
  intros H.
  match goal with |- in_blocks ?c _ _ _ = _ => rewrite (scalar_blocks (fun s : mem A * Z * A =>
                          let '(m, dest, f) := s in
                          m' <- store m dest f ;; Ok (m', dest + 1, a_mul ar f curve)) (fun j m => (m, dest + Z.of_nat j * 1, Nat.iter (Z.to_nat (Z.of_nat j * 1)) (fun y => a_mul ar y curve) start))
    (fun s => fst (fst s)) c) end; try assumption.
  - change (Nat.iter (Z.to_nat 0) (fun y => a_mul ar y curve) start) with start. f_equal; lia.
  - reflexivity.
  - intros j m0 s E. crush_body. eexists.
    replace (Z.to_nat (Z.of_nat (S j) * 1)) with (S (Z.to_nat (Z.of_nat j * 1))) by lia. rewrite iterS. repeat (f_equal; try lia).
  - intros j n m0. unfold set_exp_vec. destruct (do_while _ _ _) as [[[? ?] ?]|]; reflexivity.
Qed.
End Scalar.

(** * Vector *)
Section Vector.
Context {A : Type} (ar : arith A) (B : backend).
Local Notation vec := (list A).
Local Notation step := (Z.of_nat (vsize B)).
Local Notation wrap := (wrap_vector_arg ar B).

Lemma mapM_snd {X Y W} (f : X -> res (Y * W)) (g : X -> W) : (forall x y, f x = Ok y -> snd y = g x) ->
  forall l l', mapM f l = Ok l' -> map snd l' = map g l.
Proof.
  intros H. induction l as [|x l IH]; intros l' E; cbn [mapM] in E.
  - injection E as <-. reflexivity.
  - destruct (f x) as [y|] eqn:E1; cbn [bind] in E; [|discriminate].
    destruct (mapM f l) as [r|] eqn:E2; cbn [bind] in E; [|discriminate]. injection E as <-.
    cbn [map]. rewrite (H _ _ E1), (IH _ eq_refl). reflexivity.
Qed.

Lemma vadv_add i j a : vadv ar B i (vadv ar B j a) = vadv ar B (i + j) a.
Proof.
  destruct a; cbn [vadv]; [f_equal; lia|reflexivity|]. f_equal. apply iter_add_comm.
Qed.

Lemma consume_adv m a y : varg_consume ar B m a = Ok y -> snd y = vadv ar B 1 a.
Proof.
  destruct a as [p|x|d s]; cbn [varg_consume vadv]; intros H.
  - destruct (vload_aligned B m p); cbn [bind] in H; [|discriminate]. injection H as <-. cbn [snd]. f_equal. lia.
  - injection H as <-. reflexivity.
  - injection H as <-. reflexivity.
Qed.

Lemma preload_adv more m a y : preload ar B more m a = Ok y -> snd y = vadv ar B (if more then 1 else 0) a.
Proof.
  unfold preload. destruct more; intros H.
  - destruct (varg_consume ar B m a) as [[v a']|] eqn:E; cbn [bind] in H; [|discriminate].
    injection H as <-. exact (consume_adv _ _ _ E).
  - injection H as <-. cbn [snd]. rewrite vadv_0. reflexivity.
Qed.

Lemma mpk_adv f : forall k m out ls args m' args',
  mpk ar B k m out ls args f = Ok (m', args') -> args' = map (vadv ar B (Nat.pred k)) args.
Proof.
  induction k as [|k IH]; intros m out ls args m' args' H; cbn [mpk] in H.
  - injection H as <- <-. rewrite (map_ext _ (fun x => x)) by (intro; apply vadv_0). rewrite map_id. reflexivity.
  - destruct (mapM (preload ar B (negb (Nat.eqb k 0)) m) args) as [nx|] eqn:E1; cbn [bind] in H; [|discriminate].
    destruct (mapM use ls); cbn [bind] in H; [|discriminate].
    destruct (vstore_aligned _ _ _ _); cbn [bind] in H; [|discriminate].
    apply IH in H. rewrite (mapM_snd _ _ (preload_adv _ _) _ _ E1), map_map in H. subst args'.
    apply map_ext. intros z. rewrite vadv_add. f_equal. destruct k; cbn; lia.
Qed.

Lemma runk_adv f k m out args m' args' : (0 < k)%nat ->
  runk ar B k m out args f = Ok (m', args') -> args' = map (vadv ar B k) args.
Proof.
  intros Hk H. unfold runk in H.
  destruct (mapM (varg_consume ar B m) args) as [nx|] eqn:E1; cbn [bind] in H; [|discriminate].
  apply mpk_adv in H. rewrite (mapM_snd _ _ (consume_adv _) _ _ E1), map_map in H. subst args'.
  apply map_ext. intros z. rewrite vadv_add. f_equal. lia.
Qed.

(** An argument whose wrapper after a pass is that of the argument advanced. *)
Definition follows (a : arg A) : Prop := steady a \/ exact_arith ar.

Lemma wrap_advanced a j : follows a ->
  vadv ar B (vecs_per_loop B) (wrap (advanced ar a (Z.of_nat j * loop_unit B)))
  = wrap (advanced ar a (Z.of_nat (S j) * loop_unit B)).
Proof.
  intros H. destruct (vecs_per_loop_spec B) as [E _]. pose proof (loop_unit_pos B) as Hp.
  destruct a as [p|x|b s]; cbn [advanced wrap_vector_arg].
  - cbn [vadv]. f_equal. lia.
  - reflexivity.
  - destruct H as [[]|X].
    set (b0 := Nat.iter (Z.to_nat (Z.of_nat j * loop_unit B)) (fun y => a_add ar y s) b).
    assert (Hb : Nat.iter (Z.to_nat (Z.of_nat (S j) * loop_unit B)) (fun y => a_add ar y s) b
                 = Nat.iter (Z.to_nat (loop_unit B)) (fun y => a_add ar y s) b0).
    { unfold b0. rewrite iter_add_comm. f_equal. lia. }
    rewrite Hb. set (b1 := Nat.iter (Z.to_nat (loop_unit B)) (fun y => a_add ar y s) b0).
    pose proof (set_slope_lanes ar X B b0 s) as L0. pose proof (set_slope_lanes ar X B b1 s) as L1.
    pose proof (set_slope_length ar B b0 s) as N0. pose proof (set_slope_length ar B b1 s) as N1.
    pose proof (set_slope_inc ar X B b0 s) as I0.
    pose proof (set_slope_inc_mul ar X B b0 s) as M0. pose proof (set_slope_inc_mul ar X B b1 s) as M1.
    destruct (set_slope ar B b0 s) as [d0 i0]. destruct (set_slope ar B b1 s) as [d1 i1]. cbn [fst snd] in *.
    assert (i1 = i0) by congruence. subst i1. cbn [vadv]. f_equal. rewrite (ex_narrow ar X). unfold set_vec.
    apply (nth_ext _ _ b0 b0).
    + rewrite (iter_vadd_length ar B); [lia|exact N0|apply repeat_length].
    + intros l Hl. rewrite (iter_vadd_length ar B) in Hl by (exact N0 || apply repeat_length).
      rewrite (iter_vadd_nth ar B) by assumption. rewrite L0, L1 by assumption.
      unfold b1. rewrite iter_add_comm.
      assert (G : forall J y, Nat.iter J (fun y => a_add ar y i0) y = Nat.iter (J * vsize B) (fun y => a_add ar y s) y).
      { induction J as [|J IH]; intros y; [reflexivity|]. rewrite iterS, IH, I0, iter_add_comm. f_equal; lia. }
      rewrite G, iter_add_comm. f_equal; lia.
    + rewrite H. reflexivity.
Qed.

Lemma loopk_st fv out args j m s : Forall follows args ->
  loopk_body ar B fv (m, out + Z.of_nat j * loop_unit B, map (fun a => wrap (advanced ar a (Z.of_nat j * loop_unit B))) args) = Ok s ->
  exists m', s = (m', out + Z.of_nat (S j) * loop_unit B, map (fun a => wrap (advanced ar a (Z.of_nat (S j) * loop_unit B))) args).
Proof.
  intros HF H. unfold loopk_body in H. destruct (vecs_per_loop_spec B) as [E Hv].
  destruct (runk _ _ _ _ _ _ _) as [[m' args']|] eqn:R; cbn [bind] in H; [|discriminate]. injection H as <-.
  exists m'. rewrite loop_unit_spec. f_equal; [f_equal; lia|].
  rewrite (runk_adv _ _ _ _ _ _ _ Hv R), map_map. apply map_ext_in. intros a Ha. apply wrap_advanced.
  rewrite Forall_forall in HF. auto.
Qed.

Lemma vector_blocks {S} (body : S -> res S) (st : nat -> mem A -> S) (proj : S -> mem A)
    (call : Z -> Z -> mem A -> res (mem A)) lens m :
  (forall j m, proj (st j m) = m) ->
  (forall j m s, body (st j m) = Ok s -> exists m', s = st (Datatypes.S j) m') ->
  (forall j n m, call (Z.of_nat j * loop_unit B) n m = rmap proj (do_while body (n / samples_per_loop B) (st j m))) ->
  blocks_of (loop_unit B) lens -> in_blocks call 0 lens m = call 0 (total lens) m.
Proof.
  intros H1 H2 H3 ((HN & HP & HT) & HD). pose proof (loop_unit_pos B) as Hp.
  assert (HC : forall j n m, 0 < n -> n < 2 ^ 32 -> (loop_unit B | n) ->
     call (Z.of_nat j * loop_unit B) n m = rmap proj (iter_res (Z.to_nat (n / loop_unit B)) body (st j m))).
  { intros j n m' Hn Hl Hd. rewrite H3, do_while_iter, loop_unit_spec; [reflexivity|].
    apply count_ok. change two32 with (2 ^ 32). split; [|lia]. apply Z.divide_pos_le; assumption. }
  pose proof (compose_blocks body st proj (loop_unit B) Hp H1 H2 call HC lens O m HP HT HD) as E.
  change (Z.of_nat 0 * loop_unit B) with 0 in E. rewrite E. change 0 with (Z.of_nat 0 * loop_unit B).
  symmetry. apply HC; [apply total_pos; assumption|assumption|apply total_div; assumption].
Qed.

Lemma unary_simd_blocks (f : vec -> vec) m out inp lens : blocks_of (loop_unit B) lens ->
  in_blocks (fun off n m => unary_vec_simd ar B f m (out + off) (inp + off) n) 0 lens m = unary_vec_simd ar B f m out inp (total lens).
Proof.
  intros H. assert (HF : Forall follows [APtr inp]) by (constructor; [left; exact I|constructor]).
  rewrite (vector_blocks (lbody1 ar B f) (fun j m => (m, out + Z.of_nat j * loop_unit B, wrap (advanced ar (APtr inp) (Z.of_nat j * loop_unit B))))
    (fun s => fst (fst (s)))); try assumption.
  - f_equal; lia.
  - reflexivity.
  - intros j m0 s E. pose proof (lbody1_embed ar B f (m0, out + Z.of_nat j * loop_unit B, wrap (advanced ar (APtr inp) (Z.of_nat j * loop_unit B)))) as R. 
    rewrite E in R. cbn [rmap e1] in R.
    apply (loopk_st (fk1 [] f) out [APtr inp] j m0 _ HF) in R. destruct R as (m' & R). exists m'.
    destruct s as [[? ?] ?]. cbn [e1 map] in R. injection R as -> -> ->. reflexivity.
  - intros j n m0. unfold unary_vec_simd, generate_simd_loop1. fold (lbody1 ar B f).
    destruct (do_while _ _ _) as [[[? ?] ?]|]; reflexivity.
Qed.

Lemma binary_simd_blocks (f : vec -> vec -> vec) m out a1 a2 lens : Forall follows [a1; a2] -> blocks_of (loop_unit B) lens ->
  in_blocks (fun off n m => binary_vec_simd ar B f m (out + off) (advanced ar a1 off) (advanced ar a2 off) n) 0 lens m
  = binary_vec_simd ar B f m out a1 a2 (total lens).
Proof.
  intros HF H.
  rewrite (vector_blocks (lbody2 ar B f) (fun j m => (m, out + Z.of_nat j * loop_unit B, wrap (advanced ar a1 (Z.of_nat j * loop_unit B)), wrap (advanced ar a2 (Z.of_nat j * loop_unit B))))
    (fun s => fst (fst (fst (s))))); try assumption.
  - rewrite !advanced_0. f_equal; lia.
  - reflexivity.
  - intros j m0 s E. pose proof (lbody2_embed ar B f (m0, out + Z.of_nat j * loop_unit B, wrap (advanced ar a1 (Z.of_nat j * loop_unit B)), wrap (advanced ar a2 (Z.of_nat j * loop_unit B)))) as R. 
    rewrite E in R. cbn [rmap e2] in R.
    apply (loopk_st (fk2 [] f) out [a1; a2] j m0 _ HF) in R. destruct R as (m' & R). exists m'.
    destruct s as [[[? ?] ?] ?]. cbn [e2 map] in R. injection R as -> -> -> ->. reflexivity.
  - intros j n m0. unfold binary_vec_simd, generate_simd_loop2. fold (lbody2 ar B f).
    destruct (do_while _ _ _) as [[[[? ?] ?] ?]|]; reflexivity.
Qed.

Lemma ternary_simd_blocks (f : vec -> vec -> vec -> vec) m out a1 a2 a3 lens : Forall follows [a1; a2; a3] -> blocks_of (loop_unit B) lens ->
  in_blocks (fun off n m => ternary_vec_simd ar B f m (out + off) (advanced ar a1 off) (advanced ar a2 off) (advanced ar a3 off) n) 0 lens m
  = ternary_vec_simd ar B f m out a1 a2 a3 (total lens).
Proof.
  intros HF H.
  rewrite (vector_blocks (lbody3 ar B f) (fun j m => (m, out + Z.of_nat j * loop_unit B, wrap (advanced ar a1 (Z.of_nat j * loop_unit B)), wrap (advanced ar a2 (Z.of_nat j * loop_unit B)), wrap (advanced ar a3 (Z.of_nat j * loop_unit B))))
    (fun s => fst (fst (fst (fst (s)))))); try assumption.
  - rewrite !advanced_0. f_equal; lia.
  - reflexivity.
  - intros j m0 s E. pose proof (lbody3_embed ar B f (m0, out + Z.of_nat j * loop_unit B, wrap (advanced ar a1 (Z.of_nat j * loop_unit B)), wrap (advanced ar a2 (Z.of_nat j * loop_unit B)), wrap (advanced ar a3 (Z.of_nat j * loop_unit B)))) as R. 
    rewrite E in R. cbn [rmap e3] in R.
    apply (loopk_st (fk3 [] f) out [a1; a2; a3] j m0 _ HF) in R. destruct R as (m' & R). exists m'.
    destruct s as [[[[? ?] ?] ?] ?]. cbn [e3 map] in R. injection R as -> -> -> -> ->. reflexivity.
  - intros j n m0. unfold ternary_vec_simd, generate_simd_loop3. fold (lbody3 ar B f).
    destruct (do_while _ _ _) as [[[[[? ?] ?] ?] ?]|]; reflexivity.
Qed.

Lemma quaternary_simd_blocks (f : vec -> vec -> vec -> vec -> vec) m out a1 a2 a3 a4 lens : Forall follows [a1; a2; a3; a4] -> blocks_of (loop_unit B) lens ->
  in_blocks (fun off n m => quaternary_vec_simd ar B f m (out + off) (advanced ar a1 off) (advanced ar a2 off) (advanced ar a3 off) (advanced ar a4 off) n) 0 lens m
  = quaternary_vec_simd ar B f m out a1 a2 a3 a4 (total lens).
Proof.
  intros HF H.
  rewrite (vector_blocks (lbody4 ar B f) (fun j m => (m, out + Z.of_nat j * loop_unit B, wrap (advanced ar a1 (Z.of_nat j * loop_unit B)), wrap (advanced ar a2 (Z.of_nat j * loop_unit B)), wrap (advanced ar a3 (Z.of_nat j * loop_unit B)), wrap (advanced ar a4 (Z.of_nat j * loop_unit B))))
    (fun s => fst (fst (fst (fst (fst (s))))))); try assumption.
  - rewrite !advanced_0. f_equal; lia.
  - reflexivity.
  - intros j m0 s E. pose proof (lbody4_embed ar B f (m0, out + Z.of_nat j * loop_unit B, wrap (advanced ar a1 (Z.of_nat j * loop_unit B)), wrap (advanced ar a2 (Z.of_nat j * loop_unit B)), wrap (advanced ar a3 (Z.of_nat j * loop_unit B)), wrap (advanced ar a4 (Z.of_nat j * loop_unit B)))) as R. 
    rewrite E in R. cbn [rmap e4] in R.
    apply (loopk_st (fk4 [] f) out [a1; a2; a3; a4] j m0 _ HF) in R. destruct R as (m' & R). exists m'.
    destruct s as [[[[[? ?] ?] ?] ?] ?]. cbn [e4 map] in R. injection R as -> -> -> -> -> ->. reflexivity.
  - intros j n m0. unfold quaternary_vec_simd, generate_simd_loop4. fold (lbody4 ar B f).
    destruct (do_while _ _ _) as [[[[[[? ?] ?] ?] ?] ?]|]; reflexivity.
Qed.
End Vector.
